(** Specification vocabulary for networks. *)
From Coq Require Import String List ZArith Bool QArith Qcanon.
From Verif Require Import Res Num Octree NnBasic WF SpecNeigh SpecNN Net.
Import ListNotations.
Open Scope Z_scope.

(** Batch normalisation keeps the shape of every tensor with at least [lo] rows: lo = 0
    in evaluation mode, lo = 2 in training mode, where torch rejects a single row. *)
Definition norms_keep (lo : nat) (P : params) : Prop := forall p C n x, (lo <= n)%nat -> shape n C x ->
  exists y, p_norm P p C x = Ok y /\ shape n C y.
(** The layers d0..d1 have neighbourhood tables and at least [lo] nodes. *)
Definition layers_ready (o : octree) (ne : bool) (lo d0 d1 : nat) : Prop :=
  forall d, (d0 <= d <= d1)%nat -> has_neigh o d /\ (lo <= node_count o d ne)%nat.
(** A number of channels for which one row of the convolution buffer fits into memory. *)
Definition channel_ok (c : nat) : Prop := Z.of_nat c <= 1000000.
(** Max pooling of non-empty nodes down to layer d0 meets no childless node. *)
Definition poolable (o : octree) (ne : bool) (d0 d1 : nat) : Prop :=
  ne = true -> forall d, (d0 <= d < d1)%nat -> branching o d.

(** ** configurations *)

(** What a network configuration of UNet has to satisfy: one channel number per layer
    on each side, no more decoder than encoder stages, and a bottleneck that is handed
    over from the encoder to the decoder. *)
Record unet_config (g : unet_cfg) : Prop := {
  uc_enc : List.length (u_enc_ch g) = S (List.length (u_enc_blk g));
  uc_dec : List.length (u_dec_ch g) = S (List.length (u_dec_blk g));
  uc_stages : (List.length (u_dec_blk g) <= List.length (u_enc_blk g))%nat;
  uc_joint : nth 0 (u_dec_ch g) O = last (u_enc_ch g) O;
  uc_blocks : Forall (fun n => n <> O) (u_dec_blk g);
  uc_bneck : u_bneck g <> O;
  uc_enc_small : Forall channel_ok (u_enc_ch g);
  uc_dec_small : Forall channel_ok (u_dec_ch g)
}.

(** What a configuration of AutoEncoder has to satisfy: a channel number for every layer. *)
Record ae_config (g : ae_cfg) : Prop := {
  ac_layers : (a_full g <= a_depth g <= 16)%nat;
  ac_len : (a_depth g < List.length (a_ch g))%nat;
  ac_small : Forall channel_ok (a_ch g);
  ac_code : channel_ok (a_code g)
}.
(** A row of two logits asks for children. *)
Definition asks_split (r : vec) : Prop := (nth 0 r 0 < nth 1 r 0)%Qc.
(** The non-empty nodes of a layer are those that ask for children; if there is none, node 0. *)
Definition obeys (logit : feat) (flags : list bool) : Prop :=
  List.length flags = List.length logit /\
  forall i r b, nth_error logit i = Some r -> nth_error flags i = Some b ->
    (Exists asks_split logit -> (b = true <-> asks_split r)) /\
    (~ Exists asks_split logit -> (b = true <-> i = O)).
