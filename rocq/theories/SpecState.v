(** What a checkpoint holds: the tensors that the constructors of the networks
    register, by name and shape.  Written from the constructors alone
    (ocnn/modules/modules.py, resblocks.py and ocnn/models), independently of the
    [forward] methods. *)
From Coq Require Import String List ZArith Bool QArith Qcanon.
From Verif Require Import Net.
Import ListNotations.
Open Scope string_scope.
Open Scope list_scope.

(** A tensor of a module: the weights (kdim, cin, cout) of an octree convolution, the
    weights (cout, cin) of a linear layer, a bias, a batch normalisation. *)
Inductive slot : Type := Conv (kdim cin cout : nat) | Linear (cout cin : nat) | Bias (n : nat) | BatchNorm (n : nat).
Inductive kind : Type := KWeight | KBias | KNorm.
Definition kind_of (s : slot) : kind :=
  match s with Conv _ _ _ | Linear _ _ => KWeight | Bias _ => KBias | BatchNorm _ => KNorm end.
(** The name of a tensor in the checkpoint: the path of its module and its kind. *)
Definition name_of (e : path * slot) : path * kind := (fst e, kind_of (snd e)).

(** Two sets of learned values agree on one tensor of the checkpoint; a batch
    normalisation is the same function of tensors of its width. *)
Definition same_tensor (P P' : params) (e : path * slot) : Prop :=
  let p := fst e in
  match snd e with
  | Conv k ci co => forall i j l, (i < k)%nat -> (j < ci)%nat -> (l < co)%nat -> p_weight P p i j l = p_weight P' p i j l
  | Linear co ci => forall j l, (j < co)%nat -> (l < ci)%nat -> p_weight P p O j l = p_weight P' p O j l
  | Bias n => forall i, (i < n)%nat -> p_bias P p i = p_bias P' p i
  | BatchNorm n => forall x, p_norm P p n x = p_norm P' p n x
  end.
Definition same_checkpoint (P P' : params) (l : list (path * slot)) : Prop := Forall (same_tensor P P') l.
(** The random masks of dropout and the function tanh are the same. *)
Definition same_noise (P P' : params) : Prop :=
  (forall p i c, p_mask P p i c = p_mask P' p i c) /\ (forall q, p_tanh P q = p_tanh P' q).

(** module [name], number [i], inside the module at [p] *)
Definition sub (p : path) (name : string) (i : nat) : path := p ++ [(name, Z.of_nat i)].

(** modules.py: OctreeConvBn(Relu), OctreeDeconvBnRelu, Conv1x1Bn(Relu) and FcBnRelu, Conv1x1 *)
Definition s_conv_bn (p : path) (k ci co : nat) := [(p, Conv k ci co); (p, BatchNorm co)].
Definition s_deconv_bn (p : path) (k ci co : nat) := [(p, Conv k co ci); (p, BatchNorm co)].
Definition s_linear_bn (p : path) (ci co : nat) := [(p, Linear co ci); (p, BatchNorm co)].
Definition s_linear (p : path) (ci co : nat) := [(p, Linear co ci); (p, Bias co)].

(** resblocks.py: OctreeResBlock, OctreeResBlock2, OctreeResBlocks *)
Definition s_res_block (p : path) (ci co bneck : nat) :=
  let cb := (co / bneck)%nat in
  s_linear_bn (sub p "conv1x1a" 0) ci cb ++ s_conv_bn (sub p "conv3x3" 0) 27 cb cb ++ s_linear_bn (sub p "conv1x1b" 0) cb co
  ++ (if Nat.eqb ci co then [] else s_linear_bn (sub p "conv1x1c" 0) ci co).
Definition s_res_block2 (p : path) (ci co bneck : nat) :=
  let cb := (co / bneck)%nat in
  s_conv_bn (sub p "conv3x3a" 0) 27 ci cb ++ s_conv_bn (sub p "conv3x3b" 0) 27 cb co
  ++ (if Nat.eqb ci co then [] else s_linear_bn (sub p "conv1x1" 0) ci co).
Definition s_res_blocks (p : path) (ci co num bneck : nat) (basic : bool) :=
  flat_map (fun j => (if basic then s_res_block2 else s_res_block) (sub p "resblks" j) (if Nat.eqb j 0 then ci else co) co bneck) (seq 0 num).
(** the header of the segmentation networks and the predictions of the auto-encoder *)
Definition s_head (p : path) (ci ch co : nat) := s_linear_bn (sub p "0" 0) ci ch ++ s_linear (sub p "1" 0) ch co.

(** unet.py:20-57 *)
Definition unet_state (g : unet_cfg) (cin cout : nat) : list (path * slot) :=
  let e i := nth i (u_enc_ch g) O in let d i := nth i (u_dec_ch g) O in
  let blocks p ci co nb := s_res_blocks p ci co nb (u_bneck g) (u_basic g) in
  s_conv_bn (sub [] "conv1" 0) 27 cin (e 0%nat)
  ++ flat_map (fun i => s_conv_bn (sub [] "downsample" i) 8 (e i) (e (i + 1)%nat)) (seq 0 (length (u_enc_blk g)))
  ++ flat_map (fun i => blocks (sub [] "encoder" i) (e (i + 1)%nat) (e (i + 1)%nat) (nth i (u_enc_blk g) O)) (seq 0 (length (u_enc_blk g)))
  ++ flat_map (fun i => s_deconv_bn (sub [] "upsample" i) 8 (d i) (d (i + 1)%nat)) (seq 0 (length (u_dec_blk g)))
  ++ flat_map (fun i => blocks (sub [] "decoder" i) (d (i + 1) + e (length (u_enc_ch g) - i - 2))%nat (d (i + 1)%nat) (nth i (u_dec_blk g) O))
       (seq 0 (length (u_dec_blk g)))
  ++ s_head (sub [] "header" 0) (last (u_dec_ch g) O) (u_head g) cout.

(** 2 ** max(i + k - stages, 2) *)
Definition width_at (k stages i : nat) : nat := (2 ^ Nat.max (i + k - stages) 2)%nat.
(** lenet.py:17-36 *)
Definition lenet_state (cin cout stages : nat) : list (path * slot) :=
  flat_map (fun i => s_conv_bn (sub [] "convs" i) 27 (if Nat.eqb i 0 then cin else width_at 7 stages (i - 1)) (width_at 7 stages i)) (seq 0 stages)
  ++ s_linear_bn (sub [] "header" 1) 4096 128 ++ s_linear (sub [] "header" 3) 128 cout.
(** resnet.py:17-41 *)
Definition resnet_state (cin cout num stages : nat) : list (path * slot) :=
  s_conv_bn (sub [] "conv1" 0) 27 cin (width_at 9 stages 0)
  ++ flat_map (fun i => s_res_blocks (sub [] "resblocks" i) (width_at 9 stages i) (width_at 9 stages (i + 1)) num 4 false) (seq 0 (stages - 1))
  ++ s_linear_bn (sub [] "header" 0) (width_at 9 stages (stages - 1)) 512 ++ s_linear (sub [] "header" 2) 512 cout.
(** segnet.py:17-46 *)
Definition segnet_state (cin cout stages : nat) : list (path * slot) :=
  let w := width_at 8 stages in
  flat_map (fun i => s_conv_bn (sub [] "convs" i) 27 (if Nat.eqb i 0 then cin else w (i - 1)%nat) (w i)) (seq 0 stages)
  ++ s_conv_bn (sub [] "bottleneck" 0) 27 (w (stages - 1)%nat) (w (stages - 1)%nat)
  ++ flat_map (fun i => s_conv_bn (sub [] "deconvs" i) 27 (w (stages - 1 - i)%nat) (w (stages - 2 - i)%nat)) (seq 0 stages)
  ++ s_head (sub [] "header" 0) (w 0%nat) 64 cout.
(** autoencoder.py:28-69; the encoder and the decoder *)
Definition ae_enc_state (g : ae_cfg) (cin : nat) : list (path * slot) :=
  let c d := nth d (a_ch g) O in let n := (a_depth g - a_full g)%nat in
  s_conv_bn (sub [] "conv1" 0) 27 cin (c (a_depth g))
  ++ flat_map (fun i => s_res_blocks (sub [] "encoder_blks" i) (c (a_depth g - i)%nat) (c (a_depth g - i)%nat) (a_blocks g) 4 false) (seq 0 (n + 1))
  ++ flat_map (fun i => s_conv_bn (sub [] "downsample" i) 8 (c (a_depth g - i)%nat) (c (a_depth g - i - 1)%nat)) (seq 0 n)
  ++ s_linear (sub [] "proj" 0) (c (a_full g)) (a_code g).
Definition ae_dec_state (g : ae_cfg) (cout : nat) : list (path * slot) :=
  let c d := if Nat.eqb d (a_full g) then a_code g else nth d (a_ch g) O in let n := (a_depth g - a_full g)%nat in
  flat_map (fun i => s_deconv_bn (sub [] "upsample" i) 8 (c (a_full g + i)%nat) (c (a_full g + i + 1)%nat)) (seq 0 n)
  ++ flat_map (fun i => s_res_blocks (sub [] "decoder_blks" i) (c (a_full g + i)%nat) (c (a_full g + i)%nat) (a_blocks g) 4 false) (seq 0 (n + 1))
  ++ flat_map (fun i => s_head (sub [] "predict" i) (c (a_full g + i)%nat) 64 2) (seq 0 (n + 1))
  ++ s_head (sub [] "header" 0) (c (a_depth g)) 64 cout.
(** hrnet.py:97-181 with the channels of line 169; [num] is resblk_num *)
Definition hr_width (i : nat) : nat := nth i [128; 256; 512; 512]%nat O.
Definition hrnet_state (cin cout stages num : nat) : list (path * slot) :=
  s_conv_bn (sub (sub [] "front" 0) "conv" 0) 27 cin 32 ++ s_conv_bn (sub (sub [] "front" 0) "conv" 1) 27 32 128
  ++ flat_map (fun i => flat_map (fun b =>
       s_res_blocks (sub (sub [] "branches" i) "resblocks" b) (hr_width b) (hr_width b) num (if Nat.ltb (hr_width b) 256 then 4 else 8) false)
       (seq 0 (Nat.min (i + 1) 4))) (seq 0 stages)
  ++ flat_map (fun i => let n := Nat.min (i + 2) 4 in
       flat_map (fun a => flat_map (fun b =>
         if Nat.eqb (hr_width a) (hr_width b) then []
         else s_linear_bn (sub (sub [] "transitions" i) "trans_func" (a * n + b)) (hr_width a) (hr_width b))
         (seq 0 n)) (seq 0 (n - 1))) (seq 0 (stages - 1))
  ++ s_linear_bn (sub (sub [] "cls_header" 0) "conv1x1" 0) (list_sum (map hr_width (seq 0 (Nat.min stages 4)))) 1024
  ++ s_linear (sub (sub [] "cls_header" 0) "header" 1) 1024 cout.
