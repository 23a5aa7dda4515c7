(** Checkpoints, residual blocks and bounded outputs (ocnn/modules, ocnn/models). *)
From Coq Require Import String List ZArith Bool QArith Qcanon Lia.
From Verif Require Import Res Tensor Num Points Octree NnBasic NnConv NnInterp Features Net Examples ExampleFacts NetExamples
  SpecState SpecResid StateFacts StateNets StateNames ResidFacts StateExamples Shape Ounet StateOther.
Import ListNotations.
Open Scope Z_scope.

(** C123: the logits of UNet depend on the learned values only through the tensors that
    the constructor registers (names and shapes in [unet_state]), for every
    configuration, octree, depth and query, errors included. *)
Theorem C123_unet : forall P P' g cin cout, same_checkpoint P P' (unet_state g cin cout) ->
  forall lin ne x o depth pts, UNet g P cin cout lin ne x o depth pts = UNet g P' cin cout lin ne x o depth pts.
Proof. exact (fun P P' g cin cout H lin ne x o depth pts => unet_same P P' g cin cout lin ne x o depth pts H). Qed.
Print Assumptions C123_unet.

(** C123: LeNet, ResNet and HRNet, with the same dropout masks. *)
Theorem C123_lenet : forall P P' cin cout stages, same_noise P P' -> same_checkpoint P P' (lenet_state cin cout stages) ->
  forall ne x o depth, LeNet P cin cout stages ne x o depth = LeNet P' cin cout stages ne x o depth.
Proof. exact (fun P P' cin cout stages Hn H ne x o depth => lenet_same P P' Hn cin cout stages ne x o depth H). Qed.
Print Assumptions C123_lenet.
Theorem C123_resnet : forall P P' cin cout num stages, same_noise P P' -> same_checkpoint P P' (resnet_state cin cout num stages) ->
  forall ne x o depth, ResNet P cin cout num stages ne x o depth = ResNet P' cin cout num stages ne x o depth.
Proof. exact (fun P P' cin cout num stages Hn H ne x o depth => resnet_same P P' Hn cin cout num stages ne x o depth H). Qed.
Print Assumptions C123_resnet.
Theorem C123_hrnet : forall P P' cin cout stages num, same_checkpoint P P' (hrnet_state cin cout stages num) ->
  forall ne x o depth, HRNet P cin cout stages num ne x o depth = HRNet P' cin cout stages num ne x o depth.
Proof. exact (fun P P' cin cout stages num H ne x o depth => hrnet_same P P' cin cout stages num ne x o depth H). Qed.
Print Assumptions C123_hrnet.

(** C123: SegNet with at least one stage. *)
Theorem C123_segnet : forall P P' cin cout stages, (1 <= stages)%nat -> same_checkpoint P P' (segnet_state cin cout stages) ->
  forall lin ne x o depth pts, SegNet P cin cout stages lin ne x o depth pts = SegNet P' cin cout stages lin ne x o depth pts.
Proof. exact (fun P P' cin cout stages Hs H lin ne x o depth pts => segnet_same P P' cin cout stages lin ne x o depth pts Hs H). Qed.
Print Assumptions C123_segnet.

(** C123: the encoder needs only its own tensors, the decoder only its own, the
    auto-encoder both. *)
Theorem C123_autoencoder : forall P P' g, same_noise P P' -> (a_full g <= a_depth g)%nat ->
  (forall cin, same_checkpoint P P' (ae_enc_state g cin) -> forall CF feature o, ae_encoder g P cin CF feature o = ae_encoder g P' cin CF feature o) /\
  (forall cout, same_checkpoint P P' (ae_dec_state g cout) -> forall code o update, ae_decoder g P cout code o update = ae_decoder g P' cout code o update) /\
  (forall cin cout, same_checkpoint P P' (ae_enc_state g cin ++ ae_dec_state g cout) ->
     forall CF dev feature o update, AutoEncoder g P cin cout CF dev feature o update = AutoEncoder g P' cin cout CF dev feature o update).
Proof.
  exact (fun P P' g Hn Hd => conj (fun cin H CF feature o => ae_encoder_same P P' Hn g cin CF feature o Hd H)
    (conj (fun cout H code o update => ae_decoder_same P P' Hn g cout code o update Hd H)
      (fun cin cout H CF dev feature o update => ae_same P P' Hn g cin cout CF dev feature o update Hd H))).
Qed.
Print Assumptions C123_autoencoder.

(** C123: Image2Shape, for every image encoder, and the decoder of OUNet, for all features
    of its encoder, need only the tensors of the decoder. *)
Theorem C123_decoders : forall P P' g cout, same_noise P P' -> (a_full g <= a_depth g)%nat -> same_checkpoint P P' (ae_dec_state g cout) ->
  (forall I dev (encoder : list I -> res (list (list Qc))) image octree update,
     Image2Shape g P cout dev encoder image octree update = Image2Shape g P' cout dev encoder image octree update) /\
  (forall convs octree_in octree_out update, ou_decoder g P cout convs octree_in octree_out update = ou_decoder g P' cout convs octree_in octree_out update).
Proof.
  exact (fun P P' g cout Hn Hd H => conj (fun I dev enc image o update => image2shape_same P P' Hn g cout dev enc image o update Hd H)
    (fun convs oi o update => ou_decoder_same P P' Hn g cout convs oi o update Hd H)).
Qed.
Print Assumptions C123_decoders.

(** C123: no two modules of a network share a tensor: the names are distinct, whatever
    the number of stages and blocks. *)
Theorem C123_names :
  (forall g cin cout, NoDup (map name_of (unet_state g cin cout))) /\
  (forall cin cout stages, NoDup (map name_of (lenet_state cin cout stages))) /\
  (forall cin cout num stages, NoDup (map name_of (resnet_state cin cout num stages))) /\
  (forall cin cout stages, NoDup (map name_of (segnet_state cin cout stages))) /\
  (forall g cin cout, NoDup (map name_of (ae_enc_state g cin ++ ae_dec_state g cout))) /\
  (forall cin cout stages num, NoDup (map name_of (hrnet_state cin cout stages num))).
Proof. exact (conj unet_names (conj lenet_names (conj resnet_names (conj segnet_names (conj ae_names hrnet_names))))). Qed.
Print Assumptions C123_names.

Example C123_case : same_noise ex_params ex_params_outside /\ same_checkpoint ex_params ex_params_outside (unet_state unet_default 4 16) /\
  same_checkpoint ex_params ex_params_outside (hrnet_state 4 40 3 3) /\ same_checkpoint ex_params ex_params_outside (ae_enc_state (ae_default 6 2) 4 ++ ae_dec_state (ae_default 6 2) 4) /\
  p_weight ex_params [("conv1"%string, 0)] 27 0 0 <> p_weight ex_params_outside [("conv1"%string, 0)] 27 0 0 /\
  length (unet_state unet_default 4 16) = 122%nat.
Proof.
  split; [split; reflexivity|]. split; [apply ex_outside; vm_compute; reflexivity|]. split; [apply ex_outside; vm_compute; reflexivity|].
  split; [apply ex_outside; vm_compute; reflexivity|]. split; [|vm_compute; reflexivity]. intros E. apply (f_equal this) in E. vm_compute in E. discriminate.
Qed.
(** A value of the checkpoint matters: with another bias in the header the logits differ. *)
Example C123_used : In ([("header"%string, 0); ("1"%string, 0)], Bias 3) (unet_state ex_unet 2 3) /\
  match UNet ex_unet ex_params 2 3 true true (ex_x 3 2) ex_neigh 5 [((0%Qc, 0%Qc, 0%Qc), 0)], UNet ex_unet ex_params_bias 2 3 true true (ex_x 3 2) ex_neigh 5 [((0%Qc, 0%Qc, 0%Qc), 0)] with
  | Ok ([r], _), Ok ([r'], _) => map this r <> map this r'
  | _, _ => False end.
Proof. split; [vm_compute; tauto|]. vm_compute. discriminate. Qed.

(** C124: a sequence of residual blocks whose branches end in a normalisation of scale
    zero computes the positive part of its input, and nothing else if the input is not
    negative; both kinds of blocks, any number of blocks and any bottleneck. *)
Theorem C124_zero_branch : forall P p C num bneck ne basic x o d y, (forall j, (j < num)%nat -> zero_scale P (branch_end basic p j) C) ->
  res_blocks P p C C num bneck ne basic x o d = Ok y ->
  ((1 <= num)%nat -> y = map (map pos) x) /\ (every_entry (fun v => (0 <= v)%Qc) x -> y = x).
Proof.
  exact (fun P p C num bneck ne basic x o d y Hz E => conj (fun Hn => thm_blocks_pos P p C num bneck ne basic x o d y Hn Hz E)
    (fun Hx => thm_blocks_id P p C num bneck ne basic x o d y Hz Hx E)).
Qed.
Print Assumptions C124_zero_branch.

(** C124: the features that leave residual blocks and the rectified convolutions are
    never negative. *)
Theorem C124_nonneg : forall P p ne x o d y,
  (forall ci co num bneck basic, (1 <= num)%nat -> res_blocks P p ci co num bneck ne basic x o d = Ok y -> every_entry (fun v => (0 <= v)%Qc) y) /\
  (forall ci co ks stride, conv_bn_relu P p ci co ks stride ne x o d = Ok y \/ deconv_bn_relu P p ci co ks stride ne x o d = Ok y ->
     every_entry (fun v => (0 <= v)%Qc) y).
Proof.
  exact (fun P p ne x o d y => conj (fun ci co num bneck basic Hn E => thm_blocks_nonneg P p ci co num bneck ne basic x o d y Hn E)
    (fun ci co ks stride E => thm_conv_nonneg P p ci co ks stride ne x o d y E)).
Qed.
Print Assumptions C124_nonneg.

Example C124_case : (forall basic p j C, zero_scale ex_params_zero (branch_end basic p j) C) /\
  res_blocks ex_params_zero [("encoder"%string, 0)] 4 4 2 2 true false (ex_pos 3 4) ex_neigh 5 = Ok (ex_pos 3 4) /\
  match res_blocks ex_params [("encoder"%string, 0)] 4 4 2 2 true false (ex_pos 3 4) ex_neigh 5 with Ok y => map (map this) y <> map (map this) (ex_pos 3 4) | Err _ => False end.
Proof. split; [exact ex_zero_scale|]. split; [vm_compute; reflexivity|]. vm_compute. discriminate. Qed.

(** C125: the entries of the code of the auto-encoder and of the decoded signal lie in
    the range of tanh; the signal is stored as the features of the last layer if the
    octree is updated. *)
Theorem C125_bounded : forall P (range : Qc -> Prop) g, (forall v, range (p_tanh P v)) ->
  (forall cin CF feature o code, ae_encoder g P cin CF feature o = Ok code -> every_entry range code) /\
  (forall cout code o update logits signal o', ae_decoder g P cout code o update = Ok (logits, signal, o') ->
     every_entry range signal /\ (update = true -> exists l, nth_error (layers o') (a_depth g) = Some l /\ l_features l = Some signal)).
Proof.
  exact (fun P range g H => conj (fun cin CF feature o code E => thm_code_range P range g cin CF feature o code H E)
    (fun cout code o update logits signal o' E => thm_signal_range P range g cout code o update logits signal o' H E)).
Qed.
Print Assumptions C125_bounded.

(** C125: the same for the signals of Image2Shape and of the decoder of OUNet. *)
Theorem C125_decoders : forall P (range : Qc -> Prop) g cout, (forall v, range (p_tanh P v)) ->
  (forall I dev (encoder : list I -> res (list (list Qc))) image octree update logits signal o',
     Image2Shape g P cout dev encoder image octree update = Ok (logits, signal, o') ->
     every_entry range signal /\ (update = true -> exists l, nth_error (layers o') (a_depth g) = Some l /\ l_features l = Some signal)) /\
  (forall convs octree_in octree_out update logits signal o', ou_decoder g P cout convs octree_in octree_out update = Ok (logits, signal, o') ->
     every_entry range signal /\ (update = true -> exists l, nth_error (layers o') (a_depth g) = Some l /\ l_features l = Some signal)).
Proof.
  exact (fun P range g cout H => conj (fun I dev enc image o update logits s o' E => thm_i2s_signal_range P range g cout dev enc image o update logits s o' H E)
    (fun convs oi o update logits s o' E => thm_ou_signal_range P range g cout convs oi o update logits s o' H E)).
Qed.
Print Assumptions C125_decoders.

Example C125_case : (forall v, (qz (-1) <= p_tanh ex_params v <= qz 1)%Qc) /\
  match ae_decode_code ex_ae ex_params 3 0 (ex_x 8 2) with Ok (_, s, _) => s <> [] | Err _ => False end.
Proof.
  split; [|vm_compute; discriminate]. intros v. cbn [p_tanh ex_params].
  destruct (qltb v (qz (-1))) eqn:E1; [split; [apply Qcle_refl|vm_compute; discriminate]|].
  destruct (qltb (qz 1) v) eqn:E2; [split; [vm_compute; discriminate|apply Qcle_refl]|].
  split; apply Qcnot_lt_le; intros H; apply PoolFacts.qltb_lt in H; congruence.
Qed.
(** Image2Shape decodes an octree from a code of 16 numbers. *)
Example C125_image : match Image2Shape ex_ae ex_params 3 0 (fun _ : list unit => Ok (ex_x 1 16)) [tt] None true with Ok (_, s, _) => s <> [] | Err _ => False end.
Proof. vm_compute. discriminate. Qed.
