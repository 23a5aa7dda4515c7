(** Properties of the networks (ocnn/models) for all weights and all octrees. *)
From Coq Require Import String List ZArith Bool QArith Qcanon Lia.
From Verif Require Import Res Tensor Key Num Points Octree NnBasic NnConv Features Net Spec SpecGeo SpecBuild WF SpecNeigh SpecNN SpecInterp SpecNet
  Examples ExampleFacts ConvExamples NetLoops NetPool NetSeg NetHr NetAe NetBuilt NetExamples.
Import ListNotations.
Open Scope Z_scope.

(** C67: UNet gives one row of logits per query point, whatever the configuration, the
    number of stages, the octree and the weights: no assertion fails and the skip
    connections fit. *)
Theorem C67_unet : forall g P cin cout ne o dep lo, unet_config g -> wf_octree o -> norms_keep lo P ->
  (length (u_enc_blk g) <= dep <= depth o)%nat -> layers_ready o ne lo (dep - length (u_enc_blk g)) dep -> channel_ok cin ->
  forall lin x pts, (lo <= length pts)%nat -> shape (node_count o dep ne) cin x -> Forall (fun p => -32768 <= snd p < 32768) pts ->
  exists logits pts', UNet g P cin cout lin ne x o (Z.of_nat dep) pts = Ok (logits, pts') /\ shape (length pts) cout logits.
Proof. exact thm_unet. Qed.
Print Assumptions C67_unet.

(** C67: LeNet gives one row per sample if depth - stages = 2. *)
Theorem C67_lenet : forall P cin cout stages ne o dep lo, wf_octree o -> norms_keep lo P ->
  (stages <= dep <= depth o)%nat -> (1 <= stages)%nat -> layers_ready o ne lo (dep - stages + 1) dep -> poolable o ne (dep - stages) dep -> channel_ok cin ->
  forall x, (dep - stages = 2)%nat -> (lo <= batch_size o)%nat -> shape (node_count o dep ne) cin x ->
  exists y, LeNet P cin cout stages ne x o (Z.of_nat dep) = Ok y /\ shape (batch_size o) cout y.
Proof. exact thm_lenet. Qed.
Print Assumptions C67_lenet.

(** C67: ResNet gives one row per sample. *)
Theorem C67_resnet : forall P cin cout num stages ne o dep lo, wf_octree o -> norms_keep lo P ->
  (stages <= dep <= depth o)%nat -> (1 <= stages)%nat -> (1 <= num)%nat ->
  layers_ready o ne lo (dep - stages + 1) dep -> poolable o ne (dep - stages) dep -> channel_ok cin ->
  forall x, (lo <= batch_size o)%nat -> shape (node_count o dep ne) cin x ->
  exists y, ResNet P cin cout num stages ne x o (Z.of_nat dep) = Ok y /\ shape (batch_size o) cout y.
Proof. exact thm_resnet. Qed.
Print Assumptions C67_resnet.

(** C67: HRNet gives one row per sample if the coarsest branch is not coarser than layer 2. *)
Theorem C67_hrnet : forall P cin cout num stages ne o dep lo, wf_octree o -> norms_keep lo P ->
  (stages + 2 <= dep <= depth o)%nat -> (1 <= stages <= 4)%nat ->
  layers_ready o ne lo 2 dep -> poolable o ne 2 dep -> channel_ok cin ->
  forall x, (lo <= batch_size o)%nat -> shape (node_count o dep ne) cin x ->
  exists y, HRNet P cin cout stages num ne x o (Z.of_nat dep) = Ok y /\ shape (batch_size o) cout y.
Proof. exact thm_hrnet. Qed.
Print Assumptions C67_hrnet.

(** C67: an octree built from any cloud, followed by construct_all_neigh, meets the
    hypotheses in evaluation mode (lo = 0), pooling down to full_depth. *)
Theorem C67_built : forall normalize o pc, build_input o pc -> (1 <= full_depth o)%nat ->
  exists o1 idx o2, build_octree normalize o pc = Ok (o1, idx) /\ construct_all_neigh o1 = Ok o2 /\
    wf_octree o2 /\ depth o2 = depth o /\ full_depth o2 = full_depth o /\ batch_size o2 = batch_size o /\
    forall ne, layers_ready o2 ne 0 1 (depth o) /\ poolable o2 ne (full_depth o) (depth o).
Proof. exact thm_built_ready. Qed.
Print Assumptions C67_built.

Example C67_case : build_input ex_octree2 ex_batch /\ full_depth ex_octree2 = 2%nat /\ depth ex_octree2 = 3%nat /\
  unet_config unet_default /\ unet_config ex_unet /\ norms_keep 0 ex_params /\ norms_keep 2 ex_training.
Proof.
  split; [exact ex_input2|]. split; [reflexivity|]. split; [reflexivity|]. split; [exact unet_default_ok|]. split; [exact ex_unet_ok|].
  split; [exact ex_norms|exact ex_norms_training].
Qed.
Example C67_unet_run : layers_ready ex_neigh true 0 3 5 /\ wf_octree ex_neigh /\
  match UNet ex_unet ex_params 2 3 true true (ex_x 3 2) ex_neigh 5 [((Q2Qc (1 # 3), Q2Qc (1 # 5), 0%Qc), 0); ((0%Qc, 0%Qc, 0%Qc), 0)] with
  | Ok (logits, _) => map (@List.length Qc) logits = [3; 3]%nat
  | Err _ => False end.
Proof.
  destruct ex_neigh_ok as (_ & W & N). split; [intros d Hd; split; [apply N; lia|lia]|]. split; [exact W|]. vm_compute. reflexivity.
Qed.

(** C68: SegNet works on all nodes, and on non-empty nodes if the coarsest layer of the
    encoder has no empty node. *)
Theorem C68_segnet_partial : forall P cin cout stages ne o dep lo, wf_octree o -> norms_keep lo P ->
  (stages <= dep <= depth o)%nat -> (1 <= stages)%nat ->
  layers_ready o ne lo (dep - stages) dep -> poolable o ne (dep - stages) dep -> channel_ok cin ->
  forall lin x pts, (ne = true -> node_count o (dep - stages) true = node_count o (dep - stages) false) ->
  (lo <= length pts)%nat -> shape (node_count o dep ne) cin x -> Forall (fun p => -32768 <= snd p < 32768) pts ->
  exists logits pts', SegNet P cin cout stages lin ne x o (Z.of_nat dep) pts = Ok (logits, pts') /\ shape (length pts) cout logits.
Proof. exact thm_segnet. Qed.
Print Assumptions C68_segnet_partial.

(** C68: otherwise it always raises. *)
Theorem C68_segnet_raises : forall P cin cout stages ne o dep lo, wf_octree o -> norms_keep lo P ->
  (stages <= dep <= depth o)%nat -> (1 <= stages)%nat ->
  layers_ready o ne lo (dep - stages) dep -> poolable o ne (dep - stages) dep -> channel_ok cin ->
  forall lin x pts, ne = true -> node_count o (dep - stages) true <> node_count o (dep - stages) false ->
  shape (node_count o dep ne) cin x -> SegNet P cin cout stages lin ne x o (Z.of_nat dep) pts = Err AssertionError.
Proof. exact thm_segnet_fails. Qed.
Print Assumptions C68_segnet_raises.

(** C68: which happens for an octree built from a cloud. *)
Theorem C68_segnet_refuted : exists P cin cout stages o dep x pts, wf_octree o /\ norms_keep 0 P /\
  (1 <= stages <= dep)%nat /\ (dep <= depth o)%nat /\ layers_ready o true 0 (dep - stages) dep /\ poolable o true (dep - stages) dep /\
  shape (node_count o dep true) cin x /\ SegNet P cin cout stages true true x o (Z.of_nat dep) pts = Err AssertionError.
Proof. exact ex_segnet_refuted. Qed.
Print Assumptions C68_segnet_refuted.

(** C73: whatever the network predicts, decoding a code gives a well-formed octree
    with tables, no empty layer, in which exactly the predicted nodes are non-empty,
    and one row of signal per non-empty finest node. *)
Theorem C73_decode : forall g P cout lo B dev, ae_config g -> norms_keep lo P -> (1 <= B)%nat -> Z.of_nat B <= 32768 ->
  (lo <= 8 /\ lo <= 8 ^ a_full g * B)%nat ->
  forall code, shape (8 ^ a_full g * B) (a_code g) code ->
  exists logits signal o, ae_decode_code g P cout dev code = Ok (logits, signal, o) /\
    depth o = a_depth g /\ full_depth o = a_full g /\ batch_size o = B /\ wf_octree o /\
    (forall d, (d <= a_depth g)%nat -> has_neigh o d /\ (0 < node_count o d true)%nat) /\
    (forall d, (a_full g <= d <= a_depth g)%nat -> exists logit flags,
       dfind logits (Z.of_nat d) = Ok logit /\ shape (node_count o d false) 2 logit /\
       nempty_mask o (Z.of_nat d) = Ok flags /\ obeys logit flags) /\
    shape (node_count o (a_depth g) true) cout signal /\
    exists l, nth_error (layers o) (a_depth g) = Some l /\ l_features l = Some signal.
Proof. exact thm_decode. Qed.
Print Assumptions C73_decode.

(** C73: the whole network, growing a new octree from the code of the given one. *)
Theorem C73_autoencoder : forall g P cin cout CF lo dev feature o, ae_config g -> norms_keep lo P -> wf_octree o ->
  a_depth g = depth o -> layers_ready o false lo (a_full g) (a_depth g) -> channel_ok cin ->
  forall x, get_input_feature CF o feature false = Ok x -> shape (node_count o (a_depth g) false) cin x ->
  (a_full g <= full_depth o)%nat -> (1 <= batch_size o)%nat -> (lo <= 8)%nat ->
  exists logits signal o', AutoEncoder g P cin cout CF dev feature o true = Ok (logits, signal, o') /\
    depth o' = a_depth g /\ full_depth o' = a_full g /\ batch_size o' = batch_size o /\ wf_octree o' /\
    (forall d, (d <= a_depth g)%nat -> has_neigh o' d /\ (0 < node_count o' d true)%nat) /\
    (forall d, (a_full g <= d <= a_depth g)%nat -> exists logit flags,
       dfind logits (Z.of_nat d) = Ok logit /\ shape (node_count o' d false) 2 logit /\
       nempty_mask o' (Z.of_nat d) = Ok flags /\ obeys logit flags) /\
    shape (node_count o' (a_depth g) true) cout signal /\
    exists l, nth_error (layers o') (a_depth g) = Some l /\ l_features l = Some signal.
Proof. exact thm_autoencoder_update. Qed.
Print Assumptions C73_autoencoder.

(** C73: without update the octree is returned unchanged, with logits for each of its nodes. *)
Theorem C73_autoencoder_fixed : forall g P cin cout CF lo dev feature o, ae_config g -> norms_keep lo P -> wf_octree o ->
  a_depth g = depth o -> layers_ready o false lo (a_full g) (a_depth g) -> channel_ok cin ->
  forall x, get_input_feature CF o feature false = Ok x -> shape (node_count o (a_depth g) false) cin x ->
  exists logits signal, AutoEncoder g P cin cout CF dev feature o false = Ok (logits, signal, o) /\
    (forall d, (a_full g <= d <= a_depth g)%nat ->
       exists logit, dfind logits (Z.of_nat d) = Ok logit /\ shape (node_count o d false) 2 logit) /\
    shape (node_count o (a_depth g) true) cout signal.
Proof. exact thm_autoencoder_fixed. Qed.
Print Assumptions C73_autoencoder_fixed.

Example C73_case : ae_config ex_ae /\ ae_config (ae_default 6 2) /\ norms_keep 2 ex_training /\ (2 <= 8 /\ 2 <= 8 ^ a_full ex_ae * 1)%nat /\
  shape (8 ^ a_full ex_ae * 1) (a_code ex_ae) (ex_x 8 2).
Proof.
  split; [exact ex_ae_ok|]. split; [apply ae_default_ok; lia|]. split; [exact ex_norms_training|]. split; [cbn; lia|].
  split; [vm_compute; reflexivity|]. vm_compute. repeat constructor.
Qed.
Example C73_run : match ae_decode_code ex_ae ex_params 3 0 (ex_x 8 2) with
  | Ok (logits, signal, o) => map (fun l => nnum l) (layers o) = [1; 8; 40; 224] /\ List.length signal = 200%nat
  | Err _ => False end.
Proof. vm_compute. split; reflexivity. Qed.
