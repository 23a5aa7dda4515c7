(** Properties C90 and C91: shapes from images, the loss of the auto-encoder. *)
From Coq Require Import String List ZArith Bool QArith Qcanon Lia.
From Verif Require Import Res Tensor Num Points Octree NnBasic Features Net WF SpecGrow SpecNeigh SpecMerge SpecNN SpecNet SpecBatch SpecProject SpecShape Shape
  Project NetExamples ShapeFacts ShapeExamples.
Import ListNotations.
Open Scope Z_scope.

(** C90: whatever the image encoder returns, of the right width: the generated batch has
    one octree per image, decoded from the 8^full consecutive codes of that image's row,
    complete to the depth of the network, with node signals of the stated width. *)
Theorem C90_image2shape : forall I g P cout lo dev (encoder : list I -> res (list (list Qc))) image x oct, ae_config g -> norms_keep lo P ->
  (1 <= a_code g)%nat -> (1 <= List.length image)%nat -> Z.of_nat (List.length image) <= 32768 -> (lo <= 8 /\ lo <= 8 ^ a_full g * List.length image)%nat ->
  encoder image = Ok x -> shape (List.length image) (a_code g * 8 ^ a_full g) x ->
  exists logits signal o, Image2Shape g P cout dev encoder image oct true = Ok (logits, signal, o) /\
    ae_decode_code g P cout dev (flat_map (segments (a_code g) (8 ^ a_full g)) x) = Ok (logits, signal, o) /\
    depth o = a_depth g /\ full_depth o = a_full g /\ batch_size o = List.length image /\ wf_octree o /\
    (forall d, (d <= a_depth g)%nat -> has_neigh o d /\ (0 < node_count o d true)%nat) /\
    (forall d, (a_full g <= d <= a_depth g)%nat -> exists logit flags,
       dfind logits (Z.of_nat d) = Ok logit /\ shape (node_count o d false) 2 logit /\
       nempty_mask o (Z.of_nat d) = Ok flags /\ obeys logit flags) /\
    shape (node_count o (a_depth g) true) cout signal /\
    exists l, nth_error (layers o) (a_depth g) = Some l /\ l_features l = Some signal.
Proof. exact thm_image2shape. Qed.
Print Assumptions C90_image2shape.

(** C90: with a given octree (training) the octree is returned unchanged and there is one
    row of logits per node. *)
Theorem C90_fixed : forall I g P cout lo dev (encoder : list I -> res (list (list Qc))) image x o, ae_config g -> norms_keep lo P ->
  (1 <= a_code g)%nat -> wf_octree o -> a_depth g = depth o -> (a_full g <= full_depth o)%nat -> batch_size o = List.length image ->
  layers_ready o false lo (a_full g) (a_depth g) ->
  encoder image = Ok x -> shape (List.length image) (a_code g * 8 ^ a_full g) x ->
  exists logits signal, Image2Shape g P cout dev encoder image (Some o) false = Ok (logits, signal, o) /\
    (forall d, (a_full g <= d <= a_depth g)%nat ->
       exists logit, dfind logits (Z.of_nat d) = Ok logit /\ shape (node_count o d false) 2 logit) /\
    shape (node_count o (a_depth g) true) cout signal.
Proof. exact thm_image2shape_fixed. Qed.
Print Assumptions C90_fixed.

(** C90: called with the image only (the defaults of the signature), it always raises. *)
Theorem C90_default : forall I g P cout dev (encoder : list I -> res (list (list Qc))) image, exists e,
  Image2Shape g P cout dev encoder image None false = Err e.
Proof. exact thm_image2shape_default. Qed.
Print Assumptions C90_default.

Example C90_case : ae_config ex_ae /\ norms_keep 2 ex_training /\ (1 <= a_code ex_ae)%nat /\
  (2 <= 8 /\ 2 <= 8 ^ a_full ex_ae * List.length [5; 1; 4])%nat /\
  exists x, ex_encoder [5; 1; 4] = Ok x /\ shape (List.length [5; 1; 4]) (a_code ex_ae * 8 ^ a_full ex_ae) x.
Proof.
  split; [exact ex_ae_ok|]. split; [exact ex_norms_training|]. split; [cbn; lia|]. split; [cbn; lia|]. exact ex_encoder_ok.
Qed.
Example C90_config_case : forall code dep full, channel_ok code -> (full <= dep <= 9)%nat -> ae_config (i2s_default code dep full).
Proof. exact i2s_default_ok. Qed.
Example C90_fixed_case : ae_config ex_small_ae /\ norms_keep 0 ex_constant /\ wf_octree ex_grid_octree /\ a_depth ex_small_ae = depth ex_grid_octree /\
  (a_full ex_small_ae <= full_depth ex_grid_octree)%nat /\ batch_size ex_grid_octree = List.length [7] /\ layers_ready ex_grid_octree false 0 (a_full ex_small_ae) (a_depth ex_small_ae) /\
  exists x, ex_encoder [7] = Ok x /\ shape (List.length [7]) (a_code ex_small_ae * 8 ^ a_full ex_small_ae) x.
Proof.
  destruct ex_grid_ready as (W & D1 & D2 & D3 & HL). split; [exact ex_small_ae_ok|]. split; [exact ex_norms_constant|]. split; [exact W|]. split; [rewrite D1; reflexivity|].
  split; [rewrite D2; cbn; lia|]. split; [exact D3|]. split; [exact HL|]. eexists. split; [reflexivity|]. apply width_shape. vm_compute. reflexivity.
Qed.

(** C91: the training losses of the auto-encoder: per depth the mean cross entropy against
    the occupancy of the octree, the share of nodes whose occupancy is predicted (between 0
    and 1, and 1 exactly if all are), the mean squared error of the node signals (0
    exactly if they are those of the octree), and their sum; none of them is nan. *)
Theorem C91_loss : forall g P ce cin CF lo dev feature o, ae_config g -> norms_keep lo P -> wf_octree o -> a_depth g = depth o ->
  layers_ready o false lo (a_full g) (a_depth g) -> channel_ok cin -> (forall d, (a_full g <= d <= a_depth g)%nat -> (0 < node_count o d true)%nat) ->
  forall x, get_input_feature CF o feature false = Ok x -> shape (node_count o (a_depth g) false) cin x ->
  forall logits signal gt, AutoEncoder g P cin 4 CF dev feature o false = Ok (logits, signal, o) ->
  get_input_feature CF o "ND" true = Ok gt -> shape (node_count o (a_depth g) true) 4 gt ->
  exists L A R, compute_loss ce CF o logits signal = Ok (map (fun d => (Z.of_nat d, Some (L d), Some (A d))) (seq (a_full g) (S (a_depth g) - a_full g)), Some R,
      Some (fold_right Qcplus 0 (map L (seq (a_full g) (S (a_depth g) - a_full g))) + R)%Qc) /\
    (forall d, (a_full g <= d <= a_depth g)%nat -> exists logit flags,
      dfind logits (Z.of_nat d) = Ok logit /\ nempty_mask o (Z.of_nat d) = Ok flags /\ List.length flags = List.length logit /\
      (L d * qn (List.length logit) = fold_right Qcplus 0 (map (fun '(r, b) => ce r (bit b)) (combine logit flags)))%Qc /\
      (exists pred, predicts logit pred /\ (A d * qn (List.length logit) = qn (List.length (filter (fun '(p, b) => (p =? bit b)%Z) (combine pred flags))))%Qc) /\
      (0 <= A d)%Qc /\ (A d <= 1)%Qc /\ (A d = 1%Qc <-> Forall2 (fun r b => asks_split r <-> b = true) logit flags)) /\
    (R * qn (List.length gt) = fold_right Qcplus 0 (map (fun '(a, b) => squared_distance a b) (combine gt signal)))%Qc /\ (0 <= R)%Qc /\ (R = 0%Qc <-> signal = gt).
Proof. intros. eapply thm_loss; eauto. Qed.
Print Assumptions C91_loss.

(** C91: if all accuracies are 1, generating from the octree's code gives the octree back,
    with the predicted signals, which are those of the octree if the regression loss is 0. *)
Theorem C91_perfect : forall g P ce cin CF lo dev feature o, ae_config g -> norms_keep lo P -> wf_octree o -> a_depth g = depth o ->
  layers_ready o false lo (a_full g) (a_depth g) -> channel_ok cin -> (forall d, (a_full g <= d <= a_depth g)%nat -> (0 < node_count o d true)%nat) ->
  forall x, get_input_feature CF o feature false = Ok x -> shape (node_count o (a_depth g) false) cin x ->
  forall logits signal gt, AutoEncoder g P cin 4 CF dev feature o false = Ok (logits, signal, o) ->
  get_input_feature CF o "ND" true = Ok gt -> shape (node_count o (a_depth g) true) 4 gt ->
  a_full g = full_depth o -> (1 <= batch_size o)%nat -> (lo <= 8)%nat ->
  forall per reg total, compute_loss ce CF o logits signal = Ok (per, reg, total) -> Forall (fun p => snd p = Some 1%Qc) per ->
  exists o1, AutoEncoder g P cin 4 CF dev feature o true = Ok (logits, signal, o1) /\
    depth o1 = depth o /\ full_depth o1 = full_depth o /\ batch_size o1 = batch_size o /\ Forall2 same_tree (layers o) (layers o1) /\
    exists l, nth_error (layers o1) (depth o) = Some l /\ l_features l = Some signal /\ (reg = Some 0%Qc -> l_features l = Some gt).
Proof. intros. eapply (thm_perfect g P ce cin 4); eauto. Qed.
Print Assumptions C91_perfect.

(** C91: a network made for another number of channels than the four of normal and
    displacement: with one output channel the loss compares it with each of the four, with
    any other number it raises. *)
Theorem C91_widths : forall g P ce cin cout CF lo dev feature o, ae_config g -> norms_keep lo P -> wf_octree o -> a_depth g = depth o ->
  layers_ready o false lo (a_full g) (a_depth g) -> channel_ok cin -> (forall d, (a_full g <= d <= a_depth g)%nat -> (0 < node_count o d true)%nat) ->
  forall x, get_input_feature CF o feature false = Ok x -> shape (node_count o (a_depth g) false) cin x ->
  forall logits signal gt, AutoEncoder g P cin cout CF dev feature o false = Ok (logits, signal, o) ->
  get_input_feature CF o "ND" true = Ok gt -> shape (node_count o (a_depth g) true) 4 gt ->
  (cout <> 4%nat -> cout <> 1%nat -> compute_loss ce CF o logits signal = Err RuntimeError) /\
  (cout = 1%nat -> exists per R total, compute_loss ce CF o logits signal = Ok (per, Some R, total) /\
    (R * qn (List.length gt) = fold_right Qcplus 0 (map (fun '(a, b) => squared_distance a (repeat (nth 0 b 0%Qc) 4)) (combine gt signal)))%Qc).
Proof. exact thm_widths. Qed.
Print Assumptions C91_widths.

Example C91_case : ae_config ex_small_ae /\ norms_keep 0 ex_constant /\ wf_octree ex_grid_octree /\ a_depth ex_small_ae = depth ex_grid_octree /\
  layers_ready ex_grid_octree false 0 (a_full ex_small_ae) (a_depth ex_small_ae) /\ channel_ok 4 /\
  (forall d, (a_full ex_small_ae <= d <= a_depth ex_small_ae)%nat -> (0 < node_count ex_grid_octree d true)%nat) /\
  a_full ex_small_ae = full_depth ex_grid_octree /\ (1 <= batch_size ex_grid_octree)%nat /\
  exists x logits signal gt,
  get_input_feature 0 ex_grid_octree "ND" false = Ok x /\ shape (node_count ex_grid_octree 2 false) 4 x /\
  AutoEncoder ex_small_ae ex_constant 4 4 0 0 "ND" ex_grid_octree false = Ok (logits, signal, ex_grid_octree) /\
  get_input_feature 0 ex_grid_octree "ND" true = Ok gt /\ shape (node_count ex_grid_octree 2 true) 4 gt /\
  exists per reg total, compute_loss ex_ce 0 ex_grid_octree logits signal = Ok (per, reg, total) /\ Forall (fun p => snd p = Some 1%Qc) per /\ reg = Some 0%Qc.
Proof.
  destruct ex_grid_ready as (W & D1 & D2 & D3 & HL). split; [exact ex_small_ae_ok|]. split; [exact ex_norms_constant|]. split; [exact W|]. split; [rewrite D1; reflexivity|].
  split; [exact HL|]. split; [vm_compute; discriminate|]. split; [exact ex_grid_occupied|]. split; [rewrite D2; reflexivity|]. split; [rewrite D3; lia|]. exact ex_perfect.
Qed.
