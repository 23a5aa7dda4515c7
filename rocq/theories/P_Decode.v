(** C80, C82: generation of octrees from codes. *)
From Coq Require Import String List ZArith Bool QArith Qcanon Lia.
From Verif Require Import Res Tensor Num Octree NnBasic Net WF SpecGrow SpecNeigh SpecMerge SpecNN SpecNet SpecBatch
  Examples NetExamples BatchExamples Decode DecodeBatch DecodeExamples.
Import ListNotations.
Open Scope Z_scope.

(** C80, the part that holds: if at every depth every sample has a node that asks for
    children, decoding the codes together gives the signals and logits of the samples
    one after the other, and the octree that merge_octrees makes of theirs. *)
Theorem C80_decode_partial : forall g P cout dev codes rs, ae_config g -> eval_mode P -> (1 <= a_full g)%nat ->
  codes <> [] -> Z.of_nat (length codes) <= 32768 -> Forall (shape (8 ^ a_full g) (a_code g)) codes ->
  mapM (ae_decode_code g P cout dev) codes = Ok rs ->
  Forall (fun r => forall d lg, (a_full g <= d <= a_depth g)%nat -> dfind (fst (fst r)) (Z.of_nat d) = Ok lg -> Exists asks_split lg) rs ->
  exists l o m, ae_decode_code g P cout dev (concat codes) = Ok (l, concat (map (fun r => snd (fst r)) rs), o) /\
    merge_octrees (map snd rs) = Ok m /\ depth o = depth m /\ full_depth o = full_depth m /\ batch_size o = batch_size m /\
    Forall2 same_tree (layers m) (layers o) /\
    (exists lm lo, nth_error (layers m) (a_depth g) = Some lm /\ nth_error (layers o) (a_depth g) = Some lo /\ l_features lo = l_features lm) /\
    forall d, (a_full g <= d <= a_depth g)%nat -> exists lgs, mapM (fun r => dfind (fst (fst r)) (Z.of_nat d)) rs = Ok lgs /\ dfind l (Z.of_nat d) = Ok (concat lgs).
Proof. exact thm_decode_batch. Qed.
Print Assumptions C80_decode_partial.

Example C80_decode_case : ae_config ex_ae /\ eval_mode ex_params /\ (1 <= a_full ex_ae)%nat /\ Forall (shape (8 ^ a_full ex_ae) (a_code ex_ae)) ex_codes /\
  exists rs, mapM (ae_decode_code ex_ae ex_params 3 0) ex_codes = Ok rs /\ length rs = 3%nat /\
    Forall (fun r => forall d lg, (a_full ex_ae <= d <= a_depth ex_ae)%nat -> dfind (fst (fst r)) (Z.of_nat d) = Ok lg -> Exists asks_split lg) rs.
Proof. split; [exact ex_ae_ok|]. split; [exact ex_eval|]. split; [cbn; lia|]. split; [exact ex_codes_shape|exact ex_codes_split]. Qed.

(** C82: the decoder run on the octree it has grown itself, or on any octree with the
    same nodes and its neighbourhoods, gives the logits and signals of the growing run. *)
Theorem C82_replay : forall g P cout lo B dev, ae_config g -> norms_keep lo P -> (1 <= B)%nat -> Z.of_nat B <= 32768 ->
  (lo <= 8 /\ lo <= 8 ^ a_full g * B)%nat ->
  forall code, shape (8 ^ a_full g * B) (a_code g) code ->
  forall logits signal o1 o, ae_decode_code g P cout dev code = Ok (logits, signal, o1) ->
  depth o = depth o1 -> full_depth o = full_depth o1 -> batch_size o = batch_size o1 -> Forall2 same_tree (layers o1) (layers o) ->
  (forall d, (a_full g <= d <= a_depth g)%nat -> has_neigh o d) ->
  ae_decoder g P cout code o false = Ok (logits, signal, o).
Proof. exact thm_replay. Qed.
Print Assumptions C82_replay.

(** C82: if the logits predicted on a given octree are right about every node of it,
    decoding the code without the octree grows the same octree, with the same logits
    and signals. *)
Theorem C82_reproduce : forall g P cout lo B dev, ae_config g -> norms_keep lo P -> (1 <= B)%nat -> Z.of_nat B <= 32768 ->
  (lo <= 8 /\ lo <= 8 ^ a_full g * B)%nat ->
  forall code, shape (8 ^ a_full g * B) (a_code g) code ->
  forall logits signal o, wf_octree o -> depth o = a_depth g -> full_depth o = a_full g -> batch_size o = B ->
  layers_ready o false lo (a_full g) (a_depth g) ->
  ae_decoder g P cout code o false = Ok (logits, signal, o) ->
  (forall d logit flags, (a_full g <= d <= a_depth g)%nat -> dfind logits (Z.of_nat d) = Ok logit -> nempty_mask o (Z.of_nat d) = Ok flags -> obeys logit flags) ->
  exists o1, ae_decode_code g P cout dev code = Ok (logits, signal, o1) /\
    depth o1 = depth o /\ full_depth o1 = full_depth o /\ batch_size o1 = batch_size o /\ Forall2 same_tree (layers o) (layers o1).
Proof. exact thm_fixpoint. Qed.
Print Assumptions C82_reproduce.

Example C82_case : ae_config ex_ae /\ norms_keep 2 ex_training /\ (2 <= 8 /\ 2 <= 8 ^ a_full ex_ae * 1)%nat /\ shape (8 ^ a_full ex_ae * 1) (a_code ex_ae) (ex_x 8 2) /\
  exists l s o, ae_decoder ex_ae ex_training 3 (ex_x 8 2) o false = Ok (l, s, o) /\ wf_octree o /\ depth o = a_depth ex_ae /\ full_depth o = a_full ex_ae /\ batch_size o = 1%nat /\
    layers_ready o false 2 (a_full ex_ae) (a_depth ex_ae) /\
    forall d logit flags, (a_full ex_ae <= d <= a_depth ex_ae)%nat -> dfind l (Z.of_nat d) = Ok logit -> nempty_mask o (Z.of_nat d) = Ok flags -> obeys logit flags.
Proof.
  split; [exact ex_ae_ok|]. split; [exact ex_norms_training|]. split; [cbn; lia|]. split; [split; [vm_compute; reflexivity|vm_compute; repeat constructor]|exact ex_fixpoint].
Qed.
