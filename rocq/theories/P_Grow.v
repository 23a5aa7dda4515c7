(** Properties C19-C22: splitting and growing. *)
From Coq Require Import List ZArith.
From Verif Require Import Res Tensor Key Num Points Octree Spec SpecGeo SpecBuild SpecNeigh SpecGrow WF GrowFacts GrowBuilt
  Examples ExampleFacts.
Import ListNotations.
Open Scope Z_scope.

(** C19: exactly the nodes flagged 1 (node 0 if there is none) are non-empty, with
    consecutive child indices; nothing else changes; never an empty layer. *)
Theorem C19_split : forall o s d l, zero_one s -> s <> [] -> nth_error (layers o) d = Some l ->
  exists o' l' c, octree_split o s d = Ok o' /\ nth_error (layers o') d = Some l' /\
    (forall i, i <> d -> nth_error (layers o') i = nth_error (layers o) i) /\
    keys l' = keys l /\ nnum l' = nnum l /\ children l' = Some c /\ c = number_from 0 (split_flags s) /\
    nnum_nempty l' = nflag (split_flags s) /\ 0 < nnum_nempty l' /\
    forall i q, nth_error c i = Some q -> (0 <= q <-> nth_error (split_flags s) i = Some true).
Proof. exact thm_split_layer. Qed.
Print Assumptions C19_split.

Example C19_case : split_children [0; 1; 1; 0; 1] = Ok ([-1; 0; 1; -1; 2], 3) /\
  split_children [0; 0; 0] = Ok ([0; -1; -1], 1) /\
  split_flags [0; 0; 0] = [true; false; false] /\ split_flags [0; 1; 1] = [false; true; true].
Proof. vm_compute; auto. Qed.

(** C20: every octree reached by any splits and grows is well-formed down to the
    current layer, its tables are correct, no layer is entirely empty, and the next
    split or grow always succeeds. *)
Theorem C20_histories : forall dep full bs dev o L,
  (dep <= 16)%nat -> Z.of_nat bs <= 32768 -> (1 <= bs)%nat -> (full <= dep)%nat ->
  history dep full bs dev o L ->
  depth o = dep /\ full_depth o = full /\ batch_size o = bs /\ wf_upto o L /\
  (forall d, (d <= L)%nat -> has_neigh o d) /\
  (forall d l s, (full <= d <= L)%nat -> nth_error (layers o) d = Some l -> Z.of_nat (length s) = nnum l ->
     zero_one s -> exists o', octree_split o s d = Ok o') /\
  (forall d, (full < d <= S L)%nat -> (d <= dep)%nat -> exists o', octree_grow o d true = Ok o') /\
  (forall d l, (d <= L)%nat -> nth_error (layers o) d = Some l -> 0 < nnum_nempty l).
Proof. exact thm_history. Qed.
Print Assumptions C20_histories.

Example C20_case : history 3 1 1 0 ex_g2 2 /\
  octree_key ex_g2 2 false = Ok [0; 1; 2; 3; 4; 5; 6; 7; 40; 41; 42; 43; 44; 45; 46; 47].
Proof.
  split; [|vm_compute; reflexivity].
  refine (h_grow _ _ _ _ ex_g1 1 2 ex_g2 _ _ _ _); [|repeat constructor..|vm_compute; reflexivity].
  refine (h_split _ _ _ _ ex_g0 1 _ [1; 0; 0; 0; 0; 1; 0; 0] 1 ex_g1 _ _ _ _ _ _);
    [|repeat constructor|vm_compute; reflexivity|vm_compute; reflexivity| |vm_compute; reflexivity].
  - apply h_init. vm_compute. reflexivity.
  - unfold zero_one. repeat (apply Forall_cons; [auto|]). apply Forall_nil.
Qed.

(** C21: re-growing from the occupancy of a well-formed octree with no empty layer
    reproduces it. *)
Theorem C21_regrow : forall src dev, wf_octree src -> (1 <= full_depth src)%nat ->
  (forall d l, (full_depth src <= d <= depth src)%nat -> nth_error (layers src) d = Some l -> 0 < nnum_nempty l) ->
  exists o0 o' srcn, init_octree (depth src) (full_depth src) (batch_size src) dev = Ok o0 /\
    regrow src o0 = Ok o' /\ construct_all_neigh src = Ok srcn /\
    length (layers o') = length (layers srcn) /\
    forall d l l', nth_error (layers srcn) d = Some l -> nth_error (layers o') d = Some l' ->
      same_tree l l' /\ ((1 <= d)%nat -> neighs l' = neighs l).
Proof. exact thm_regrow. Qed.
Print Assumptions C21_regrow.

(** C21: in particular every octree built from a cloud with at least one point. *)
Theorem C21_regrow_built : forall normalize o pc dev, build_input o pc -> p_points pc <> [] -> (1 <= full_depth o)%nat ->
  exists src idx o0 o' srcn, build_octree normalize o pc = Ok (src, idx) /\
    init_octree (depth src) (full_depth src) (batch_size src) dev = Ok o0 /\
    regrow src o0 = Ok o' /\ construct_all_neigh src = Ok srcn /\
    length (layers o') = length (layers srcn) /\
    forall d l l', nth_error (layers srcn) d = Some l -> nth_error (layers o') d = Some l' ->
      same_tree l l' /\ ((1 <= d)%nat -> neighs l' = neighs l).
Proof. exact thm_regrow_built. Qed.
Print Assumptions C21_regrow_built.

Example C21_case : build_input ex_octree2 ex_batch /\ p_points ex_batch <> [] /\ (1 <= full_depth ex_octree2)%nat.
Proof. split; [exact ex_input2|]. split; [discriminate|]. repeat constructor. Qed.

(** C22: init_octree holds every cell of each layer once, in key order, all non-empty. *)
Theorem C22_init_dense : forall dep full bs dev, (dep <= 16)%nat -> Z.of_nat bs <= 32768 -> (full <= dep)%nat ->
  exists o, init_octree dep full bs dev = Ok o /\ depth o = dep /\ full_depth o = full /\ batch_size o = bs /\
    forall d, (d <= full)%nat ->
      has_neigh o d /\
      exists ks, octree_key o (Z.of_nat d) false = Ok ks /\ octree_key o (Z.of_nat d) true = Ok ks /\
      increasing ks /\ (forall k, In k ks <-> valid_key bs d k) /\
      exists l, nth_error (layers o) d = Some l /\ nnum l = 8 ^ Z.of_nat d * Z.of_nat bs /\ nnum_nempty l = nnum l.
Proof. exact thm_init. Qed.
Print Assumptions C22_init_dense.

Example C22_case : match init_octree 4 1 2 0 with Ok o => octree_key o 1 true | Err e => Err e end =
  Ok [0; 1; 2; 3; 4; 5; 6; 7; 281474976710656; 281474976710657; 281474976710658; 281474976710659;
      281474976710660; 281474976710661; 281474976710662; 281474976710663].
Proof. vm_compute. reflexivity. Qed.
