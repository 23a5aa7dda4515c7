(** Octrees built from points meet the hypotheses of the theorems about networks. *)
From Coq Require Import List ZArith Bool QArith Qcanon Lia.
From Verif Require Import Res Tensor Key Num Points Octree NnBasic Net Spec SpecGeo SpecBuild WF SpecNeigh SpecNN SpecNet
  BuildThms NeighThms Finite.
Import ListNotations.
Open Scope Z_scope.

Lemma forall2_nth {A B} (R : A -> B -> Prop) l l' i : Forall2 R l l' ->
  match nth_error l i, nth_error l' i with Some a, Some b => R a b | None, None => True | _, _ => False end.
Proof. intros H. revert i. induction H as [|a b l l' Hab _ IH]; intros [|i]; cbn; auto. apply IH. Qed.
Lemma same_xyzb o o' d ne : same_data o o' -> octree_xyzb o' d ne = octree_xyzb o d ne.
Proof.
  intros (_ & _ & _ & _ & H). unfold octree_xyzb. f_equal. unfold octree_key, nempty_mask, get_layer, tget.
  assert (El : zlen (layers o') = zlen (layers o)) by (unfold zlen; f_equal; symmetry; clear -H; induction H; cbn; congruence). rewrite El.
  destruct (norm_index (zlen (layers o)) (Z.of_nat d)) as [j|]; [|reflexivity].
  pose proof (forall2_nth _ _ _ j H) as G. destruct (nth_error (layers o) j) as [l|]; destruct (nth_error (layers o') j) as [l'|]; try contradiction; [|reflexivity].
  destruct G as (G1 & G2 & _). cbn [bind]. rewrite G1, G2. reflexivity.
Qed.
Lemma same_branching o o' d : same_data o o' -> branching o d -> branching o' d.
Proof. intros S H qs cs q. rewrite !(same_xyzb o o') by exact S. apply H. Qed.

Theorem thm_built_ready normalize o pc : build_input o pc -> (1 <= full_depth o)%nat ->
  exists o1 idx o2, build_octree normalize o pc = Ok (o1, idx) /\ construct_all_neigh o1 = Ok o2 /\
    wf_octree o2 /\ depth o2 = depth o /\ full_depth o2 = full_depth o /\ batch_size o2 = batch_size o /\
    forall ne, layers_ready o2 ne 0 1 (depth o) /\ poolable o2 ne (full_depth o) (depth o).
Proof.
  intros I Hf. destruct (thm_build_wf normalize o pc I) as (o1 & idx & E & W & D1 & D2 & D3 & _). exists o1, idx.
  destruct (thm_all_neigh o1 W ltac:(lia)) as (o2 & E2 & S & W2 & N). exists o2.
  split; [exact E|]. split; [exact E2|]. split; [exact W2|]. destruct S as (S1 & S2 & S3 & S4 & S5). repeat (split; [congruence|]).
  intros ne. split.
  - intros d Hd. split; [apply N; lia|lia].
  - intros _ d Hd. apply (same_branching o1); [split; [|split; [|split; [|split]]]; assumption|]. apply (thm_built_branching normalize o pc o1 idx d I E); lia.
Qed.
