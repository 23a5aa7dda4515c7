(** Built octrees of non-empty clouds satisfy the hypotheses of re-growing. *)
From Coq Require Import List ZArith Bool Lia Qcanon.
From Verif Require Import Res Tensor Key Num Points Octree Spec SpecGeo SpecBuild SpecNeigh SpecGrow WF KeyFacts ListFacts KidsFacts
  BuildFacts BuildClosed WFFacts GrowFacts.
Import ListNotations.
Open Scope Z_scope.

Lemma NE_nonempty B dep pc d : good_cloud B pc -> p_points pc <> [] -> (d <= dep)%nat -> NE dep pc d <> [].
Proof.
  intros G Hp Hd. remember (dep - d)%nat as n eqn:En. revert d Hd En. induction n as [|n IH]; intros d Hd En.
  - replace d with dep by lia. rewrite NE_top. unfold cells. intros E.
    pose proof (cloud_keys_length B dep pc G) as Hl. destruct (cloud_keys dep pc) as [|k ks].
    + destruct (p_points pc); [congruence|discriminate].
    + assert (Hin : In k (sort_uniq (k :: ks))) by (apply sort_uniq_In; left; reflexivity). rewrite E in Hin. exact Hin.
  - rewrite NE_parent by lia. intros E. assert (Hne : NE dep pc (S d) <> []) by (apply IH; lia).
    destruct (NE dep pc (S d)) as [|k ks]; [congruence|].
    assert (Hin : In (parent k) (parents (k :: ks))) by (apply in_parents; exists k; split; [left|]; reflexivity).
    rewrite E in Hin. exact Hin.
Qed.

Lemma built_nonempty normalize o pc o' idx : build_input o pc -> p_points pc <> [] ->
  build_octree normalize o pc = Ok (o', idx) ->
  forall d l, (full_depth o' <= d <= depth o')%nat -> nth_error (layers o') d = Some l -> 0 < nnum_nempty l.
Proof.
  intros [H1 H2 H3 H4 H5] Hp E d l Hd El.
  destruct (built_tree normalize o pc H1 H2 H3 H4 H5) as (o'' & E' & Hd' & Hfd & Hbs & _ & T & _).
  assert (o'' = o') by congruence. subst o''. rewrite Hd', Hfd in Hd.
  destruct (tree_get o' _ _ _ T d ltac:(lia)) as (l' & _ & El' & _ & _ & _ & En).
  assert (l' = l) by congruence. subst l'. rewrite En, nflag_count.
  rewrite <- (tree_nempty_len o' _ _ _ T) by lia. rewrite bM_select by (assumption || lia).
  pose proof (NE_nonempty _ (depth o) pc d H5 Hp ltac:(lia)) as Hne. destruct (NE (depth o) pc d); [congruence|].
  cbn [length]. lia.
Qed.

Lemma thm_regrow_built normalize o pc dev : build_input o pc -> p_points pc <> [] -> (1 <= full_depth o)%nat ->
  exists src idx o0 o' srcn, build_octree normalize o pc = Ok (src, idx) /\
    init_octree (depth src) (full_depth src) (batch_size src) dev = Ok o0 /\
    regrow src o0 = Ok o' /\ construct_all_neigh src = Ok srcn /\
    length (layers o') = length (layers srcn) /\
    forall d l l', nth_error (layers srcn) d = Some l -> nth_error (layers o') d = Some l' ->
      same_tree l l' /\ ((1 <= d)%nat -> neighs l' = neighs l).
Proof.
  intros Hi Hp Hf. pose proof Hi as [H1 H2 H3 H4 H5].
  destruct (built_tree normalize o pc H1 H2 H3 H4 H5) as (src & E & Hd' & Hfd & Hbs & _ & T & _).
  destruct (thm_regrow src dev) as (o0 & o' & srcn & R).
  - exists (bK o pc), (bM o pc). rewrite Hd'. exact T.
  - rewrite Hfd. exact Hf.
  - apply (built_nonempty normalize o pc src _ Hi Hp E).
  - exists src. eexists. exists o0, o', srcn. split; [exact E|exact R].
Qed.
