(** When max pooling of the non-empty nodes gives numbers. *)
From Coq Require Import String List ZArith Bool QArith Qcanon Lia Lqa.
From Verif Require Import Res Tensor Num NumFacts Points Octree NnBasic Spec SpecGeo SpecBuild SpecNeigh SpecNN SpecMerge WF ListFacts SumFacts NnFacts KidsFacts BuildClosed WFFacts SearchFacts
  BuildProps NeighFacts MergeFacts PadFacts Family PoolFacts Unpool.
Import ListNotations.
Open Scope Z_scope.

Lemma thm_finite o d C x out idx : wf_octree o -> (S d <= depth o)%nat -> shape (node_count o (S d) true) C x -> (0 < C)%nat ->
  octree_max_pool C x o (S d) true = Ok (out, idx) -> (finite out <-> branching o d).
Proof.
  intros W Hd Hx HC E. destruct (thm_max_pool o d true C x W Hd Hx) as (qs & ps & cs & out' & idx' & Eq & Eps & Ecs & Ep & Hout & Hidx & HM).
  rewrite E in Ep. injection Ep as <- <-. rewrite Eq in Eps. injection Eps as <-. split.
  - intros F qs' cs' q Eq' Ecs' Hq. rewrite Eq in Eq'. injection Eq' as <-. rewrite Ecs in Ecs'. injection Ecs' as <-.
    apply In_nth_error in Hq. destruct Hq as [i Hi]. assert (Hil : (i < length qs)%nat) by (apply nth_error_Some; congruence).
    destruct (HM i q Hi) as [G _]. specialize (G i O Hi HC). pose proof (entry_finite out i 0 (length qs) C F Hout Hil HC) as Hf.
    destruct (entry2 None out i 0) as [m|]; [|congruence]. destruct G as [(j & c & Hj & Hc & _) _]. exists c. split; [eapply nth_error_In; exact Hj|exact Hc].
  - intros Hb. apply Forall_forall. intros row Hrow. apply Forall_forall. intros v Hv.
    apply In_nth with (d := []) in Hrow. destruct Hrow as (i & Hi & <-). apply In_nth with (d := None) in Hv. destruct Hv as (c & Hc & <-).
    rewrite (proj1 Hout) in Hi. rewrite (shape_nth (length qs) C out i Hout Hi) in Hc.
    destruct (nth_error qs i) as [p|] eqn:Ei; [|apply nth_error_None in Ei; lia].
    destruct (HM i p Ei) as [G _]. specialize (G i c Ei Hc). intros Hn. unfold entry2 in G. rewrite Hn in G. destruct G as [_ G].
    destruct (Hb qs cs p Eq Ecs (nth_error_In _ _ Ei)) as (ch & Hch & Hpc). exact (G ch Hch Hpc).
Qed.

Lemma parent_coords B d k : (d < 16)%nat -> vkey B (S d) k -> parent_cell (coords (S d) k) = coords d (parent k).
Proof.
  intros Hd Hk. destruct (parent_vkey B d k Hd Hk) as [Hp Hin]. apply In_nth_error in Hin. destruct Hin as [j Hj].
  assert (Hj8 : (j < 8)%nat) by (rewrite <- (kids_length (parent k)); apply nth_error_Some; congruence).
  apply (kid_coords B d (parent k) k j); assumption.
Qed.

Lemma tree_branching o L K M d : tree_upto o L K M -> (S d <= L)%nat ->
  (forall k, In k (sel K M true d) -> exists k', In k' (sel K M true (S d)) /\ parent k' = k) -> branching o d.
Proof.
  intros T Hd H qs cs q Eq Ec Hq. rewrite (tree_xyzb o L K M) in Eq by (assumption || lia). rewrite (tree_xyzb o L K M) in Ec by (assumption || lia).
  injection Eq as <-. injection Ec as <-. apply in_map_iff in Hq. destruct Hq as (k & <- & Hk). destruct (H k Hk) as (k' & Hk' & <-).
  exists (coords (S d) k'). split; [apply in_map; exact Hk'|]. apply (parent_coords (batch_size o)); [pose proof (d16 o L K M T (S d) Hd); lia|].
  pose proof (sel_vkey o L K M T true (S d) Hd) as V. rewrite Forall_forall in V. apply V. exact Hk'.
Qed.

(** layers above full_depth are complete *)
Lemma wf_branching_full o d : wf_octree o -> (S d < full_depth o)%nat -> branching o d.
Proof.
  intros [K [M T]] Hd. pose proof (t_full _ _ _ _ T). apply (tree_branching o (depth o) K M d T ltac:(lia)).
  intros k Hk. exists (first_kid k).
  assert (Hks : In (first_kid k) (kids k)) by (pose proof (kids_nth k 0 ltac:(lia)) as E; rewrite Z.add_0_r in E; eapply nth_error_In; exact E).
  pose proof (sel_vkey o (depth o) K M T true d ltac:(lia)) as V. rewrite Forall_forall in V. split.
  - cbn [sel]. rewrite select_all_true.
    + rewrite (link_sel o (depth o) K M T) by lia. apply in_flat_map. exists k. split; assumption.
    + apply (t_mask _ _ _ _ T). lia.
    + rewrite (tree_full_mask o (depth o) K M T) by lia. intros b Hb. apply repeat_spec in Hb. exact Hb.
  - apply (kids_vkey (batch_size o) d k); [pose proof (t_depth _ _ _ _ T); lia|apply V; exact Hk|exact Hks].
Qed.

Lemma thm_built_branching normalize o pc o' idx d : build_input o pc -> build_octree normalize o pc = Ok (o', idx) ->
  (S d <= depth o)%nat -> S d <> full_depth o -> branching o' d.
Proof.
  intros [H1 H2 H3 H4 H5] E Hd Hne. destruct (built_tree normalize o pc H1 H2 H3 H4 H5) as (o'' & E' & Hd' & Hfd & Hbs & _ & T & _).
  rewrite E in E'. assert (o'' = o') by congruence. subst o''.
  destruct (Nat.lt_ge_cases (S d) (full_depth o)) as [Hlt|Hge].
  - apply wf_branching_full; [|rewrite Hfd; exact Hlt]. eexists _, _. rewrite Hd'. exact T.
  - apply (tree_branching o' _ _ _ d T Hd). intros k Hk. cbn [sel] in *. rewrite bM_select in Hk by (assumption || lia).
    rewrite bM_select by (assumption || lia). rewrite NE_parent in Hk by lia. apply in_parents in Hk. exact Hk.
Qed.

Lemma in_join css x y z b : In (x, y, z, b) (join_cells css) <-> exists cs b', 0 <= b /\ nth_error css (Z.to_nat b) = Some cs /\ In (x, y, z, b') cs.
Proof.
  unfold join_cells. assert (G : forall i, 0 <= i -> In (x, y, z, b) (concat (map (fun '(i, cs) => map (fun '(x, y, z, _) => (x, y, z, i)) cs) (indexed i css))) <->
    exists cs b', i <= b /\ nth_error css (Z.to_nat (b - i)) = Some cs /\ In (x, y, z, b') cs).
  { induction css as [|c css IH]; intros i Hi; cbn [indexed map concat].
    - split; [intros []|]. intros (cs & b' & _ & H & _). destruct (Z.to_nat (b - i)); discriminate.
    - rewrite in_app_iff, IH by lia. split.
      + intros [H|(cs & b' & H1 & H2 & H3)].
        * apply in_map_iff in H. destruct H as ([[[x' y'] z'] b'] & H & Hin). injection H as -> -> -> ->. exists c, b'. rewrite Z.sub_diag. repeat split; auto; lia.
        * exists cs, b'. replace (Z.to_nat (b - i)) with (S (Z.to_nat (b - (i + 1)))) by lia. repeat split; auto; lia.
      + intros (cs & b' & H1 & H2 & H3). destruct (Z.eq_dec i b) as [->|Hne].
        * rewrite Z.sub_diag in H2. cbn in H2. injection H2 as ->. left. apply in_map_iff. exists (x, y, z, b'). split; [reflexivity|exact H3].
        * right. exists cs, b'. replace (Z.to_nat (b - i)) with (S (Z.to_nat (b - (i + 1)))) in H2 by lia. repeat split; auto; lia. }
  rewrite (G 0) by lia. split; intros (cs & b' & H1 & H2 & H3); exists cs, b'; rewrite Z.sub_0_r in *; auto.
Qed.
Lemma mapM_nth {A B} (f : A -> res B) l r i b : mapM f l = Ok r -> nth_error r i = Some b -> exists a, nth_error l i = Some a /\ f a = Ok b.
Proof.
  intros H. apply mapM_inv in H. revert i; induction H as [|a b' l r Hab H IH]; intros i Hi; [destruct i; discriminate|].
  destruct i as [|i]; cbn in Hi; [injection Hi as <-; exists a; auto|]. apply IH. exact Hi.
Qed.
Lemma mapM_nth_l {A B} (f : A -> res B) l r i a : mapM f l = Ok r -> nth_error l i = Some a -> exists b, nth_error r i = Some b /\ f a = Ok b.
Proof.
  intros H. apply mapM_inv in H. revert i; induction H as [|a' b' l r Hab H IH]; intros i Hi; [destruct i; discriminate|].
  destruct i as [|i]; cbn in Hi; [injection Hi as <-; exists b'; auto|]. apply IH. exact Hi.
Qed.
Lemma thm_merged_branching o0 os o d : mergeable o0 os -> merge_octrees os = Ok o -> (S d <= depth o0)%nat ->
  Forall (fun oi => branching oi d) os -> branching o d.
Proof.
  intros Hm E Hd Hb qs cs [[[x y] z] b] Eq Ec Hq.
  destruct (thm_merge_cells o0 os o d true Hm E ltac:(lia)) as (css & Ecs & Ej). rewrite Eq in Ej. injection Ej as ->.
  destruct (thm_merge_cells o0 os o (S d) true Hm E Hd) as (css' & Ecs' & Ej'). rewrite Ec in Ej'. injection Ej' as ->.
  apply in_join in Hq. destruct Hq as (c0 & b' & Hb0 & Hn & Hin).
  destruct (mapM_nth _ _ _ _ _ Ecs Hn) as (oi & Hoi & Eoi). destruct (mapM_nth_l _ _ _ _ _ Ecs' Hoi) as (c1 & Hn1 & Eoi1).
  rewrite Forall_forall in Hb. destruct (Hb oi (nth_error_In _ _ Hoi) c0 c1 (x, y, z, b') Eoi Eoi1 Hin) as ([[[x1 y1] z1] b1] & Hc1 & Hp).
  exists (x1, y1, z1, b). split; [apply in_join; exists c1, b1; auto|]. unfold parent_cell in *. congruence.
Qed.
