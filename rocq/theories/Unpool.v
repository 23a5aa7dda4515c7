(** Unpooling, and pooling after unpooling. *)
From Coq Require Import String List ZArith Bool QArith Qcanon Lia Lqa.
From Verif Require Import Res Tensor Num NumFacts Points Octree NnBasic Spec SpecNeigh SpecNN WF ListFacts SumFacts NnFacts KidsFacts WFFacts SearchFacts NeighFacts PadFacts Family PoolFacts.
Import ListNotations.
Open Scope Z_scope.

Lemma unpool_row_Ok row (ir : list Z) : Forall (fun s => 0 <= s < 8) ir ->
  unpool_row row ir = Ok (map (fun s => map (fun xj => if Nat.eqb (snd xj) s then fst xj else 0%Qc) (combine row (map Z.to_nat ir))) (seq 0 8)).
Proof.
  intros H. unfold unpool_row. rewrite (mapM_Ok _ Z.to_nat); [reflexivity|].
  intros s Hs. rewrite Forall_forall in H. rewrite norm_index_in by (apply H; exact Hs). reflexivity.
Qed.
Lemma nth_of_error {A} (l : list A) i a dflt : nth_error l i = Some a -> nth i l dflt = a.
Proof. intros H. rewrite <- nth_default_eq. unfold nth_default. rewrite H. reflexivity. Qed.

Lemma child_no_range q : 0 <= child_no q < 8.
Proof. destruct q as [[[x y] z] b]. unfold child_no. pose proof (Z.mod_pos_bound x 2 ltac:(lia)). pose proof (Z.mod_pos_bound y 2 ltac:(lia)). pose proof (Z.mod_pos_bound z 2 ltac:(lia)). lia. Qed.

Lemma thm_unpool o d ne C y idx : wf_octree o -> (S d <= depth o)%nat -> shape (node_count o d ne) C y ->
  shape (node_count o d true) C idx -> Forall (Forall (fun s => 0 <= s < 8)) idx ->
  exists qs ps cs u, octree_xyzb o d true = Ok qs /\ octree_xyzb o d ne = Ok ps /\ octree_xyzb o (S d) ne = Ok cs /\
    octree_max_unpool y idx o d ne = Ok u /\ shape (length cs) C u /\ (forall p, In p qs -> In p ps) /\
    forall j q, nth_error cs j = Some q -> In (parent_cell q) qs /\
      forall i r c, nth_error ps i = Some (parent_cell q) -> nth_error qs r = Some (parent_cell q) -> (c < C)%nat ->
        at2 u j c = if child_no q =? entry2 0 idx r c then at2 y i c else 0%Qc.
Proof.
  intros [K [M T]] Hd Hy Hi Hr. pose proof Hd as Hd'. assert (Hd1 : (d <= depth o)%nat) by lia.
  exists (map (coords d) (sel K M true d)), (map (coords d) (sel K M ne d)), (map (coords (S d)) (sel K M ne (S d))).
  rewrite !(tree_xyzb o (depth o) K M) by (assumption || lia).
  set (R := length (sel K M true d)). pose proof (node_count_sel o (depth o) K M T d true Hd1) as HR. fold R in HR.
  (* data of the non-empty parents *)
  assert (HY : exists Y, (if ne then Ok y else octree_depad y o (Z.of_nat d)) = Ok Y /\ shape R C Y /\
    forall i r, nth_error (map (coords d) (sel K M ne d)) i = nth_error (map (coords d) (sel K M true d)) r -> (r < R)%nat -> nth i y [] = nth r Y []).
  { destruct ne.
    - exists y. split; [reflexivity|]. split; [rewrite <- HR; exact Hy|]. intros i r E Hr'. rewrite !nth_error_map in E.
      destruct (nth_error (sel K M true d) r) as [k|] eqn:Er; [|apply nth_error_None in Er; fold R in Er; lia].
      destruct (nth_error (sel K M true d) i) as [k'|] eqn:Ei; [|discriminate]. cbn [option_map] in E. apply some_inj in E.
      destruct (parent_row o (depth o) K M T d i r k' k Hd1 Ei Er E) as [-> _]. reflexivity.
    - exists (select (M d) y). destruct (mask_len o (depth o) K M T d Hd1) as [Hm Hct]. split; [apply (tree_depad o (depth o) K M T); [exact Hd1|apply Hy]|].
      assert (Hly : length (M d) = length y) by (rewrite Hm; symmetry; apply Hy).
      split. { split; [rewrite select_length by exact Hly; lia|]. apply Forall_select. apply Hy. }
      intros i r E Hr'. rewrite !nth_error_map in E. destruct (nth_error (sel K M true d) r) as [k|] eqn:Er; [|apply nth_error_None in Er; fold R in Er; lia].
      destruct (nth_error (sel K M false d) i) as [k'|] eqn:Ei; [|discriminate]. cbn [option_map] in E. apply some_inj in E.
      destruct (sel_full o (depth o) K M T true d r k Hd1 Er) as (i' & Ei' & _ & G). destruct (G eq_refl) as [Hmi ->].
      pose proof (sel_vkey o (depth o) K M T false d Hd1) as V. rewrite Forall_forall in V. cbn [sel] in Ei, V.
      assert (k' = k) by (apply (coords_inj (batch_size o) d); [apply (d16 o (depth o) K M T); lia|apply V; eapply nth_error_In; eassumption..|exact E]). subst k'.
      assert (i' = i) by (eapply (sorted_nth_inj (K d)); [apply (sel_sorted o (depth o) K M T false d); lia|eassumption..]). subst i'.
      pose proof (nth_select_pos (M d) y i Hly Hmi) as F. rewrite <- !nth_default_eq. unfold nth_default. rewrite F. reflexivity. }
  destruct HY as (Y & EY & [HYl HYc] & HYr). rewrite HR in Hi. destruct Hi as [Hil Hic].
  set (blk := fun ri : vec * list Z => map (fun s => map (fun xj => if Nat.eqb (snd xj) s then fst xj else 0%Qc) (combine (fst ri) (map Z.to_nat (snd ri)))) (seq 0 8)).
  assert (HB : shape3 R 8 C (map blk (combine Y idx))).
  { split; [rewrite map_length, combine_length; lia|]. apply Forall_forall. intros b Hb. apply in_map_iff in Hb. destruct Hb as ([row ir] & <- & Hin).
    pose proof (in_combine_l _ _ _ _ Hin) as H1. pose proof (in_combine_r _ _ _ _ Hin) as H2. rewrite Forall_forall in HYc, Hic.
    unfold blk. cbn [fst snd]. split; [rewrite map_length; apply seq_length|]. apply Forall_forall. intros w Hw. apply in_map_iff in Hw. destruct Hw as (s & <- & _).
    rewrite map_length, combine_length, map_length, (HYc _ H1), (Hic _ H2). lia. }
  assert (HU : exists u0, octree_max_unpool y idx o d ne = (if ne then octree_depad u0 o (Z.of_nat d + 1) else Ok u0) /\ shape (8 * R) C u0 /\
    forall r s c, (r < R)%nat -> (s < 8)%nat -> (c < C)%nat -> at2 u0 (8 * r + s) c = if Z.of_nat s =? entry2 0 idx r c then at2 Y r c else 0%Qc).
  { exists (concat (map blk (combine Y idx))). split; [|split].
    - unfold octree_max_unpool. rewrite EY. cbn [bind]. replace (Nat.eqb (length idx) (length Y)) with true by (symmetry; apply Nat.eqb_eq; lia).
      replace (forallb (fun ri : list Qc * list Z => Nat.eqb (length (fst ri)) (length (snd ri))) (combine Y idx)) with true.
      2:{ symmetry. apply forallb_forall. intros [row ir] Hin. apply Nat.eqb_eq. cbn [fst snd].
          pose proof (in_combine_l _ _ _ _ Hin) as H1. pose proof (in_combine_r _ _ _ _ Hin) as H2. rewrite Forall_forall in HYc, Hic. rewrite (HYc _ H1), (Hic _ H2). reflexivity. }
      cbn [andb]. rewrite (mapM_Ok _ blk); [reflexivity|]. intros [row ir] Hin. cbn [fst snd]. apply unpool_row_Ok.
      rewrite Forall_forall in Hr. apply Hr. eapply in_combine_r. exact Hin.
    - replace (8 * R)%nat with (R * 8)%nat by lia. apply shape_concat. exact HB.
    - intros r s c Hrr Hs Hc. replace (8 * r + s)%nat with (r * 8 + s)%nat by lia. rewrite (at2_concat R 8 C) by assumption.
      unfold at3, at2 at 1. rewrite (nth_map_lt _ _ _ ([], [])) by (rewrite combine_length; lia). rewrite nth_combine by lia.
      unfold blk. cbn [fst snd]. rewrite nth_map_seq by exact Hs.
      assert (Hl1 : length (nth r Y []) = C) by (apply (shape_nth R C); [split; assumption|exact Hrr]).
      assert (Hl2 : length (nth r idx []) = C) by (apply (shape_nth R C); [split; assumption|exact Hrr]).
      rewrite (nth_map_lt _ _ _ (0%Qc, O)) by (rewrite combine_length, map_length; lia). rewrite nth_combine by (rewrite map_length; lia). cbn [fst snd].
      rewrite (nth_map_lt _ _ _ 0) by lia. fold (entry2 0 idx r c). fold (at2 Y r c).
      assert (Hb : 0 <= entry2 0 idx r c < 8).
      { rewrite Forall_forall in Hr. specialize (Hr (nth r idx []) ltac:(apply nth_In; lia)). rewrite Forall_forall in Hr. apply Hr. apply nth_In. lia. }
      destruct (Nat.eqb_spec (Z.to_nat (entry2 0 idx r c)) s); destruct (Z.eqb_spec (Z.of_nat s) (entry2 0 idx r c)); try reflexivity; lia. }
  destruct HU as (u0 & EU & [HU0 HUc] & HUv).
  assert (HN : node_count o (S d) false = (8 * R)%nat) by (rewrite (kids_count o (depth o) K M T), HR by exact Hd; reflexivity).
  (* rows of the output *)
  assert (HF : exists u, octree_max_unpool y idx o d ne = Ok u /\ shape (length (sel K M ne (S d))) C u /\
    forall j k, nth_error (sel K M ne (S d)) j = Some k -> exists i, nth_error (K (S d)) i = Some k /\ nth j u [] = nth i u0 []).
  { rewrite EU. destruct ne.
    - replace (Z.of_nat d + 1) with (Z.of_nat (S d)) by lia. rewrite (tree_depad o (depth o) K M T) by (lia || congruence). eexists. split; [reflexivity|].
      destruct (mask_len o (depth o) K M T (S d) Hd) as [Hm Hct]. assert (Hlu : length (M (S d)) = length u0) by lia.
      split. { split; [|apply Forall_select; exact HUc]. rewrite select_length by exact Hlu. rewrite Hct. apply (node_count_sel o (depth o) K M T). exact Hd. }
      intros j k Hj. destruct (sel_full o (depth o) K M T true (S d) j k Hd Hj) as (i & Ei & _ & G). destruct (G eq_refl) as [Hmi ->]. exists i. split; [exact Ei|].
      pose proof (nth_select_pos (M (S d)) u0 i Hlu Hmi) as F. rewrite <- !nth_default_eq. unfold nth_default. rewrite F. reflexivity.
    - exists u0. split; [reflexivity|]. split; [rewrite <- (node_count_sel o (depth o) K M T), HN by exact Hd; split; assumption|].
      intros j k Hj. exists j. split; [exact Hj|reflexivity]. }
  destruct HF as (u & Eu & Hu & Hrow). exists u. do 3 (split; [reflexivity|]). split; [exact Eu|]. rewrite map_length. split; [exact Hu|]. split.
  { intros p Hp. destruct ne; [exact Hp|]. apply in_map_iff in Hp. destruct Hp as (k & <- & Hk). apply in_map. cbn [sel] in *. apply in_select in Hk. destruct Hk as (i & _ & Hk). eapply nth_error_In. exact Hk. }
  intros j q Hj. rewrite nth_error_map in Hj. destruct (nth_error (sel K M ne (S d)) j) as [k|] eqn:Ej; [|discriminate]. cbn [option_map] in Hj. apply some_inj in Hj. subst q.
  destruct (Hrow j k Ej) as (i' & Ei' & Eu'). destruct (family_inv o (depth o) K M T d i' k Hd Ei') as (r' & s & k' & -> & Hs & Hr' & Hpar & Hno).
  rewrite Hpar, Hno. split; [apply in_map; eapply nth_error_In; exact Hr'|].
  intros i r c Hpi Hqr Hc. pose proof Hqr as Hqr'. rewrite nth_error_map in Hqr. destruct (nth_error (sel K M true d) r) as [k2|] eqn:Er; [|discriminate]. cbn [option_map] in Hqr. apply some_inj in Hqr.
  destruct (parent_row o (depth o) K M T d r' r k' k2 Hd1 Hr' Er (eq_sym Hqr)) as [-> ->].
  assert (HrR : (r < R)%nat) by (apply nth_error_Some; rewrite Er; discriminate).
  unfold at2 at 1. rewrite Eu'. fold (at2 u0 (8 * r + s) c). rewrite HUv by assumption.
  unfold at2. rewrite (HYr i r) by (exact HrR || (rewrite Hpi, Hqr'; reflexivity)). reflexivity.
Qed.

Lemma cell_dec (a b : Z * Z * Z * Z) : {a = b} + {a <> b}.
Proof. repeat decide equality. Qed.
Lemma entry_finite x i c n C : finite x -> shape n C x -> (i < n)%nat -> (c < C)%nat -> entry2 (@None Qc) x i c <> None.
Proof.
  intros F [H1 H2] Hi Hc. unfold finite in F. rewrite Forall_forall in F, H2. assert (Hin : In (nth i x []) x) by (apply nth_In; lia).
  specialize (F _ Hin). rewrite Forall_forall in F. apply F. apply nth_In. rewrite (H2 _ Hin). exact Hc.
Qed.

Lemma thm_pool_unpool o d ne C x px idx y : wf_octree o -> (S d <= depth o)%nat ->
  shape (node_count o (S d) ne) C x -> octree_max_pool C x o (S d) ne = Ok (px, idx) -> finite px ->
  shape (node_count o d ne) C y -> (forall i c, (i < node_count o d ne)%nat -> (c < C)%nat -> (0 <= at2 y i c)%Qc) ->
  (forall flags i c, ne = false -> nempty_mask o (Z.of_nat d) = Ok flags -> nth_error flags i = Some false -> at2 y i c = 0%Qc) ->
  exists u idx', octree_max_unpool y idx o d ne = Ok u /\ octree_max_pool C u o (S d) ne = Ok (map (map (@Some Qc)) y, idx') /\
    forall qs ps i r c, octree_xyzb o d true = Ok qs -> octree_xyzb o d ne = Ok ps -> (i < length ps)%nat -> nth_error qs r = nth_error ps i ->
      (c < C)%nat -> (0 < at2 y i c)%Qc -> entry2 0 idx' r c = entry2 0 idx r c.
Proof.
  intros W Hd Hx Epool Hfin Hy Hpos Hzero.
  destruct (thm_max_pool o d ne C x W Hd Hx) as (qs & ps & cs & px' & idx0 & Eq & Eps & Ecs & Ep & Hpx & Hidx & HM).
  rewrite Epool in Ep. injection Ep as <- <-.
  pose proof W as [K [M T]]. assert (Hd1 : (d <= depth o)%nat) by lia.
  pose proof (tree_xyzb o (depth o) K M d true T Hd1) as Eq'. rewrite Eq in Eq'. injection Eq' as Eq'.
  pose proof (tree_xyzb o (depth o) K M d ne T Hd1) as Eps'. rewrite Eps in Eps'. injection Eps' as Eps'.
  pose proof (tree_xyzb o (depth o) K M (S d) ne T Hd) as Ecs'. rewrite Ecs in Ecs'. injection Ecs' as Ecs'.
  assert (Lq : length qs = node_count o d true) by (rewrite Eq', map_length, (node_count_sel o (depth o) K M T) by exact Hd1; reflexivity).
  assert (Lp : length ps = node_count o d ne) by (rewrite Eps', map_length, (node_count_sel o (depth o) K M T) by exact Hd1; reflexivity).
  assert (Lc : length cs = node_count o (S d) ne) by (rewrite Ecs', map_length, (node_count_sel o (depth o) K M T) by exact Hd; reflexivity).
  assert (Hsub : forall p, In p qs -> In p ps).
  { intros p. rewrite Eq', Eps'. destruct ne; [auto|]. intros Hp. apply in_map_iff in Hp. destruct Hp as (k & <- & Hk). apply in_map. cbn [sel] in *. apply in_select in Hk. destruct Hk as (i & _ & Hk). eapply nth_error_In. exact Hk. }
  assert (Hix : Forall (Forall (fun s => 0 <= s < 8)) idx).
  { apply Forall_forall. intros row Hrow. apply Forall_forall. intros s Hs.
    apply In_nth with (d := []) in Hrow. destruct Hrow as (r & Hr & <-). apply In_nth with (d := 0) in Hs. destruct Hs as (c & Hc & <-).
    rewrite (proj1 Hidx) in Hr. assert (HcC : (c < C)%nat) by (rewrite (shape_nth (length qs) C idx r Hidx Hr) in Hc; exact Hc).
    destruct (nth_error qs r) as [p|] eqn:Er; [|apply nth_error_None in Er; lia].
    assert (Hp : In p ps) by (apply Hsub; eapply nth_error_In; exact Er). apply In_nth_error in Hp. destruct Hp as [i Hi].
    destruct (HM i p Hi) as [G _]. specialize (G r c Er HcC). fold (entry2 0 idx r c). destruct (entry2 None px i c) as [m0|]; cbn [max_over_children] in G.
    - destruct G as [(j & q & _ & _ & <- & _) _]. apply child_no_range.
    - destruct G as [-> _]. lia. }
  rewrite Lq in Hidx. destruct (thm_unpool o d ne C y idx W Hd Hy Hidx Hix) as (qs2 & ps2 & cs2 & u & Eq2 & Eps2 & Ecs2 & Eu & Hu & _ & HU).
  rewrite Eq in Eq2. injection Eq2 as <-. rewrite Eps in Eps2. injection Eps2 as <-. rewrite Ecs in Ecs2. injection Ecs2 as <-.
  rewrite Lc in Hu. destruct (thm_max_pool o d ne C u W Hd Hu) as (qs2 & ps2 & cs2 & py & idx' & Eq2 & Eps2 & Ecs2 & Ep2 & Hpy & Hidx' & HM').
  rewrite Eq in Eq2. injection Eq2 as <-. rewrite Eps in Eps2. injection Eps2 as <-. rewrite Ecs in Ecs2. injection Ecs2 as <-.
  exists u, idx'. split; [exact Eu|].
  assert (HV : forall i r p c, nth_error ps i = Some p -> nth_error qs r = Some p -> (c < C)%nat ->
    entry2 None py i c = Some (at2 y i c) /\ ((0 < at2 y i c)%Qc -> entry2 0 idx' r c = entry2 0 idx r c)).
  { intros i r p c Hi Hr Hc. assert (Hil : (i < length ps)%nat) by (apply nth_error_Some; congruence).
    destruct (HM i p Hi) as [G _]. specialize (G r c Hr Hc). pose proof (entry_finite px i c (length ps) C Hfin Hpx Hil Hc) as Hf.
    destruct (entry2 None px i c) as [m0|]; [|congruence]. cbn [max_over_children] in G. destruct G as [(j & q & Hj & Hq & Hs & _) _].
    destruct (HM' i p Hi) as [G' _]. specialize (G' r c Hr Hc).
    assert (Huj : at2 u j c = at2 y i c).
    { destruct (HU j q Hj) as [_ H]. rewrite (H i r c) by congruence. rewrite Hs, Z.eqb_refl. reflexivity. }
    pose proof (Hpos i c ltac:(lia) Hc) as Hp0.
    destruct (entry2 None py i c) as [m|]; cbn [max_over_children] in G'.
    - destruct G' as [(j' & q' & Hj' & Hq' & Hs' & Hm') Hmax]. destruct (Hmax j q Hj Hq) as [Hle _]. rewrite Huj in Hle.
      destruct (HU j' q' Hj') as [_ H']. specialize (H' i r c ltac:(congruence) ltac:(congruence) Hc). rewrite Hm' in H'.
      destruct (Z.eqb_spec (child_no q') (entry2 0 idx r c)) as [E|E].
      + split; [rewrite H'; reflexivity|]. intros _. congruence.
      + assert (E0 : at2 y i c = 0%Qc) by (apply Qcle_antisym; [rewrite <- H'; exact Hle|exact Hp0]). split; [rewrite E0, H'; reflexivity|].
        rewrite E0. intros Hlt. exfalso. exact (Qclt_not_eq _ _ Hlt eq_refl).
    - destruct G' as [_ G']. exfalso. apply (G' q); [eapply nth_error_In; exact Hj|exact Hq]. }
  split.
  - rewrite Ep2. do 2 f_equal. apply (list_ext [] (length ps)); [apply Hpy|rewrite map_length; destruct Hy; lia|].
    intros i Hi. rewrite (nth_map_lt _ _ _ []) by (destruct Hy; lia). apply (list_ext None C); [apply (shape_nth (length ps) C); assumption|rewrite map_length; apply (shape_nth (node_count o d ne) C); [exact Hy|lia]|].
    intros c Hc. rewrite (nth_map_lt _ _ _ 0%Qc) by (rewrite (shape_nth (node_count o d ne) C y i Hy) by lia; exact Hc). fold (entry2 None py i c). fold (at2 y i c).
    destruct (nth_error ps i) as [p|] eqn:Ei; [|apply nth_error_None in Ei; lia].
    destruct (in_dec cell_dec p qs) as [Hin|Hin].
    + apply In_nth_error in Hin. destruct Hin as [r Hr]. exact (proj1 (HV i r p c Ei Hr Hc)).
    + destruct (HM' i p Ei) as [_ G]. etransitivity; [exact (G Hin c Hc)|]. f_equal. symmetry.
      destruct ne; [exfalso; apply Hin; rewrite Eq'; change (In p (map (coords d) (sel K M true d))); rewrite <- Eps'; eapply nth_error_In; exact Ei|].
      apply (Hzero (M d) i c eq_refl (tree_mask o (depth o) K M T d Hd1)).
      destruct (nth_error (M d) i) as [[|]|] eqn:Em; [|reflexivity|].
      * exfalso. apply Hin. rewrite Eps' in Ei. rewrite nth_error_map in Ei. destruct (nth_error (sel K M false d) i) as [k|] eqn:Ek; [|discriminate]. cbn [option_map] in Ei. apply some_inj in Ei. subst p.
        rewrite Eq'. apply in_map. cbn [sel] in *. apply in_select. exists i. split; assumption.
      * exfalso. apply nth_error_None in Em. destruct (mask_len o (depth o) K M T d Hd1). lia.
  - intros qs' ps' i r c Eq3 Eps3 Hi Hri Hc Hlt. rewrite Eq in Eq3. injection Eq3 as <-. rewrite Eps in Eps3. injection Eps3 as <-.
    destruct (nth_error ps i) as [p|] eqn:Ei; [|apply nth_error_None in Ei; lia]. destruct (HV i r p c Ei Hri Hc) as [_ H]. apply H. exact Hlt.
Qed.
