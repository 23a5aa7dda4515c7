(** The structure of an octree is determined by the occupied cells. *)
From Coq Require Import String List ZArith Bool QArith Qcanon Lia.
From Verif Require Import Res Tensor Key Num NumFacts Points Octree Spec SpecGeo SpecBuild SpecNeigh SpecNN SpecStructure
  WF ListFacts KidsFacts WFFacts SearchFacts NeighFacts PadFacts Family MoveFacts BuildClosed BuildFacts BuildProps BuildThms NeighThms.
Import ListNotations.
Open Scope Z_scope.

Lemma select_mask {A} (l : list A) : NoDup l -> forall m m', length m = length l -> length m' = length l ->
  (forall a, In a (select m l) <-> In a (select m' l)) -> m = m'.
Proof.
  intros N. induction N as [|a l Ha N IH]; intros [|b m] [|b' m'] L L' H; try discriminate; [reflexivity|].
  assert (Sub : forall k, In a (select k l) -> False) by (intros k Hk; apply Ha; apply in_select in Hk as (p & _ & Hp); eapply nth_error_In; exact Hp).
  assert (E : b = b').
  { specialize (H a). cbn [select] in H. destruct b, b'; try reflexivity; exfalso; cbn [In] in H.
    - apply (Sub m'). apply H. left. reflexivity.
    - apply (Sub m). apply H. left. reflexivity. }
  subst b'. f_equal. apply IH; [cbn in L; lia|cbn in L'; lia|]. intros x. specialize (H x). cbn [select] in H. destruct b; [|exact H]. cbn [In] in H.
  split; intros Hx.
  - destruct (proj1 H (or_intror Hx)) as [->|Hx']; [exfalso; apply (Sub m Hx)|exact Hx'].
  - destruct (proj2 H (or_intror Hx)) as [->|Hx']; [exfalso; apply (Sub m' Hx)|exact Hx'].
Qed.

Lemma same_tree n o o' : wf_octree o -> wf_octree o' -> full_depth o' = full_depth o -> batch_size o' = batch_size o -> (n <= depth o)%nat -> (n <= depth o')%nat ->
  (forall d cs cs', (full_depth o <= d <= n)%nat -> octree_xyzb o d true = Ok cs -> octree_xyzb o' d true = Ok cs' -> forall q, In q cs <-> In q cs') ->
  same_upto n o o'.
Proof.
  intros (K & M & T) (K' & M' & T') Hf Hb Hn Hn' H.
  assert (Msame : forall d, (d <= n)%nat -> K d = K' d -> M d = M' d).
  { intros d Hd EK. destruct (Nat.lt_ge_cases d (full_depth o)) as [Hlt|Hge].
    - pose proof (t_full _ _ _ _ T). pose proof (t_full _ _ _ _ T'). rewrite (tree_full_mask o _ K M T d), (tree_full_mask o' _ K' M' T' d) by lia. congruence.
    - pose proof (H d _ _ ltac:(lia) (tree_xyzb o (depth o) K M d true T ltac:(lia)) (tree_xyzb o' (depth o') K' M' d true T' ltac:(lia))) as Hq. cbn [sel] in Hq.
      pose proof (t_mask _ _ _ _ T d ltac:(lia)) as LM. pose proof (t_mask _ _ _ _ T' d ltac:(lia)) as LM'.
      apply (select_mask (K d)); [apply sorted_NoDup; apply (tree_keys o _ K M T d); lia|exact LM|congruence|].
      assert (V : Forall (vkey (batch_size o) d) (K d)) by (apply (tree_keys o _ K M T d); lia). rewrite Forall_forall in V.
      assert (D16 : (d <= 16)%nat) by (pose proof (t_depth _ _ _ _ T); lia).
      assert (In1 : forall k a, In a (select k (K d)) -> In a (K d)) by (intros k a Hk; apply in_select in Hk as (p & _ & Hp); eapply nth_error_In; exact Hp).
      assert (G : forall k k', (forall q, In q (map (coords d) (select k (K d))) <-> In q (map (coords d) (select k' (K d)))) -> forall a, In a (select k (K d)) -> In a (select k' (K d))).
      { intros k k' Hk a Ha. pose proof (proj1 (Hk _) (in_map (coords d) _ _ Ha)) as Hx. apply in_map_iff in Hx. destruct Hx as (a' & Ea & Ha').
        assert (a' = a) by (apply (coords_inj (batch_size o) d); [exact D16|apply V, (In1 _ _ Ha')|apply V, (In1 _ _ Ha)|exact Ea]). subst a'. exact Ha'. }
      rewrite <- EK in Hq. intros a. split; [apply (G (M d) (M' d) Hq)|apply (G (M' d) (M d))]. intros q. symmetry. apply Hq. }
  assert (Ksame : forall d, (d <= n)%nat -> K d = K' d).
  { induction d as [|d IH]; intros Hd.
    - rewrite (t_grid _ _ _ _ T), (t_grid _ _ _ _ T') by lia. rewrite Hb. reflexivity.
    - specialize (IH ltac:(lia)). rewrite (t_link _ _ _ _ T), (t_link _ _ _ _ T') by lia. rewrite <- IH, <- (Msame d ltac:(lia) IH). reflexivity. }
  intros d Hd. destruct (t_layer _ _ _ _ T d ltac:(lia)) as (l & E1 & E2 & E3 & E4 & E5). destruct (t_layer _ _ _ _ T' d ltac:(lia)) as (l' & F1 & F2 & F3 & F4 & F5).
  exists l, l'. split; [exact E1|]. split; [exact F1|]. pose proof (Ksame d Hd) as EK. pose proof (Msame d Hd EK) as EM.
  unfold same_nodes. rewrite E2, E3, E4, E5, F2, F3, F4, F5, EK, EM. auto.
Qed.

(** ** cells above a cell *)
Lemma cellc_above d k c : in_unit c -> cellc (k + d) c / 2 ^ Z.of_nat k = cellc d c.
Proof.
  intros U. induction k as [|k IH]; [cbn [Nat.add]; change (2 ^ Z.of_nat 0) with 1; apply Z.div_1_r|].
  rewrite <- IH, <- (cellc_half (k + d) c U). replace (Z.of_nat (S k)) with (1 + Z.of_nat k) by lia. rewrite Z.pow_add_r by lia. change (2 ^ 1) with 2.
  rewrite <- Z.div_div by (try apply Z.pow_nonzero; lia || (apply Z.pow_pos_nonneg; lia)). reflexivity.
Qed.
Lemma slab_above d k x c : in_unit c -> in_slab (k + d) x c -> in_slab d (x / 2 ^ Z.of_nat k) c.
Proof. intros U H. apply (cellc_slab (k + d) c x U) in H. subst x. rewrite cellc_above by exact U. apply cellc_slab; auto. Qed.
Lemma cell_above d k x y z b p : in_box p -> in_cell (k + d) x y z p -> let '(x', y', z', b') := above k (x, y, z, b) in in_cell d x' y' z' p /\ b' = b.
Proof.
  destruct p as [[px py] pz]. intros (U1 & U2 & U3) (A & B & C). cbn [above]. split; [|reflexivity]. split; [|split]; apply slab_above; assumption.
Qed.
Lemma slab_here d c : in_unit c -> in_slab d (cellc d c) c.
Proof. intros U. apply cellc_slab; auto. Qed.
Lemma box_located pc p b : Forall in_box (p_points pc) -> In (p, b) (located pc) -> in_box p.
Proof. intros H Hp. rewrite Forall_forall in H. apply H. unfold located in Hp. eapply in_combine_l. exact Hp. Qed.
Lemma above_inj_cell d x y z x' y' z' p : in_box p -> in_cell d x y z p -> in_cell d x' y' z' p -> (x, y, z) = (x', y', z').
Proof.
  destruct p as [[px py] pz]. intros (U1 & U2 & U3) (A1 & A2 & A3) (B1 & B2 & B3).
  apply (cellc_slab d _ _ U1) in A1, B1. apply (cellc_slab d _ _ U2) in A2, B2. apply (cellc_slab d _ _ U3) in A3, B3. congruence.
Qed.
Lemma occupied_above pc d k q : Forall in_box (p_points pc) -> (has_point pc d q <-> exists r, has_point pc (k + d) r /\ above k r = q).
Proof.
  intros HI. destruct q as [[[x y] z] b]. split.
  - intros (p & Hp & Hc). pose proof (box_located pc p b HI Hp) as HB. destruct p as [[px py] pz]. pose proof HB as (U1 & U2 & U3).
    exists (cellc (k + d) px, cellc (k + d) py, cellc (k + d) pz, b). split.
    + exists (px, py, pz). split; [exact Hp|]. split; [|split]; apply slab_here; assumption.
    + destruct Hc as (A1 & A2 & A3). apply (cellc_slab d _ _ U1) in A1. apply (cellc_slab d _ _ U2) in A2. apply (cellc_slab d _ _ U3) in A3. cbn [above]. rewrite !cellc_above by assumption. congruence.
  - intros ([[[x' y'] z'] b'] & (p & Hp & Hc) & E). pose proof (cell_above d k x' y' z' b' p (box_located pc p b' HI Hp) Hc) as G. rewrite E in G. destruct G as (G & <-). exists p. auto.
Qed.

Lemma built_cells normalize o pc d : build_input o pc -> Forall in_box (p_points pc) -> (full_depth o <= d <= depth o)%nat ->
  exists o1 idx cs, build_octree normalize o pc = Ok (o1, idx) /\ octree_xyzb o1 d true = Ok cs /\ forall q, In q cs <-> has_point pc d q.
Proof.
  intros HB HI Hd. destruct (thm_occupied normalize o pc d HB HI Hd) as (o1 & idx & _ & cs & E & _ & _ & Ec & _ & _ & H). exists o1, idx, cs. split; [exact E|]. split; [exact Ec|].
  intros [[[x y] z] b]. apply H.
Qed.

Section Two.
  Variables (normalize : v3 Qc -> v3 Qc) (o o' : octree) (pc pc' : pcloud Qc).
  Hypothesis HB : build_input o pc.
  Hypothesis HB' : build_input o' pc'.
  Hypothesis HI : Forall in_box (p_points pc).
  Hypothesis HI' : Forall in_box (p_points pc').
  Hypothesis HF : full_depth o' = full_depth o.
  Hypothesis HS : batch_size o' = batch_size o.
  Hypothesis HD : (depth o' <= depth o)%nat.

  Theorem thm_structure : (forall q, has_point pc (depth o') q <-> has_point pc' (depth o') q) ->
    exists o1 idx o1' idx', build_octree normalize o pc = Ok (o1, idx) /\ build_octree normalize o' pc' = Ok (o1', idx') /\ same_upto (depth o') o1 o1'.
  Proof.
    intros HQ. destruct (thm_build_wf normalize o pc HB) as (o1 & idx & E & W & D1 & D2 & D3 & _). destruct (thm_build_wf normalize o' pc' HB') as (o1' & idx' & E' & W' & D1' & D2' & D3' & _).
    exists o1, idx, o1', idx'. split; [exact E|]. split; [exact E'|]. apply same_tree; try assumption; try congruence; try lia.
    intros d cs cs' Hd Ec Ec' q.
    destruct (built_cells normalize o pc d HB HI ltac:(lia)) as (a1 & a2 & c1 & A1 & A2 & A3). assert (a1 = o1) by congruence. subst a1. assert (c1 = cs) by congruence. subst c1.
    destruct (built_cells normalize o' pc' d HB' HI' ltac:(lia)) as (b1 & b2 & c1 & B1 & B2 & B3). assert (b1 = o1') by congruence. subst b1. assert (c1 = cs') by congruence. subst c1.
    rewrite A3, B3. rewrite (occupied_above pc d (depth o' - d) q HI), (occupied_above pc' d (depth o' - d) q HI'). replace (depth o' - d + d)%nat with (depth o') by lia.
    split; intros (r & Hr & Er); exists r; (split; [apply HQ; exact Hr|exact Er]).
  Qed.

  Theorem thm_structure_neigh : (1 <= full_depth o)%nat -> (forall q, has_point pc (depth o') q <-> has_point pc' (depth o') q) ->
    exists o1 idx o1' idx' o2 o2', build_octree normalize o pc = Ok (o1, idx) /\ build_octree normalize o' pc' = Ok (o1', idx') /\
      construct_all_neigh o1 = Ok o2 /\ construct_all_neigh o1' = Ok o2' /\
      forall d, (1 <= d <= depth o')%nat -> exists l l', nth_error (layers o2) d = Some l /\ nth_error (layers o2') d = Some l' /\ neighs l <> None /\ neighs l' = neighs l.
  Proof.
    intros Hf HQ. destruct (thm_structure HQ) as (o1 & idx & o1' & idx' & E & E' & Sm).
    destruct (thm_build_wf normalize o pc HB) as (a1 & a2 & F & W & D1 & D2 & D3 & _). assert (a1 = o1) by congruence. subst a1.
    destruct (thm_build_wf normalize o' pc' HB') as (b1 & b2 & F' & W' & D1' & D2' & D3' & _). assert (b1 = o1') by congruence. subst b1.
    destruct (thm_all_neigh o1 W ltac:(lia)) as (o2 & G & SD & W2 & HN). destruct (thm_all_neigh o1' W' ltac:(lia)) as (o2' & G' & SD' & W2' & HN').
    exists o1, idx, o1', idx', o2, o2'. repeat (split; [assumption|]). intros d Hd.
    destruct (HN d ltac:(lia)) as (l & ks & t & H1 & H2 & H3 & H4). destruct (HN' d ltac:(lia)) as (l' & ks' & t' & H1' & H2' & H3' & H4').
    exists l, l'. split; [exact H1|]. split; [exact H1'|]. split; [congruence|].
    destruct (Sm d ltac:(lia)) as (m & m' & M1 & M2 & (M3 & _)).
    assert (Kl : keys l = keys m). { destruct SD as (_ & _ & _ & _ & FF). clear - FF M1 H1. revert d M1 H1. induction FF as [|a b la lb H FF IH]; intros [|d] M1 H1; try discriminate; cbn in *; [injection M1 as <-; injection H1 as <-; apply H|eapply IH; eassumption]. }
    assert (Kl' : keys l' = keys m'). { destruct SD' as (_ & _ & _ & _ & FF). clear - FF M2 H1'. revert d M2 H1'. induction FF as [|a b la lb H FF IH]; intros [|d] M1 H1; try discriminate; cbn in *; [injection M1 as <-; injection H1 as <-; apply H|eapply IH; eassumption]. }
    assert (ks' = ks) by congruence. subst ks'. rewrite H3, H3'. f_equal.
    destruct W2 as (K & M & T). pose proof SD as (Q1 & Q2 & Q3 & _). destruct (t_layer _ _ _ _ T d ltac:(lia)) as (l2 & L1 & L2 & _). assert (l2 = l) by congruence. subst l2. assert (ks = K d) by congruence. subst ks.
    destruct (tree_keys _ _ _ _ T d ltac:(lia)) as (V1 & V2). assert (D16 : (d <= 16)%nat) by (pose proof (t_depth _ _ _ _ T); lia).
    rewrite (neigh_correct_unique _ d (K d) t D16 V1 V2 H4). apply (neigh_correct_unique _ d (K d) t' D16 V1 V2 H4').
  Qed.
End Two.

(** ** the map from points to nodes *)
Theorem thm_resolution normalize o o' pc : build_input o pc -> build_input o' pc -> Forall in_box (p_points pc) -> full_depth o' = full_depth o -> (depth o' <= depth o)%nat ->
  exists o1 idx o1' idx' cs cs', build_octree normalize o pc = Ok (o1, idx) /\ build_octree normalize o' pc = Ok (o1', idx') /\ same_upto (depth o') o1 o1' /\
    octree_xyzb o1 (depth o) true = Ok cs /\ octree_xyzb o1' (depth o') true = Ok cs' /\ length idx = length (p_points pc) /\ length idx' = length (p_points pc) /\
    forall i r r', nth_error idx i = Some r -> nth_error idx' i = Some r' ->
      exists q, nth_error cs (Z.to_nat r) = Some q /\ nth_error cs' (Z.to_nat r') = Some (above (depth o - depth o') q).
Proof.
  intros HB HB' HI HF HD.
  assert (HS : batch_size o' = batch_size o) by (destruct HB as [_ _ _ _ [A _ _ _ _]], HB' as [_ _ _ _ [A' _ _ _ _]]; congruence).
  destruct (thm_structure normalize o o' pc pc HB HB' HI HI HF HS HD ltac:(reflexivity)) as (o1 & idx & o1' & idx' & E & E' & Sm).
  destruct (thm_point_map normalize o pc HB HI) as (a1 & a2 & cs & F & Fc & L & P). assert (a1 = o1 /\ a2 = idx) as [-> ->] by (split; congruence).
  destruct (thm_point_map normalize o' pc HB' HI) as (b1 & b2 & cs' & F' & Fc' & L' & P'). assert (b1 = o1' /\ b2 = idx') as [-> ->] by (split; congruence).
  exists o1, idx, o1', idx', cs, cs'. repeat (split; [assumption|]). intros i r r' Hr Hr'.
  assert (Hi : (i < length (p_points pc))%nat) by (rewrite <- L; apply nth_error_Some; congruence).
  destruct (nth_error (p_points pc) i) as [p|] eqn:Ep; [|apply nth_error_None in Ep; lia].
  assert (LB : length (point_batches pc) = length (p_points pc)).
  { destruct (bi_cloud _ _ HB) as [A1 A2 _ _ _]. unfold point_batches. destruct (Nat.eqb_spec (p_batch_size pc) 1) as [Eb|Eb]; [apply repeat_length|].
    destruct (A2 ltac:(congruence)) as (ids & -> & Ll & _). exact Ll. }
  destruct (nth_error (point_batches pc) i) as [b|] eqn:Eb; [|apply nth_error_None in Eb; lia].
  destruct (P i p b r Ep Eb Hr) as (x & y & z & _ & Q1 & Q2). destruct (P' i p b r' Ep Eb Hr') as (x' & y' & z' & _ & Q1' & Q2').
  exists (x, y, z, b). split; [exact Q1|]. rewrite Q1'. f_equal.
  assert (Bx : in_box p) by (rewrite Forall_forall in HI; apply HI; eapply nth_error_In; exact Ep).
  replace (depth o) with (depth o - depth o' + depth o')%nat in Q2 by lia. pose proof (cell_above (depth o') (depth o - depth o') x y z b p Bx Q2) as G.
  destruct (above (depth o - depth o') (x, y, z, b)) as [[[x1 y1] z1] b1]. destruct G as (G & ->). pose proof (above_inj_cell _ _ _ _ _ _ _ _ Bx Q2' G). congruence.
Qed.

(** ** more points, more cells *)
Theorem thm_more_points normalize o pc pc' : build_input o pc -> build_input o pc' -> Forall in_box (p_points pc) -> Forall in_box (p_points pc') ->
  (forall q, has_point pc (depth o) q -> has_point pc' (depth o) q) ->
  exists o1 idx o1' idx', build_octree normalize o pc = Ok (o1, idx) /\ build_octree normalize o pc' = Ok (o1', idx') /\
    forall d ne cs cs' q, (d <= depth o)%nat -> octree_xyzb o1 d ne = Ok cs -> octree_xyzb o1' d ne = Ok cs' -> In q cs -> In q cs'.
Proof.
  intros HB HB' HI HI' HQ. destruct (thm_build_wf normalize o pc HB) as (o1 & idx & E & W & D1 & D2 & D3 & _). destruct (thm_build_wf normalize o pc' HB') as (o1' & idx' & E' & W' & D1' & D2' & D3' & _).
  exists o1, idx, o1', idx'. split; [exact E|]. split; [exact E'|].
  assert (T1 : forall d cs cs' q, (d <= depth o)%nat -> octree_xyzb o1 d true = Ok cs -> octree_xyzb o1' d true = Ok cs' -> In q cs -> In q cs').
  { intros d cs cs' q Hd Ec Ec'. destruct (Nat.lt_ge_cases d (full_depth o)) as [Hlt|Hge].
    - destruct (thm_complete normalize o pc d HB ltac:(lia)) as (a1 & a2 & c1 & A1 & _ & _ & A2 & A3). assert (a1 = o1) by congruence. subst a1. specialize (A3 Hlt). assert (c1 = cs) by congruence. subst c1.
      destruct (thm_complete normalize o pc' d HB' ltac:(lia)) as (b1 & b2 & c1 & B1 & _ & _ & B2 & B3). assert (b1 = o1') by congruence. subst b1. specialize (B3 Hlt). assert (c1 = cs') by congruence. subst c1.
      destruct q as [[[x y] z] b]. rewrite A2, B2. auto.
    - destruct (built_cells normalize o pc d HB HI ltac:(lia)) as (a1 & a2 & c1 & A1 & A2 & A3). assert (a1 = o1) by congruence. subst a1. assert (c1 = cs) by congruence. subst c1.
      destruct (built_cells normalize o pc' d HB' HI' ltac:(lia)) as (b1 & b2 & c1 & B1 & B2 & B3). assert (b1 = o1') by congruence. subst b1. assert (c1 = cs') by congruence. subst c1.
      rewrite A3, B3. rewrite (occupied_above pc d (depth o - d) q HI), (occupied_above pc' d (depth o - d) q HI'). replace (depth o - d + d)%nat with (depth o) by lia.
      intros (r & Hr & Er). exists r. auto. }
  intros d ne cs cs' q Hd Ec Ec' Hq. destruct ne; [apply (T1 d cs cs' q Hd Ec Ec' Hq)|]. destruct d as [|d].
  - destruct (thm_complete normalize o pc 0 HB ltac:(lia)) as (a1 & a2 & c1 & A1 & A0 & _ & A2 & _). assert (a1 = o1) by congruence. subst a1. assert (c1 = cs) by congruence. subst c1.
    destruct (thm_complete normalize o pc' 0 HB' ltac:(lia)) as (b1 & b2 & c1 & B1 & B0 & _ & B2 & _). assert (b1 = o1') by congruence. subst b1. assert (c1 = cs') by congruence. subst c1.
    destruct q as [[[x y] z] b]. rewrite A2 in Hq. rewrite B2. exact Hq.
  - destruct W as (K & M & T). destruct W' as (K' & M' & T'). pose proof (T1 d _ _ (parent_cell q) ltac:(lia) (tree_xyzb o1 _ K M d true T ltac:(lia)) (tree_xyzb o1' _ K' M' d true T' ltac:(lia))) as TT.
    rewrite (all_cells o1 d _ cs q (ex_intro _ K (ex_intro _ M T)) ltac:(lia) (tree_xyzb o1 _ K M d true T ltac:(lia)) Ec) in Hq.
    rewrite (all_cells o1' d _ cs' q (ex_intro _ K' (ex_intro _ M' T')) ltac:(lia) (tree_xyzb o1' _ K' M' d true T' ltac:(lia)) Ec'). apply TT. exact Hq.
Qed.
