(** Moving a shape: motions of the grid, and octrees built from a moved cloud. *)
From Coq Require Import Ascii String List ZArith Bool QArith Qcanon Lia Permutation Lqa.
From Verif Require Import Res Tensor Key Num NumFacts Points Octree NnBasic NnConv NnInterp Features Net Spec SpecGeo SpecBuild SpecNeigh SpecNN SpecNet SpecFeature SpecBatch SpecSolver SpecMove
  WF PoolFacts ListFacts SumFacts SearchFacts NeighFacts PadFacts Family NnFacts NeighThms BuildClosed BuildThms BuildProps BuildFacts FeatureFacts FeatureRange NetFacts NetBuilt NetBatch WFFacts VoxelThm ConvOct NetSeg MoveFacts MoveNet.
Import ListNotations.
Open Scope Z_scope.

(** ** motions *)
Lemma quad (x y z b x' y' z' b' : Z) : x = x' -> y = y' -> z = z' -> b = b' -> (x, y, z, b) = (x', y', z', b').
Proof. congruence. Qed.
Lemma pow_step d e : (e <= d)%nat -> 2 ^ Z.of_nat (S d - e) = 2 * 2 ^ Z.of_nat (d - e).
Proof. intros H. replace (Z.of_nat (S d - e)) with (Z.of_nat (d - e) + 1) by lia. rewrite Z.pow_add_r by lia. lia. Qed.
Theorem thm_shift_to renum e t : (forall b c, renum b = renum c -> b = c) -> (forall b, exists c, renum c = b) -> motion_to renum e (shift_to renum e t) (fun v => v).
Proof.
  intros RI RO. constructor.
  - intros d [[[x y] z] b'] _. destruct (RO b') as (b & <-). destruct (t b) as [[u v] w] eqn:E. exists (x - u * 2 ^ Z.of_nat (d - e), y - v * 2 ^ Z.of_nat (d - e), z - w * 2 ^ Z.of_nat (d - e), b).
    unfold shift_to. rewrite E. cbv zeta. apply quad; lia.
  - intros d [[[x y] z] b] [[[x' y'] z'] b'] _ H. unfold shift_to in H. destruct (t b) as [[u v] w] eqn:E, (t b') as [[u' v'] w'] eqn:E'. cbv zeta in H.
    assert (b = b') by (apply RI; congruence). subst b'. rewrite E in E'. assert (I : u = u' /\ v = v' /\ w = w') by (inversion E'; auto). destruct I as (<- & <- & <-).
    assert (J : x + u * 2 ^ Z.of_nat (d - e) = x' + u * 2 ^ Z.of_nat (d - e) /\ y + v * 2 ^ Z.of_nat (d - e) = y' + v * 2 ^ Z.of_nat (d - e) /\ z + w * 2 ^ Z.of_nat (d - e) = z' + w * 2 ^ Z.of_nat (d - e)).
    { repeat split; congruence. }
    apply quad; lia.
  - intros d [[[x y] z] b] _. unfold shift_to. destruct (t b) as [[u v] w]. reflexivity.
  - intros d [[[x y] z] b] [[dx dy] dz] _. unfold shift_to, step. destruct (t b) as [[u v] w]. cbv zeta. apply quad; lia.
  - intros d [[[x y] z] b] Hd. unfold shift_to, parent_cell. destruct (t b) as [[u v] w]. cbv zeta. rewrite (pow_step d e Hd).
    replace (x + u * (2 * 2 ^ Z.of_nat (d - e))) with (x + (u * 2 ^ Z.of_nat (d - e)) * 2) by lia.
    replace (y + v * (2 * 2 ^ Z.of_nat (d - e))) with (y + (v * 2 ^ Z.of_nat (d - e)) * 2) by lia.
    replace (z + w * (2 * 2 ^ Z.of_nat (d - e))) with (z + (w * 2 ^ Z.of_nat (d - e)) * 2) by lia.
    rewrite !Z.div_add by lia. reflexivity.
Qed.
Theorem thm_shift e t : motion e (shift e t) (fun v => v).
Proof. apply (thm_shift_to (fun b => b)); eauto. Qed.
Theorem thm_mirror : motion 0 mirror_x turn_x.
Proof.
  constructor.
  - intros d [[[x y] z] b] _. exists (2 ^ Z.of_nat d - 1 - x, y, z, b). unfold mirror_x. apply quad; lia.
  - intros d [[[x y] z] b] [[[x' y'] z'] b'] _ H. unfold mirror_x in H. assert (J : 2 ^ Z.of_nat d - 1 - x = 2 ^ Z.of_nat d - 1 - x' /\ y = y' /\ z = z' /\ b = b') by (repeat split; congruence).
    destruct J as (J & <- & <- & <-). apply quad; lia.
  - intros d [[[x y] z] b] _. reflexivity.
  - intros d [[[x y] z] b] [[dx dy] dz] _. unfold mirror_x, step, turn_x. apply quad; lia.
  - intros d [[[x y] z] b] _. unfold mirror_x, parent_cell. replace (Z.of_nat (S d)) with (Z.of_nat d + 1) by lia. rewrite Z.pow_add_r by lia. apply quad; try reflexivity.
    replace (2 ^ Z.of_nat d * 2 ^ 1 - 1 - x) with ((- 1 - x) + 2 ^ Z.of_nat d * 2) by lia. rewrite Z.div_add by lia. 
    pose proof (Z.div_mod (-1 - x) 2 ltac:(lia)). pose proof (Z.mod_pos_bound (-1 - x) 2 ltac:(lia)). pose proof (Z.div_mod x 2 ltac:(lia)). pose proof (Z.mod_pos_bound x 2 ltac:(lia)). lia.
Qed.
Theorem thm_swap_xy : motion 0 swap_xy turn_xy.
Proof.
  constructor.
  - intros d [[[x y] z] b] _. exists (y, x, z, b). reflexivity.
  - intros d [[[x y] z] b] [[[x' y'] z'] b'] _ H. unfold swap_xy in H. congruence.
  - intros d [[[x y] z] b] _. reflexivity.
  - intros d [[[x y] z] b] [[dx dy] dz] _. reflexivity.
  - intros d [[[x y] z] b] _. reflexivity.
Qed.
Theorem thm_swap_yz : motion 0 swap_yz turn_yz.
Proof.
  constructor.
  - intros d [[[x y] z] b] _. exists (x, z, y, b). reflexivity.
  - intros d [[[x y] z] b] [[[x' y'] z'] b'] _ H. unfold swap_yz in H. congruence.
  - intros d [[[x y] z] b] _. reflexivity.
  - intros d [[[x y] z] b] [[dx dy] dz] _. reflexivity.
  - intros d [[[x y] z] b] _. reflexivity.
Qed.
Theorem thm_compose e e' s s' turn turn' : motion e s turn -> motion e' s' turn' ->
  motion (Nat.max e e') (fun d q => s' d (s d q)) (fun v => turn' (turn v)).
Proof.
  intros H H'. constructor.
  - intros d q Hd. destruct (mo_onto _ _ _ _ H' d q ltac:(lia)) as (q1 & <-). destruct (mo_onto _ _ _ _ H d q1 ltac:(lia)) as (q2 & <-). eauto.
  - intros d q r Hd E. apply (mo_inj _ _ _ _ H') in E; [|lia]. apply (mo_inj _ _ _ _ H) in E; [exact E|lia].
  - intros d q Hd. rewrite (mo_sample _ _ _ _ H') by lia. apply (mo_sample _ _ _ _ H). lia.
  - intros d q v Hd. rewrite (mo_step _ _ _ _ H) by lia. apply (mo_step _ _ _ _ H'). lia.
  - intros d q Hd. rewrite (mo_parent _ _ _ _ H') by lia. rewrite (mo_parent _ _ _ _ H) by lia. reflexivity.
Qed.

(** ** building *)
Lemma tri (x y z x' y' z' : Qc) : x = x' -> y = y' -> z = z' -> (x, y, z) = (x', y', z').
Proof. congruence. Qed.
Lemma qz_pow_nz n : qz (2 ^ Z.of_nat n) <> 0%Qc.
Proof. apply qz_neq0. pose proof (Z.pow_pos_nonneg 2 (Z.of_nat n)). lia. Qed.
Lemma move_units d e x k : (e <= d)%nat -> (qz (2 * (x + k * 2 ^ Z.of_nat (d - e))) / qz (2 ^ Z.of_nat d) = qz (2 * x) / qz (2 ^ Z.of_nat d) + qz (2 * k) / qz (2 ^ Z.of_nat e))%Qc.
Proof.
  intros H. replace (2 ^ Z.of_nat d) with (2 ^ Z.of_nat (d - e) * 2 ^ Z.of_nat e) by (rewrite <- Z.pow_add_r by lia; f_equal; lia).
  rewrite Z.mul_add_distr_l, qz_add. replace (2 * (k * 2 ^ Z.of_nat (d - e))) with (2 * k * 2 ^ Z.of_nat (d - e)) by lia. rewrite !(qz_mul (2 * k)), !(qz_mul (2 ^ _)).
  pose proof (qz_pow_nz (d - e)). pose proof (qz_pow_nz e). field. auto.
Qed.
Lemma slab_move d e x k c : (e <= d)%nat -> in_slab d (x + k * 2 ^ Z.of_nat (d - e)) (move_coord e k c) <-> in_slab d x c.
Proof.
  intros H. unfold in_slab, move_coord. replace (x + k * 2 ^ Z.of_nat (d - e) + 1) with ((x + 1) + k * 2 ^ Z.of_nat (d - e)) by lia. rewrite !move_units by exact H.
  set (u := (qz (2 * k) / qz (2 ^ Z.of_nat e))%Qc). set (a := (qz (2 * x) / qz (2 ^ Z.of_nat d))%Qc). set (b := (qz (2 * (x + 1)) / qz (2 ^ Z.of_nat d))%Qc). clearbody u a b.
  split; intros [A B]; split; qclra.
Qed.
Lemma slab_unique d x y c : in_unit c -> in_slab d x c -> in_slab d y c -> x = y.
Proof. intros U A B. apply (cellc_slab d c x U) in A. apply (cellc_slab d c y U) in B. congruence. Qed.
Lemma cell_move d e t x y z b x' y' z' b' p : (e <= d)%nat -> shift e t d (x, y, z, b) = (x', y', z', b') ->
  b' = b /\ (in_cell d x' y' z' (move_point e (t b) p) <-> in_cell d x y z p).
Proof.
  intros H E. unfold shift in E. destruct (t b) as [[u v] w]. cbv zeta in E. destruct p as [[px py] pz].
  assert (J : x' = x + u * 2 ^ Z.of_nat (d - e) /\ y' = y + v * 2 ^ Z.of_nat (d - e) /\ z' = z + w * 2 ^ Z.of_nat (d - e) /\ b' = b) by (repeat split; congruence).
  destruct J as (-> & -> & -> & ->). split; [reflexivity|]. unfold in_cell, move_point. rewrite !slab_move by exact H. reflexivity.
Qed.
Lemma cell_unique d x y z x' y' z' p : in_box p -> in_cell d x y z p -> in_cell d x' y' z' p -> (x, y, z) = (x', y', z').
Proof.
  destruct p as [[px py] pz]. intros (U1 & U2 & U3) (A1 & A2 & A3) (B1 & B2 & B3).
  rewrite (slab_unique d x x' px U1 A1 B1), (slab_unique d y y' py U2 A2 B2), (slab_unique d z z' pz U3 A3 B3). reflexivity.
Qed.

Lemma tag_rows {A} (f : A -> A) k k' : forall (tags tags' : list Z) (src src' : list A), length tags' = length tags -> length src = length tags -> length src' = length tags ->
  (forall i, nth_error tags i = Some k <-> nth_error tags' i = Some k') -> (forall i a, nth_error tags i = Some k -> nth_error src i = Some a -> nth_error src' i = Some (f a)) ->
  rows_at tags' k' src' = map f (rows_at tags k src).
Proof.
  unfold rows_at. induction tags as [|u tags IH]; intros [|u' tags'] [|a src] [|a' src'] L1 L2 L3 H HS; try discriminate; [reflexivity|]. cbn [combine filter fst].
  specialize (IH tags' src src' ltac:(cbn in *; lia) ltac:(cbn in *; lia) ltac:(cbn in *; lia) (fun i => H (S i)) (fun i => HS (S i))).
  pose proof (H O) as H0. cbn in H0. destruct (Z.eqb_spec u k) as [->|N], (Z.eqb_spec u' k') as [->|N'].
  - cbn [map snd]. specialize (HS O a eq_refl eq_refl). cbn in HS. rewrite IH. congruence.
  - exfalso. apply N'. destruct H0 as [H0 _]. specialize (H0 eq_refl). congruence.
  - exfalso. apply N. destruct H0 as [_ H0]. specialize (H0 eq_refl). congruence.
  - exact IH.
Qed.
Lemma sum3_move v rows : sum3 (map (v3add v) rows) = v3add (v3map (fun c => (qz (Z.of_nat (length rows)) * c)%Qc) v) (sum3 rows).
Proof.
  destruct v as [[a b] c]. unfold sum3. induction rows as [|[[x y] z] rows IH].
  - cbn [map fold_right length]. change (qz (Z.of_nat 0)) with 0%Qc. unfold v3add, v3zero. cbn [v3map v3zip]. apply tri; ring.
  - cbn [map fold_right length]. rewrite IH. replace (Z.of_nat (S (length rows))) with (Z.of_nat (length rows) + 1) by lia. rewrite qz_add. change (qz 1) with 1%Qc.
    destruct (fold_right v3add v3zero rows) as [[s1 s2] s3]. unfold v3add. cbn [v3map v3zip]. apply tri; ring.
Qed.
Lemma mean3_move v rows : rows <> [] -> mean3 (map (v3add v) rows) = v3add v (mean3 rows).
Proof.
  intros H. unfold mean3. rewrite sum3_move, map_length. assert (N : qz (Z.of_nat (length rows)) <> 0%Qc) by (apply qz_neq0; destruct rows; [contradiction|cbn; lia]).
  destruct v as [[a b] c], (sum3 rows) as [[x y] z]. unfold v3add. cbn [v3map v3zip]. apply tri; field; exact N.
Qed.
Definition units (d e : nat) (v : Z * Z * Z) : v3 Qc := let '(a, b, c) := v in (qz (a * 2 ^ Z.of_nat (d - e)), qz (b * 2 ^ Z.of_nat (d - e)), qz (c * 2 ^ Z.of_nat (d - e))).
Lemma units_move d e v p : (e <= d)%nat -> in_cell_units d (move_point e v p) = v3add (units d e v) (in_cell_units d p).
Proof.
  intros H. destruct v as [[a b] c], p as [[x y] z]. unfold in_cell_units, move_point, move_coord, v3add, units. cbn [v3map v3zip].
  replace (2 ^ Z.of_nat d) with (2 ^ Z.of_nat (d - e) * 2 ^ Z.of_nat e) by (rewrite <- Z.pow_add_r by lia; f_equal; lia). rewrite !qz_mul.
  pose proof (qz_pow_nz e). assert (qz 2 <> 0%Qc) by (apply qz_neq0; lia). apply tri; field; auto.
Qed.
Lemma local_move k c : local_coord (qz k + c) = local_coord c.
Proof.
  unfold local_coord. replace (qfloor (qz k + c)) with (k + qfloor c).
  - rewrite qz_add. ring.
  - symmetry. apply qfloor_spec. destruct (proj1 (qfloor_spec c (qfloor c)) eq_refl) as [A B]. rewrite !qz_add in *. split; qclra.
Qed.

(** the rows of all nodes and the rows of the non-empty ones *)
Lemma padded_rows {A} o d flags (y x : list A) cs ca i q : wf_octree o -> (d <= depth o)%nat -> nempty_mask o (Z.of_nat d) = Ok flags -> octree_depad y o (Z.of_nat d) = Ok x ->
  length y = node_count o d false -> octree_xyzb o d true = Ok cs -> octree_xyzb o d false = Ok ca -> nth_error ca i = Some q ->
  (forall r, nth_error cs r = Some q -> nth_error y i = nth_error x r) /\ (~ In q cs -> nth_error flags i = Some false).
Proof.
  intros W Hd Hf Hy Ly Ec Ea Hi. destruct (thm_voxel o d false 0 (repeat [] (node_count o d false)) W Hd (shape_repeat _ 0 0%Qc)) as (ca1 & _ & E1 & L1 & _).
  rewrite Ea in E1. injection E1 as <-. rewrite repeat_length in L1.
  destruct W as (K & M & T). rewrite (tree_xyzb o (depth o) K M) in Ec by (assumption || lia). rewrite (tree_xyzb o (depth o) K M) in Ea by (assumption || lia). injection Ec as <-. injection Ea as <-.
  rewrite (tree_mask o (depth o) K M T d Hd) in Hf. injection Hf as <-. unfold octree_depad in Hy. rewrite (tree_mask o (depth o) K M T d Hd) in Hy. cbn [bind] in Hy.
  pose proof (t_mask _ _ _ _ T d Hd) as LM. cbn [sel] in *. rewrite map_length in L1. rewrite mask_get_Ok in Hy by congruence. injection Hy as <-.
  rewrite nth_error_map in Hi. destruct (nth_error (K d) i) as [k|] eqn:Ek; [|discriminate]. cbn [option_map] in Hi. injection Hi as <-.
  assert (KI : forall j k', nth_error (K d) j = Some k' -> coords d k' = coords d k -> j = i).
  { intros j k' Hj E. pose proof (sel_vkey o (depth o) K M T false d Hd) as V. rewrite Forall_forall in V. cbn [sel] in V.
    assert (k' = k) by (apply (coords_inj (batch_size o) d); [apply (d16 o (depth o) K M T d Hd)|apply V; eapply nth_error_In; eassumption..|exact E]). subst k'.
    apply (sorted_nth_inj _ (sel_sorted o (depth o) K M T false d Hd) j i k); assumption. }
  split.
  - intros r Hr. rewrite nth_error_map in Hr. destruct (nth_error (select (M d) (K d)) r) as [k'|] eqn:Er; [|discriminate]. cbn [option_map] in Hr. apply some_inj in Hr.
    destruct (sel_full o (depth o) K M T true d r k' Hd Er) as (j & Hj & _ & Hm). destruct (Hm eq_refl) as (Hm1 & ->). rewrite (KI j k' Hj Hr) in *. symmetry. apply nth_select_pos; [congruence|exact Hm1].
  - intros Hn. destruct (nth_error (M d) i) as [[|]|] eqn:Em; [|reflexivity|].
    + exfalso. apply Hn. apply in_map. apply in_select. exists i. auto.
    + apply nth_error_None in Em. assert (i < length (K d))%nat by (apply nth_error_Some; congruence). lia.
Qed.

(** the input features of an octree built from points *)
Definition row_normal (normalize : v3 Qc -> v3 Qc) (s : string) (pc : pcloud Qc) (idx : list Z) (i : nat) : v3 Qc :=
  if asks s "N" "n" || asks s "D" "d" then match p_normals pc with Some n => normalize (sum3 (rows_at idx (Z.of_nat i) n)) | None => v3zero end else v3zero.
Definition row_point (d : nat) (pc : pcloud Qc) (idx : list Z) (i : nat) : v3 Qc := mean3 (rows_at idx (Z.of_nat i) (map (in_cell_units d) (p_points pc))).
Definition row_feature (s : string) (CF : nat) (pc : pcloud Qc) (idx : list Z) (i : nat) : vec :=
  if asks s "F" "f" then match p_features pc with Some f => meanv (width f) (rows_at idx (Z.of_nat i) f) | None => [] end else repeat 0%Qc CF.
Lemma list_build {A} n (f : nat -> A) (l : list A) : length l = n -> (forall i a, nth_error l i = Some a -> a = f i) -> l = map f (seq 0 n).
Proof.
  intros L H. apply nth_ext with (f O) (f O); [rewrite map_length, seq_length; exact L|]. intros i Hi. rewrite (map_nth f (seq 0 n) O i), seq_nth by lia. cbn [Nat.add].
  apply H. apply nth_error_nth'. exact Hi.
Qed.
Lemma feature_built normalize o pc CF s : build_input o pc -> Forall in_box (p_points pc) -> provides CF s pc -> asks_any s = true ->
  exists o1 idx x, build_octree normalize o pc = Ok (o1, idx) /\ get_input_feature CF o1 s true = Ok x /\ shape (node_count o1 (depth o) true) (channels s CF) x /\
    (forall i, (i < node_count o1 (depth o) true)%nat -> nth_error x i = Some (feature_row s (depth o) (row_normal normalize s pc idx i) (row_point (depth o) pc idx i) (row_feature s CF pc idx i)) /\
      rows_at idx (Z.of_nat i) (p_points pc) <> []) /\
    exists y flags, get_input_feature CF o1 s false = Ok y /\ nempty_mask o1 (Z.of_nat (depth o)) = Ok flags /\ shape (node_count o1 (depth o) false) (channels s CF) y /\
      octree_depad y o1 (Z.of_nat (depth o)) = Ok x /\ (forall i, nth_error flags i = Some false -> nth_error y i = Some (repeat 0%Qc (channels s CF))).
Proof.
  intros HB HI (PN & PF) Hs.
  destruct (thm_build_wf normalize o pc HB) as (o1 & idx & E & W & Ed & _).
  destruct (thm_signals normalize o pc HB) as (a1 & a2 & l & E1 & Hl & (pts & Hp & Hlen & Hpt) & SN & SF).
  destruct (thm_mean_cell normalize o pc HB HI) as (b1 & b2 & l2 & pts2 & cs & E2 & Hl2 & Hp2 & Hc & Hlc & Hcell).
  assert (a1 = o1 /\ a2 = idx) as [-> ->] by (split; congruence). assert (b1 = o1) by congruence. subst b1. assert (l2 = l) by congruence. subst l2. assert (pts2 = pts) by congruence. subst pts2.
  assert (Hn : Z.of_nat (node_count o1 (depth o) true) = nnum_nempty l).
  { unfold node_count. assert (Enth : nth_error (layers o1) (depth o) = Some l).
    { destruct W as (KK & MM & TT). destruct (tree_get _ _ _ _ TT (depth o)) as (l' & G1 & G2 & _); [lia|]. congruence. }
    rewrite Enth. lia. }
  set (n := node_count o1 (depth o) true) in *.
  assert (Hpos : Forall (fun p : v3 Qc => let '(x, y, z) := p in (0 <= x)%Qc /\ (0 <= y)%Qc /\ (0 <= z)%Qc) pts).
  { apply Forall_forall. intros [[x y] z] Hi. apply In_nth_error in Hi. destruct Hi as [r Hr]. destruct (nth_error cs r) as [[[[a b] c] bb]|] eqn:Ec.
    - destruct (Hcell _ _ _ _ _ _ _ _ Hr Ec) as (Q1 & Q2 & Q3 & (G1 & G2 & G3)). unfold in_grid in *.
      assert (K : forall c, 0 <= qfloor c -> (0 <= c)%Qc).
      { intros v Hv. destruct (proj1 (qfloor_spec v (qfloor v)) eq_refl) as [H3 _]. eapply Qcle_trans; [|exact H3]. change 0%Qc with (qz 0). apply qz_le. exact Hv. }
      split; [|split]; apply K; lia.
    - apply nth_error_None in Ec. assert (r < length pts)%nat by (apply nth_error_Some; congruence). lia. }
  assert (Hne : forall i, (i < n)%nat -> rows_at idx (Z.of_nat i) (p_points pc) <> []).
  { intros i Hi E0. destruct (nth_error pts i) as [q|] eqn:Eq; [|apply nth_error_None in Eq; lia]. destruct (Hpt i q Eq) as (_ & H0). rewrite E0 in H0. cbn in H0. lia. }
  assert (Pe : pts = map (row_point (depth o) pc idx) (seq 0 n)) by (apply list_build; [lia|]; intros i q Hq; destruct (Hpt i q Hq) as (-> & _); reflexivity).
  destruct (thm_layout CF o1 s l (map (row_normal normalize s pc idx) (seq 0 n)) pts (map (row_feature s CF pc idx) (seq 0 n)) W) as (x & y & flags & X1 & Y1 & Y2 & X2 & Y3 & X3 & Y4 & Y5); rewrite ?Ed; fold n; try assumption.
  - rewrite map_length, seq_length. reflexivity.
  - lia.
  - split; [rewrite map_length, seq_length; reflexivity|]. apply Forall_map, Forall_forall. intros i Hi. apply in_seq in Hi. unfold row_feature. destruct (asks s "F" "f") eqn:Ef; [|apply repeat_length].
    destruct (PF eq_refl) as (f & Pf & Fw). rewrite Pf. destruct (gc_features _ _ (bi_cloud _ _ HB) _ Pf) as (Lf & _). specialize (Hne i ltac:(lia)). destruct f as [|r0 f].
    + destruct (p_points pc); [|discriminate Lf]. exfalso. apply Hne. unfold rows_at. rewrite combine_nil. reflexivity.
    + cbn [width]. rewrite Forall_forall in Fw. rewrite (Fw r0 (or_introl eq_refl)). unfold meanv. rewrite map_length. apply sumv_shape. apply Forall_forall. intros v Hv. apply rows_at_sub in Hv. apply Fw, Hv.
  - intros A. specialize (PN A). destruct (p_normals pc) as [nn|] eqn:En; [|congruence]. destruct (SN nn eq_refl) as (ns & -> & L & HE). f_equal. apply list_build; [lia|].
    intros i q Hq. unfold row_normal. rewrite A, En. apply HE. exact Hq.
  - intros _. exact Hp.
  - intros A. destruct (PF A) as (f & Ef & Fw). destruct (SF f Ef) as (fs & -> & L & HE). f_equal. apply list_build; [lia|]. intros i q Hq. unfold row_feature. rewrite A, Ef. apply HE. exact Hq.
  - exists o1, idx, x. split; [exact E|]. split; [exact X1|]. rewrite Ed in X2, X3, Y2, Y3, Y4. split; [exact X2|]. split; [|exists y, flags; auto]. intros i Hi. split; [|apply Hne; exact Hi].
    apply X3; [| |]; try (rewrite Pe); rewrite nth_error_map, (nth_error_nth' (seq 0 n) O) by (rewrite seq_length; exact Hi); rewrite seq_nth by exact Hi; reflexivity.
Qed.
Lemma same_feature CF o o' s ne : same_data o o' -> get_input_feature CF o' s ne = get_input_feature CF o s ne.
Proof.
  intros (D & _ & _ & _ & H). unfold get_input_feature. rewrite D. cbv zeta.
  assert (G : match get_layer o (Z.of_nat (depth o)), get_layer o' (Z.of_nat (depth o)) with Ok l, Ok l' => same_layer_data l l' | Err a, Err b => a = b | _, _ => False end).
  { unfold get_layer, tget. assert (El : zlen (layers o') = zlen (layers o)) by (unfold zlen; f_equal; symmetry; clear -H; induction H; cbn; congruence). rewrite El.
    destruct (norm_index (zlen (layers o)) (Z.of_nat (depth o))) as [j|]; [|reflexivity].
    pose proof (forall2_nth _ _ _ j H) as G. destruct (nth_error (layers o) j), (nth_error (layers o') j); try contradiction; [exact G|reflexivity]. }
  destruct (get_layer o _) as [l|] eqn:El, (get_layer o' _) as [l'|] eqn:El'; try contradiction; [|cbn [bind]; congruence]. destruct G as (G0 & Gc & G1 & G2 & G3 & Gn & _). cbn [bind]. rewrite G1, G2, G3.
  apply bind_ext; [reflexivity|]. intros lp. apply bind_ext; [reflexivity|]. intros fd. apply bind_ext; [reflexivity|]. intros fp. apply bind_ext; [reflexivity|]. intros bl.
  apply bind_ext; [reflexivity|]. intros out. destruct ne; [reflexivity|]. unfold octree_pad, nempty_mask. rewrite El, El'. cbn [bind]. rewrite Gc, Gn. reflexivity.
Qed.

Section MoveBuild.
  Variables (normalize : v3 Qc -> v3 Qc) (o : octree) (pc : pcloud Qc) (e : nat) (t : Z -> Z * Z * Z).
  Hypothesis HB : build_input o pc.
  Hypothesis HI : Forall in_box (p_points pc).
  Hypothesis HI' : Forall in_box (p_points (moved_cloud e t pc)).
  Hypothesis He : (full_depth o <= e <= depth o)%nat.

  Lemma batches_len : length (point_batches pc) = length (p_points pc).
  Proof.
    destruct (bi_cloud _ _ HB) as [A1 A2 _ _ _]. unfold point_batches. destruct (Nat.eqb_spec (p_batch_size pc) 1) as [E|E]; [apply repeat_length|].
    destruct (A2 ltac:(congruence)) as (ids & -> & L & _). exact L.
  Qed.
  Lemma pts_len : length (p_points (moved_cloud e t pc)) = length (p_points pc).
  Proof. cbn [moved_cloud p_points]. rewrite map_length. unfold located. rewrite combine_length, batches_len. lia. Qed.
  Lemma batches' : point_batches (moved_cloud e t pc) = point_batches pc.
  Proof. unfold point_batches. rewrite pts_len. reflexivity. Qed.
  Lemma pts_nth i p b : nth_error (p_points pc) i = Some p -> nth_error (point_batches pc) i = Some b -> nth_error (p_points (moved_cloud e t pc)) i = Some (move_point e (t b) p).
  Proof. intros A B. cbn [moved_cloud p_points]. rewrite nth_error_map. unfold located. rewrite nth_error_combine, A, B. reflexivity. Qed.
  Lemma located' : located (moved_cloud e t pc) = map (fun '(p, b) => (move_point e (t b) p, b)) (located pc).
  Proof.
    unfold located at 1. rewrite batches'. cbn [moved_cloud p_points]. unfold located. pose proof batches_len as L. revert L. generalize (point_batches pc) as bs, (p_points pc) as ps.
    induction bs as [|b bs IH]; intros [|p ps] L; try discriminate; [reflexivity|]. cbn [combine map]. rewrite IH by (cbn in L; lia). reflexivity.
  Qed.
  Lemma good' : build_input o (moved_cloud e t pc).
  Proof.
    destruct HB as [B1 B2 B3 B4 [A1 A2 A3 A4 A5]]. constructor; try assumption. constructor; try assumption.
    - intros Hn. destruct (A2 Hn) as (ids & E & L & F). exists ids. split; [exact E|]. split; [rewrite pts_len; exact L|exact F].
    - intros n Hn. rewrite pts_len. apply A4. exact Hn.
    - intros f Hf. rewrite pts_len. apply A5. exact Hf.
  Qed.

  Lemma built_moved : exists o1 idx o1' idx', build_octree normalize o pc = Ok (o1, idx) /\ build_octree normalize o (moved_cloud e t pc) = Ok (o1', idx') /\
    moved e (shift e t) o1 o1'.
  Proof.
    destruct (thm_build_wf normalize o pc HB) as (o1 & idx & E & _ & D1 & _ & D3 & _). destruct (thm_build_wf normalize o _ good') as (o1' & idx' & E' & _ & D1' & _ & D3' & _).
    exists o1, idx, o1', idx'. split; [exact E|]. split; [exact E'|]. split; [congruence|]. split; [congruence|].
    intros d cs cs' Hd Ec Ec' q. rewrite D1 in Hd.
    destruct (thm_occupied normalize o pc d HB HI ltac:(lia)) as (a1 & a2 & _ & cs1 & F & _ & _ & Fc & _ & _ & G). assert (a1 = o1) by congruence. subst a1. assert (cs1 = cs) by congruence. subst cs1.
    destruct (thm_occupied normalize o _ d good' HI' ltac:(lia)) as (b1 & b2 & _ & cs1 & F' & _ & _ & Fc' & _ & _ & G'). assert (b1 = o1') by congruence. subst b1. assert (cs1 = cs') by congruence. subst cs1.
    destruct q as [[[x y] z] b]. destruct (shift e t d (x, y, z, b)) as [[[x' y'] z'] b'] eqn:Es. rewrite G, G', located'. split.
    - intros (p & Hp & Hc). apply in_map_iff in Hp. destruct Hp as ([p0 b0] & Hp & Hin). assert (I : p = move_point e (t b0) p0 /\ b0 = b') by (split; congruence). destruct I as (-> & ->).
      destruct (cell_move d e t x y z b x' y' z' b' p0 ltac:(lia) Es) as (-> & Hm). exists p0. split; [exact Hin|apply Hm; exact Hc].
    - intros (p & Hp & Hc). destruct (cell_move d e t x y z b x' y' z' b' p ltac:(lia) Es) as (-> & Hm). exists (move_point e (t b) p). split; [|apply Hm; exact Hc].
      apply in_map_iff. exists (p, b). auto.
  Qed.

  (** the map from points to nodes *)
  Lemma idx_moved o1 idx o1' idx' cs cs' i0 j0 q : build_octree normalize o pc = Ok (o1, idx) -> build_octree normalize o (moved_cloud e t pc) = Ok (o1', idx') ->
    octree_xyzb o1 (depth o) true = Ok cs -> octree_xyzb o1' (depth o) true = Ok cs' -> nth_error cs i0 = Some q -> nth_error cs' j0 = Some (shift e t (depth o) q) ->
    length idx = length (p_points pc) /\ length idx' = length (p_points pc) /\
    (forall i, nth_error idx i = Some (Z.of_nat i0) <-> nth_error idx' i = Some (Z.of_nat j0)) /\
    (forall i, nth_error idx i = Some (Z.of_nat i0) -> nth_error (point_batches pc) i = Some (sample_of q)).
  Proof.
    intros E E' Ec Ec' Hi Hj.
    destruct (thm_point_map normalize o pc HB HI) as (a1 & a2 & cs1 & F & Fc & L & M). assert (a1 = o1 /\ a2 = idx) as [-> ->] by (split; congruence). assert (cs1 = cs) by congruence. subst cs1.
    destruct (thm_point_map normalize o _ good' HI') as (b1 & b2 & cs1 & F' & Fc' & L' & M'). assert (b1 = o1' /\ b2 = idx') as [-> ->] by (split; congruence). assert (cs1 = cs') by congruence. subst cs1.
    rewrite batches' in M'. rewrite pts_len in L'.
    destruct (thm_occupied normalize o pc (depth o) HB HI ltac:(lia)) as (a1 & a2 & _ & cs1 & G & _ & _ & Gc & _ & ND & _). assert (a1 = o1) by congruence. subst a1. assert (cs1 = cs) by congruence. subst cs1.
    destruct (thm_occupied normalize o _ (depth o) good' HI' ltac:(lia)) as (a1 & a3 & _ & cs1 & G' & _ & _ & Gc' & _ & ND' & _). assert (a1 = o1') by congruence. subst a1. assert (cs1 = cs') by congruence. subst cs1.
    split; [exact L|]. split; [exact L'|].
    assert (K : forall i, (i < length (p_points pc))%nat -> exists p b r r' x y z x' y' z', nth_error (p_points pc) i = Some p /\ nth_error (point_batches pc) i = Some b /\
      nth_error idx i = Some (Z.of_nat r) /\ nth_error idx' i = Some (Z.of_nat r') /\ nth_error cs r = Some (x, y, z, b) /\ nth_error cs' r' = Some (x', y', z', b) /\ shift e t (depth o) (x, y, z, b) = (x', y', z', b)).
    { intros i Hl. destruct (nth_error (p_points pc) i) as [p|] eqn:Np; [|apply nth_error_None in Np; lia].
      destruct (nth_error (point_batches pc) i) as [b|] eqn:Nb; [|apply nth_error_None in Nb; rewrite batches_len in Nb; lia].
      destruct (nth_error idx i) as [r|] eqn:Nr; [|apply nth_error_None in Nr; lia]. destruct (nth_error idx' i) as [r'|] eqn:Nr'; [|apply nth_error_None in Nr'; lia].
      destruct (M i p b r Np Nb Nr) as (x & y & z & R0 & R1 & R2). destruct (M' i _ b r' (pts_nth i p b Np Nb) Nb Nr') as (x' & y' & z' & S0 & S1 & S2).
      exists p, b, (Z.to_nat r), (Z.to_nat r'), x, y, z, x', y', z'. rewrite !Z2Nat.id by assumption. repeat (split; [assumption || reflexivity|]).
      destruct (shift e t (depth o) (x, y, z, b)) as [[[x1 y1] z1] b1] eqn:Es. destruct (cell_move (depth o) e t x y z b x1 y1 z1 b1 p ltac:(lia) Es) as (-> & Hm). apply Hm in R2.
      assert (Hbox : in_box (move_point e (t b) p)) by (rewrite Forall_forall in HI'; apply HI'; eapply nth_error_In; apply (pts_nth i p b Np Nb)).
      pose proof (cell_unique (depth o) _ _ _ _ _ _ _ Hbox R2 S2) as U. congruence. }
    assert (NN : forall {A} (l : list A) i j a, NoDup l -> nth_error l i = Some a -> nth_error l j = Some a -> i = j).
    { intros A l i j a HN H1 H2. apply (proj1 (NoDup_nth_error l) HN); [apply nth_error_Some; congruence|congruence]. }
    split.
    - intros i. split; intros H.
      + destruct (K i) as (p & b & r & r' & x & y & z & x' & y' & z' & K1 & K2 & K3 & K4 & K5 & K6 & K7); [rewrite <- L; apply nth_error_Some; congruence|].
        assert (Er : r = i0) by (apply Nat2Z.inj; congruence). subst r. rewrite Hi in K5. assert (q = (x, y, z, b)) by congruence. subst q. rewrite K7 in Hj. rewrite K4. do 2 f_equal. apply (NN _ cs' _ _ _ ND' K6 Hj).
      + destruct (K i) as (p & b & r & r' & x & y & z & x' & y' & z' & K1 & K2 & K3 & K4 & K5 & K6 & K7); [rewrite <- L'; apply nth_error_Some; congruence|].
        assert (Er : r' = j0) by (apply Nat2Z.inj; congruence). subst r'. rewrite Hj in K6. assert (X : shift e t (depth o) q = shift e t (depth o) (x, y, z, b)) by congruence.
        apply (mo_inj _ _ _ _ (thm_shift e t)) in X; [|lia]. subst q. rewrite K3. do 2 f_equal. apply (NN _ cs _ _ _ ND K5 Hi).
    - intros i H. destruct (K i) as (p & b & r & r' & x & y & z & x' & y' & z' & K1 & K2 & K3 & K4 & K5 & K6 & K7); [rewrite <- L; apply nth_error_Some; congruence|].
      assert (Er : r = i0) by (apply Nat2Z.inj; congruence). subst r. rewrite Hi in K5. assert (q = (x, y, z, b)) by congruence. subst q. exact K2.
  Qed.

  Lemma moved_input1 CF s : provides CF s pc -> asks_any s = true -> asks s "P" "p" = false ->
    exists o1 idx o1' idx' x x', build_octree normalize o pc = Ok (o1, idx) /\ build_octree normalize o (moved_cloud e t pc) = Ok (o1', idx') /\
      moved e (shift e t) o1 o1' /\ get_input_feature CF o1 s true = Ok x /\ get_input_feature CF o1' s true = Ok x' /\
      shape (node_count o1 (depth o) true) (channels s CF) x /\ shape (node_count o1' (depth o) true) (channels s CF) x' /\
      carried true (shift e t) o1 o1' (depth o) x x' /\
      exists y flags y' flags', get_input_feature CF o1 s false = Ok y /\ nempty_mask o1 (Z.of_nat (depth o)) = Ok flags /\ shape (node_count o1 (depth o) false) (channels s CF) y /\
        octree_depad y o1 (Z.of_nat (depth o)) = Ok x /\ (forall i, nth_error flags i = Some false -> nth_error y i = Some (repeat 0%Qc (channels s CF))) /\
        get_input_feature CF o1' s false = Ok y' /\ nempty_mask o1' (Z.of_nat (depth o)) = Ok flags' /\ shape (node_count o1' (depth o) false) (channels s CF) y' /\
        octree_depad y' o1' (Z.of_nat (depth o)) = Ok x' /\ (forall i, nth_error flags' i = Some false -> nth_error y' i = Some (repeat 0%Qc (channels s CF))).
  Proof.
    intros HP Hs HN. destruct built_moved as (o1 & idx & o1' & idx' & E & E' & HM).
    destruct (feature_built normalize o pc CF s HB HI HP Hs) as (a1 & a2 & x & F & X1 & X2 & X3 & y & flags & Y1 & Y2 & Y3 & Y4 & Y5). assert (a1 = o1 /\ a2 = idx) as [-> ->] by (split; congruence).
    destruct (feature_built normalize o (moved_cloud e t pc) CF s good' HI' HP Hs) as (a1 & a2 & x' & F' & X1' & X2' & X3' & y' & flags' & Y1' & Y2' & Y3' & Y4' & Y5'). assert (a1 = o1' /\ a2 = idx') as [-> ->] by (split; congruence).
    exists o1, idx, o1', idx', x, x'. do 7 (split; [assumption|]). split; [|exists y, flags, y', flags'; auto 12].
    intros cs cs' i j q Ec Ec' Hi Hj.
    destruct (thm_build_wf normalize o pc HB) as (c1 & c2 & Y & W & D1 & _). assert (c1 = o1) by congruence. subst c1.
    destruct (thm_build_wf normalize o _ good') as (c1 & c3 & Y' & W' & D1' & _). assert (c1 = o1') by congruence. subst c1.
    destruct (cells0 e (shift e t) o1 o1' HM W W' true (depth o) ltac:(lia)) as (k1 & k2 & Q1 & Q2 & L1 & L2 & _). assert (k1 = cs) by congruence. subst k1. assert (k2 = cs') by congruence. subst k2.
    assert (Li : (i < length cs)%nat) by (apply nth_error_Some; congruence). assert (Lj : (j < length cs')%nat) by (apply nth_error_Some; congruence).
    destruct (X3 i ltac:(lia)) as (-> & Hne). destruct (X3' j ltac:(lia)) as (-> & _).
    destruct (idx_moved o1 idx o1' idx' cs cs' i j q E E' Ec Ec' Hi Hj) as (I1 & I2 & I3 & I4).
    assert (SR : forall {A} (src : list A), length src = length (p_points pc) -> rows_at idx' (Z.of_nat j) src = rows_at idx (Z.of_nat i) src).
    { intros A src L. rewrite (tag_rows (fun a => a) (Z.of_nat i) (Z.of_nat j) idx idx' src src); [apply map_id|congruence|congruence|congruence|exact I3|]. intros r a _ Ha. exact Ha. }
    f_equal. destruct (bi_cloud _ _ HB) as [_ _ _ A4 A5].
    replace (row_normal normalize s (moved_cloud e t pc) idx' j) with (row_normal normalize s pc idx i).
    2:{ unfold row_normal. cbn [moved_cloud p_normals]. destruct (p_normals pc) as [nn|]; [|reflexivity]. rewrite SR by (apply A4; reflexivity). reflexivity. }
    replace (row_feature s CF (moved_cloud e t pc) idx' j) with (row_feature s CF pc idx i).
    2:{ unfold row_feature. cbn [moved_cloud p_features]. destruct (p_features pc) as [ff|]; [|reflexivity]. rewrite SR by (apply A5; reflexivity). reflexivity. }
    assert (RP : row_point (depth o) (moved_cloud e t pc) idx' j = v3add (units (depth o) e (t (sample_of q))) (row_point (depth o) pc idx i)).
    { unfold row_point. rewrite (tag_rows (v3add (units (depth o) e (t (sample_of q)))) (Z.of_nat i) (Z.of_nat j) idx idx' (map (in_cell_units (depth o)) (p_points pc))).
      - apply mean3_move. intros E0. apply Hne. clear -E0. unfold rows_at in *. revert E0. generalize (p_points pc) as ps, idx as ix. induction ps as [|p ps IH]; intros [|k ix] E0; try reflexivity.
        cbn [map combine filter fst] in *. destruct (k =? Z.of_nat i); [discriminate|]. apply IH. exact E0.
      - congruence.
      - rewrite map_length. congruence.
      - rewrite map_length, pts_len. congruence.
      - exact I3.
      - intros r a Hr Ha. rewrite nth_error_map in Ha |- *. destruct (nth_error (p_points pc) r) as [p|] eqn:Ep; [|discriminate]. cbn [option_map] in Ha. injection Ha as <-.
        rewrite (pts_nth r p _ Ep (I4 r Hr)). cbn [option_map]. f_equal. apply units_move. lia. }
    rewrite RP. unfold feature_row. rewrite HN.
    replace (v3map local_coord (v3add (units (depth o) e (t (sample_of q))) (row_point (depth o) pc idx i))) with (v3map local_coord (row_point (depth o) pc idx i)); [reflexivity|].
    destruct (t (sample_of q)) as [[u v] w], (row_point (depth o) pc idx i) as [[a b] c]. unfold units, v3add. cbn [v3map v3zip]. rewrite !local_move. reflexivity.
  Qed.

  Theorem thm_moved_input CF s ne : (ne = false -> (e < depth o)%nat) -> provides CF s pc -> asks_any s = true -> asks s "P" "p" = false ->
    exists o1 idx o1' idx' x x', build_octree normalize o pc = Ok (o1, idx) /\ build_octree normalize o (moved_cloud e t pc) = Ok (o1', idx') /\
      moved e (shift e t) o1 o1' /\ get_input_feature CF o1 s ne = Ok x /\ get_input_feature CF o1' s ne = Ok x' /\
      shape (node_count o1 (depth o) ne) (channels s CF) x /\ shape (node_count o1' (depth o) ne) (channels s CF) x' /\
      carried ne (shift e t) o1 o1' (depth o) x x'.
  Proof.
    intros Hne HP Hs HN. destruct (moved_input1 CF s HP Hs HN) as (o1 & idx & o1' & idx' & x & x' & E & E' & HM & X1 & X1' & X2 & X2' & Car & y & flags & y' & flags' &
      Y1 & Y2 & Y3 & Y4 & Y5 & Y1' & Y2' & Y3' & Y4' & Y5').
    destruct ne; [exists o1, idx, o1', idx', x, x'; auto 12|]. exists o1, idx, o1', idx', y, y'. do 7 (split; [assumption|]). specialize (Hne eq_refl).
    intros ca ca' i j q Ea Ea' Hi Hj.
    destruct (thm_build_wf normalize o pc HB) as (c1 & c2 & Y & W & D1 & _). assert (c1 = o1) by congruence. subst c1.
    destruct (thm_build_wf normalize o _ good') as (c1 & c3 & Y' & W' & D1' & _). assert (c1 = o1') by congruence. subst c1.
    destruct (cells e (shift e t) (fun v => v) o1 o1' true e ltac:(split; [lia|discriminate]) (thm_shift e t) HM W W' (depth o) ltac:(lia)) as (cs & cs' & Ec & Ec' & _ & _ & _ & _ & Hc).
    destruct (padded_rows o1 (depth o) flags y x cs ca i q W ltac:(lia) Y2 Y4 (proj1 Y3) Ec Ea Hi) as (P1 & P2).
    destruct (padded_rows o1' (depth o) flags' y' x' cs' ca' j _ W' ltac:(lia) Y2' Y4' (proj1 Y3') Ec' Ea' Hj) as (P1' & P2').
    destruct (in_dec cell_dec q cs) as [Hin|Hn].
    - pose proof (proj2 (Hc q) Hin) as Hin'. apply In_nth_error in Hin as (r & Hr). apply In_nth_error in Hin' as (r' & Hr').
      rewrite (P1 r Hr), (P1' r' Hr'). apply (Car cs cs' r r' q Ec Ec' Hr Hr').
    - rewrite Y5 by (apply P2; exact Hn). symmetry. apply Y5', P2'. intros Hx. apply Hn, Hc, Hx.
  Qed.
End MoveBuild.

(** ** the classification network *)
Theorem thm_fair_resnet_to renum sigma e s turn o o' ne mr P P' cin cout num stages dep x x' : motion_to renum e s turn -> moved e s o o' -> wf_octree o -> wf_octree o' ->
  permutes sigma (batch_size o) -> (forall i, (i < batch_size o)%nat -> renum (Z.of_nat i) = Z.of_nat (sigma i)) -> (forall b c, renum b = renum c -> b = c) ->
  fair_norms mr P -> kernels_turned turn P P' -> (forall p i c, (i < batch_size o)%nat -> p_mask P' p (sigma i) c = p_mask P p i c) ->
  (stages <= dep <= depth o)%nat -> (lowest ne e <= dep - stages)%nat -> (1 <= stages)%nat -> (1 <= num)%nat -> channel_ok cin ->
  (mr <= batch_size o)%nat -> layers_ready o ne mr (dep - stages + 1) dep -> layers_ready o' ne 0 (dep - stages + 1) dep -> poolable o ne (dep - stages) dep ->
  shape (node_count o dep ne) cin x -> shape (node_count o' dep ne) cin x' -> carried ne s o o' dep x x' ->
  exists y y', ResNet P cin cout num stages ne x o (Z.of_nat dep) = Ok y /\ ResNet P' cin cout num stages ne x' o' (Z.of_nat dep) = Ok y' /\ reordered sigma y y'.
Proof.
  intros HM HO W W' HS HSR HRI HP HT HMk Hdep He Hst Hnum Hc Hb HL HL' HPo Hx Hx' Hcar.
  apply (move_resnet_to e s turn o o' ne (lowest ne e) (lowest_ok ne e) HM HO W W' P P' mr HP HT); try assumption.
  - intros d Hd. apply HL. lia.
  - intros d Hd. pose proof (proj1 HO) as Ed. destruct (HL d ltac:(lia)) as (N & _). destruct (HL' d ltac:(lia)) as (N' & _).
    split; (split; [assumption|]; split; [lia|]; split; [assumption|]; split; [cbn; tauto|left; reflexivity]).
  - intros d Hd Hne. apply (HPo Hne). lia.
  - split; [exact Hx|]. split; [exact Hx'|exact Hcar].
Qed.
Theorem thm_fair_resnet e s turn o o' ne mr P P' cin cout num stages dep x x' : motion e s turn -> moved e s o o' -> wf_octree o -> wf_octree o' ->
  fair_norms mr P -> params_turned turn P P' -> (stages <= dep <= depth o)%nat -> (lowest ne e <= dep - stages)%nat -> (1 <= stages)%nat -> (1 <= num)%nat -> channel_ok cin ->
  (mr <= batch_size o)%nat -> layers_ready o ne mr (dep - stages + 1) dep -> layers_ready o' ne 0 (dep - stages + 1) dep -> poolable o ne (dep - stages) dep ->
  shape (node_count o dep ne) cin x -> shape (node_count o' dep ne) cin x' -> carried ne s o o' dep x x' ->
  exists y, ResNet P cin cout num stages ne x o (Z.of_nat dep) = Ok y /\ ResNet P' cin cout num stages ne x' o' (Z.of_nat dep) = Ok y.
Proof.
  intros HM HO W W' HP HT Hdep He Hst Hnum Hc Hb HL HL' HPo Hx Hx' Hcar.
  destruct (thm_fair_resnet_to (fun b => b) (fun i => i) e s turn o o' ne mr P P' cin cout num stages dep x x') as (y & y' & E & E' & H); try assumption.
  - apply permutes_id.
  - reflexivity.
  - auto.
  - apply turned_kernels, HT.
  - intros p i c _. apply (pt_mask _ _ _ HT).
  - apply reordered_id in H. subst y'. eauto.
Qed.

Lemma eval_fair P : eval_mode P -> fair_norms 0 P.
Proof. intros [H _] p C. destruct (H p C) as (f & Hf). exists (fun _ => f). split; [reflexivity|]. intros x _. apply Hf. Qed.
Theorem thm_moved_resnet e s turn o o' ne P P' cin cout num stages dep x x' : motion e s turn -> moved e s o o' -> wf_octree o -> wf_octree o' ->
  eval_mode P -> params_turned turn P P' -> (stages <= dep <= depth o)%nat -> (lowest ne e <= dep - stages)%nat -> (1 <= stages)%nat -> (1 <= num)%nat -> channel_ok cin ->
  layers_ready o ne 0 (dep - stages + 1) dep -> layers_ready o' ne 0 (dep - stages + 1) dep -> poolable o ne (dep - stages) dep ->
  shape (node_count o dep ne) cin x -> shape (node_count o' dep ne) cin x' -> carried ne s o o' dep x x' ->
  exists y, ResNet P cin cout num stages ne x o (Z.of_nat dep) = Ok y /\ ResNet P' cin cout num stages ne x' o' (Z.of_nat dep) = Ok y.
Proof. intros HM HO W W' HP HT Hdep He Hst Hnum Hc HL HL'. apply (thm_fair_resnet e s turn o o' ne 0 P P'); try assumption; [apply eval_fair, HP|lia]. Qed.

Theorem thm_fair_classes normalize o pc e t ne mr CF s P cin cout num stages : build_input o pc -> (1 <= full_depth o)%nat ->
  Forall in_box (p_points pc) -> Forall in_box (p_points (moved_cloud e t pc)) -> provides CF s pc -> asks_any s = true -> asks s "P" "p" = false ->
  channels s CF = cin -> channel_ok cin -> fair_norms mr P -> (1 <= stages)%nat -> (1 <= num)%nat -> (full_depth o <= e)%nat -> (lowest ne e + stages <= depth o)%nat ->
  (forall o1 idx o2, build_octree normalize o pc = Ok (o1, idx) -> construct_all_neigh o1 = Ok o2 ->
     (mr <= batch_size o2)%nat /\ forall d, (depth o - stages < d <= depth o)%nat -> (mr <= node_count o2 d ne)%nat) ->
  let run pc := '(o1, _) <- build_octree normalize o pc ;; o2 <- construct_all_neigh o1 ;; x <- get_input_feature CF o2 s ne ;;
    ResNet P cin cout num stages ne x o2 (Z.of_nat (depth o)) in
  exists y, run pc = Ok y /\ run (moved_cloud e t pc) = Ok y.
Proof.
  intros HB Hf HI HI' HP Hs HN Hch Hc HE Hst Hnum He Hd HK. cbv zeta. pose proof (lowest_ok ne e) as (Hlo1 & Hlo2).
  destruct (thm_moved_input normalize o pc e t HB HI HI' ltac:(lia) CF s ne ltac:(intros Hx; specialize (Hlo2 Hx); lia) HP Hs HN) as (o1 & idx & o1' & idx' & x & x' & E & E' & HM & X & X' & Sx & Sx' & Car).
  destruct (thm_built_ready normalize o pc HB Hf) as (a1 & a2 & o2 & F & G & W & D1 & D2 & D3 & RP). assert (a1 = o1) by congruence. subst a1.
  destruct (thm_built_ready normalize o _ (good' o pc e t HB ltac:(lia)) Hf) as (a1 & a3 & o2' & F' & G' & W' & D1' & D2' & D3' & RP'). assert (a1 = o1') by congruence. subst a1.
  destruct (thm_build_wf normalize o pc HB) as (b1 & b2 & Y & V & V1 & V2 & _). assert (b1 = o1) by congruence. subst b1.
  destruct (thm_build_wf normalize o _ (good' o pc e t HB ltac:(lia))) as (b1 & b3 & Y' & V' & V1' & V2' & _). assert (b1 = o1') by congruence. subst b1.
  destruct (thm_all_neigh o1 V ltac:(lia)) as (c1 & C1 & SD & _). assert (c1 = o2) by congruence. subst c1.
  destruct (thm_all_neigh o1' V' ltac:(lia)) as (c1 & C1' & SD' & _). assert (c1 = o2') by congruence. subst c1.
  assert (NC : forall a b d, same_data a b -> node_count b d ne = node_count a d ne).
  { intros a b d (_ & _ & _ & _ & S). unfold node_count. pose proof (forall2_nth _ _ _ d S) as Q. destruct (nth_error (layers a) d), (nth_error (layers b) d); try contradiction; [|reflexivity].
    destruct Q as (_ & _ & _ & _ & _ & -> & -> & _). reflexivity. }
  destruct (HK o1 idx o2 E G) as (Kb & Kn). destruct (thm_fair_resnet e (shift e t) (fun v => v) o2 o2' ne mr P P cin cout num stages (depth o) x x') as (y & R1 & R2); try assumption; try lia.
  - apply thm_shift.
  - destruct HM as (M1 & M2 & M3). split; [congruence|]. split; [congruence|]. intros d cs cs' Hd'. rewrite (same_xyzb o1 o2), (same_xyzb o1' o2') by assumption. apply M3. lia.
  - constructor; intros; try reflexivity. eauto.
  - intros d Hd'. split; [apply (RP ne); lia|apply Kn; lia].
  - intros d Hd'. apply (RP' ne). lia.
  - intros Hx d Hd'. apply (proj2 (RP ne) Hx). lia.
  - rewrite (NC o1) by assumption. congruence.
  - rewrite (NC o1') by assumption. congruence.
  - intros cs cs' i j q. rewrite (same_xyzb o1 o2), (same_xyzb o1' o2') by assumption. apply Car.
  - exists y. rewrite E, E'. cbn [bind]. rewrite G, G'. cbn [bind]. rewrite (same_feature CF o1 o2), (same_feature CF o1' o2') by assumption. rewrite X, X'. cbn [bind]. auto.
Qed.
Theorem thm_moved_classes normalize o pc e t ne CF s P cin cout num stages : build_input o pc -> (1 <= full_depth o)%nat ->
  Forall in_box (p_points pc) -> Forall in_box (p_points (moved_cloud e t pc)) -> provides CF s pc -> asks_any s = true -> asks s "P" "p" = false ->
  channels s CF = cin -> channel_ok cin -> eval_mode P -> (1 <= stages)%nat -> (1 <= num)%nat -> (full_depth o <= e)%nat -> (lowest ne e + stages <= depth o)%nat ->
  let run pc := '(o1, _) <- build_octree normalize o pc ;; o2 <- construct_all_neigh o1 ;; x <- get_input_feature CF o2 s ne ;;
    ResNet P cin cout num stages ne x o2 (Z.of_nat (depth o)) in
  exists y, run pc = Ok y /\ run (moved_cloud e t pc) = Ok y.
Proof.
  intros HB Hf HI HI' HP Hs HN Hch Hc HE Hst Hnum He Hd. apply (thm_fair_classes normalize o pc e t ne 0); try assumption; [apply eval_fair, HE|].
  intros. split; [lia|intros; lia].
Qed.
