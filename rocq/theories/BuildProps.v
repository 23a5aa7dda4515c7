(** Properties of built octrees: occupied cells, point map, averages, order. *)
From Coq Require Import List ZArith Bool Lia Lqa Field Sorting.Sorted Sorting.Permutation QArith Qcanon.
From Verif Require Import Res Tensor Key Num Points Octree Spec SpecGeo WF KeyFacts ListFacts KidsFacts
  NumFacts ScatterFacts BuildFacts BuildClosed WFFacts SearchFacts.
Import ListNotations.
Open Scope Z_scope.

(** ** cells at coarser depths *)

Lemma slab_half d x c : in_slab (S d) x c -> in_slab d (x / 2) c.
Proof.
  rewrite !slab_scaled. intros [H1 H2].
  assert (E : q2pow (Z.of_nat (S d) - 1) = (qz 2 * q2pow (Z.of_nat d - 1))%Qc).
  { rewrite <- q2pow_S. f_equal. lia. }
  rewrite E in *. set (s := ((c + 1) * q2pow (Z.of_nat d - 1))%Qc) in *.
  replace ((c + 1) * (qz 2 * q2pow (Z.of_nat d - 1)))%Qc with (qz 2 * s)%Qc in * by (unfold s; ring).
  clearbody s. pose proof (Z.div_mod x 2 ltac:(lia)) as Ex. pose proof (Z.mod_pos_bound x 2 ltac:(lia)) as Hx.
  assert (H3 : (qz (2 * (x / 2)) <= qz x)%Qc) by (apply qz_le; lia).
  assert (H4 : (qz (x + 1) <= qz (2 * (x / 2 + 1)))%Qc) by (apply qz_le; lia).
  rewrite qz_mul in H3, H4. set (h := qz (x / 2)) in *. set (h' := qz (x / 2 + 1)) in *. clearbody h h'.
  set (a := qz x) in *. set (b := qz (x + 1)) in *. clearbody a b.
  split; qclra.
Qed.

Lemma cellc_half d c : in_unit c -> cellc (S d) c / 2 = cellc d c.
Proof.
  intros H. symmetry. apply cellc_slab; [exact H|]. apply slab_half. apply cellc_slab; [exact H|reflexivity].
Qed.

Lemma cell_key_parent d p b : (d < 16)%nat -> in_box p -> parent (cell_key (S d) p b) = cell_key d p b.
Proof.
  intros Hd H. destruct p as [[x y] z]. destruct H as (Hx & Hy & Hz). unfold cell_key.
  rewrite parent_key_of by exact Hd. rewrite !cellc_half by assumption. reflexivity.
Qed.

Lemma in_NE dep pc d k : (dep <= 16)%nat -> (d <= dep)%nat -> Forall in_box (p_points pc) ->
  (In k (NE dep pc d) <->
   exists p b, In (p, b) (combine (p_points pc) (point_batches pc)) /\ cell_key d p b = k).
Proof.
  intros H16 Hd Hbox. remember (dep - d)%nat as n eqn:En. revert d k Hd En.
  induction n as [|n IH]; intros d k Hd En.
  - replace d with dep by lia. rewrite NE_top. unfold cells. rewrite sort_uniq_In. apply in_cloud_keys.
  - rewrite NE_parent by lia. rewrite in_parents. split.
    + intros (k' & Hk' & <-). apply IH in Hk'; [|lia..]. destruct Hk' as (p & b & Hin & <-).
      exists p, b. split; [exact Hin|]. symmetry. apply cell_key_parent; [lia|].
      rewrite Forall_forall in Hbox. apply Hbox. eapply in_combine_l; exact Hin.
    + intros (p & b & Hin & <-). exists (cell_key (S d) p b). split.
      * apply IH; [lia|lia|]. exists p, b. auto.
      * apply cell_key_parent; [lia|]. rewrite Forall_forall in Hbox. apply Hbox. eapply in_combine_l; exact Hin.
Qed.

(** ** sums *)

Lemma v3add_comm a b : v3add a b = v3add b a.
Proof. destruct a as [[? ?] ?], b as [[? ?] ?]. unfold v3add, v3zip. apply f_equal2; [apply f_equal2|]; ring. Qed.
Lemma v3add_assoc a b c : v3add a (v3add b c) = v3add (v3add a b) c.
Proof. destruct a as [[? ?] ?], b as [[? ?] ?], c as [[? ?] ?]. unfold v3add, v3zip. apply f_equal2; [apply f_equal2|]; ring. Qed.
Lemma v3add_0 a : v3add v3zero a = a.
Proof. destruct a as [[? ?] ?]. unfold v3add, v3zip, v3zero. apply f_equal2; [apply f_equal2|]; ring. Qed.
Lemma vadd_comm a : forall b, vadd a b = vadd b a.
Proof. induction a as [|x a IH]; intros [|y b]; cbn; try reflexivity. rewrite IH. f_equal. ring. Qed.
Lemma vadd_assoc a : forall b c, vadd a (vadd b c) = vadd (vadd a b) c.
Proof. induction a as [|x a IH]; intros [|y b] [|z c]; cbn; try reflexivity. rewrite IH. f_equal. ring. Qed.

Lemma fold_left_right {A} (add : A -> A -> A) :
  (forall a b, add a b = add b a) -> (forall a b c, add a (add b c) = add (add a b) c) ->
  forall l z, fold_left add l z = fold_right add z l.
Proof.
  intros C As. induction l as [|a l IH]; intros z; cbn [fold_left fold_right]; [reflexivity|].
  rewrite <- IH. clear IH. revert z a. induction l as [|b l IH]; intros z a; cbn [fold_left]; [apply C|].
  rewrite <- IH. f_equal. rewrite <- !As. f_equal. apply C.
Qed.

Lemma fold_right_perm {A} (add : A -> A -> A) z l l' :
  (forall a b, add a b = add b a) -> (forall a b c, add a (add b c) = add (add a b) c) ->
  Permutation l l' -> fold_right add z l = fold_right add z l'.
Proof.
  intros C As P. induction P; cbn; [reflexivity|congruence| |congruence].
  rewrite !As. f_equal. apply C.
Qed.

Lemma sum3_fold l : fold_left v3add l v3zero = sum3 l.
Proof. apply fold_left_right; [apply v3add_comm|apply v3add_assoc]. Qed.
Lemma sumv_fold c l : fold_left vadd l (vzero c) = sumv c l.
Proof. apply fold_left_right; [apply vadd_comm|apply vadd_assoc]. Qed.

Lemma group_count_rows {A} key k (src : list A) : length src = length key ->
  group_count key k = Z.of_nat (length (rows_at key k src)).
Proof.
  unfold group_count, rows_at, zlen. rewrite map_length. intros H. f_equal.
  revert src H; induction key as [|a key IH]; intros [|s src] H; try discriminate; [reflexivity|].
  injection H as H. cbn [filter combine fst]. rewrite (Z.eqb_sym a k). destruct (k =? a); cbn [length]; rewrite (IH src H); reflexivity.
Qed.

(** ** the specification of one build *)
Section Build.
  Variables (normalize : v3 Qc -> v3 Qc) (o : octree) (pc : pcloud Qc).
  Hypothesis Hf : (full_depth o <= depth o)%nat.
  Hypothesis H16 : (depth o <= 16)%nat.
  Hypothesis HB : Z.of_nat (batch_size o) <= 32768.
  Hypothesis Hlen : length (layers o) = S (depth o).
  Hypothesis G : good_cloud (batch_size o) pc.

  Lemma build_wf : exists o' idx, build_octree normalize o pc = Ok (o', idx) /\ wf_octree o' /\
    depth o' = depth o /\ full_depth o' = full_depth o /\ batch_size o' = batch_size o /\ device o' = p_device pc.
  Proof.
    destruct (built_tree normalize o pc Hf H16 HB Hlen G) as (o' & E & Hd & Hfd & Hbs & Hdev & T & _).
    eexists _, _. split; [exact E|]. split; [|auto]. eexists _, _. rewrite Hd. exact T.
  Qed.

  Lemma coords_in_NE ks d x y z b : (d <= depth o)%nat -> sorted ks -> Forall (vkey (batch_size o) d) ks ->
    (In (x, y, z, b) (map (coords d) ks) <-> in_cube d x y z /\ In (key_of d b x y z) ks).
  Proof.
    intros Hd Hs Hv. rewrite Forall_forall in Hv. rewrite in_map_iff. split.
    - intros (k & E & Hk). destruct (coords_key_of (batch_size o) d k x y z b ltac:(lia) (Hv _ Hk) E) as (-> & Hc & _). auto.
    - intros [Hc Hk]. eexists. split; [|exact Hk]. apply coords_of_key; [lia|exact Hc].
  Qed.

  Hypothesis Hbox : Forall in_box (p_points pc).

  Lemma occupied d x y z b : (d <= depth o)%nat ->
    (In (x, y, z, b) (map (coords d) (NE (depth o) pc d)) <->
     exists p, In (p, b) (combine (p_points pc) (point_batches pc)) /\ in_cell d x y z p).
  Proof.
    intros Hd. destruct (NE_ok _ _ _ d G H16 Hd) as [Hs Hv].
    rewrite coords_in_NE by assumption. rewrite in_NE by assumption. split.
    - intros (Hc & p & b' & Hin & E). exists p.
      assert (Hp : in_box p) by (rewrite Forall_forall in Hbox; apply Hbox; eapply in_combine_l; exact Hin).
      apply cell_key_cell in E; [|lia|exact Hp|exact Hc]. destruct E as [-> E]. auto.
    - intros (p & Hin & Hp).
      assert (Hpb : in_box p) by (rewrite Forall_forall in Hbox; apply Hbox; eapply in_combine_l; exact Hin).
      assert (Hc : in_cube d x y z).
      { destruct p as [[px py] pz]. pose proof (cellc_cube d _ _ _ Hpb) as Hc.
        destruct Hpb as (U1 & U2 & U3), Hp as (P1 & P2 & P3).
        apply cellc_slab in P1, P2, P3; [|assumption..]. subst. exact Hc. }
      split; [exact Hc|]. exists p, b. split; [exact Hin|]. apply cell_key_cell; [lia|exact Hpb|exact Hc|auto].
  Qed.

  (** C09 and C12: non-empty nodes of the layers full_depth..depth *)
  Lemma build_occupied d : (full_depth o <= d <= depth o)%nat ->
    exists o' idx ks cs, build_octree normalize o pc = Ok (o', idx) /\
      octree_key o' (Z.of_nat d) true = Ok ks /\ sorted ks /\
      octree_xyzb o' d true = Ok cs /\ length cs = length ks /\ NoDup cs /\
      forall x y z b, In (x, y, z, b) cs <->
        exists p, In (p, b) (combine (p_points pc) (point_batches pc)) /\ in_cell d x y z p.
  Proof.
    intros Hd. destruct (built_tree normalize o pc Hf H16 HB Hlen G) as (o' & E & Hd' & Hfd & Hbs & _ & T & _).
    assert (W : wf_octree o') by (eexists _, _; rewrite Hd'; exact T).
    eexists o', _, _, _. split; [exact E|].
    split; [apply (tree_key o' _ _ _ T); lia|].
    split; [apply (sel_sorted o' _ _ _ T); lia|].
    assert (Ex := tree_xyzb o' _ _ _ d true T ltac:(lia)).
    split; [exact Ex|]. split; [apply map_length|].
    split.
    - destruct (wf_search_xyzb o' d true [] W ltac:(lia) (Forall_nil _)) as (cs & r & E1 & HN & _).
      rewrite Ex in E1. injection E1 as <-. exact HN.
    - intros x y z b. cbn [sel]. rewrite bM_select by (assumption || lia). apply occupied. lia.
  Qed.

  (** C12: layers up to full_depth are complete *)
  Lemma build_complete d : (d <= full_depth o)%nat ->
    exists o' idx cs, build_octree normalize o pc = Ok (o', idx) /\
      octree_xyzb o' d false = Ok cs /\ length cs = (8 ^ d * batch_size o)%nat /\
      forall x y z b, In (x, y, z, b) cs <-> in_cube d x y z /\ 0 <= b < Z.of_nat (batch_size o).
  Proof.
    intros Hd. destruct (built_tree normalize o pc Hf H16 HB Hlen G) as (o' & E & Hd' & Hfd & Hbs & _ & T & _).
    eexists o', _, _. split; [exact E|].
    split; [apply (tree_xyzb o' _ _ _ d false T); lia|]. cbn [sel].
    rewrite (t_grid _ _ _ _ T) by lia. rewrite Hbs. rewrite map_length, full_grid_length. split; [reflexivity|].
    intros x y z b. rewrite coords_in_NE; [|lia|apply full_grid_sorted; lia|apply Forall_forall; intros k; apply in_full_grid].
    rewrite in_full_grid, vkey_valid. unfold valid_key. split.
    - intros (Hc & b' & x' & y' & z' & Hb & Hc' & Ek). apply key_of_inj in Ek; [|lia|assumption..].
      destruct Ek as (-> & _). auto.
    - intros [Hc Hb]. split; [exact Hc|]. exists b, x, y, z. auto.
  Qed.

  (** C12: below full_depth every node is non-empty *)
  Lemma build_full_nempty d : (d < full_depth o)%nat ->
    exists o' idx m, build_octree normalize o pc = Ok (o', idx) /\ nempty_mask o' (Z.of_nat d) = Ok m /\
      m = repeat true (8 ^ d * batch_size o).
  Proof.
    intros Hd. destruct (built_tree normalize o pc Hf H16 HB Hlen G) as (o' & E & Hd' & Hfd & Hbs & _ & T & _).
    eexists o', _, _. split; [exact E|]. split; [apply (tree_mask o' _ _ _ T); lia|].
    rewrite (tree_full_mask o' _ _ _ T) by lia. rewrite (t_grid _ _ _ _ T) by lia.
    rewrite full_grid_length, Hbs. reflexivity.
  Qed.

  (** C10 *)
  Lemma combine_nth {A B} (l : list A) (m : list B) i a b :
    nth_error l i = Some a -> nth_error m i = Some b -> nth_error (combine l m) i = Some (a, b).
  Proof.
    revert m i; induction l as [|x l IH]; intros [|y m] [|i]; cbn; try discriminate; [congruence|]. apply IH.
  Qed.

  Lemma build_point_map : exists o' idx cs, build_octree normalize o pc = Ok (o', idx) /\
      octree_xyzb o' (depth o) true = Ok cs /\ length idx = length (p_points pc) /\
      forall i p b e, nth_error (p_points pc) i = Some p -> nth_error (point_batches pc) i = Some b ->
        nth_error idx i = Some e ->
        exists x y z, 0 <= e /\ nth_error cs (Z.to_nat e) = Some (x, y, z, b) /\ in_cell (depth o) x y z p.
  Proof.
    destruct (built_tree normalize o pc Hf H16 HB Hlen G) as (o' & E & Hd' & Hfd & Hbs & _ & T & _).
    eexists o', _, _. split; [exact E|]. split; [apply (tree_xyzb o' _ _ _ (depth o) true T); lia|].
    split. { unfold inverse_of. rewrite map_length. apply (cloud_keys_length _ _ _ G). }
    intros i p b e Hp Hb He. cbn [sel]. rewrite bM_select by (assumption || lia). rewrite NE_top.
    assert (Hk : nth_error (cloud_keys (depth o) pc) i = Some (cell_key (depth o) p b)).
    { unfold cloud_keys. apply zip_with_nth; assumption. }
    destruct (inverse_nth _ _ _ _ Hk He) as [H0 H1]. fold (cells (depth o) pc) in H1.
    assert (Hpb : in_box p) by (rewrite Forall_forall in Hbox; apply Hbox; eapply nth_error_In; exact Hp).
    destruct p as [[px py] pz]. pose proof (cellc_cube (depth o) _ _ _ Hpb) as Hc.
    exists (cellc (depth o) px), (cellc (depth o) py), (cellc (depth o) pz).
    split; [exact H0|]. split.
    - rewrite nth_error_map, H1. cbn [option_map cell_key]. rewrite coords_of_key by assumption. reflexivity.
    - apply (cell_key_cell (depth o) (px, py, pz) b b); [exact H16|exact Hpb|exact Hc|reflexivity].
  Qed.
End Build.

(** ** C14 *)
Section Signals.
  Variables (normalize : v3 Qc -> v3 Qc) (o : octree) (pc : pcloud Qc).
  Hypothesis Hf : (full_depth o <= depth o)%nat.
  Hypothesis H16 : (depth o <= 16)%nat.
  Hypothesis HB : Z.of_nat (batch_size o) <= 32768.
  Hypothesis Hlen : length (layers o) = S (depth o).
  Hypothesis G : good_cloud (batch_size o) pc.

  Lemma final_layer : exists o' l, build_octree normalize o pc = Ok (o', inverse_of (cloud_keys (depth o) pc)) /\
    get_layer o' (Z.of_nat (depth o)) = Ok l /\
    nnum_nempty l = Z.of_nat (length (cells (depth o) pc)) /\
    l_points l = Some (avg_points (depth o) pc) /\
    (forall n, p_normals pc = Some n -> l_normals l = Some (sum_normals normalize (depth o) pc n)) /\
    (forall f, p_features pc = Some f -> l_features l = Some (avg_features (depth o) pc f)).
  Proof.
    destruct (built_tree normalize o pc Hf H16 HB Hlen G) as (o' & E & Hd' & Hfd & Hbs & _ & T & Hn).
    destruct (nth_error (layers o) (depth o)) as [l0|] eqn:E0.
    2:{ apply nth_error_None in E0. lia. }
    specialize (Hn _ _ E0).
    destruct (tree_get o' _ _ _ T (depth o) (le_n _)) as (l & Eg & En & _ & _ & _ & Ene).
    rewrite Hn in En. injection En as <-.
    eexists o', _. split; [exact E|]. split; [exact Eg|].
    split. { rewrite Ene, nflag_count. rewrite <- (select_length _ (bK o pc (depth o))) by apply bM_length.
             rewrite bM_select by (assumption || lia). rewrite NE_top. reflexivity. }
    unfold built_layer. rewrite Nat.eqb_refl. unfold signal_layer.
    split; [|split].
    - destruct (p_normals pc), (p_features pc); reflexivity.
    - intros n Hnn. rewrite Hnn. destruct (p_features pc); reflexivity.
    - intros f Hff. rewrite Hff. reflexivity.
  Qed.

  Lemma rows_at_idx {A} (src : list A) e k : length src = length (p_points pc) ->
    nth_error (cells (depth o) pc) e = Some k ->
    rows_at (cloud_keys (depth o) pc) k src = rows_at (inverse_of (cloud_keys (depth o) pc)) (Z.of_nat e) src.
  Proof.
    intros Hl He. symmetry. apply rows_at_inverse; [|exact He].
    rewrite (cloud_keys_length _ _ _ G). exact Hl.
  Qed.

  Lemma build_signals : exists o' idx l, build_octree normalize o pc = Ok (o', idx) /\
    get_layer o' (Z.of_nat (depth o)) = Ok l /\
    (exists pts, l_points l = Some pts /\ Z.of_nat (length pts) = nnum_nempty l /\
       forall e q, nth_error pts e = Some q ->
         q = mean3 (rows_at idx (Z.of_nat e) (map (rescale (depth o)) (p_points pc))) /\
         (0 < length (rows_at idx (Z.of_nat e) (p_points pc)))%nat) /\
    (forall n, p_normals pc = Some n -> exists ns, l_normals l = Some ns /\ Z.of_nat (length ns) = nnum_nempty l /\
       forall e q, nth_error ns e = Some q -> q = normalize (sum3 (rows_at idx (Z.of_nat e) n))) /\
    (forall f, p_features pc = Some f -> exists fs, l_features l = Some fs /\ Z.of_nat (length fs) = nnum_nempty l /\
       forall e q, nth_error fs e = Some q -> q = meanv (width f) (rows_at idx (Z.of_nat e) f)).
  Proof.
    destruct final_layer as (o' & l & E & El & Ene & Ep & En & Ef).
    eexists o', _, l. split; [exact E|]. split; [exact El|].
    assert (HL : length (cloud_keys (depth o) pc) = length (p_points pc)) by apply (cloud_keys_length _ _ _ G).
    split; [|split].
    - eexists. split; [exact Ep|]. split; [unfold avg_points; rewrite map_length; symmetry; exact Ene|].
      intros e q Hq. unfold avg_points in Hq. rewrite nth_error_map in Hq.
      destruct (nth_error (cells (depth o) pc) e) as [k|] eqn:Ek; [|discriminate].
      cbn [option_map] in Hq. injection Hq as <-.
      rewrite <- !(rows_at_idx _ e k) by (rewrite ?map_length; auto).
      split.
      + unfold mean3. rewrite sum3_fold.
        rewrite (group_count_rows _ k (map (rescale (depth o)) (p_points pc))) by (rewrite map_length; symmetry; exact HL).
        reflexivity.
      + assert (Hin : In k (cloud_keys (depth o) pc)).
        { apply sort_uniq_In. eapply nth_error_In. exact Ek. }
        assert (0 < group_count (cloud_keys (depth o) pc) k).
        { unfold group_count, zlen. assert (In k (filter (Z.eqb k) (cloud_keys (depth o) pc))) by (apply filter_In; split; [exact Hin|apply Z.eqb_refl]).
          destruct (filter _ _); [contradiction|cbn [length]; lia]. }
        rewrite (group_count_rows _ k (p_points pc)) in H by (symmetry; exact HL). lia.
    - intros n Hn. eexists. split; [apply En; exact Hn|].
      split; [unfold sum_normals; rewrite map_length; symmetry; exact Ene|].
      intros e q Hq. unfold sum_normals in Hq. rewrite nth_error_map in Hq.
      destruct (nth_error (cells (depth o) pc) e) as [k|] eqn:Ek; [|discriminate].
      cbn [option_map] in Hq. injection Hq as <-. rewrite sum3_fold.
      rewrite (rows_at_idx _ e k) by (auto; apply (gc_normals _ _ G); exact Hn). reflexivity.
    - intros f Hff. eexists. split; [apply Ef; exact Hff|].
      split; [unfold avg_features; rewrite map_length; symmetry; exact Ene|].
      intros e q Hq. unfold avg_features in Hq. rewrite nth_error_map in Hq.
      destruct (nth_error (cells (depth o) pc) e) as [k|] eqn:Ek; [|discriminate].
      cbn [option_map] in Hq. injection Hq as <-.
      destruct (gc_features _ _ G f Hff) as [Hlf _].
      rewrite sumv_fold. unfold meanv.
      rewrite (group_count_rows _ k f) by congruence.
      rewrite !(rows_at_idx f e k) by assumption. reflexivity.
  Qed.
End Signals.

(** ** C15 *)
Lemma Qc_div_bounds (s n a b : Qc) : (0 < n)%Qc -> (a * n <= s)%Qc -> (s < b * n)%Qc -> (a <= s / n)%Qc /\ (s / n < b)%Qc.
Proof.
  intros Hn H1 H2. assert (Hn0 : n <> 0%Qc) by (intros ->; apply (Qclt_not_eq _ _ Hn); reflexivity).
  assert (E : (s = s / n * n)%Qc) by (field; exact Hn0). rewrite E in H1, H2.
  rewrite Qcmult_le_r in H1 by exact Hn. rewrite Qcmult_lt_r in H2 by exact Hn. auto.
Qed.

Lemma sum_bounds (l : list Qc) (a b : Qc) : l <> [] -> Forall (fun c => (a <= c)%Qc /\ (c < b)%Qc) l ->
  (a * qz (Z.of_nat (length l)) <= fold_right Qcplus 0 l)%Qc /\ (fold_right Qcplus 0 l < b * qz (Z.of_nat (length l)))%Qc.
Proof.
  intros Hne H. induction H as [|c l [H1 H2] Hl IH]; [congruence|].
  destruct l as [|c' l'].
  - cbn [fold_right length]. change (qz (Z.of_nat 1)) with 1%Qc. rewrite !Qcmult_1_r.
    replace (c + 0)%Qc with c by ring. auto.
  - destruct IH as [I1 I2]; [discriminate|]. set (l := c' :: l') in *. cbn [fold_right length].
    rewrite Nat2Z.inj_succ. unfold Z.succ. rewrite qz_add. change (qz 1) with 1%Qc.
    set (n := qz (Z.of_nat (length l))) in *. set (s := fold_right Qcplus 0%Qc l) in *.
    replace (a * (n + 1))%Qc with (a * n + a)%Qc by ring. replace (b * (n + 1))%Qc with (b * n + b)%Qc by ring.
    set (u := (a * n)%Qc) in *. set (v := (b * n)%Qc) in *. clearbody u v s.
    split; qclra.
Qed.

Definition comp (i : nat) (p : v3 Qc) : Qc := let '(x, y, z) := p in match i with 0%nat => x | 1%nat => y | _ => z end.
Lemma sum3_comp i l : comp i (sum3 l) = fold_right Qcplus 0%Qc (map (comp i) l).
Proof.
  unfold sum3. induction l as [|[[x y] z] l IH]; cbn [fold_right map].
  - destruct i as [|[|i]]; reflexivity.
  - rewrite <- IH. destruct (fold_right v3add v3zero l) as [[a b] c]. destruct i as [|[|i]]; reflexivity.
Qed.

Lemma mean3_cell l lo hi i : l <> [] -> Forall (fun p => (qz lo <= comp i p)%Qc /\ (comp i p < qz hi)%Qc) l ->
  (qz lo <= comp i (mean3 l))%Qc /\ (comp i (mean3 l) < qz hi)%Qc.
Proof.
  intros Hne H. unfold mean3.
  assert (E : comp i (v3map (fun s => (s / qz (Z.of_nat (length l)))%Qc) (sum3 l))
              = (comp i (sum3 l) / qz (Z.of_nat (length l)))%Qc).
  { destruct (sum3 l) as [[a b] c]. destruct i as [|[|i]]; reflexivity. }
  rewrite E, sum3_comp. apply Qc_div_bounds.
  - change (qz 0 < qz (Z.of_nat (length l)))%Qc. apply qz_lt. destruct l; [congruence|]. cbn [length]. lia.
  - rewrite <- (map_length (comp i) l). apply (sum_bounds _ _ (qz hi)).
    + destruct l; [congruence|discriminate].
    + apply Forall_forall. intros c Hc. apply in_map_iff in Hc. destruct Hc as (p & <- & Hp).
      rewrite Forall_forall in H. apply H; exact Hp.
  - rewrite <- (map_length (comp i) l). apply (sum_bounds _ (qz lo)).
    + destruct l; [congruence|discriminate].
    + apply Forall_forall. intros c Hc. apply in_map_iff in Hc. destruct Hc as (p & <- & Hp).
      rewrite Forall_forall in H. apply H; exact Hp.
Qed.

Section MeanCell.
  Variables (normalize : v3 Qc -> v3 Qc) (o : octree) (pc : pcloud Qc).
  Hypothesis Hf : (full_depth o <= depth o)%nat.
  Hypothesis H16 : (depth o <= 16)%nat.
  Hypothesis HB : Z.of_nat (batch_size o) <= 32768.
  Hypothesis Hlen : length (layers o) = S (depth o).
  Hypothesis G : good_cloud (batch_size o) pc.
  Hypothesis Hbox : Forall in_box (p_points pc).

  Lemma build_mean_cell : exists o' idx l pts cs, build_octree normalize o pc = Ok (o', idx) /\
    get_layer o' (Z.of_nat (depth o)) = Ok l /\ l_points l = Some pts /\
    octree_xyzb o' (depth o) true = Ok cs /\ length pts = length cs /\
    forall e qx qy qw x y z b, nth_error pts e = Some (qx, qy, qw) -> nth_error cs e = Some (x, y, z, b) ->
      qfloor qx = x /\ qfloor qy = y /\ qfloor qw = z /\ in_cube (depth o) x y z.
  Proof.
    destruct (final_layer normalize o pc Hf H16 HB Hlen G) as (o' & l & E & El & Ene & Ep & _).
    destruct (built_tree normalize o pc Hf H16 HB Hlen G) as (o'' & E' & Hd' & Hfd & Hbs & _ & T & _).
    rewrite E in E'. injection E' as <-.
    eexists o', _, l, _, _. split; [exact E|]. split; [exact El|]. split; [exact Ep|].
    split; [apply (tree_xyzb o' _ _ _ (depth o) true T); lia|]. cbn [sel].
    rewrite bM_select by (assumption || lia). rewrite NE_top.
    split; [unfold avg_points; rewrite !map_length; reflexivity|].
    intros e qx qy qw x y z b Hq Hc.
    unfold avg_points in Hq. rewrite nth_error_map in Hq, Hc.
    destruct (nth_error (cells (depth o) pc) e) as [k|] eqn:Ek; [|discriminate].
    cbn [option_map] in Hq, Hc.
    assert (HL : length (cloud_keys (depth o) pc) = length (p_points pc)) by apply (cloud_keys_length _ _ _ G).
    rewrite sum3_fold, (group_count_rows _ k (map (rescale (depth o)) (p_points pc))) in Hq by (rewrite map_length; symmetry; exact HL).
    fold (mean3 (rows_at (cloud_keys (depth o) pc) k (map (rescale (depth o)) (p_points pc)))) in Hq.
    set (R := rows_at _ _ _) in Hq.
    assert (Hv : vkey (batch_size o) (depth o) k).
    { destruct (cells_ok _ (depth o) pc G) as [_ Hv]. rewrite Forall_forall in Hv. apply Hv. eapply nth_error_In; exact Ek. }
    assert (Hc' : coords (depth o) k = (x, y, z, b)) by congruence.
    destruct (coords_key_of _ _ _ _ _ _ _ H16 Hv Hc') as (Hk & Hcube & Hb).
    assert (HR : R <> []).
    { assert (Hin : In k (cloud_keys (depth o) pc)) by (apply sort_uniq_In; eapply nth_error_In; exact Ek).
      assert (0 < group_count (cloud_keys (depth o) pc) k).
      { unfold group_count, zlen. assert (In k (filter (Z.eqb k) (cloud_keys (depth o) pc))) by (apply filter_In; split; [exact Hin|apply Z.eqb_refl]).
        destruct (filter _ _); [contradiction|cbn [length]; lia]. }
      rewrite (group_count_rows _ k (map (rescale (depth o)) (p_points pc))) in H by (rewrite map_length; symmetry; exact HL).
      fold R in H. destruct R; [cbn in H; lia|discriminate]. }
    assert (HRall : forall i p, In p R -> let v := match i with 0%nat => x | 1%nat => y | _ => z end in
              (qz v <= comp i p)%Qc /\ (comp i p < qz (v + 1))%Qc).
    { intros i p Hp. unfold R, rows_at in Hp. apply in_map_iff in Hp. destruct Hp as ([k' p'] & E1 & Hin).
      cbn [snd] in E1. subst p'. apply filter_In in Hin. destruct Hin as [Hin Ekk]. cbn [fst] in Ekk. apply Z.eqb_eq in Ekk. subst k'.
      apply In_nth_error in Hin. destruct Hin as [j Hj].
      assert (Hj1 : nth_error (cloud_keys (depth o) pc) j = Some k /\ nth_error (map (rescale (depth o)) (p_points pc)) j = Some p).
      { revert Hj. generalize (cloud_keys (depth o) pc) (map (rescale (depth o)) (p_points pc)). clear.
        intros l m; revert m j; induction l as [|a l IH]; intros [|c m] [|j]; cbn; try discriminate; [intros [= <- <-]; auto|apply IH]. }
      destruct Hj1 as [Hj1 Hj2]. rewrite nth_error_map in Hj2.
      destruct (nth_error (p_points pc) j) as [p0|] eqn:Ep0; [|discriminate]. cbn [option_map] in Hj2. injection Hj2 as <-.
      destruct (point_batches_ok _ _ G) as [Hbl _].
      destruct (nth_error (point_batches pc) j) as [b0|] eqn:Eb0.
      2:{ apply nth_error_None in Eb0. assert (j < length (p_points pc))%nat by (apply nth_error_Some; rewrite Ep0; discriminate). lia. }
      unfold cloud_keys in Hj1. rewrite (zip_with_nth _ _ _ _ _ _ Ep0 Eb0) in Hj1. injection Hj1 as Hj1.
      assert (Hpb : in_box p0) by (rewrite Forall_forall in Hbox; apply Hbox; eapply nth_error_In; exact Ep0).
      rewrite Hk in Hj1. apply cell_key_cell in Hj1; [|assumption..]. destruct Hj1 as [_ Hcell].
      destruct p0 as [[px py] pz]. destruct Hcell as (C1 & C2 & C3).
      apply slab_scaled in C1, C2, C3. destruct i as [|[|i]]; cbn [comp rescale v3map]; assumption. }
    injection Hq as Hq.
    assert (F : forall i, let v := match i with 0%nat => x | 1%nat => y | _ => z end in
              (qz v <= comp i (mean3 R))%Qc /\ (comp i (mean3 R) < qz (v + 1))%Qc).
    { intros i v. apply mean3_cell; [exact HR|]. apply Forall_forall. intros p Hp. apply (HRall i p Hp). }
    rewrite Hq in F.
    split; [apply qfloor_spec; apply (F 0%nat)|]. split; [apply qfloor_spec; apply (F 1%nat)|].
    split; [apply qfloor_spec; apply (F 2%nat)|exact Hcube].
  Qed.
End MeanCell.
