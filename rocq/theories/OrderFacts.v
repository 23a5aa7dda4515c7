(** The order of the points does not matter; the documented closed range. *)
From Coq Require Import List ZArith Bool Lia Lqa Field Sorting.Sorted Sorting.Permutation QArith Qcanon.
From Verif Require Import Res Tensor Key Num Points Octree Spec SpecGeo WF KeyFacts ListFacts KidsFacts
  NumFacts ScatterFacts BuildFacts BuildClosed WFFacts SearchFacts BuildProps.
Import ListNotations.
Open Scope Z_scope.

Section Reorder.
  Variables (order : list nat).

  Lemma reorder_map {A C} (f : A -> C) l : reorder order (map f l) = map f (reorder order l).
  Proof.
    unfold reorder. induction order as [|i t IH]; [reflexivity|]. cbn [flat_map]. rewrite map_app, <- IH.
    rewrite nth_error_map. destruct (nth_error l i); reflexivity.
  Qed.

  Lemma reorder_combine {A C} (l : list A) (m : list C) : length l = length m ->
    reorder order (combine l m) = combine (reorder order l) (reorder order m).
  Proof.
    intros H. unfold reorder. induction order as [|i t IH]; [reflexivity|]. cbn [flat_map]. rewrite IH.
    destruct (nth_error l i) as [a|] eqn:El.
    - destruct (nth_error m i) as [c|] eqn:Em.
      + rewrite (combine_nth _ _ _ _ _ El Em). reflexivity.
      + apply nth_error_None in Em. assert (i < length l)%nat by (apply nth_error_Some; congruence). lia.
    - assert (Em : nth_error m i = None) by (apply nth_error_None; apply nth_error_None in El; lia).
      assert (Ec : nth_error (combine l m) i = None).
      { apply nth_error_None. rewrite combine_length. apply nth_error_None in El. lia. }
      rewrite Em, Ec. reflexivity.
  Qed.

  Lemma reorder_const {A} (a : A) m : (forall i, In i order -> (i < m)%nat) ->
    reorder order (repeat a m) = repeat a (length order).
  Proof.
    unfold reorder. induction order as [|i t IH]; intros H; [reflexivity|]. cbn [flat_map length repeat].
    rewrite nth_error_repeat by (apply H; left; reflexivity). cbn [app]. f_equal. apply IH. intros j Hj; apply H; right; exact Hj.
  Qed.

  Variable n : nat.
  Hypothesis Hperm : Permutation order (seq 0 n).

  Lemma reorder_perm {A} (l : list A) : length l = n -> Permutation (reorder order l) l.
  Proof.
    intros H. transitivity (reorder (seq 0 n) l).
    - unfold reorder. apply Permutation_flat_map. exact Hperm.
    - subst n. clear Hperm. unfold reorder. induction l as [|a l IH]; [constructor|].
      cbn [length seq flat_map nth_error app]. constructor.
      rewrite <- seq_shift, flat_map_map. exact IH.
  Qed.
  Lemma reorder_length {A} (l : list A) : length l = n -> length (reorder order l) = n.
  Proof. intros H. transitivity (length l); [apply Permutation_length, reorder_perm, H|exact H]. Qed.

  Lemma sort_uniq_perm l m : Permutation l m -> sort_uniq l = sort_uniq m.
  Proof.
    intros P. apply sorted_unique; [apply sort_uniq_sorted..|]. intros a. rewrite !sort_uniq_In.
    split; apply Permutation_in; [exact P|apply Permutation_sym; exact P].
  Qed.

  Lemma rows_at_perm {A} (key key' : list Z) (k : Z) (src src' : list A) :
    Permutation (combine key src) (combine key' src') -> Permutation (rows_at key k src) (rows_at key' k src').
  Proof.
    intros P. unfold rows_at. apply Permutation_map.
    induction P; cbn [filter]; [constructor| | |]; try (etransitivity; eassumption).
    - destruct (fst x =? k); [constructor|]; exact IHP.
    - destruct (fst x =? k), (fst y =? k); try constructor; try reflexivity; try apply Permutation_refl.
  Qed.

  Lemma rows_reorder {A} key k (src : list A) : length key = n -> length src = n ->
    Permutation (rows_at (reorder order key) k (reorder order src)) (rows_at key k src).
  Proof.
    intros H1 H2. apply rows_at_perm. rewrite <- reorder_combine by congruence. apply reorder_perm.
    rewrite combine_length. lia.
  Qed.

  Lemma fold_perm {A} (add : A -> A -> A) z l l' :
    (forall a b, add a b = add b a) -> (forall a b c, add a (add b c) = add (add a b) c) ->
    Permutation l l' -> fold_left add l z = fold_left add l' z.
  Proof. intros C As P. rewrite !fold_left_right by assumption. apply fold_right_perm; assumption. Qed.

  Lemma group_count_perm key key' k : Permutation key key' -> group_count key k = group_count key' k.
  Proof.
    intros P. unfold group_count, zlen. f_equal.
    induction P; cbn [filter]; [reflexivity| | |congruence].
    - destruct (k =? x); cbn [length]; congruence.
    - destruct (k =? x), (k =? y); reflexivity.
  Qed.

  Lemma inverse_reorder key : length key = n -> inverse_of (reorder order key) = reorder order (inverse_of key).
  Proof.
    intros H. unfold inverse_of. rewrite (sort_uniq_perm (reorder order key) key) by (apply reorder_perm; exact H).
    symmetry. apply reorder_map.
  Qed.

  Variables (normalize : v3 Qc -> v3 Qc) (B : nat) (pc : pcloud Qc).
  Hypothesis G : good_cloud B pc.
  Hypothesis Hn : length (p_points pc) = n.
  Notation pc' := (reorder_cloud order pc).

  Lemma order_lt i : In i order -> (i < n)%nat.
  Proof. intros H. apply (Permutation_in _ Hperm) in H. apply in_seq in H. lia. Qed.
  Lemma order_len : length order = n.
  Proof. rewrite (Permutation_length Hperm). apply seq_length. Qed.

  Lemma reorder_good : good_cloud B pc'.
  Proof.
    destruct G as [g1 g2 g3 g4 g5]. constructor; cbn [p_batch_size p_batch_id p_points p_normals p_features reorder_cloud].
    - exact g1.
    - intros H1. destruct (g2 H1) as (ids & E & Hl & Hf). rewrite E. eexists. split; [reflexivity|].
      rewrite !reorder_length by congruence. split; [reflexivity|].
      eapply Permutation_Forall; [apply Permutation_sym, reorder_perm; congruence|exact Hf].
    - exact g3.
    - intros nn E. destruct (p_normals pc) as [m|] eqn:Em; [|discriminate]. injection E as <-.
      rewrite !reorder_length; [reflexivity|exact Hn|]. rewrite (g4 _ eq_refl). exact Hn.
    - intros nn E. destruct (p_features pc) as [m|] eqn:Em; [|discriminate]. injection E as <-.
      destruct (g5 _ eq_refl) as [Hl [c Hc]].
      split; [rewrite !reorder_length; congruence|]. exists c.
      eapply Permutation_Forall; [apply Permutation_sym, reorder_perm; congruence|exact Hc].
  Qed.

  Lemma reorder_batches : point_batches pc' = reorder order (point_batches pc).
  Proof.
    unfold point_batches. cbn [p_batch_size p_batch_id p_points reorder_cloud].
    destruct (Nat.eqb_spec (p_batch_size pc) 1) as [E|E].
    - rewrite reorder_length, Hn by exact Hn. rewrite reorder_const by exact order_lt. rewrite order_len. reflexivity.
    - rewrite (gc_size _ _ G) in E. destruct (gc_batch _ _ G E) as (ids & -> & _). reflexivity.
  Qed.

  Lemma reorder_keys dep : cloud_keys dep pc' = reorder order (cloud_keys dep pc).
  Proof.
    unfold cloud_keys, zip_with. rewrite reorder_batches. cbn [p_points reorder_cloud].
    rewrite <- reorder_combine, reorder_map; [reflexivity|]. destruct (point_batches_ok _ _ G) as [H _]. congruence.
  Qed.

  Lemma keys_n dep : length (cloud_keys dep pc) = n.
  Proof. rewrite (cloud_keys_length _ _ _ G). exact Hn. Qed.

  Lemma reorder_cells dep : cells dep pc' = cells dep pc.
  Proof. unfold cells. rewrite reorder_keys. apply sort_uniq_perm, reorder_perm, keys_n. Qed.
  Lemma reorder_NE dep d : NE dep pc' d = NE dep pc d.
  Proof. unfold NE. rewrite reorder_cells. reflexivity. Qed.

  Lemma reorder_points_avg dep : avg_points dep pc' = avg_points dep pc.
  Proof.
    unfold avg_points. rewrite reorder_cells, reorder_keys. apply map_ext. intros k.
    rewrite (group_count_perm _ (cloud_keys dep pc)) by (apply reorder_perm, keys_n).
    f_equal. apply fold_perm; [apply v3add_comm|apply v3add_assoc|].
    cbn [p_points reorder_cloud]. rewrite <- reorder_map. apply rows_reorder; [apply keys_n|rewrite map_length; exact Hn].
  Qed.

  Lemma reorder_normals_sum dep m : length m = n -> sum_normals normalize dep pc' (reorder order m) = sum_normals normalize dep pc m.
  Proof.
    intros Hm. unfold sum_normals. rewrite reorder_cells, reorder_keys. apply map_ext. intros k. f_equal.
    apply fold_perm; [apply v3add_comm|apply v3add_assoc|]. apply rows_reorder; [apply keys_n|exact Hm].
  Qed.

  Lemma width_perm c (l l' : list vec) : Permutation l l' -> Forall (fun r => length r = c) l -> width l = width l'.
  Proof.
    intros P H. assert (H' : Forall (fun r => length r = c) l') by (eapply Permutation_Forall; eassumption).
    destruct l as [|a l], l' as [|b l']; cbn [width].
    - reflexivity.
    - apply Permutation_nil in P. discriminate.
    - symmetry in P. apply Permutation_nil in P. discriminate.
    - inversion H; inversion H'; congruence.
  Qed.

  Lemma reorder_features_avg dep f c : length f = n -> Forall (fun r => length r = c) f ->
    avg_features dep pc' (reorder order f) = avg_features dep pc f.
  Proof.
    intros Hm Hc. unfold avg_features. rewrite reorder_cells, reorder_keys.
    rewrite (width_perm c f (reorder order f)) by (try exact Hc; apply Permutation_sym, reorder_perm; exact Hm).
    apply map_ext. intros k.
    rewrite (group_count_perm _ (cloud_keys dep pc)) by (apply reorder_perm, keys_n).
    f_equal. apply fold_perm; [apply vadd_comm|apply vadd_assoc|]. apply rows_reorder; [apply keys_n|exact Hm].
  Qed.

  Lemma reorder_signal dep l : signal_layer normalize dep pc' l = signal_layer normalize dep pc l.
  Proof.
    unfold signal_layer. rewrite reorder_points_avg. cbn [p_normals p_features reorder_cloud].
    destruct (p_normals pc) as [m|] eqn:Em; cbn [option_map].
    1: rewrite reorder_normals_sum by (rewrite (gc_normals _ _ G _ Em); exact Hn).
    all: destruct (p_features pc) as [f|] eqn:Ef; cbn [option_map]; [|reflexivity];
      destruct (gc_features _ _ G _ Ef) as [Hl [c Hc]];
      rewrite (reorder_features_avg dep f c) by (congruence || exact Hc); reflexivity.
  Qed.

  Lemma reorder_built full dep d l : built_layer normalize B full dep pc' d l = built_layer normalize B full dep pc d l.
  Proof. unfold built_layer, tree_layer. rewrite reorder_NE, reorder_signal. reflexivity. Qed.
End Reorder.

Lemma build_order normalize o pc order :
  (full_depth o <= depth o)%nat -> (depth o <= 16)%nat -> Z.of_nat (batch_size o) <= 32768 ->
  length (layers o) = S (depth o) -> good_cloud (batch_size o) pc ->
  Permutation order (seq 0 (length (p_points pc))) ->
  exists o' idx, build_octree normalize o pc = Ok (o', idx) /\
    build_octree normalize o (reorder_cloud order pc) = Ok (o', reorder order idx).
Proof.
  intros Hf H16 HB Hlen G P.
  pose proof (reorder_good order _ P _ pc G eq_refl) as G'.
  destruct (build_closed normalize o pc Hf H16 HB Hlen G) as (ls & E & Hl & Hn).
  destruct (build_closed normalize o (reorder_cloud order pc) Hf H16 HB Hlen G') as (ls' & E' & Hl' & Hn').
  eexists _, _. split; [exact E|]. rewrite E'.
  rewrite (reorder_keys order _ P _ pc G eq_refl).
  rewrite (inverse_reorder order _ P) by (apply (cloud_keys_length _ _ _ G)).
  replace ls' with ls; [reflexivity|]. apply nth_error_ext. intros d. rewrite Hn, Hn'.
  destruct (nth_error (layers o) d); [|reflexivity]. cbn [option_map].
  rewrite (reorder_built order _ P normalize _ pc G eq_refl). reflexivity.
Qed.

(** ** the closed range *)

Lemma cellc_one dep : cellc dep (qz 1) = 2 ^ Z.of_nat dep.
Proof.
  unfold cellc. replace ((qz 1 + 1) * q2pow (Z.of_nat dep - 1))%Qc with (qz (2 ^ Z.of_nat dep)).
  - apply qtrunc_qz.
  - rewrite <- q2pow_pred. change (qz 1) with 1%Qc. rewrite qz_2. ring.
Qed.

Lemma cell_key_one dep py pz b : cell_key dep (qz 1, py, pz) b = key_of dep b 0 (cellc dep py) (cellc dep pz).
Proof.
  unfold cell_key, key_of. f_equal. rewrite cellc_one.
  rewrite <- (morton_mod dep (2 ^ Z.of_nat dep) _ _ (Z.of_nat dep)) by lia.
  rewrite <- (morton_mod dep 0 _ _ (Z.of_nat dep)) by lia.
  rewrite Z.mod_same by (apply Z.pow_nonzero; lia). rewrite Z.mod_0_l by (apply Z.pow_nonzero; lia). reflexivity.
Qed.

(** A single point at the upper face is stored in the opposite cell x = 0, which does not contain it. *)
Lemma build_upper_face normalize o dev py pz :
  (full_depth o <= depth o)%nat -> (1 <= depth o <= 16)%nat -> batch_size o = 1%nat ->
  length (layers o) = S (depth o) -> in_unit py -> in_unit pz ->
  let pc := mkPoints [(qz 1, py, pz)] None None None None 1 None dev in
  exists o' idx y z, build_octree normalize o pc = Ok (o', idx) /\
    octree_xyzb o' (depth o) true = Ok [(0, y, z, 0)] /\
    in_slab (depth o) y py /\ in_slab (depth o) z pz /\
    ~ in_slab (depth o) 0 (qz 1).
Proof.
  intros Hf Hd HB Hlen Hy Hz pc.
  assert (G : good_cloud (batch_size o) pc).
  { rewrite HB. constructor; cbn; try discriminate; try lia; reflexivity. }
  assert (HB' : Z.of_nat (batch_size o) <= 32768) by (rewrite HB; lia).
  destruct (built_tree normalize o pc Hf ltac:(lia) HB' Hlen G) as (o' & E & Hd' & _ & Hbs & _ & T & _).
  exists o'. eexists. exists (cellc (depth o) py), (cellc (depth o) pz). split; [exact E|].
  split.
  - rewrite (tree_xyzb o' _ _ _ (depth o) true T (le_n _)). cbn [sel].
    rewrite bM_select by (assumption || lia). rewrite NE_top. unfold cells.
    assert (Ek : cloud_keys (depth o) pc = [key_of (depth o) 0 0 (cellc (depth o) py) (cellc (depth o) pz)]).
    { unfold cloud_keys, zip_with, point_batches. cbn [p_batch_size Nat.eqb p_points length repeat combine map fst snd pc].
      rewrite cell_key_one. reflexivity. }
    rewrite Ek. cbn [sort_uniq fold_right insert_uniq map]. rewrite coords_of_key; [reflexivity|lia|].
    split; [split; [lia|apply Z.pow_pos_nonneg; lia]|]. split; apply cellc_grid; assumption.
  - split; [apply cellc_slab; [exact Hy|reflexivity]|]. split; [apply cellc_slab; [exact Hz|reflexivity]|].
    intros H. apply slab_scaled in H. destruct H as [_ H].
    replace ((qz 1 + 1) * q2pow (Z.of_nat (depth o) - 1))%Qc with (qz (2 ^ Z.of_nat (depth o))) in H
      by (rewrite <- q2pow_pred; change (qz 1) with 1%Qc; rewrite qz_2; ring).
    apply (proj1 (qz_lt _ _)) in H. assert (2 ^ 1 <= 2 ^ Z.of_nat (depth o)) by (apply Z.pow_le_mono_r; lia). lia.
Qed.

(** Every point of the half-open box lies in exactly one cell of the grid, and its key is that cell's. *)
Lemma point_cell dep p b : (dep <= 16)%nat -> -32768 <= b < 32768 -> in_box p ->
  exists x y z k, in_cube dep x y z /\ in_cell dep x y z p /\
    point_key dep p (Some b) = Ok k /\ xyz2key x y z (Some b) dep = Ok k /\
    forall x' y' z', in_cell dep x' y' z' p -> (x', y', z') = (x, y, z).
Proof.
  intros Hd Hb H. destruct p as [[px py] pz]. pose proof H as (Hx & Hy & Hz).
  exists (cellc dep px), (cellc dep py), (cellc dep pz), (cell_key dep (px, py, pz) b).
  split; [apply cellc_cube; exact H|].
  split; [repeat split; (apply cellc_slab; [assumption|reflexivity])|].
  split; [apply point_key_some; lia|]. split; [apply xyz2key_b; lia|].
  intros x' y' z' (H1 & H2 & H3). apply cellc_slab in H1, H2, H3; try assumption. congruence.
Qed.
