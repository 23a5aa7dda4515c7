(** Closed form of build_octree. *)
From Coq Require Import List ZArith Bool Lia Lqa Field Sorting.Sorted QArith Qcanon.
From Verif Require Import Res Tensor Key Num Points Octree Spec SpecGeo WF KeyFacts ListFacts KidsFacts
  NumFacts ScatterFacts BuildFacts.
Import ListNotations.
Open Scope Z_scope.

(** ** the cell of a point *)

Definition cellc (dep : nat) (c : Qc) : Z := qtrunc ((c + 1) * q2pow (Z.of_nat dep - 1))%Qc.
Definition cell_key (dep : nat) (p : v3 Qc) (b : Z) : Z :=
  let '(x, y, z) := p in key_of dep b (cellc dep x) (cellc dep y) (cellc dep z).
Definition cloud_keys (dep : nat) (pc : pcloud Qc) : list Z :=
  zip_with (cell_key dep) (p_points pc) (point_batches pc).

Lemma slab_scaled d x c :
  in_slab d x c <-> (qz x <= (c + 1) * q2pow (Z.of_nat d - 1))%Qc /\ ((c + 1) * q2pow (Z.of_nat d - 1) < qz (x + 1))%Qc.
Proof.
  unfold in_slab. pose proof (q2pow_pred d) as E.
  assert (Hn : (qz 2 * q2pow (Z.of_nat d - 1))%Qc = qz (2 ^ Z.of_nat d)) by (rewrite Qcmult_comm; exact E).
  rewrite !qz_mul, <- Hn. pose proof (q2pow_pos (Z.of_nat d - 1)) as Hs.
  set (s := q2pow (Z.of_nat d - 1)) in *. clearbody s. clear E Hn.
  assert (Hs0 : s <> 0%Qc) by (intros ->; apply (Qclt_not_eq _ _ Hs); reflexivity).
  assert (H2 : qz 2 <> 0%Qc) by (apply qz_neq0; lia).
  assert (E1 : forall a, (qz 2 * a / (qz 2 * s) = a / s)%Qc) by (intros a; field; auto).
  rewrite !E1.
  assert (E2 : forall a, (a = a / s * s)%Qc) by (intros a; field; auto).
  rewrite (E2 (qz x)) at 2. rewrite (E2 (qz (x + 1))) at 2.
  rewrite Qcmult_le_r, Qcmult_lt_r by exact Hs.
  generalize (qz x / s)%Qc (qz (x + 1) / s)%Qc. intros a b.
  split; intros [G1 G2]; split; qclra.
Qed.

Lemma unit_scaled d c : in_unit c ->
  (0 <= (c + 1) * q2pow (Z.of_nat d - 1))%Qc /\ ((c + 1) * q2pow (Z.of_nat d - 1) < qz (2 ^ Z.of_nat d))%Qc.
Proof.
  intros [H1 H2]. rewrite <- q2pow_pred. pose proof (q2pow_pos (Z.of_nat d - 1)) as Hs.
  set (s := q2pow (Z.of_nat d - 1)) in *. clearbody s.
  split.
  - apply Qcmult_nonneg; [qclra|apply qlt_le; exact Hs].
  - rewrite (Qcmult_comm s). apply Qcmult_lt_r; [exact Hs|]. qclra.
Qed.

(** For a coordinate in [-1,1) the code's truncation finds the slab. *)
Lemma cellc_slab d c x : in_unit c -> (cellc d c = x <-> in_slab d x c).
Proof.
  intros H. rewrite slab_scaled. unfold cellc. apply qtrunc_spec. apply unit_scaled; exact H.
Qed.

Lemma cellc_grid d c : in_unit c -> in_grid d (cellc d c).
Proof.
  intros H. destruct (unit_scaled d c H) as [H1 H2].
  destruct (proj1 (qtrunc_spec _ (cellc d c) H1) eq_refl) as [H3 H4]. unfold in_grid.
  assert (0 < cellc d c + 1) by (apply qz_lt; change (qz 0) with 0%Qc; eapply Qcle_lt_trans; eassumption).
  assert (cellc d c < 2 ^ Z.of_nat d) by (apply qz_lt; eapply Qcle_lt_trans; eassumption).
  lia.
Qed.

Lemma cellc_cube d x y z : in_box (x, y, z) -> in_cube d (cellc d x) (cellc d y) (cellc d z).
Proof. intros (Hx & Hy & Hz). repeat split; apply cellc_grid; assumption. Qed.

Lemma cell_key_cell d p b b' x y z : (d <= 16)%nat -> in_box p -> in_cube d x y z ->
  (cell_key d p b = key_of d b' x y z <-> b = b' /\ in_cell d x y z p).
Proof.
  intros Hd Hp Hc. destruct p as [[px py] pz]. pose proof (cellc_cube d _ _ _ Hp) as Hc'.
  destruct Hp as (Hx & Hy & Hz). unfold in_cell, cell_key.
  rewrite <- !cellc_slab by assumption. split.
  - intros E. apply key_of_inj in E; [|assumption..]. tauto.
  - intros (-> & <- & <- & <-). reflexivity.
Qed.

Lemma cell_key_vkey B dep p b : 0 <= b < Z.of_nat B -> vkey B dep (cell_key dep p b).
Proof.
  intros Hb. destruct p as [[x y] z]. exists b, (morton dep (cellc dep x) (cellc dep y) (cellc dep z)).
  split; [exact Hb|]. split; [apply morton_range|reflexivity].
Qed.

Lemma point_batches_ok B pc : good_cloud B pc ->
  length (point_batches pc) = length (p_points pc) /\ Forall (fun b => 0 <= b < Z.of_nat B) (point_batches pc).
Proof.
  intros G. unfold point_batches. rewrite (gc_size _ _ G). destruct (Nat.eqb_spec B 1) as [->|H1].
  - rewrite repeat_length. split; [reflexivity|]. apply Forall_forall. intros b Hb.
    apply repeat_spec in Hb. lia.
  - destruct (gc_batch _ _ G H1) as (ids & -> & Hl & Hf). auto.
Qed.

Lemma cloud_keys_length B dep pc : good_cloud B pc -> length (cloud_keys dep pc) = length (p_points pc).
Proof.
  intros G. unfold cloud_keys. destruct (point_batches_ok _ _ G) as [Hl _].
  unfold zip_with. rewrite map_length, combine_length. lia.
Qed.

Lemma in_cloud_keys dep pc k : In k (cloud_keys dep pc) <->
  exists p b, In (p, b) (combine (p_points pc) (point_batches pc)) /\ cell_key dep p b = k.
Proof.
  unfold cloud_keys, zip_with. rewrite in_map_iff. split.
  - intros ([p b] & E & H). exists p, b. auto.
  - intros (p & b & H & E). exists (p, b). auto.
Qed.

Lemma cloud_keys_vkey B dep pc : good_cloud B pc -> Forall (vkey B dep) (cloud_keys dep pc).
Proof.
  intros G. apply Forall_forall. intros k Hk. apply in_cloud_keys in Hk.
  destruct Hk as (p & b & Hin & <-). apply cell_key_vkey.
  destruct (point_batches_ok _ _ G) as [_ Hf]. rewrite Forall_forall in Hf.
  apply Hf. eapply in_combine_r; exact Hin.
Qed.

(** non-empty cells of the finest layer, and of layer d *)
Definition cells (dep : nat) (pc : pcloud Qc) : list Z := sort_uniq (cloud_keys dep pc).
Definition NE (dep : nat) (pc : pcloud Qc) (d : nat) : list Z := ancestors (dep - d) (cells dep pc).

Lemma cells_ok B dep pc : good_cloud B pc -> sorted (cells dep pc) /\ Forall (vkey B dep) (cells dep pc).
Proof.
  intros G. split; [apply sort_uniq_sorted|]. apply Forall_forall. intros k Hk.
  apply (proj1 (sort_uniq_In _ _)) in Hk. pose proof (cloud_keys_vkey B dep pc G) as Hf.
  rewrite Forall_forall in Hf. apply Hf; exact Hk.
Qed.

Lemma NE_ok B dep pc d : good_cloud B pc -> (dep <= 16)%nat -> (d <= dep)%nat ->
  sorted (NE dep pc d) /\ Forall (vkey B d) (NE dep pc d).
Proof.
  intros G H16 Hd. destruct (cells_ok B dep pc G) as [Hs Hv].
  apply ancestors_vkey; [lia|exact Hs|]. replace (d + (dep - d))%nat with dep by lia. exact Hv.
Qed.

Lemma NE_parent dep pc d : (d < dep)%nat -> NE dep pc d = parents (NE dep pc (S d)).
Proof.
  intros H. unfold NE. replace (dep - d)%nat with (S (dep - S d)) by lia. reflexivity.
Qed.
Lemma NE_top dep pc : NE dep pc dep = cells dep pc.
Proof. unfold NE. rewrite Nat.sub_diag. reflexivity. Qed.

(** ** the built layers *)

Definition tree_layer (B full dep : nat) (pc : pcloud Qc) (d : nat) (l : layer) : layer :=
  if Nat.ltb d full then full_layer B d l
  else if Nat.eqb d full then full_children_layer B d (NE dep pc d) (full_layer B d l)
  else sparse_layer (NE dep pc d) l.

(** the averages stored in the finest layer *)
Definition group_count (key : list Z) (k : Z) : Z := zlen (filter (Z.eqb k) key).
Definition avg_points (dep : nat) (pc : pcloud Qc) : list (v3 Qc) :=
  let key := cloud_keys dep pc in
  map (fun k => v3map (fun c => c / qz (group_count key k))%Qc
         (fold_left v3add (rows_at key k (map (rescale dep) (p_points pc))) v3zero)) (cells dep pc).
Definition sum_normals (normalize : v3 Qc -> v3 Qc) (dep : nat) (pc : pcloud Qc) (nrm : list (v3 Qc)) :=
  let key := cloud_keys dep pc in
  map (fun k => normalize (fold_left v3add (rows_at key k nrm) v3zero)) (cells dep pc).
Definition avg_features (dep : nat) (pc : pcloud Qc) (f : list vec) : list vec :=
  let key := cloud_keys dep pc in
  map (fun k => map (fun c => c / qz (group_count key k))%Qc
         (fold_left vadd (rows_at key k f) (vzero (width f)))) (cells dep pc).

Definition signal_layer (normalize : v3 Qc -> v3 Qc) (dep : nat) (pc : pcloud Qc) (l : layer) : layer :=
  let l := set_points l (Some (avg_points dep pc)) in
  let l := match p_normals pc with None => l | Some n => set_normals l (Some (sum_normals normalize dep pc n)) end in
  match p_features pc with None => l | Some f => set_features l (Some (avg_features dep pc f)) end.

Definition built_layer (normalize : v3 Qc -> v3 Qc) (B full dep : nat) (pc : pcloud Qc) (d : nat) (l : layer) : layer :=
  let l := tree_layer B full dep pc d l in
  if Nat.eqb d dep then signal_layer normalize dep pc l else l.

Lemma zip_with_map2 {A B C K} (f : A -> B -> C) (g : K -> A) (h : K -> B) l :
  zip_with f (map g l) (map h l) = map (fun k => f (g k) (h k)) l.
Proof. unfold zip_with. induction l as [|a l IH]; cbn; [reflexivity|]. rewrite IH. reflexivity. Qed.

Lemma point_key_none dep p : (dep <= 16)%nat -> point_key dep p None = Ok (cell_key dep p 0).
Proof. intros H. destruct p as [[x y] z]. unfold point_key, rescale. cbn [v3map]. rewrite xyz2key_morton by exact H. reflexivity. Qed.
Lemma point_key_some dep p b : (dep <= 16)%nat -> -2^15 <= b < 2^15 -> point_key dep p (Some b) = Ok (cell_key dep p b).
Proof. intros H Hb. destruct p as [[x y] z]. unfold point_key, rescale. cbn [v3map]. apply xyz2key_b; assumption. Qed.

Lemma zip_repeat {A B C} (f : A -> B -> C) l b : zip_with f l (repeat b (length l)) = map (fun a => f a b) l.
Proof. unfold zip_with. induction l as [|a l IH]; cbn; [reflexivity|]. rewrite IH. reflexivity. Qed.

Lemma build_closed normalize o pc :
  (full_depth o <= depth o)%nat -> (depth o <= 16)%nat -> Z.of_nat (batch_size o) <= 32768 ->
  length (layers o) = S (depth o) -> good_cloud (batch_size o) pc ->
  exists ls,
    build_octree normalize o pc
    = Ok (mkOctree (depth o) (full_depth o) (batch_size o) (p_device pc) ls, inverse_of (cloud_keys (depth o) pc)) /\
    length ls = S (depth o) /\
    forall d, nth_error ls d = option_map (built_layer normalize (batch_size o) (full_depth o) (depth o) pc d) (nth_error (layers o) d).
Proof.
  destruct o as [dep full B dev ls0]. cbn [depth full_depth batch_size device layers].
  intros Hf H16 HB Hlen G. unfold build_octree. cbn [depth full_depth batch_size device layers].
  rewrite (gc_size _ _ G), Nat.eqb_refl. cbn [assert_ bind].
  (* point keys *)
  match goal with |- context [bind ?e _] => assert (Ekey : e = Ok (cloud_keys dep pc)) end.
  { pose proof (point_batches_ok _ _ G) as [Hbl Hbf]. unfold cloud_keys.
    unfold point_batches in *. rewrite (gc_size _ _ G) in *. destruct (Nat.eqb_spec B 1) as [->|H1].
    - rewrite zip_repeat. apply mapM_Ok. intros p _. apply point_key_none; exact H16.
    - destruct (gc_batch _ _ G H1) as (ids & Eids & Hl & Hfo). rewrite Eids in *.
      rewrite Hl, Nat.eqb_refl. unfold zip_with. apply mapM_Ok. intros [p b] Hin. cbn [fst snd].
      apply point_key_some; [exact H16|]. rewrite Forall_forall in Hfo.
      apply in_combine_r in Hin. specialize (Hfo b Hin). lia. }
  rewrite Ekey. cbn [bind]. clear Ekey. unfold unique. fold (inverse_of (cloud_keys dep pc)). fold (cells dep pc).
  destruct (cells_ok B dep pc G) as [Hcs Hcv].
  set (o0 := mkOctree dep full B (p_device pc) ls0).
  destruct (grow_full_loop o0 (full + 1)) as (ls1 & E1 & Hl1 & Hn1); cbn [full_depth layers batch_size o0]; [lia..|].
  cbn [full_depth layers batch_size o0] in Hl1, Hn1.
  rewrite E1. cbn [bind].
  set (o1 := mkOctree dep full B (p_device pc) ls1).
  change (with_layers o0 ls1) with o1. change (full_depth o1) with full. change (depth o1) with dep.
  destruct (build_loop o1 full (dep - full) (cells dep pc)) as (ls2 & E2 & Hl2 & Hn2);
    cbn [full_depth layers batch_size o1]; [lia..|exact Hcs| |].
  { replace (full + (dep - full))%nat with dep by lia. exact Hcv. }
  cbn [full_depth layers batch_size o1] in Hl2, Hn2.
  replace (full + (dep - full))%nat with dep in Hn2 by lia.
  rewrite E2. cbn [bind].
  fold (NE dep pc full).
  set (o2 := mkOctree dep full B (p_device pc) ls2).
  change (with_layers o1 ls2) with o2.
  destruct (NE_ok B dep pc full G H16 Hf) as [Hns Hnv].
  destruct (nth_error ls0 full) as [lf|] eqn:Elf.
  2:{ apply nth_error_None in Elf. lia. }
  assert (Elf2 : nth_error ls2 full = Some (full_layer B full lf)).
  { rewrite Hn2, Hn1, Elf. rewrite Nat.ltb_irrefl. cbn [andb].
    replace (Nat.ltb full (full + 1)) with true by (symmetry; apply Nat.ltb_lt; lia). reflexivity. }
  destruct (full_children_Ok o2 (NE dep pc full) (full_layer B full lf)) as [E3 _];
    cbn [full_depth layers batch_size o2]; [lia|exact HB|exact Hns|exact Hnv|exact Elf2|reflexivity|].
  rewrite E3. cbn [bind]. unfold with_layers. change (full_depth o2) with full. change (depth o2) with dep.
  change (batch_size o2) with B. change (device o2) with (p_device pc). change (layers o2) with ls2.
  cbn [depth].
  set (ls3 := set_nth ls2 full (full_children_layer B full (NE dep pc full) (full_layer B full lf))).
  assert (Hl3 : length ls3 = S dep) by (unfold ls3; rewrite set_nth_length; congruence).
  assert (Hn3 : forall d, nth_error ls3 d = option_map (tree_layer B full dep pc d) (nth_error ls0 d)).
  { intros d. unfold ls3. rewrite nth_error_set_nth by lia. rewrite Hn2, Hn1. unfold tree_layer.
    destruct (Nat.eqb_spec d full) as [->|Hne].
    - rewrite Elf, Nat.ltb_irrefl. reflexivity.
    - destruct (nth_error ls0 d) as [l|] eqn:El; [|reflexivity]. cbn [option_map].
      assert (Hdl : (d < length ls0)%nat) by (apply nth_error_Some; rewrite El; discriminate).
      destruct (Nat.ltb_spec d full) as [Hlt|Hge].
      + replace (Nat.ltb full d) with false by (symmetry; apply Nat.ltb_ge; lia).
        replace (Nat.ltb d (full + 1)) with true by (symmetry; apply Nat.ltb_lt; lia). reflexivity.
      + replace (Nat.ltb full d) with true by (symmetry; apply Nat.ltb_lt; lia).
        replace (Nat.ltb d (full + 1)) with false by (symmetry; apply Nat.ltb_ge; lia).
        replace (Nat.leb d dep) with true by (symmetry; apply Nat.leb_le; lia). reflexivity. }
  clearbody ls3. clear E1 E2 E3 Hn1 Hn2 Hl1 Hl2 Elf2 o0 o1 o2 ls1 ls2.
  (* signals *)
  assert (HL : length (cloud_keys dep pc) = length (p_points pc)) by (apply (cloud_keys_length B); exact G).
  rewrite scatter_unique by (rewrite map_length; symmetry; exact HL). cbn [bind].
  fold (cells dep pc). rewrite zip_with_map2.
  change (map _ (cells dep pc)) with (avg_points dep pc) at 1.
  destruct (nth_error ls0 dep) as [l0|] eqn:El0.
  2:{ apply nth_error_None in El0. lia. }
  set (l3 := tree_layer B full dep pc dep l0).
  assert (E3 : nth_error ls3 dep = Some l3) by (rewrite Hn3, El0; reflexivity).
  set (L4 := fun f => set_nth ls3 dep (f l3)).
  assert (HL4 : forall f, nth_error (set_nth ls3 dep (f l3)) dep = Some (f l3)).
  { intros f. rewrite nth_error_set_nth by lia. rewrite Nat.eqb_refl. reflexivity. }
  assert (Hset2 : forall (a b : layer), set_nth (set_nth ls3 dep a) dep b = set_nth ls3 dep b).
  { intros a b. apply nth_error_ext. intros i.
    rewrite nth_error_set_nth by (rewrite set_nth_length; lia). rewrite !nth_error_set_nth by lia.
    destruct (Nat.eqb i dep); reflexivity. }
  rewrite (upd_layer_Ok _ _ _ l3) by exact E3. cbn [bind].
  unfold with_layers; cbn [depth full_depth batch_size device layers].
  match goal with |- context [bind ?e _] =>
    assert (En : e = Ok (mkOctree dep full B (p_device pc) (set_nth ls3 dep
      (match p_normals pc with
       | None => set_points l3 (Some (avg_points dep pc))
       | Some n => set_normals (set_points l3 (Some (avg_points dep pc))) (Some (sum_normals normalize dep pc n))
       end)))) end.
  { destruct (p_normals pc) as [n|] eqn:Enn; [|reflexivity].
    rewrite scatter_unique by (rewrite HL; apply (gc_normals _ _ G); exact Enn). cbn [bind].
    rewrite map_map. fold (cells dep pc).
    rewrite (upd_layer_Ok _ _ _ (set_points l3 (Some (avg_points dep pc)))).
    2:{ unfold with_layers; cbn [layers]. rewrite nth_error_set_nth by lia. rewrite Nat.eqb_refl. reflexivity. }
    unfold with_layers; cbn [depth full_depth batch_size device layers]. rewrite Hset2. reflexivity. }
  rewrite En. cbn [bind]. clear En. unfold with_layers; cbn [depth full_depth batch_size device layers].
  set (l4 := match p_normals pc with None => _ | Some n => _ end).
  match goal with |- context [bind ?e _] =>
    assert (Ef : e = Ok (mkOctree dep full B (p_device pc) (set_nth ls3 dep
      (match p_features pc with
       | None => l4
       | Some f => set_features l4 (Some (avg_features dep pc f))
       end)))) end.
  { destruct (p_features pc) as [f|] eqn:Ef; [|reflexivity].
    rewrite scatter_unique by (rewrite HL; apply (gc_features _ _ G); exact Ef). cbn [bind].
    fold (cells dep pc). rewrite zip_with_map2.
    rewrite (upd_layer_Ok _ _ _ l4).
    2:{ unfold with_layers; cbn [layers]. rewrite nth_error_set_nth by lia. rewrite Nat.eqb_refl. reflexivity. }
    unfold with_layers; cbn [depth full_depth batch_size device layers]. rewrite Hset2. reflexivity. }
  rewrite Ef. cbn [bind]. clear Ef.
  eexists. split; [reflexivity|]. split; [rewrite set_nth_length; exact Hl3|].
  intros d. rewrite nth_error_set_nth by lia. unfold built_layer.
  destruct (Nat.eqb_spec d dep) as [->|Hne].
  - rewrite El0. cbn [option_map]. unfold signal_layer. reflexivity.
  - apply Hn3.
Qed.
