(** The neighbourhood theorems in the vocabulary of SpecNeigh. *)
From Coq Require Import List ZArith Bool Lia String Sorting.Sorted Qcanon.
From Verif Require Import Res Tensor Key Num Points Octree Spec SpecNeigh WF KeyFacts ListFacts KidsFacts
  BuildFacts WFFacts SearchFacts NeighFacts NeighSparse GetNeigh.
Import ListNotations.
Open Scope Z_scope.

Lemma neigh_correct_unique B d ks t : (d <= 16)%nat -> sorted ks -> Forall (vkey B d) ks ->
  neigh_correct d ks t -> t = nb_table d ks.
Proof.
  intros Hd Hs Hv [Hl H]. apply nth_error_ext. intros i. unfold nb_table. rewrite nth_error_map.
  destruct (nth_error ks i) as [k|] eqn:Ek; cbn [option_map].
  2:{ apply nth_error_None. apply nth_error_None in Ek. lia. }
  destruct (nth_error t i) as [row|] eqn:Er.
  2:{ apply nth_error_None in Er. assert (i < List.length ks)%nat by (apply nth_error_Some; congruence). lia. }
  f_equal. destruct (H i row Er) as [H27 Hrow]. rewrite Forall_forall in Hv.
  pose proof (Hv k (nth_error_In _ _ Ek)) as Hk. destruct (coords d k) as [[[x y] z] b] eqn:Ec.
  destruct (coords_key_of _ _ _ _ _ _ _ Hd Hk Ec) as (-> & Hc & Hb). specialize (Hrow b x y z Hc Ek).
  unfold nb_row. rewrite Ec. apply nth_error_ext. intros j. rewrite nth_error_map.
  destruct (Nat.lt_ge_cases j 27) as [Hj|Hj].
  - rewrite offsets_nth by exact Hj. destruct (nth_error row j) as [e|] eqn:Ee.
    2:{ apply nth_error_None in Ee. lia. }
    specialize (Hrow j e Ee). destruct (offset j) as [[dx dy] dz]. cbn [option_map]. f_equal.
    apply cell_found_unique; [exact Hs|exact Hrow].
  - rewrite (proj2 (nth_error_None row j)) by lia.
    assert (Ho : nth_error offsets j = None).
    { apply nth_error_None. rewrite offsets_offset, map_length, seq_length. exact Hj. }
    rewrite Ho. reflexivity.
Qed.

Lemma has_neigh_upto o L K M d : tree_upto o L K M -> (d <= L)%nat -> has_neigh o d -> neigh_upto o K d d.
Proof.
  intros T Hd (l & ks & t & En & Ek & Et & Hc) d' l' Hd' En'. assert (d' = d) by lia. subst d'.
  assert (l' = l) by congruence. subst l'. destruct (t_layer _ _ _ _ T d Hd) as (l2 & En2 & Ek2 & _).
  assert (l2 = l) by congruence. subst l2. assert (ks = K d) by congruence. subst ks. rewrite Et. f_equal.
  destruct (tree_keys o L K M T d Hd) as [Hs Hv]. pose proof (t_depth _ _ _ _ T). pose proof (t_L _ _ _ _ T).
  eapply neigh_correct_unique; [|exact Hs|exact Hv|exact Hc]. lia.
Qed.

Lemma upto_has_neigh o L K M d : tree_upto o L K M -> (d <= L)%nat -> neigh_upto o K d d -> has_neigh o d.
Proof.
  intros T Hd N. destruct (t_layer _ _ _ _ T d Hd) as (l & En & Ek & _).
  exists l, (K d), (nb_table d (K d)). split; [exact En|]. split; [exact Ek|]. split; [apply (N d l); [lia|exact En]|].
  destruct (tree_keys o L K M T d Hd) as [Hs Hv]. pose proof (t_depth _ _ _ _ T). pose proof (t_L _ _ _ _ T).
  eapply nb_table_correct; [lia|exact Hv].
Qed.

Lemma neigh_upto_sub o K a L d : (a <= d <= L)%nat -> neigh_upto o K a L -> neigh_upto o K d d.
Proof. intros H N d' l Hd'. apply N. lia. Qed.

Lemma only_neighs_same o o' : only_neighs o o' -> same_data o o'.
Proof.
  intros (H1 & H2 & H3 & H4 & H5 & H6). repeat split; try assumption.
  assert (G : forall (l l' : list layer), List.length l' = List.length l ->
     (forall d x x', nth_error l d = Some x -> nth_error l' d = Some x' -> same_but_neighs x x') ->
     Forall2 same_layer_data l l').
  { intros l. induction l as [|a l IH]; intros [|a' l'] Hl Hn; cbn in Hl; try discriminate; constructor.
    - destruct (Hn O a a' eq_refl eq_refl) as [v ->]. repeat split; reflexivity.
    - apply IH; [lia|]. intros d x x' Hx Hx'. exact (Hn (S d) x x' Hx Hx'). }
  apply G; [exact H5|exact H6].
Qed.

Lemma thm_all_neigh o : wf_octree o -> (1 <= full_depth o)%nat ->
  exists o', construct_all_neigh o = Ok o' /\ same_data o o' /\ wf_octree o' /\
    forall d, (1 <= d <= depth o)%nat -> has_neigh o' d.
Proof.
  intros (K & M & T) Hf. destruct (tree_all_neigh o K M T Hf) as (o' & E & Ho & T' & N).
  exists o'. split; [exact E|]. split; [apply only_neighs_same; exact Ho|]. split; [exists K, M; exact T'|].
  intros d Hd. destruct Ho as (Hdep & _). eapply upto_has_neigh; [exact T'|lia|].
  eapply neigh_upto_sub; [|exact N]. lia.
Qed.

Lemma offset_opp k : (k < 27)%nat -> offset (26 - k) = let '(a, b, c) := offset k in (-a, -b, -c).
Proof.
  intros H. do 27 (destruct k as [|k]; [vm_compute; reflexivity|]). lia.
Qed.

(** Symmetry, batch and centre of a table that is correct for valid distinct keys. *)
Lemma correct_symmetric B d ks t : (d <= 16)%nat -> NoDup ks -> Forall (vkey B d) ks -> neigh_correct d ks t ->
  (forall i row k j, nth_error t i = Some row -> nth_error row k = Some j -> 0 <= j ->
     exists row', nth_error t (Z.to_nat j) = Some row' /\ nth_error row' (26 - k) = Some (Z.of_nat i)) /\
  (forall i row, nth_error t i = Some row -> nth_error row 13 = Some (Z.of_nat i)) /\
  (forall i row k j, nth_error t i = Some row -> nth_error row k = Some j -> 0 <= j ->
     exists ki kj, nth_error ks i = Some ki /\ nth_error ks (Z.to_nat j) = Some kj /\ Z.shiftr ki 48 = Z.shiftr kj 48).
Proof.
  intros Hd Hnd Hv [Hl H]. rewrite Forall_forall in Hv.
  assert (P : forall i row, nth_error t i = Some row -> exists b x y z, in_cube d x y z /\ nth_error ks i = Some (key_of d b x y z)).
  { intros i row Hi. destruct (nth_error ks i) as [k|] eqn:Ek.
    2:{ apply nth_error_None in Ek. assert (i < List.length t)%nat by (apply nth_error_Some; congruence). lia. }
    destruct (coords d k) as [[[x y] z] b] eqn:Ec.
    destruct (coords_key_of _ _ _ _ _ _ _ Hd (Hv k (nth_error_In _ _ Ek)) Ec) as (-> & Hc & _). eauto 8. }
  split; [|split].
  - intros i row k j Hi Hk Hj. destruct (P i row Hi) as (b & x & y & z & Hc & Eki).
    destruct (H i row Hi) as [H27 Hr]. specialize (Hr b x y z Hc Eki k j Hk).
    assert (Hk27 : (k < 27)%nat) by (rewrite <- H27; apply nth_error_Some; congruence).
    pose proof (offset_opp k Hk27) as Hop.
    destruct (offset k) as [[dx dy] dz]. destruct Hr as [(_ & Hc' & Ekj)|[-> _]]; [|lia].
    destruct (nth_error t (Z.to_nat j)) as [row'|] eqn:Hj'.
    2:{ apply nth_error_None in Hj'. assert (Z.to_nat j < List.length ks)%nat by (apply nth_error_Some; congruence). lia. }
    exists row'. split; [reflexivity|]. destruct (H _ row' Hj') as [H27' Hr'].
    destruct (nth_error row' (26 - k)) as [e|] eqn:Ee.
    2:{ apply nth_error_None in Ee. lia. }
    specialize (Hr' _ _ _ _ Hc' Ekj _ e Ee). rewrite Hop in Hr'.
    replace (x + dx + - dx) with x in Hr' by ring. replace (y + dy + - dy) with y in Hr' by ring.
    replace (z + dz + - dz) with z in Hr' by ring. f_equal.
    destruct Hr' as [(He & _ & Eke)|[_ Hno]].
    + pose proof (nth_error_NoDup_inj _ _ _ _ Hnd Eki Eke). lia.
    + exfalso. apply Hno. split; [exact Hc|]. eapply nth_error_In; exact Eki.
  - intros i row Hi. destruct (P i row Hi) as (b & x & y & z & Hc & Eki).
    destruct (H i row Hi) as [H27 Hr].
    destruct (nth_error row 13) as [e|] eqn:Ee. 2:{ apply nth_error_None in Ee. lia. }
    specialize (Hr b x y z Hc Eki 13%nat e Ee). change (offset 13) with (0, 0, 0) in Hr. cbn iota in Hr.
    rewrite !Z.add_0_r in Hr. f_equal. destruct Hr as [(He & _ & Eke)|[_ Hno]].
    + pose proof (nth_error_NoDup_inj _ _ _ _ Hnd Eki Eke). lia.
    + exfalso. apply Hno. split; [exact Hc|]. eapply nth_error_In; exact Eki.
  - intros i row k j Hi Hk Hj. destruct (P i row Hi) as (b & x & y & z & Hc & Eki).
    destruct (H i row Hi) as [H27 Hr]. specialize (Hr b x y z Hc Eki k j Hk).
    destruct (offset k) as [[dx dy] dz]. destruct Hr as [(_ & Hc' & Ekj)|[-> _]]; [|lia].
    do 2 eexists. split; [exact Eki|]. split; [exact Ekj|]. rewrite !Z.shiftr_div_pow2 by lia. unfold key_of.
    rewrite !(Z.div_add_l b (2 ^ 48)) by (vm_compute; discriminate). rewrite !Z.div_small by (apply morton_lt_48; exact Hd). reflexivity.
Qed.

Lemma thm_symmetric o d : wf_octree o -> (d <= depth o)%nat -> has_neigh o d ->
  exists l t bs, nth_error (layers o) d = Some l /\ neighs l = Some t /\ octree_batch_id o (Z.of_nat d) false = Ok bs /\
  (forall i row k j, nth_error t i = Some row -> nth_error row k = Some j -> 0 <= j ->
     exists row', nth_error t (Z.to_nat j) = Some row' /\ nth_error row' (26 - k) = Some (Z.of_nat i)) /\
  (forall i row, nth_error t i = Some row -> nth_error row 13 = Some (Z.of_nat i)) /\
  (forall i row k j, nth_error t i = Some row -> nth_error row k = Some j -> 0 <= j ->
     exists b, nth_error bs i = Some b /\ nth_error bs (Z.to_nat j) = Some b).
Proof.
  intros (K & M & T) Hd (l & ks & t & En & Ek & Et & Hc).
  destruct (t_layer _ _ _ _ T d Hd) as (l2 & En2 & Ek2 & _). assert (l2 = l) by congruence. subst l2.
  assert (ks = K d) by congruence. subst ks.
  destruct (tree_keys o _ K M T d Hd) as [Hs Hv]. pose proof (t_depth _ _ _ _ T).
  destruct (correct_symmetric _ d _ _ ltac:(lia) (sorted_NoDup _ Hs) Hv Hc) as (S1 & S2 & S3).
  exists l, t, (map (fun k => k / 2 ^ 48) (K d)). split; [exact En|]. split; [exact Et|].
  split; [rewrite (tree_batch_id o _ K M d false T Hd); reflexivity|]. split; [exact S1|]. split; [exact S2|].
  intros i row k j Hi Hk Hj. destruct (S3 i row k j Hi Hk Hj) as (ki & kj & E1 & E2 & E3).
  exists (ki / 2 ^ 48). rewrite !nth_error_map, E1, E2. split; [reflexivity|]. cbn [option_map].
  rewrite !Z.shiftr_div_pow2 in E3 by lia. congruence.
Qed.

Lemma arange_number n : arange n = number_from 0 (repeat true n).
Proof.
  rewrite number_from_all_true by (intros b Hb; apply repeat_spec in Hb; exact Hb).
  rewrite repeat_length. rewrite <- (map_id (arange n)) at 1. apply map_ext. intros a. lia.
Qed.

Lemma thm_full_sparse B d : (d < 16)%nat -> Z.of_nat B <= 32768 ->
  exists t, neigh_full B d = Ok t /\ neigh_sparse (arange (8 ^ d * B)) t = neigh_full B (S d).
Proof.
  intros Hd HB. eexists. split; [apply neigh_full_Ok; [lia|exact HB]|].
  rewrite (neigh_full_Ok B (S d)) by (lia || exact HB).
  rewrite arange_number.
  assert (Hv : Forall (vkey B d) (full_grid B d)).
  { apply Forall_forall. intros k Hk. apply in_full_grid. exact Hk. }
  rewrite (neigh_sparse_Ok B d (full_grid B d)).
  - rewrite select_all_true.
    + rewrite full_grid_kids by exact Hd. reflexivity.
    + rewrite repeat_length, full_grid_length. reflexivity.
    + intros b Hb. apply repeat_spec in Hb. exact Hb.
  - exact Hd.
  - apply full_grid_sorted. lia.
  - exact Hv.
  - rewrite repeat_length, full_grid_length. reflexivity.
Qed.

Lemma thm_get_neigh o d kernel ne : wf_octree o -> (d <= depth o)%nat -> has_neigh o d -> In kernel kernels ->
  exists ks t, octree_key o (Z.of_nat d) ne = Ok ks /\ get_neigh o d kernel 1 ne = Ok t /\
    table_correct d ks ks (box kernel) t.
Proof.
  intros (K & M & T) Hd Hn Hk. pose proof (has_neigh_upto _ _ _ _ _ T Hd Hn) as N.
  do 2 eexists. split; [apply (tree_key o _ K M T); exact Hd|].
  split; [apply (get_neigh_Ok o d K M d (tree_upto_le _ _ _ _ _ Hd T) N); [lia|exact Hk|left; reflexivity]|].
  unfold centres. change (1 =? 1) with true. cbn iota. pose proof (t_depth _ _ _ _ T).
  eapply nb_rowg_correct; [lia|]. apply (sel_vkey o _ K M T). exact Hd.
Qed.

Lemma thm_get_neigh2 o d kernel ne : wf_octree o -> (S d <= depth o)%nat -> has_neigh o (S d) -> In kernel kernels ->
  exists ps ks t, octree_key o (Z.of_nat d) true = Ok ps /\ octree_key o (Z.of_nat (S d)) ne = Ok ks /\
    get_neigh o (S d) kernel 2 ne = Ok t /\
    table_correct (S d) (map first_kid ps) ks (box kernel) t.
Proof.
  intros (K & M & T) Hd Hn Hk. pose proof (has_neigh_upto _ _ _ _ _ T Hd Hn) as N.
  do 3 eexists. split; [apply (tree_key o _ K M T); lia|]. split; [apply (tree_key o _ K M T); exact Hd|].
  split; [apply (get_neigh_Ok o (S d) K M (S d) (tree_upto_le _ _ _ _ _ Hd T) N); [lia|exact Hk|right; split; [reflexivity|lia]]|].
  pose proof (t_depth _ _ _ _ T).
  eapply nb_rowg_correct; [lia|]. apply (centres_vkey o _ K M T (S d) 2 ne); [exact Hd|right; split; [reflexivity|lia]].
Qed.

Lemma thm_bad_kernel o d kernel stride ne : wf_octree o -> (1 <= d <= depth o)%nat -> has_neigh o d ->
  (stride = 1 \/ stride = 2) -> ~ In kernel kernels -> get_neigh o d kernel stride ne = Err ValueError.
Proof.
  intros (K & M & T) Hd Hn Hs Hk. pose proof (has_neigh_upto _ _ _ _ d T ltac:(lia) Hn) as N.
  apply (get_neigh_bad_kernel o d K M d (tree_upto_le _ _ _ _ _ (proj2 Hd) T) N); [lia|exact Hk|]. destruct Hs; [left; assumption|right; split; [assumption|lia]].
Qed.

Lemma thm_bad_stride o d kernel stride ne : wf_octree o -> (d <= depth o)%nat -> stride <> 1 -> stride <> 2 ->
  get_neigh o d kernel stride ne = Err ValueError.
Proof. intros (K & M & T). apply (get_neigh_bad_stride o _ K M T). Qed.

(** full_depth = 0 *)
Lemma thm_all_neigh_zero o : wf_octree o -> full_depth o = O -> (1 <= depth o)%nat ->
  (forall l, nth_error (layers o) 0 = Some l -> neighs l = None) -> construct_all_neigh o = Err TypeError.
Proof.
  intros (K & M & T) Hf Hd Hn. unfold construct_all_neigh. destruct (depth o) as [|n] eqn:En; [lia|].
  cbn [seq foldM]. destruct (tree_get o _ K M T 0 ltac:(lia)) as (l & El & Enl & _).
  assert (E : construct_neigh o 1 = Err TypeError).
  { unfold construct_neigh. rewrite Hf. change (Nat.leb 1 0) with false. cbn iota.
    change (Z.of_nat 1 - 1) with (Z.of_nat 0). rewrite El. cbn [bind].
    destruct (tree_get o _ K M T 0 ltac:(lia)) as (l' & El' & Enl' & _ & Ec & _).
    assert (l' = l) by congruence. subst l'. rewrite Ec, (Hn l Enl). reflexivity. }
  rewrite E. reflexivity.
Qed.

Lemma thm_all_neigh_root o : wf_octree o -> has_neigh o 0 ->
  exists o', construct_all_neigh o = Ok o' /\ same_data o o' /\ wf_octree o' /\
    forall d, (d <= depth o)%nat -> has_neigh o' d.
Proof.
  intros (K & M & T) H0. pose proof (has_neigh_upto _ _ _ _ _ T (Nat.le_0_l _) H0) as N0.
  destruct (tree_all_neigh_from o K M 0 T) as (o' & E & Ho & T' & N); [lia|right; reflexivity|exact N0|].
  exists o'. split; [exact E|]. split; [apply only_neighs_same; exact Ho|]. split; [exists K, M; exact T'|].
  intros d Hd. destruct Ho as (Hdep & _). eapply upto_has_neigh; [exact T'|lia|].
  eapply neigh_upto_sub; [|exact N]. lia.
Qed.
