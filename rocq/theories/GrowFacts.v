(** octree_split, octree_grow, init_octree: invariants over histories. *)
From Coq Require Import List ZArith Bool Lia String Sorting.Sorted Qcanon.
From Verif Require Import Res Tensor Key Num Points Octree Spec SpecNeigh SpecGrow SpecBuild WF KeyFacts ListFacts KidsFacts
  BuildFacts WFFacts SearchFacts NeighFacts NeighSparse NeighThms.
Import ListNotations.
Open Scope Z_scope.

Definition fupd {A} (f : nat -> A) (d : nat) (v : A) (i : nat) : A := if Nat.eqb i d then v else f i.
Lemma fupd_eq {A} (f : nat -> A) d v : fupd f d v d = v.
Proof. unfold fupd. rewrite Nat.eqb_refl. reflexivity. Qed.
Lemma fupd_ne {A} (f : nat -> A) d v i : i <> d -> fupd f d v i = f i.
Proof. intros H. unfold fupd. rewrite (proj2 (Nat.eqb_neq _ _) H). reflexivity. Qed.

Lemma tree_upto_ext o L K M K' M' : (forall d, (d <= L)%nat -> K' d = K d) -> (forall d, (d <= L)%nat -> M' d = M d) ->
  tree_upto o L K M -> tree_upto o L K' M'.
Proof.
  intros HK HM [t1 t2 t3 t4 t5 t6 t7 t8 t9]. constructor; try assumption.
  - intros d Hd. rewrite HK, HM by exact Hd. apply t6; exact Hd.
  - intros d Hd. rewrite HK, HM by exact Hd. apply t7; exact Hd.
  - intros d Hd. rewrite HK by exact Hd. apply t8; exact Hd.
  - intros d Hd. rewrite HK, HK, HM by lia. apply t9; exact Hd.
Qed.
Lemma neigh_upto_ext o K K' a L : (forall d, (a <= d <= L)%nat -> K' d = K d) -> neigh_upto o K a L -> neigh_upto o K' a L.
Proof. intros HK N d l Hd. rewrite HK by exact Hd. apply N. exact Hd. Qed.

(** ** extending a tree by one layer *)
Record pre_tree (o : octree) (n : nat) (K : nat -> list Z) (M : nat -> list bool) : Prop := {
  p_depth : (depth o <= 16)%nat;
  p_batch : Z.of_nat (batch_size o) <= 32768;
  p_full : (full_depth o <= depth o)%nat;
  p_len : List.length (layers o) = S (depth o);
  p_layer : forall d, (d < n)%nat ->
    exists l, nth_error (layers o) d = Some l /\
      keys l = Some (K d) /\ children l = Some (number_from 0 (M d)) /\
      nnum l = Z.of_nat (List.length (K d)) /\ nnum_nempty l = nflag (M d);
  p_mask : forall d, (d < n)%nat -> List.length (M d) = List.length (K d);
  p_grid : forall d, (d < n)%nat -> (d <= full_depth o)%nat -> K d = full_grid (batch_size o) d;
  p_link : forall d, (S d < n)%nat -> K (S d) = flat_map kids (pick (M d) (K d))
}.
Lemma tree_pre o L K M n : (n <= S L)%nat -> tree_upto o L K M -> pre_tree o n K M.
Proof.
  intros Hn [t1 t2 t3 t4 t5 t6 t7 t8 t9]. constructor; try assumption.
  - intros d Hd. apply t6; lia.
  - intros d Hd. apply t7; lia.
  - intros d Hd. apply t8; lia.
  - intros d Hd. apply t9; lia.
Qed.

Lemma pre_tree_put o n K M l kd md : pre_tree o n K M -> (n <= depth o)%nat ->
  keys l = Some kd -> children l = Some (number_from 0 md) -> nnum l = Z.of_nat (List.length kd) -> nnum_nempty l = nflag md ->
  List.length md = List.length kd -> ((n <= full_depth o)%nat -> kd = full_grid (batch_size o) n) ->
  (forall n', n = S n' -> kd = flat_map kids (pick (M n') (K n'))) ->
  tree_upto (with_layers o (set_nth (layers o) n l)) n (fupd K n kd) (fupd M n md).
Proof.
  intros [t1 t2 t3 t5 t6 t7 t8 t9] Hn E1 E2 E3 E4 E5 Hg Hl.
  assert (Hlen : (n < List.length (layers o))%nat) by lia.
  constructor; unfold with_layers; cbn [depth full_depth batch_size device layers]; try assumption.
  - rewrite set_nth_length. exact t5.
  - intros d Hd. rewrite nth_error_set_nth by exact Hlen. unfold fupd. destruct (Nat.eqb_spec d n) as [->|Hne].
    + exists l. auto.
    + apply t6. lia.
  - intros d Hd. unfold fupd. destruct (Nat.eqb_spec d n) as [->|Hne]; [exact E5|apply t7; lia].
  - intros d Hd. unfold fupd. destruct (Nat.eqb_spec d n) as [->|Hne]; [exact Hg|apply t8; lia].
  - intros d Hd. rewrite (fupd_ne K n kd d), (fupd_ne M n md d) by lia. unfold fupd.
    destruct (Nat.eqb_spec (S d) n) as [He|Hne]; [apply Hl; lia|apply t9; lia].
Qed.

Lemma set_layer_neigh o n K kd l L : neigh_upto o K 0 L -> (n <= S L)%nat -> (n < List.length (layers o))%nat ->
  (n <> O -> neigh_upto (with_layers o (set_nth (layers o) n l)) (fupd K n kd) 0 (n - 1)).
Proof.
  intros N Hn Hlen Hn0 d l' Hd E. unfold with_layers in E. cbn [layers] in E. rewrite nth_error_set_nth in E by exact Hlen.
  rewrite fupd_ne by lia. rewrite (proj2 (Nat.eqb_neq d n)) in E by lia. apply (N d l'); [lia|exact E].
Qed.

(** ** octree_split *)
Lemma cumsum_from_length l : forall a, List.length (cumsum_from a l) = List.length l.
Proof. induction l; intros; cbn [cumsum_from List.length]; congruence. Qed.

Lemma split_ones l : forall a, zero_one l ->
  mask_fill (firstn (List.length l) (a :: cumsum_from a l)) (map (Z.eqb 0) l) (-1) = number_from a (map (Z.eqb 1) l) /\
  nth (List.length l) (a :: cumsum_from a l) 0 = a + nflag (map (Z.eqb 1) l).
Proof.
  induction l as [|s l IH]; intros a H.
  - split; [reflexivity|]. cbn. unfold nflag. cbn. lia.
  - inversion H as [|? ? Hs Ht]. subst. cbn [List.length firstn map cumsum_from].
    destruct (IH (a + s) Ht) as [I1 I2]. split.
    + destruct Hs as [-> | ->]; cbn [mask_fill Z.eqb number_from Pos.eqb].
      * change (0 =? 0) with true. change (1 =? 0) with false. cbn [number_from]. rewrite Z.add_0_r in I1. rewrite Z.add_0_r, I1. reflexivity.
      * change (0 =? 1) with false. change (1 =? 1) with true. cbn [number_from]. rewrite I1. reflexivity.
    + change (nth (S (List.length l)) (a :: (a + s) :: cumsum_from (a + s) l) 0) with (nth (List.length l) ((a + s) :: cumsum_from (a + s) l) 0).
      rewrite I2. unfold nflag. destruct Hs as [-> | ->].
      * change (1 =? 0) with false. cbn [filter]. lia.
      * change (1 =? 1) with true. cbn [filter List.length]. lia.
Qed.

Lemma nflag_zero l : zero_one l -> nflag (map (Z.eqb 1) l) = 0 <-> existsb (Z.eqb 1) l = false.
Proof.
  intros _. induction l as [|s l IH]; cbn [map existsb]; [split; reflexivity|].
  unfold nflag in *. cbn [filter]. destruct (1 =? s); cbn [orb List.length].
  - split; [lia|discriminate].
  - exact IH.
Qed.

Lemma no_ones_false l : existsb (Z.eqb 1) l = false -> map (Z.eqb 1) l = map (fun _ => false) l.
Proof.
  induction l as [|s l IH]; [reflexivity|]. cbn [existsb map]. destruct (1 =? s); [discriminate|].
  cbn [orb]. intros H. rewrite (IH H). reflexivity.
Qed.

Lemma number_all_false {A} (l : list A) : forall n, number_from n (map (fun _ => false) l) = map (fun _ => -1) l.
Proof. induction l; intros; cbn [map number_from]; congruence. Qed.
Lemma nflag_all_false {A} (l : list A) : nflag (map (fun _ => false) l) = 0.
Proof. unfold nflag. induction l; cbn [map filter]; [reflexivity|exact IHl]. Qed.

Lemma nflag_all_true {A} (l : list A) : nflag (map (fun _ => true) l) = Z.of_nat (List.length l).
Proof. unfold nflag. induction l as [|a l IH]; [reflexivity|]. cbn [map filter List.length]. lia. Qed.

Lemma split_children_Ok s : zero_one s -> s <> [] ->
  split_children s = Ok (number_from 0 (split_flags s), nflag (split_flags s)).
Proof.
  intros H Hne. unfold split_children, cumsum_excl, cumsum_incl. destruct (split_ones s 0 H) as [E1 E2].
  rewrite E1, E2, Z.add_0_l. unfold split_flags.
  destruct (existsb (Z.eqb 1) s) eqn:Ex.
  - destruct (Z.eqb_spec (nflag (map (Z.eqb 1) s)) 0) as [E|_]; [|reflexivity].
    apply (proj1 (nflag_zero s H)) in E. congruence.
  - rewrite (proj2 (nflag_zero s H) Ex). change (0 =? 0) with true. cbn iota.
    destruct s as [|a s]; [congruence|]. rewrite no_ones_false by exact Ex. rewrite number_all_false.
    cbn [map]. rewrite tset_Ok by (unfold zlen; cbn [List.length]; lia). cbn [bind set_nth Z.to_nat].
    f_equal. f_equal.
    + cbn [number_from]. rewrite number_all_false. reflexivity.
    + unfold nflag. cbn [filter]. pose proof (nflag_all_false s) as E. unfold nflag in E. cbn [List.length]. lia.
Qed.

Lemma split_flags_length s : List.length (split_flags s) = List.length s.
Proof. unfold split_flags. destruct (existsb _ s); [apply map_length|]. destruct s; [reflexivity|]. cbn [List.length]. rewrite map_length. reflexivity. Qed.

Lemma split_flags_pos s : zero_one s -> s <> [] -> 0 < nflag (split_flags s).
Proof.
  intros Hs Hne. unfold split_flags. destruct (existsb (Z.eqb 1) s) eqn:Ex.
  - pose proof (nflag_zero s Hs) as Hz. unfold nflag in *. destruct (List.length (filter _ _)) eqn:Hn; [|lia].
    assert (existsb (Z.eqb 1) s = false) by (apply Hz; reflexivity). congruence.
  - destruct s; [congruence|]. unfold nflag. cbn [filter List.length]. lia.
Qed.

Lemma octree_split_Ok o s d l : zero_one s -> s <> [] -> nth_error (layers o) d = Some l ->
  octree_split o s d = Ok (with_layers o (set_nth (layers o) d
     (set_nnum_nempty (set_children l (number_from 0 (split_flags s))) (nflag (split_flags s))))).
Proof.
  intros H Hne El. unfold octree_split. rewrite split_children_Ok by assumption. cbn [bind].
  exact (upd_layer_Ok o d (fun l => set_nnum_nempty (set_children l _) _) l El).
Qed.

Lemma tree_split o L K M d s : tree_upto o L K M -> neigh_upto o K 0 L -> (d <= L)%nat ->
  zero_one s -> s <> [] -> List.length s = List.length (K d) ->
  exists o', octree_split o s d = Ok o' /\ depth o' = depth o /\ full_depth o' = full_depth o /\
    batch_size o' = batch_size o /\ tree_upto o' d K (fupd M d (split_flags s)) /\ neigh_upto o' K 0 d.
Proof.
  intros T N Hd Hs Hne Hlen. destruct (tree_get o L K M T d Hd) as (l & _ & El & Ek & _ & En & _).
  pose proof (t_len _ _ _ _ T) as Ht. pose proof (t_L _ _ _ _ T) as HL.
  rewrite (octree_split_Ok o s d l Hs Hne El). eexists. split; [reflexivity|]. do 3 (split; [reflexivity|]).
  split.
  - eapply tree_upto_ext; [| |eapply (pre_tree_put o d K M _ (K d) (split_flags s))]; cbn [set_nnum_nempty set_children keys children nnum nnum_nempty].
    + intros i Hi. unfold fupd. destruct (Nat.eqb_spec i d) as [->|_]; reflexivity.
    + intros i Hi. reflexivity.
    + apply (tree_pre o L K M d); [lia|exact T].
    + lia.
    + exact Ek.
    + reflexivity.
    + exact En.
    + reflexivity.
    + rewrite split_flags_length. exact Hlen.
    + intros Hf. apply (t_grid _ _ _ _ T); assumption.
    + intros n' ->. apply (t_link _ _ _ _ T). lia.
  - intros i l' Hi E. unfold with_layers in E. cbn [layers] in E. rewrite nth_error_set_nth in E by lia.
    destruct (Nat.eqb_spec i d) as [->|_].
    + injection E as <-. cbn [neighs set_nnum_nempty set_children]. apply (N d l); [lia|exact El].
    + apply (N i l'); [lia|exact E].
Qed.

(** ** octree_grow *)
Lemma grow_kids B d k : (d < 16)%nat -> Z.of_nat B <= 32768 -> vkey B d k ->
  map (fun j => Z.lor (shl64 (Z.land k (Z.shiftl 1 48 - 1)) 3) (shl64 (Z.shiftr k 48) 48) + j) (arange 8) = kids k.
Proof.
  intros Hd HB Hv. pose proof (vkey_parts B d k ltac:(lia) Hv) as [Hb Hm]. pose proof (pow8_lt45 d Hd).
  rewrite kids_arange. apply map_ext. intros j. f_equal.
  rewrite land_mask_mod by lia. rewrite Z.shiftr_div_pow2 by lia.
  assert (E45 : 2 ^ 45 * 8 = 2 ^ 48) by reflexivity. assert (E63 : 32768 * 2 ^ 48 = 2 ^ 63) by reflexivity.
  assert (P48 : 0 < 2 ^ 48) by reflexivity.
  rewrite (shl64_exact _ 3) by (change (2 ^ 3) with 8; nia). rewrite (shl64_exact _ 48) by nia.
  change (2 ^ 3) with 8. rewrite Z.lor_comm, lor_shift_add by nia. ring.
Qed.

Lemma tree_grow o L K M d : tree_upto o L K M -> neigh_upto o K 0 L -> (full_depth o <= d <= L)%nat -> (S d <= depth o)%nat ->
  exists o', octree_grow o (S d) true = Ok o' /\ depth o' = depth o /\ full_depth o' = full_depth o /\
    batch_size o' = batch_size o /\
    tree_upto o' (S d) (fupd K (S d) (flat_map kids (select (M d) (K d))))
                   (fupd M (S d) (map (fun _ => true) (flat_map kids (select (M d) (K d))))) /\
    neigh_upto o' (fupd K (S d) (flat_map kids (select (M d) (K d)))) 0 (S d).
Proof.
  intros T N Hd Hdep. destruct (tree_get o L K M T d ltac:(lia)) as (p & _ & Ep & Ekp & Ecp & _ & Enp).
  pose proof (t_len _ _ _ _ T) as Ht. pose proof (t_depth _ _ _ _ T) as H16. pose proof (t_batch _ _ _ _ T) as HB.
  assert (Hlt : (S d < List.length (layers o))%nat) by lia.
  destruct (nth_error (layers o) (S d)) as [l|] eqn:El; [|apply nth_error_None in El; lia].
  set (ks := flat_map kids (select (M d) (K d))). set (n := nnum_nempty p * 8).
  assert (Hn : n = Z.of_nat (List.length ks)).
  { unfold n, ks. rewrite Enp, nflag_count, flat_kids_length, (tree_nempty_len o L K M T) by lia. lia. }
  set (l2 := set_children (set_keys (set_nnum_nempty (set_nnum l n) n) ks) (arange (Z.to_nat n))).
  set (o2 := with_layers o (set_nth (layers o) (S d) l2)).
  assert (T2 : tree_upto o2 (S d) (fupd K (S d) ks) (fupd M (S d) (map (fun _ => true) ks))).
  { unfold o2. apply pre_tree_put; try reflexivity.
    - apply (tree_pre o L K M); [lia|exact T].
    - lia.
    - unfold l2. cbn [set_children children]. f_equal. rewrite number_from_all_true.
      2:{ intros b Hb. apply in_map_iff in Hb. destruct Hb as (? & <- & _). reflexivity. }
      rewrite map_length, Hn, Nat2Z.id. rewrite <- (map_id (arange _)) at 1. apply map_ext. intros a. lia.
    - exact Hn.
    - unfold l2. cbn [set_children set_keys set_nnum_nempty nnum_nempty]. rewrite Hn, nflag_all_true. reflexivity.
    - apply map_length.
    - intros Hf. lia.
    - intros n' [= <-]. rewrite pick_select. reflexivity. }
  assert (N2 : neigh_upto o2 (fupd K (S d) ks) 0 d).
  { unfold o2. replace d with (S d - 1)%nat at 3 by lia. eapply set_layer_neigh; [exact N|lia|exact Hlt|discriminate]. }
  exists (put_neigh o2 (S d) (nb_table (S d) (fupd K (S d) ks (S d)))). split.
  - unfold octree_grow. rewrite (get_layer_pred o d p Ep). cbn [bind].
    change (nnum_nempty p * 8) with n.
    rewrite (upd_layer_Ok o (S d) (fun l => set_nnum_nempty (set_nnum l n) n) l El). cbn [bind].
    set (o1 := with_layers o (set_nth (layers o) (S d) (set_nnum_nempty (set_nnum l n) n))).
    assert (T1 : octree_key o1 (Z.of_nat (S d) - 1) true = Ok (select (M d) (K d))).
    { replace (Z.of_nat (S d) - 1) with (Z.of_nat d) by lia.
      transitivity (octree_key o (Z.of_nat d) true); [|apply (tree_key o L K M T d true); lia]. unfold octree_key, nempty_mask.
      assert (Eg : get_layer o1 (Z.of_nat d) = get_layer o (Z.of_nat d)).
      { rewrite (get_layer_Ok o d p Ep). apply get_layer_Ok. unfold o1, with_layers. cbn [layers].
        rewrite nth_error_set_nth by exact Hlt. rewrite (proj2 (Nat.eqb_neq d (S d))) by lia. exact Ep. }
      rewrite Eg. reflexivity. }
    rewrite T1. cbn [bind]. rewrite (proj2 (Z.ltb_ge n 0)) by lia. cbn [bind].
    assert (Ekeys : flat_map (fun k => map (fun j => k + j) (arange 8)) (map (fun k =>
       Z.lor (shl64 (Z.land k (Z.shiftl 1 48 - 1)) 3) (shl64 (Z.shiftr k 48) 48)) (select (M d) (K d))) = ks).
    { unfold ks. rewrite flat_map_concat_map, map_map, <- flat_map_concat_map. apply flat_map_ext_in. intros k Hk.
      apply (grow_kids (batch_size o) d); [lia|exact HB|]. apply (tree_vkey o L K M T); [lia|].
      apply in_select in Hk. destruct Hk as (q & _ & Hq). eapply nth_error_In; exact Hq. }
    rewrite Ekeys.
    rewrite (upd_layer_Ok o1 (S d) (fun l => set_children (set_keys l ks) (arange (Z.to_nat n))) (set_nnum_nempty (set_nnum l n) n)).
    2:{ unfold o1, with_layers. cbn [layers]. rewrite nth_error_set_nth by exact Hlt. rewrite Nat.eqb_refl. reflexivity. }
    cbn [bind].
    assert (Eo2 : with_layers o1 (set_nth (layers o1) (S d) (set_children (set_keys (set_nnum_nempty (set_nnum l n) n) ks) (arange (Z.to_nat n)))) = o2).
    { unfold o2, o1, with_layers. cbn [depth full_depth batch_size device layers]. f_equal. apply nth_error_ext. intros i.
      rewrite !nth_error_set_nth by (rewrite ?set_nth_length; exact Hlt). destruct (Nat.eqb i (S d)); reflexivity. }
    rewrite Eo2.
    rewrite (construct_neigh_Ok o2 (S d) _ _ (S d) T2); [reflexivity|lia|].
    right. exists d. split; [reflexivity|]. intros i li Hi. apply N2. lia.
  - destruct (put_neigh_params o2 (S d) (nb_table (S d) (fupd K (S d) ks (S d)))) as (P1 & P2 & P3 & _ & _).
    rewrite P1, P2, P3. do 3 (split; [reflexivity|]). split; [apply put_neigh_tree; exact T2|].
    apply put_neigh_upto; [lia|exact N2].
Qed.

(** ** init_octree *)
Definition iM (B d : nat) : list bool := map (fun _ => true) (full_grid B d).

Lemma set_full_neigh o d l : (d <= full_depth o)%nat -> (d <= 16)%nat -> Z.of_nat (batch_size o) <= 32768 ->
  nth_error (layers o) d = Some l ->
  octree_grow_full o d true = Ok (put_neigh (with_layers o (set_nth (layers o) d (full_layer (batch_size o) d l))) d
     (nb_table d (full_grid (batch_size o) d))).
Proof.
  intros Hf Hd HB El. pose proof (grow_full_Ok o d l Hf Hd HB El) as E. unfold octree_grow_full in *.
  rewrite (proj2 (Nat.leb_le _ _) Hf) in *. cbn [assert_ bind] in *.
  match type of E with (bind ?e _) = _ => destruct e as [o1|] end; [|discriminate]. cbn [bind] in *.
  injection E as ->. set (o2 := with_layers _ _). unfold construct_neigh. cbn [full_depth o2 with_layers].
  change (full_depth o2) with (full_depth o). rewrite (proj2 (Nat.leb_le _ _) Hf).
  change (batch_size o2) with (batch_size o). rewrite neigh_full_Ok by assumption. cbn [bind]. unfold put_neigh.
  assert (En : nth_error (layers o2) d = Some (full_layer (batch_size o) d l)).
  { unfold o2, with_layers. cbn [layers]. rewrite nth_error_set_nth, Nat.eqb_refl by (apply nth_error_Some; congruence). reflexivity. }
  rewrite En. exact (upd_layer_Ok o2 d (fun l => set_neighs l _) _ En).
Qed.

Lemma full_layer_facts B d l : (d <= 16)%nat ->
  keys (full_layer B d l) = Some (full_grid B d) /\ children (full_layer B d l) = Some (number_from 0 (iM B d)) /\
  nnum (full_layer B d l) = Z.of_nat (List.length (full_grid B d)) /\ nnum_nempty (full_layer B d l) = nflag (iM B d).
Proof.
  intros Hd. unfold full_layer. cbn [keys children nnum nnum_nempty set_children set_keys set_nnum_nempty set_nnum].
  assert (Ha : forall b, In b (iM B d) -> b = true).
  { intros b Hb. unfold iM in Hb. apply in_map_iff in Hb. destruct Hb as (? & <- & _). reflexivity. }
  split; [reflexivity|]. split; [|split].
  - f_equal. rewrite number_from_all_true by exact Ha. unfold iM. rewrite map_length, full_grid_length.
    rewrite <- (map_id (arange _)) at 1. apply map_ext. intros a. lia.
  - rewrite full_grid_length. lia.
  - unfold iM. rewrite nflag_all_true, full_grid_length. lia.
Qed.

Lemma init_loop o n : (depth o <= 16)%nat -> Z.of_nat (batch_size o) <= 32768 -> (full_depth o <= depth o)%nat ->
  List.length (layers o) = S (depth o) -> (n <= full_depth o)%nat ->
  exists o', foldM (fun o d => octree_grow_full o d true) o (seq 0 (S n)) = Ok o' /\
    depth o' = depth o /\ full_depth o' = full_depth o /\ batch_size o' = batch_size o /\ device o' = device o /\
    tree_upto o' n (full_grid (batch_size o)) (iM (batch_size o)) /\ neigh_upto o' (full_grid (batch_size o)) 0 n /\
    (forall i, (n < i)%nat -> nth_error (layers o') i = nth_error (layers o) i).
Proof.
  intros H16 HB Hf Hlen. set (B := batch_size o).
  assert (Step : forall n o1, (n <= full_depth o)%nat -> depth o1 = depth o -> full_depth o1 = full_depth o -> batch_size o1 = B ->
     device o1 = device o -> pre_tree o1 n (full_grid B) (iM B) -> (n <> O -> neigh_upto o1 (full_grid B) 0 (n - 1)) ->
     (forall i, (n <= i)%nat -> nth_error (layers o1) i = nth_error (layers o) i) ->
     exists o', octree_grow_full o1 n true = Ok o' /\
       depth o' = depth o /\ full_depth o' = full_depth o /\ batch_size o' = B /\ device o' = device o /\
       tree_upto o' n (full_grid B) (iM B) /\ neigh_upto o' (full_grid B) 0 n /\
       (forall i, (n < i)%nat -> nth_error (layers o') i = nth_error (layers o) i)).
  { clear n. intros n o1 Hn E1 E2 E3 E4 P N Hrest.
    assert (Hlen1 : (n < List.length (layers o1))%nat) by (rewrite (p_len _ _ _ _ P); lia).
    destruct (nth_error (layers o1) n) as [l|] eqn:El; [|apply nth_error_None in El; lia].
    rewrite (set_full_neigh o1 n l) by (try rewrite E2; try rewrite E3; try lia; assumption). rewrite E3.
    set (o2 := with_layers o1 (set_nth (layers o1) n (full_layer B n l))).
    destruct (full_layer_facts B n l ltac:(lia)) as (F1 & F2 & F3 & F4).
    assert (T2 : tree_upto o2 n (full_grid B) (iM B)).
    { eapply tree_upto_ext; [| |unfold o2; eapply (pre_tree_put o1 n _ _ _ (full_grid B n) (iM B n)); [exact P| | | | | | | |]].
      - intros d Hd. unfold fupd. destruct (Nat.eqb_spec d n) as [->|_]; reflexivity.
      - intros d Hd. unfold fupd. destruct (Nat.eqb_spec d n) as [->|_]; reflexivity.
      - lia.
      - exact F1.
      - exact F2.
      - exact F3.
      - exact F4.
      - unfold iM. apply map_length.
      - intros _. rewrite E3. reflexivity.
      - intros n' ->. rewrite pick_select, select_all_true.
        + rewrite full_grid_kids by lia. reflexivity.
        + unfold iM. apply map_length.
        + intros b Hb. unfold iM in Hb. apply in_map_iff in Hb. destruct Hb as (? & <- & _). reflexivity. }
    eexists. split; [reflexivity|].
    destruct (put_neigh_params o2 n (nb_table n (full_grid B n))) as (P1 & P2 & P3 & P4 & _).
    rewrite P1, P2, P3, P4. cbn [o2 with_layers depth full_depth batch_size device].
    do 4 (split; [assumption|]). split; [apply put_neigh_tree; exact T2|]. split.
    - intros d l' Hd E. rewrite put_neigh_nth in E. unfold o2, with_layers in E. cbn [layers] in E.
      rewrite nth_error_set_nth in E by exact Hlen1. destruct (Nat.eqb_spec d n) as [->|Hne].
      + cbn [option_map] in E. injection E as <-. reflexivity.
      + destruct (nth_error (layers o1) d) as [l1|] eqn:El1; [|discriminate]. cbn [option_map] in E. injection E as <-.
        apply (N ltac:(lia) d l1); [lia|exact El1].
    - intros i Hi. rewrite put_neigh_nth. unfold o2, with_layers. cbn [layers].
      rewrite nth_error_set_nth by exact Hlen1. rewrite (proj2 (Nat.eqb_neq i n)) by lia.
      rewrite Hrest by lia. destruct (nth_error (layers o) i); reflexivity. }
  induction n as [|n IH]; intros Hn.
  - cbn [seq foldM]. destruct (Step O o) as (o' & E & R); try reflexivity; try lia.
    + constructor; try assumption; intros d Hd; lia.
    + exists o'. rewrite E. split; [reflexivity|exact R].
  - destruct IH as (o1 & E1 & D1 & D2 & D3 & D4 & T1 & N1 & R1); [lia|].
    rewrite seq_S, foldM_app, E1. cbn [bind foldM Nat.add].
    destruct (Step (S n) o1) as (o' & E & R); try assumption.
    + apply (tree_pre o1 n); [lia|exact T1].
    + intros _. replace (S n - 1)%nat with n by lia. exact N1.
    + exists o'. rewrite E. split; [reflexivity|exact R].
Qed.

Lemma init_Ok dep full bs dev : (dep <= 16)%nat -> Z.of_nat bs <= 32768 -> (full <= dep)%nat ->
  exists o, init_octree dep full bs dev = Ok o /\ depth o = dep /\ full_depth o = full /\ batch_size o = bs /\ device o = dev /\
    tree_upto o full (full_grid bs) (iM bs) /\ neigh_upto o (full_grid bs) 0 full.
Proof.
  intros H16 HB Hf. unfold init_octree. rewrite Nat.add_1_r.
  destruct (init_loop (octree_new dep full bs dev) full) as (o' & E & D1 & D2 & D3 & D4 & T & N & _); cbn; try assumption; try lia.
  { rewrite repeat_length. lia. }
  exists o'. split; [exact E|]. auto 10.
Qed.

(** ** histories *)
Lemma history_inv dep full bs dev o L : (dep <= 16)%nat -> Z.of_nat bs <= 32768 -> (1 <= bs)%nat -> (full <= dep)%nat ->
  history dep full bs dev o L ->
  depth o = dep /\ full_depth o = full /\ batch_size o = bs /\ (full <= L)%nat /\
  exists K M, tree_upto o L K M /\ neigh_upto o K 0 L /\ (forall d, (d <= L)%nat -> select (M d) (K d) <> []).
Proof.
  intros H16 HB Hb Hf H.
  induction H as [o Ho|o L l s d o' H IH Hd El Hlen Hs Ho|o L d o' H IH Hd Hdep Ho].
  - destruct (init_Ok dep full bs dev H16 HB Hf) as (o1 & E & D1 & D2 & D3 & _ & T & N).
    assert (o1 = o) by congruence. subst o1. split; [exact D1|]. split; [exact D2|]. split; [exact D3|]. split; [lia|].
    exists (full_grid bs), (iM bs). split; [exact T|]. split; [exact N|].
    intros d Hd E0. apply (f_equal (@List.length Z)) in E0.
    rewrite select_all_true in E0.
    + rewrite full_grid_length in E0. cbn [List.length] in E0. pose proof (pow8_nat d). pose proof (pow8_pos d). nia.
    + unfold iM. apply map_length.
    + intros b Hb'. unfold iM in Hb'. apply in_map_iff in Hb'. destruct Hb' as (? & <- & _). reflexivity.
  - destruct IH as (D1 & D2 & D3 & HL & K & M & T & N & Hne).
    destruct (tree_get o L K M T d ltac:(lia)) as (l' & _ & El' & _ & _ & En & _).
    assert (l' = l) by congruence. subst l'. rewrite En in Hlen. assert (Hlen' : List.length s = List.length (K d)) by lia.
    assert (Hsne : s <> []).
    { intros ->. cbn [List.length] in Hlen'. apply (Hne d); [lia|]. destruct (K d); [|discriminate]. destruct (M d) as [|[] ?]; reflexivity. }
    destruct (tree_split o L K M d s T N ltac:(lia) Hs Hsne Hlen') as (o1 & E & F1 & F2 & F3 & T1 & N1).
    assert (o1 = o') by congruence. subst o1. split; [congruence|]. split; [congruence|]. split; [congruence|]. split; [lia|].
    exists K, (fupd M d (split_flags s)). split; [exact T1|]. split; [exact N1|].
    intros i Hi. unfold fupd. destruct (Nat.eqb_spec i d) as [->|_]; [|apply Hne; lia].
    intros E0. apply (f_equal (@List.length Z)) in E0.
    rewrite select_length in E0 by (rewrite split_flags_length; exact Hlen'). cbn [List.length] in E0.
    assert (G : 0 < nflag (split_flags s)); [|rewrite nflag_count in G; lia].
    apply split_flags_pos; assumption.
  - destruct IH as (D1 & D2 & D3 & HL & K & M & T & N & Hne). destruct d as [|d]; [lia|].
    destruct (tree_grow o L K M d T N ltac:(lia) ltac:(lia)) as (o1 & E & F1 & F2 & F3 & T1 & N1).
    assert (o1 = o') by congruence. subst o1. split; [congruence|]. split; [congruence|]. split; [congruence|]. split; [lia|].
    do 2 eexists. split; [exact T1|]. split; [exact N1|].
    intros i Hi. unfold fupd. destruct (Nat.eqb_spec i (S d)) as [->|Hi']; [|apply Hne; lia].
    rewrite select_all_true.
    + intros E0. apply (f_equal (@List.length Z)) in E0. rewrite flat_kids_length in E0. cbn [List.length] in E0.
      pose proof (Hne d ltac:(lia)) as Hned. destruct (select (M d) (K d)); [congruence|]. cbn [List.length] in E0. lia.
    + apply map_length.
    + intros b Hb'. apply in_map_iff in Hb'. destruct Hb' as (? & <- & _). reflexivity.
Qed.

Lemma neigh_all o L K M : tree_upto o L K M -> neigh_upto o K 0 L -> forall d, (d <= L)%nat -> has_neigh o d.
Proof.
  intros T N d Hd. eapply upto_has_neigh; [exact T|exact Hd|]. eapply neigh_upto_sub; [|exact N]. lia.
Qed.

(** ** theorems *)
Lemma thm_split_layer o s d l : zero_one s -> s <> [] -> nth_error (layers o) d = Some l ->
  exists o' l' c, octree_split o s d = Ok o' /\ nth_error (layers o') d = Some l' /\
    (forall i, i <> d -> nth_error (layers o') i = nth_error (layers o) i) /\
    keys l' = keys l /\ nnum l' = nnum l /\ children l' = Some c /\ c = number_from 0 (split_flags s) /\
    nnum_nempty l' = nflag (split_flags s) /\ 0 < nnum_nempty l' /\
    forall i q, nth_error c i = Some q -> (0 <= q <-> nth_error (split_flags s) i = Some true).
Proof.
  intros Hs Hne El. rewrite (octree_split_Ok o s d l Hs Hne El). do 3 eexists. split; [reflexivity|].
  assert (Hlt : (d < List.length (layers o))%nat) by (apply nth_error_Some; congruence).
  unfold with_layers; cbn [layers]. split; [rewrite nth_error_set_nth, Nat.eqb_refl by exact Hlt; reflexivity|].
  split. { intros i Hi. rewrite nth_error_set_nth by exact Hlt. rewrite (proj2 (Nat.eqb_neq _ _) Hi). reflexivity. }
  do 3 (split; [reflexivity|]). split; [reflexivity|]. split; [reflexivity|].
  cbn [set_nnum_nempty set_children nnum_nempty]. split.
  - apply split_flags_pos; assumption.
  - intros i q Hq. destruct (nth_error (split_flags s) i) as [[|]|] eqn:Ef.
    + destruct (number_from_nth (split_flags s) _ 0 i ltac:(lia) Ef) as (r & Er & _). assert (q = 0 + Z.of_nat r) by congruence.
      split; [reflexivity|lia].
    + rewrite (number_from_nth_false 0 _ i Ef) in Hq. injection Hq as <-. split; [lia|discriminate].
    + apply nth_error_None in Ef. assert (i < List.length (number_from 0 (split_flags s)))%nat by (apply nth_error_Some; congruence).
      rewrite number_from_length in *. lia.
Qed.

Lemma thm_history dep full bs dev o L : (dep <= 16)%nat -> Z.of_nat bs <= 32768 -> (1 <= bs)%nat -> (full <= dep)%nat ->
  history dep full bs dev o L ->
  depth o = dep /\ full_depth o = full /\ batch_size o = bs /\ wf_upto o L /\
  (forall d, (d <= L)%nat -> has_neigh o d) /\
  (forall d l s, (full <= d <= L)%nat -> nth_error (layers o) d = Some l -> Z.of_nat (List.length s) = nnum l ->
     zero_one s -> exists o', octree_split o s d = Ok o') /\
  (forall d, (full < d <= S L)%nat -> (d <= dep)%nat -> exists o', octree_grow o d true = Ok o') /\
  (forall d l, (d <= L)%nat -> nth_error (layers o) d = Some l -> 0 < nnum_nempty l).
Proof.
  intros H16 HB Hb Hf H. destruct (history_inv dep full bs dev o L H16 HB Hb Hf H) as (D1 & D2 & D3 & HL & K & M & T & N & Hne).
  split; [exact D1|]. split; [exact D2|]. split; [exact D3|]. split; [exists K, M; exact T|].
  split; [apply (neigh_all o L K M T N)|]. split; [|split].
  - intros d l s Hd El Hlen Hs. destruct (tree_get o L K M T d ltac:(lia)) as (l' & _ & El' & _ & _ & En & _).
    assert (l' = l) by congruence. subst l'. rewrite En in Hlen. assert (Hlen' : List.length s = List.length (K d)) by lia.
    assert (Hsne : s <> []).
    { intros ->. cbn [List.length] in Hlen'. apply (Hne d); [lia|]. destruct (K d); [|discriminate]. destruct (M d) as [|[] ?]; reflexivity. }
    destruct (tree_split o L K M d s T N ltac:(lia) Hs Hsne Hlen') as (o1 & E & _). eauto.
  - intros d Hd Hdep. destruct d as [|d]; [lia|].
    destruct (tree_grow o L K M d T N ltac:(lia) ltac:(lia)) as (o1 & E & _). eauto.
  - intros d l Hd El. destruct (tree_get o L K M T d Hd) as (l' & _ & El' & _ & _ & _ & Ene).
    assert (l' = l) by congruence. subst l'. rewrite Ene, nflag_count, <- (tree_nempty_len o L K M T) by exact Hd.
    pose proof (Hne d Hd) as Hs. destruct (select (M d) (K d)); [congruence|]. cbn [List.length]. lia.
Qed.

Lemma thm_init dep full bs dev : (dep <= 16)%nat -> Z.of_nat bs <= 32768 -> (full <= dep)%nat ->
  exists o, init_octree dep full bs dev = Ok o /\ depth o = dep /\ full_depth o = full /\ batch_size o = bs /\
    forall d, (d <= full)%nat ->
      has_neigh o d /\
      exists ks, octree_key o (Z.of_nat d) false = Ok ks /\ octree_key o (Z.of_nat d) true = Ok ks /\
      increasing ks /\ (forall k, In k ks <-> valid_key bs d k) /\
      exists l, nth_error (layers o) d = Some l /\ nnum l = 8 ^ Z.of_nat d * Z.of_nat bs /\ nnum_nempty l = nnum l.
Proof.
  intros H16 HB Hf. destruct (init_Ok dep full bs dev H16 HB Hf) as (o & E & D1 & D2 & D3 & _ & T & N).
  exists o. do 4 (split; [assumption|]). intros d Hd. split; [apply (neigh_all o full _ _ T N); exact Hd|].
  exists (full_grid bs d). split; [rewrite (tree_key o _ _ _ T) by exact Hd; reflexivity|].
  split. { rewrite (tree_key o _ _ _ T) by exact Hd. unfold sel. rewrite select_all_true; [reflexivity|unfold iM; apply map_length|].
           intros b Hb'. unfold iM in Hb'. apply in_map_iff in Hb'. destruct Hb' as (? & <- & _). reflexivity. }
  split; [apply full_grid_sorted; lia|]. split; [intros k; rewrite in_full_grid; apply vkey_valid|].
  destruct (tree_get o _ _ _ T d Hd) as (l & _ & El & _ & _ & En & Ene). exists l. split; [exact El|].
  rewrite Ene, En. unfold iM. rewrite nflag_all_true, full_grid_length, <- pow8_nat. split; [lia|reflexivity].
Qed.

(** ** growing a copy *)
Lemma flags_id m : existsb (fun b => b) m = true -> split_flags (map (fun b : bool => if b then 1 else 0) m) = m.
Proof.
  intros H. unfold split_flags.
  assert (E : existsb (Z.eqb 1) (map (fun b : bool => if b then 1 else 0) m) = true).
  { clear - H. induction m as [|[] m IH]; cbn in *; auto. }
  rewrite E, map_map. rewrite <- (map_id m) at 2. apply map_ext. intros []; reflexivity.
Qed.
Lemma flags_01 m : zero_one (map (fun b : bool => if b then 1 else 0) m).
Proof. apply Forall_forall. intros s Hs. apply in_map_iff in Hs. destruct Hs as ([] & <- & _); auto. Qed.

Lemma nflag_pos m : 0 < nflag m -> existsb (fun b => b) m = true.
Proof. unfold nflag. induction m as [|[] m IH]; cbn [filter existsb List.length]; [lia|reflexivity|exact IH]. Qed.

Section Regrow.
  Variables (src o0 : octree) (K : nat -> list Z) (M : nat -> list bool).
  Hypothesis T : tree_upto src (depth src) K M.
  Hypothesis Hne : forall d, (full_depth src <= d <= depth src)%nat -> 0 < nflag (M d).
  Hypothesis Hdep : depth o0 = depth src.
  Hypothesis Hfull : full_depth o0 = full_depth src.
  Hypothesis Hbs : batch_size o0 = batch_size src.
  Hypothesis T0 : exists M', tree_upto o0 (full_depth src) K M' /\ (forall d, (d < full_depth src)%nat -> M' d = M d).
  Hypothesis N0 : neigh_upto o0 K 0 (full_depth src).

  (** after the loop has handled layers full..d-1 *)
  Lemma regrow_loop n : (full_depth src + n <= depth src)%nat ->
    exists o', foldM (fun o d =>
       mask <- nempty_mask src (Z.of_nat d) ;;
       o <- octree_split o (map (fun b : bool => if b then 1 else 0) mask) d ;;
       if Nat.ltb d (depth o) then octree_grow o (S d) true else Ok o) o0 (seq (full_depth src) n) = Ok o' /\
    depth o' = depth src /\ full_depth o' = full_depth src /\ batch_size o' = batch_size src /\
    (exists M', tree_upto o' (full_depth src + n) K M' /\ (forall d, (d < full_depth src + n)%nat -> M' d = M d)) /\
    neigh_upto o' K 0 (full_depth src + n).
  Proof.
    induction n as [|n IH]; intros Hn.
    - exists o0. split; [reflexivity|]. rewrite Nat.add_0_r. auto 10.
    - destruct IH as (o1 & E1 & D1 & D2 & D3 & (M1 & T1 & HM1) & N1); [lia|].
      rewrite seq_S, foldM_app, E1. cbn [bind foldM]. set (d := (full_depth src + n)%nat) in *.
      rewrite (tree_mask src _ K M T d) by lia. cbn [bind].
      set (s := map (fun b : bool => if b then 1 else 0) (M d)).
      pose proof (t_mask _ _ _ _ T d ltac:(lia)) as Hm. pose proof (Hne d ltac:(lia)) as Hp.
      assert (Hs : s <> []). { unfold s. destruct (M d); [unfold nflag in Hp; cbn in Hp; lia|discriminate]. }
      destruct (tree_split o1 d K M1 d s T1 N1 (le_n _) (flags_01 _) Hs) as (o2 & E2 & F1 & F2 & F3 & T2 & N2).
      { unfold s. rewrite map_length. exact Hm. }
      unfold s in T2. rewrite flags_id in T2 by (apply nflag_pos; exact Hp). fold s in T2.
      rewrite E2. cbn [bind]. rewrite F1, D1. rewrite (proj2 (Nat.ltb_lt d (depth src))) by lia.
      destruct (tree_grow o2 d K (fupd M1 d (M d)) d T2 N2) as (o3 & E3 & G1 & G2 & G3 & T3 & N3); [lia|lia|].
      rewrite E3. cbn [bind]. exists o3. split; [reflexivity|]. split; [congruence|]. split; [congruence|]. split; [congruence|].
      replace (full_depth src + S n)%nat with (S d) by lia.
      assert (EK : flat_map kids (select (fupd M1 d (M d) d) (K d)) = K (S d)).
      { rewrite fupd_eq, (t_link _ _ _ _ T d) by lia. rewrite pick_select. reflexivity. }
      rewrite EK in T3, N3. split.
      + eexists. split; [eapply tree_upto_ext; [| |exact T3]|].
        * intros i Hi. unfold fupd. destruct (Nat.eqb_spec i (S d)) as [->|_]; reflexivity.
        * intros i Hi. reflexivity.
        * intros i Hi. rewrite fupd_ne by lia. unfold fupd. destruct (Nat.eqb_spec i d) as [->|Hi']; [reflexivity|apply HM1; lia].
      + eapply neigh_upto_ext; [|exact N3]. intros i Hi. unfold fupd. destruct (Nat.eqb_spec i (S d)) as [->|_]; reflexivity.
  Qed.

  Lemma regrow_Ok : exists o', regrow src o0 = Ok o' /\ depth o' = depth src /\ full_depth o' = full_depth src /\
    batch_size o' = batch_size src /\ tree_upto o' (depth src) K M /\ neigh_upto o' K 0 (depth src).
  Proof.
    pose proof (t_full _ _ _ _ T) as Hf.
    destruct (regrow_loop (depth src - full_depth src)) as (o1 & E1 & D1 & D2 & D3 & (M1 & T1 & HM1) & N1); [lia|].
    unfold regrow. rewrite seq_S, foldM_app, E1. cbn [bind foldM].
    replace (full_depth src + (depth src - full_depth src))%nat with (depth src) in * by lia. set (d := depth src) in *.
    rewrite (tree_mask src _ K M T d) by lia. cbn [bind].
    set (s := map (fun b : bool => if b then 1 else 0) (M d)).
    pose proof (t_mask _ _ _ _ T d ltac:(lia)) as Hm. pose proof (Hne d ltac:(lia)) as Hp.
    assert (Hs : s <> []). { unfold s. destruct (M d); [unfold nflag in Hp; cbn in Hp; lia|discriminate]. }
    destruct (tree_split o1 d K M1 d s T1 N1 (le_n _) (flags_01 _) Hs) as (o2 & E2 & F1 & F2 & F3 & T2 & N2).
    { unfold s. rewrite map_length. exact Hm. }
    unfold s in T2. rewrite flags_id in T2 by (apply nflag_pos; exact Hp). fold s in T2.
    rewrite E2. cbn [bind]. rewrite F1, D1, Nat.ltb_irrefl. exists o2. split; [reflexivity|].
    split; [congruence|]. split; [congruence|]. split; [congruence|]. split; [|exact N2].
    eapply tree_upto_ext; [| |exact T2]; [reflexivity|]. intros i Hi. unfold fupd.
    destruct (Nat.eqb_spec i d) as [->|Hi']; [reflexivity|symmetry; apply HM1; lia].
  Qed.
End Regrow.

Lemma thm_regrow src dev : wf_octree src -> (1 <= full_depth src)%nat ->
  (forall d l, (full_depth src <= d <= depth src)%nat -> nth_error (layers src) d = Some l -> 0 < nnum_nempty l) ->
  exists o0 o' srcn, init_octree (depth src) (full_depth src) (batch_size src) dev = Ok o0 /\
    regrow src o0 = Ok o' /\ construct_all_neigh src = Ok srcn /\
    List.length (layers o') = List.length (layers srcn) /\
    forall d l l', nth_error (layers srcn) d = Some l -> nth_error (layers o') d = Some l' -> same_tree l l' /\ ((1 <= d)%nat -> neighs l' = neighs l).
Proof.
  intros (K & M & T) Hf1 Hne.
  destruct (init_Ok (depth src) (full_depth src) (batch_size src) dev (t_depth _ _ _ _ T) (t_batch _ _ _ _ T) (t_full _ _ _ _ T))
    as (o0 & E0 & D1 & D2 & D3 & _ & T0 & N0).
  pose proof (t_full _ _ _ _ T) as Hf.
  assert (EK : forall d, (d <= full_depth src)%nat -> K d = full_grid (batch_size src) d).
  { intros d Hd. apply (t_grid _ _ _ _ T); lia. }
  assert (Hne' : forall d, (full_depth src <= d <= depth src)%nat -> 0 < nflag (M d)).
  { intros d Hd. destruct (tree_get src _ K M T d ltac:(lia)) as (l & _ & El & _ & _ & _ & En). rewrite <- En. apply (Hne d l); assumption. }
  destruct (regrow_Ok src o0 K M T Hne' D1 D2 D3) as (o' & E' & F1 & F2 & F3 & T' & N').
  { exists (iM (batch_size src)). split.
    - eapply tree_upto_ext; [| |exact T0]; [exact EK|reflexivity].
    - intros d Hd. rewrite (tree_full_mask src _ K M T d Hd ltac:(lia)). rewrite (EK d) by lia. unfold iM.
      clear. induction (full_grid _ d) as [|a l IH]; [reflexivity|]. cbn [map List.length repeat]. congruence. }
  { eapply neigh_upto_ext; [|exact N0]. intros d Hd. apply EK. lia. }
  destruct (tree_all_neigh src K M T Hf1) as (srcn & En & Ho & Tn & Nn).
  exists o0, o', srcn. split; [exact E0|]. split; [exact E'|]. split; [exact En|].
  destruct Ho as (Hdn & _).
  split; [rewrite (t_len _ _ _ _ T'), (t_len _ _ _ _ Tn); congruence|].
  intros d l l' El El'.
  assert (Hd2 : (d <= depth src)%nat).
  { assert (d < List.length (layers srcn))%nat by (apply nth_error_Some; congruence). rewrite (t_len _ _ _ _ Tn) in *. lia. }
  destruct (tree_get srcn _ K M Tn d ltac:(lia)) as (x & _ & Ex & A1 & A2 & A3 & A4).
  destruct (tree_get o' _ K M T' d ltac:(lia)) as (y & _ & Ey & B1 & B2 & B3 & B4).
  assert (x = l) by congruence. assert (y = l') by congruence. subst x y.
  split; [unfold same_tree; repeat split; congruence|].
  intros Hd. rewrite (Nn d l ltac:(lia) El), (N' d l' ltac:(lia) El'). reflexivity.
Qed.
