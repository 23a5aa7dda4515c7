(** merge_octrees. *)
From Coq Require Import List ZArith Bool Lia Sorting.Sorted Qcanon.
From Verif Require Import Res Tensor Key Num Points Octree Spec SpecNeigh SpecMerge WF KeyFacts ListFacts KidsFacts
  BuildFacts WFFacts SearchFacts NeighFacts NeighSparse GetNeigh NeighThms GrowFacts.
Import ListNotations.
Open Scope Z_scope.

(** ** joining *)
Fixpoint jk (i : Z) (kss : list (list Z)) : list Z :=
  match kss with [] => [] | ks :: t => map (fun k => i * 2 ^ 48 + k) ks ++ jk (i + 1) t end.
Lemma join_keys_jk kss : join_keys kss = jk 0 kss.
Proof.
  unfold join_keys. generalize 0. induction kss as [|ks t IH]; intros i; cbn [indexed map concat jk]; [reflexivity|].
  rewrite IH. reflexivity.
Qed.

Lemma enumerate_indexed {A} (l : list A) : enumerate l = indexed 0 l.
Proof.
  unfold enumerate, arange. change (seq 0 (length l)) with (seq (Z.to_nat 0) (length l)).
  assert (G : forall (l : list A) n, combine (map Z.of_nat (seq n (length l))) l = indexed (Z.of_nat n) l).
  { clear l. induction l as [|a l IH]; intros n; [reflexivity|]. cbn [length seq map combine indexed].
    rewrite IH. f_equal. f_equal. lia. }
  exact (G l O).
Qed.

Lemma jk_in i kss k : In k (jk i kss) <-> exists j ks k0, nth_error kss j = Some ks /\ In k0 ks /\ k = (i + Z.of_nat j) * 2 ^ 48 + k0.
Proof.
  revert i; induction kss as [|ks t IH]; intros i; cbn [jk].
  - split; [intros []|]. intros (j & ? & ? & H & _). destruct j; discriminate.
  - rewrite in_app_iff, in_map_iff, IH. split.
    + intros [(k0 & <- & Hk)|(j & ks' & k0 & H1 & H2 & ->)].
      * exists O, ks, k0. rewrite Z.add_0_r. auto.
      * exists (S j), ks', k0. split; [exact H1|]. split; [exact H2|]. f_equal. f_equal. lia.
    + intros (j & ks' & k0 & H1 & H2 & ->). destruct j as [|j].
      * left. cbn in H1. injection H1 as <-. exists k0. rewrite Z.add_0_r. auto.
      * right. exists j, ks', k0. split; [exact H1|]. split; [exact H2|]. f_equal. f_equal. lia.
Qed.

Lemma jk_vkey B d i kss : (d <= 16)%nat -> 0 <= i -> i + Z.of_nat (length kss) <= Z.of_nat B -> Forall (Forall (vkey 1 d)) kss ->
  Forall (vkey B d) (jk i kss).
Proof.
  intros Hd Hi HB Hv. apply Forall_forall. intros k Hk. apply jk_in in Hk. destruct Hk as (j & ks & k0 & H1 & H2 & ->).
  rewrite Forall_forall in Hv. pose proof (Hv ks (nth_error_In _ _ H1)) as H. rewrite Forall_forall in H.
  destruct (H k0 H2) as (b & m & Hb & Hm & ->). exists (i + Z.of_nat j), m.
  assert (j < length kss)%nat by (apply nth_error_Some; congruence).
  split; [lia|]. split; [exact Hm|]. replace b with 0 by lia. ring.
Qed.

Lemma jk_lower d i kss k : (d <= 16)%nat -> Forall (Forall (vkey 1 d)) kss -> In k (jk i kss) -> i * 2 ^ 48 <= k.
Proof.
  intros Hd Hv Hk. apply jk_in in Hk. destruct Hk as (j & ks & k0 & H1 & H2 & ->).
  rewrite Forall_forall in Hv. pose proof (Hv ks (nth_error_In _ _ H1)) as H. rewrite Forall_forall in H.
  destruct (H k0 H2) as (b & m & Hb & Hm & ->). nia.
Qed.

Lemma jk_sorted d i kss : (d <= 16)%nat -> Forall (Forall (vkey 1 d)) kss -> Forall sorted kss -> sorted (jk i kss).
Proof.
  intros Hd Hv Hs. revert i; induction kss as [|ks t IH]; intros i; cbn [jk]; [constructor|].
  inversion Hv; inversion Hs; subst. apply sorted_app.
  - apply sorted_map; [assumption|]. intros; lia.
  - apply IH; assumption.
  - intros a b Ha Hb. apply in_map_iff in Ha. destruct Ha as (a0 & <- & Ha0).
    pose proof (jk_lower d _ _ _ Hd H2 Hb) as Hl.
    rewrite Forall_forall in H1. destruct (H1 a0 Ha0) as (b0 & m & Hb0 & Hm & ->).
    pose proof (pow8_lt48 d Hd). nia.
Qed.

Lemma jk_length i kss : length (jk i kss) = length (concat kss).
Proof. revert i; induction kss as [|ks t IH]; intros i; cbn [jk concat]; [reflexivity|]. rewrite !app_length, map_length, IH. reflexivity. Qed.

Lemma kids_shift i k : kids (i * 2 ^ 48 + k) = map (fun c => i * 2 ^ 48 + c) (kids k).
Proof.
  unfold kids. rewrite map_map. apply map_ext. intros j.
  rewrite (Z.div_add_l i (2 ^ 48) k) by (vm_compute; discriminate).
  rewrite (Z.add_comm (i * 2 ^ 48) k), Z.mod_add by (vm_compute; discriminate). ring.
Qed.

Lemma jk_kids i kss : flat_map kids (jk i kss) = jk i (map (flat_map kids) kss).
Proof.
  revert i; induction kss as [|ks t IH]; intros i; cbn [jk map]; [reflexivity|].
  rewrite flat_map_app, IH. f_equal. rewrite map_flat_map. rewrite flat_map_concat_map, map_map, <- flat_map_concat_map.
  apply flat_map_ext. intros k. apply kids_shift.
Qed.

Lemma select_jk i mss kss : Forall2 (fun m ks => length m = length ks) mss kss ->
  select (concat mss) (jk i kss) = jk i (map (fun mk => select (fst mk) (snd mk)) (combine mss kss)).
Proof.
  intros H. revert i. induction H as [|m ks mss kss Hl H IH]; intros i; cbn [concat jk combine map]; [reflexivity|].
  rewrite select_app by (rewrite map_length; exact Hl). rewrite IH, select_map. reflexivity.
Qed.

Lemma full_grid_jk n d : full_grid n d = jk 0 (repeat (full_grid 1 d) n).
Proof.
  unfold full_grid at 1. assert (G : forall n s, flat_map (fun b => map (fun m => Z.of_nat b * 2 ^ 48 + Z.of_nat m) (seq 0 (8 ^ d))) (seq s n)
     = jk (Z.of_nat s) (repeat (full_grid 1 d) n)).
  { clear n. induction n as [|n IH]; intros s; cbn [seq flat_map repeat jk]; [reflexivity|].
    rewrite IH. replace (Z.of_nat (S s)) with (Z.of_nat s + 1) by lia. f_equal.
    unfold full_grid. cbn [seq flat_map]. rewrite app_nil_r, map_map. apply map_ext. intros m. lia. }
  exact (G n O).
Qed.

(** children of the joined octree *)
Lemma number_from_shift' n k m : 0 <= n -> map (fun i => if 0 <=? i then i + k else i) (number_from n m) = number_from (n + k) m.
Proof. intros H. destruct (number_from_shift n k m) as [E|E]; [exact E|lia]. Qed.

Lemma shift_row_alt n r : 0 <= n -> -1 <= r -> shift_row n r = (if 0 <=? r then r + n else r).
Proof.
  intros _ Hr. unfold shift_row. destruct (Z.ltb_spec r 0), (Z.leb_spec 0 r); lia.
Qed.

Lemma cum_number a mss : 0 <= a ->
  concat (map (fun lc => map (fun i => if 0 <=? i then i + snd lc else i) (number_from 0 (fst lc)))
           (combine mss (a :: cumsum_from a (map nflag mss)))) = number_from a (concat mss).
Proof.
  revert a; induction mss as [|m t IH]; intros a Ha; cbn [map concat combine]; [reflexivity|].
  cbn [fst snd cumsum_from]. rewrite number_from_shift' by lia. rewrite Z.add_0_l, number_from_app.
  rewrite IH by (unfold nflag; lia). rewrite nflag_count. reflexivity.
Qed.

Lemma nflag_app m1 m2 : nflag (m1 ++ m2) = nflag m1 + nflag m2.
Proof. unfold nflag. rewrite filter_app, app_length. lia. Qed.
Lemma nflag_concat mss : nflag (concat mss) = total (map nflag mss).
Proof. induction mss as [|m t IH]; [reflexivity|]. cbn [concat map]. rewrite nflag_app, IH. reflexivity. Qed.
Lemma concat_total {A} (kss : list (list A)) : Z.of_nat (length (concat kss)) = total (map (fun k => Z.of_nat (length k)) kss).
Proof. induction kss as [|k t IH]; [reflexivity|]. cbn [concat map]. rewrite app_length. unfold total in *. cbn [fold_right]. lia. Qed.

(** ** one layer *)
(** a member: its layer, keys and flags *)
Definition member (d : nat) (l : layer) (km : list Z * list bool) : Prop :=
  keys l = Some (fst km) /\ children l = Some (number_from 0 (snd km)) /\
  nnum l = Z.of_nat (length (fst km)) /\ nnum_nempty l = nflag (snd km) /\
  length (snd km) = length (fst km) /\ Forall (vkey 1 d) (fst km) /\ sorted (fst km).

Lemma cat_attr_Ok {A B} (f : A -> option (list B)) ls : Forall (fun a => f a <> None) ls ->
  cat_attr (map f ls) = Ok (cat_some f ls).
Proof.
  intros H. unfold cat_attr, cat_some. rewrite mapM_map.
  rewrite (mapM_Ok _ (fun a => match f a with Some r => r | None => [] end)); [reflexivity|].
  intros a Ha. rewrite Forall_forall in H. specialize (H a Ha). destruct (f a); [reflexivity|congruence].
Qed.

Lemma cat_signal {A} (f : layer -> option (list A)) ls last : (last = true -> cat_ok f ls) ->
  match ls with
  | l0 :: _ => match f l0 with
               | Some _ => if last then r <- cat_attr (map f ls) ;; Ok (Some r) else Ok None
               | None => Ok None end
  | [] => Ok None end = Ok (joined_signal f last ls).
Proof.
  intros H. unfold joined_signal. destruct ls as [|l0 t]; cbn [first_has]; [rewrite andb_false_r; reflexivity|].
  destruct (f l0) eqn:E; [|rewrite andb_false_r; reflexivity]. destruct last; [|reflexivity].
  rewrite cat_attr_Ok; [reflexivity|]. apply H; [reflexivity|]. cbn [first_has]. rewrite E. reflexivity.
Qed.

Definition joined_layer (last : bool) (ls : list layer) (kms : list (list Z * list bool)) : layer :=
  mkLayer (Some (jk 0 (map fst kms))) (Some (number_from 0 (concat (map snd kms)))) None
    (joined_signal l_features last ls) (joined_signal l_normals last ls) (joined_signal l_points last ls)
    (total (map nnum ls)) (total (map nnum_nempty ls)) (map nnum ls) (map nnum_nempty ls).

Lemma merge_keys_Ok d ls kms i : (d <= 16)%nat -> 0 <= i -> i + Z.of_nat (length ls) <= 32768 -> Forall2 (member d) ls kms ->
  exists r, mapM (fun il => k <- need (keys (snd il)) ;;
           Ok (map (fun k => Z.lor (Z.land k (Z.shiftl 1 48 - 1)) (shl64 (fst il) 48)) k)) (indexed i ls) = Ok r /\
    concat r = jk i (map fst kms).
Proof.
  intros Hd Hi Hlen H. revert i Hi Hlen. induction H as [|l km ls kms Hm H IH]; intros i Hi Hlen; cbn [indexed mapM map jk].
  - exists []. split; reflexivity.
  - destruct Hm as (Ek & _ & _ & _ & _ & Hv & _). cbn [snd fst]. rewrite Ek. cbn [need bind].
    cbn [length] in Hlen. destruct (IH (i + 1)) as (r & Er & Ec); [lia|lia|]. rewrite Er. cbn [bind].
    eexists. split; [reflexivity|]. cbn [concat]. rewrite Ec. f_equal. apply map_ext_in. intros k Hk.
    rewrite Forall_forall in Hv. destruct (Hv k Hk) as (b & m & Hb & Hm & ->). replace b with 0 by lia.
    pose proof (pow8_lt48 d Hd). rewrite land_mask_mod by lia. rewrite Z.mul_0_l, Z.add_0_l, Z.mod_small by lia.
    assert (E63 : 32768 * 2 ^ 48 = 2 ^ 63) by reflexivity. assert (P48 : 0 < 2 ^ 48) by reflexivity.
    rewrite shl64_exact by nia. rewrite Z.lor_comm. apply lor_shift_add. lia.
Qed.

Lemma merge_children_Ok d ls kms a : Forall2 (member d) ls kms -> 0 <= a ->
  exists r, mapM (fun lc => c <- need (children (fst lc)) ;;
             Ok (map (fun i => if 0 <=? i then i + snd lc else i) c)) (combine ls (a :: cumsum_from a (map nnum_nempty ls))) = Ok r /\
    concat r = number_from a (concat (map snd kms)).
Proof.
  intros H. revert a. induction H as [|l km ls kms Hm H IH]; intros a Ha; cbn [map combine mapM].
  - exists []. split; reflexivity.
  - destruct Hm as (_ & Ec & _ & En & _). cbn [fst snd cumsum_from]. rewrite Ec. cbn [need bind].
    destruct (IH (a + nnum_nempty l)) as (r & Er & Ecc); [rewrite En; unfold nflag; lia|]. rewrite Er. cbn [bind].
    eexists. split; [reflexivity|]. cbn [concat]. rewrite Ecc, number_from_app, number_from_shift' by lia.
    rewrite Z.add_0_l, En, nflag_count. reflexivity.
Qed.

Lemma merge_layer_Ok d ls kms last : (d <= 16)%nat -> Z.of_nat (length ls) <= 32768 -> Forall2 (member d) ls kms ->
  (last = true -> cat_ok l_features ls /\ cat_ok l_normals ls /\ cat_ok l_points ls) ->
  merge_layer ls last = Ok (joined_layer last ls kms).
Proof.
  intros Hd Hlen H Hc. unfold merge_layer, cumsum_excl, cumsum_incl. rewrite enumerate_indexed.
  destruct (merge_keys_Ok d ls kms 0 Hd ltac:(lia) ltac:(lia) H) as (r & Er & Erc). rewrite Er. cbn [bind].
  destruct (merge_children_Ok d ls kms 0 H ltac:(lia)) as (c & Ec & Ecc). rewrite Ec. cbn [bind].
  rewrite (cat_signal l_features) by (intros Hl; apply Hc; exact Hl). cbn [bind].
  rewrite (cat_signal l_normals) by (intros Hl; apply Hc; exact Hl). cbn [bind].
  rewrite (cat_signal l_points) by (intros Hl; apply Hc; exact Hl). cbn [bind].
  unfold joined_layer. rewrite Erc, Ecc. reflexivity.
Qed.

(** ** all layers *)
Definition dummy_layer : layer := mkLayer None None None None None None 0 0 [] [].
Definition layer_at (o : octree) (d : nat) : layer := match nth_error (layers o) d with Some l => l | None => dummy_layer end.

Definition KM : Type := (nat -> list Z) * (nat -> list bool).
Definition mem_tree (o0 o : octree) (km : KM) : Prop :=
  tree_upto o (depth o0) (fst km) (snd km) /\ batch_size o = 1%nat /\ depth o = depth o0 /\
  full_depth o = full_depth o0 /\ device o = device o0.

Lemma mergeable_members o0 os : mergeable o0 os -> exists kms, Forall2 (mem_tree o0) os kms.
Proof.
  intros (_ & _ & H & _). induction H as [|o os (( K & M & T) & Hb & Hd & Hf & Hv) H [kms IH]].
  - exists []. constructor.
  - exists ((K, M) :: kms). constructor; [|exact IH]. split; [|auto]. rewrite <- Hd. exact T.
Qed.

Lemma mem_layer o0 o km d : mem_tree o0 o km -> (d <= depth o0)%nat ->
  get_layer o (Z.of_nat d) = Ok (layer_at o d) /\ nth_error (layers o) d = Some (layer_at o d) /\
  member d (layer_at o d) (fst km d, snd km d).
Proof.
  intros (T & Hb & Hd & Hf & Hv) Hle.
  destruct (tree_get _ _ _ _ T d Hle) as (l & Hg & Hn & H1 & H2 & H3 & H4).
  assert (El : layer_at o d = l) by (unfold layer_at; rewrite Hn; reflexivity). rewrite El.
  split; [exact Hg|]. split; [exact Hn|]. repeat split; cbn [fst snd]; auto.
  - apply (t_mask _ _ _ _ T d Hle).
  - apply Forall_forall. intros k Hk. rewrite <- Hb. apply (tree_vkey _ _ _ _ T d k Hle Hk).
  - apply (tree_sorted _ _ _ _ T d Hle).
Qed.

Lemma mem_layers o0 os kms d : Forall2 (mem_tree o0) os kms -> (d <= depth o0)%nat ->
  mapM (fun o => get_layer o (Z.of_nat d)) os = Ok (map (fun o => layer_at o d) os) /\
  Forall2 (member d) (map (fun o => layer_at o d) os) (map (fun km => (fst km d, snd km d)) kms) /\
  Forall2 (fun o l => nth_error (layers o) d = Some l) os (map (fun o => layer_at o d) os).
Proof.
  intros H Hd. induction H as [|o km os kms Hm H (I1 & I2 & I3)]; cbn [mapM map].
  - repeat constructor.
  - destruct (mem_layer _ _ _ d Hm Hd) as (G1 & G2 & G3). rewrite G1. cbn [bind]. rewrite I1. cbn [bind].
    repeat split; constructor; assumption.
Qed.

Definition mK (kms : list KM) (d : nat) : list Z := jk 0 (map (fun km => fst km d) kms).
Definition mM (kms : list KM) (d : nat) : list bool := concat (map (fun km => snd km d) kms).

Lemma mM_length kms d : Forall (fun km : KM => length (snd km d) = length (fst km d)) kms -> length (mM kms d) = length (mK kms d).
Proof.
  intros H. unfold mM, mK. rewrite jk_length. induction H as [|km t H1 H IH]; [reflexivity|].
  cbn [map concat]. rewrite !app_length. lia.
Qed.

Lemma nnums_total d ls kms : Forall2 (member d) ls kms ->
  total (map nnum ls) = Z.of_nat (length (jk 0 (map fst kms))) /\ total (map nnum_nempty ls) = nflag (concat (map snd kms)).
Proof.
  rewrite jk_length. induction 1 as [|l km ls kms (H1 & H2 & H3 & H4 & _) H (I1 & I2)]; [split; reflexivity|].
  cbn [map concat]. rewrite app_length, nflag_app. unfold total in *. cbn [fold_right]. rewrite I1, I2, H3, H4. split; lia.
Qed.

Definition merged (o0 : octree) (os : list octree) (kms : list KM) : octree :=
  mkOctree (depth o0) (full_depth o0) (length os) (device o0)
    (map (fun d => joined_layer (Nat.eqb d (depth o0)) (map (fun o => layer_at o d) os) (map (fun km => (fst km d, snd km d)) kms))
         (seq 0 (depth o0 + 1))).

Lemma merged_nth o0 os kms d : (d <= depth o0)%nat -> nth_error (layers (merged o0 os kms)) d =
  Some (joined_layer (Nat.eqb d (depth o0)) (map (fun o => layer_at o d) os) (map (fun km => (fst km d, snd km d)) kms)).
Proof.
  intros Hd. unfold merged. cbn [layers]. rewrite nth_error_map.
  rewrite (nth_error_nth' _ O) by (rewrite seq_length; lia). rewrite seq_nth by lia. reflexivity.
Qed.

Lemma merge_Ok o0 os kms : mergeable o0 os -> Forall2 (mem_tree o0) os kms -> merge_octrees os = Ok (merged o0 os kms).
Proof.
  intros (Hh & Hlen & Hw & Hc) Hk. destruct os as [|o' rest]; [discriminate|]. cbn in Hh. injection Hh as ->.
  unfold merge_octrees.
  assert (E : forallb (fun o => Nat.eqb (depth o) (depth o0) && Nat.eqb (full_depth o) (full_depth o0)
                                      && Nat.eqb (device o) (device o0)) rest = true).
  { apply forallb_forall. intros o Ho. inversion Hw; subst. rewrite Forall_forall in H2.
    destruct (H2 o Ho) as (_ & _ & -> & -> & ->). rewrite !Nat.eqb_refl. reflexivity. }
  rewrite E. cbn [assert_ bind].
  assert (H16 : (depth o0 <= 16)%nat).
  { inversion Hk as [|? ? ? ? (T & _) _]; subst. apply (t_depth _ _ _ _ T). }
  rewrite (mapM_Ok _ (fun d => joined_layer (Nat.eqb d (depth o0)) (map (fun o => layer_at o d) (o0 :: rest)) (map (fun km => (fst km d, snd km d)) kms))).
  - reflexivity.
  - intros d Hd. apply in_seq in Hd. destruct (mem_layers o0 _ kms d Hk) as (E1 & E2 & E3); [lia|].
    rewrite E1. cbn [bind]. apply (merge_layer_Ok d); [lia|rewrite map_length; exact Hlen|exact E2|].
    intros Hl. apply Nat.eqb_eq in Hl. subst d. apply Hc. exact E3.
Qed.

Lemma jk_all (P : Z -> Prop) d kms : Forall (fun km : KM => Forall (vkey 1 d) (fst km d)) kms ->
  Forall (Forall (vkey 1 d)) (map (fun km => fst km d) kms).
Proof. induction 1; constructor; auto. Qed.

Lemma merged_tree o0 os kms : mergeable o0 os -> Forall2 (mem_tree o0) os kms ->
  tree_upto (merged o0 os kms) (depth o0) (mK kms) (mM kms).
Proof.
  intros Hm Hk. pose proof Hm as (Hh & Hlen & Hw & Hc).
  assert (Ht : forall km, In km kms -> exists o, mem_tree o0 o km).
  { clear - Hk. induction Hk as [|o km os kms H Hk IH]; intros km' [].
    - subst. eauto.
    - auto. }
  assert (H0 : exists km0, mem_tree o0 o0 km0).
  { destruct os as [|o' rest]; [discriminate|]. cbn in Hh. injection Hh as ->. inversion Hk; subst. eauto. }
  destruct H0 as (km0 & T0 & Hb0 & _).
  constructor.
  - apply (t_depth _ _ _ _ T0).
  - exact Hlen.
  - apply (t_full _ _ _ _ T0).
  - cbn. lia.
  - unfold merged; cbn [layers depth]. rewrite map_length, seq_length. lia.
  - intros d Hd. destruct (mem_layers o0 os kms d Hk Hd) as (_ & E2 & _). destruct (nnums_total _ _ _ E2) as (N1 & N2).
    rewrite (merged_nth o0 os kms d Hd). eexists. split; [reflexivity|]. unfold joined_layer. cbn [keys children nnum nnum_nempty].
    rewrite N1, N2. rewrite !map_map. cbn [fst snd]. repeat split; reflexivity.
  - intros d Hd. apply mM_length. apply Forall_forall. intros km Hin. destruct (Ht km Hin) as (o & T & _).
    apply (t_mask _ _ _ _ T d Hd).
  - intros d Hd Hf. cbn [batch_size merged full_depth] in *. rewrite full_grid_jk. unfold mK. f_equal.
    rewrite <- (Forall2_len _ _ _ Hk). clear - Ht Hd Hf. induction kms as [|km kms IH]; [reflexivity|].
    cbn [map length repeat]. f_equal.
    + destruct (Ht km (or_introl eq_refl)) as (o & T & Hb & Hdd & Hff & _). rewrite (t_grid _ _ _ _ T d Hd) by (rewrite Hff; exact Hf). rewrite Hb. reflexivity.
    + apply IH. intros km' Hin. apply Ht. right. exact Hin.
  - intros d Hd. rewrite pick_select. unfold mK, mM.
    rewrite select_jk.
    + rewrite jk_kids. f_equal. clear - Ht Hd. induction kms as [|km kms IH]; [reflexivity|].
      cbn [map combine]. f_equal.
      * destruct (Ht km (or_introl eq_refl)) as (o & T & _). rewrite (t_link _ _ _ _ T d Hd), pick_select. reflexivity.
      * apply IH. intros km' Hin. apply Ht. right. exact Hin.
    + clear - Ht Hd. induction kms as [|km kms IH]; [constructor|]. cbn [map]. constructor.
      * destruct (Ht km (or_introl eq_refl)) as (o & T & _). apply (t_mask _ _ _ _ T). lia.
      * apply IH. intros km' Hin. apply Ht. right. exact Hin.
Qed.

Lemma jk_same kss : jk 0 kss = join_keys kss.
Proof. symmetry. apply join_keys_jk. Qed.

Lemma number_from_ge n m r : 0 <= n -> In r (number_from n m) -> -1 <= r.
Proof.
  revert n; induction m as [|[] m IH]; intros n Hn; cbn [number_from]; intros Hi; [destruct Hi| |].
  - destruct Hi as [<-|Hi]; [lia|]. apply (IH (n + 1)); [lia|exact Hi].
  - destruct Hi as [<-|Hi]; [lia|]. apply (IH n); [lia|exact Hi].
Qed.

Lemma join_rows_number a mss : 0 <= a ->
  concat (map (fun '(n, rs) => map (shift_row n) rs) (combine (starts a (map nflag mss)) (map (number_from 0) mss)))
  = number_from a (concat mss).
Proof.
  revert a; induction mss as [|m t IH]; intros a Ha; cbn [map starts combine concat]; [reflexivity|].
  rewrite IH by (unfold nflag; lia). rewrite number_from_app, <- nflag_count. f_equal.
  rewrite <- (Z.add_0_l a) at 2. rewrite <- number_from_shift' by lia. apply map_ext_in. intros r Hr.
  apply shift_row_alt; [exact Ha|]. apply number_from_ge in Hr; lia.
Qed.

Lemma joined_joined d last ls kms : Forall2 (member d) ls kms -> joined last ls (joined_layer last ls kms).
Proof.
  intros H. unfold joined, joined_layer. cbn [keys children nnum nnum_nempty batch_nnum batch_nnum_nempty l_features l_normals l_points].
  split; [|split; [|repeat split; reflexivity]].
  - exists (map fst kms). split; [|rewrite join_keys_jk; reflexivity].
    clear - H. induction H as [|l km ls kms (H1 & _) H IH]; cbn [map]; constructor; auto.
  - exists (map (number_from 0) (map snd kms)). split.
    + clear - H. induction H as [|l km ls kms (_ & H1 & _) H IH]; cbn [map]; constructor; auto.
    + f_equal. unfold join_rows. replace (map nnum_nempty ls) with (map nflag (map snd kms)).
      * symmetry. apply join_rows_number. lia.
      * clear - H. induction H as [|l km ls kms (_ & _ & _ & H1 & _) H IH]; cbn [map]; [reflexivity|]. rewrite H1, IH. reflexivity.
Qed.

Lemma thm_merge o0 os : mergeable o0 os ->
  exists o, merge_octrees os = Ok o /\ wf_octree o /\ depth o = depth o0 /\ full_depth o = full_depth o0 /\
    batch_size o = length os /\ device o = device o0 /\
    forall d, (d <= depth o0)%nat ->
      exists ls l, Forall2 (fun oi li => nth_error (layers oi) d = Some li) os ls /\
        nth_error (layers o) d = Some l /\ joined (Nat.eqb d (depth o0)) ls l.
Proof.
  intros Hm. destruct (mergeable_members _ _ Hm) as (kms & Hk). exists (merged o0 os kms).
  split; [apply merge_Ok; assumption|]. split; [exists (mK kms), (mM kms); apply (merged_tree o0 os kms); assumption|].
  do 4 (split; [reflexivity|]). intros d Hd. destruct (mem_layers o0 os kms d Hk Hd) as (E1 & E2 & E3).
  exists (map (fun o => layer_at o d) os). eexists. split; [exact E3|]. split; [apply merged_nth; exact Hd|].
  apply (joined_joined d). exact E2.
Qed.

Lemma coords_shift d i k : coords d (i * 2 ^ 48 + k) = let '(x, y, z, b) := coords d k in (x, y, z, i + b).
Proof.
  unfold coords. rewrite (Z.div_add_l i (2 ^ 48) k) by (vm_compute; discriminate).
  rewrite (Z.add_comm (i * 2 ^ 48) k), Z.mod_add by (vm_compute; discriminate). reflexivity.
Qed.

Lemma jk_coords d i kss : (d <= 16)%nat -> Forall (Forall (vkey 1 d)) kss ->
  map (coords d) (jk i kss) = concat (map (fun '(i, cs) => map (fun '(x, y, z, _) => (x, y, z, i)) cs) (indexed i (map (map (coords d)) kss))).
Proof.
  intros Hd H. revert i; induction H as [|ks t Hv H IH]; intros i; cbn [jk map indexed concat]; [reflexivity|].
  rewrite map_app, IH. f_equal. rewrite !map_map. apply map_ext_in. intros k Hk. rewrite coords_shift.
  rewrite Forall_forall in Hv. destruct (coords d k) as (((x, y), z), b) eqn:E.
  destruct (coords_key_of 1 d k x y z b Hd (Hv k Hk) E) as (_ & _ & Hb). f_equal. lia.
Qed.

Lemma mergeable_dims o0 os : mergeable o0 os -> In o0 os /\ (depth o0 <= 16)%nat.
Proof.
  intros (Hh & _ & Hw & _). destruct os as [|o' rest]; [discriminate|]. cbn in Hh. injection Hh as ->.
  split; [left; reflexivity|]. inversion Hw as [|? ? ((K & M & T) & _) _]; subst. apply (t_depth _ _ _ _ T).
Qed.

Definition sel_of (km : KM) (ne : bool) (d : nat) : list Z := sel (fst km) (snd km) ne d.
Lemma mem_sel_vkey o0 os kms d ne : Forall2 (mem_tree o0) os kms -> (d <= depth o0)%nat -> Forall (Forall (vkey 1 d)) (map (fun km => sel_of km ne d) kms).
Proof.
  intros H Hd. induction H as [|o km os kms (T & Hb & _) H IH]; cbn [map]; constructor; [|exact IH].
  unfold sel_of. rewrite <- Hb. apply (sel_vkey o (depth o0)); assumption.
Qed.

Lemma merged_sel kms o0 os ne d : Forall2 (mem_tree o0) os kms -> (d <= depth o0)%nat ->
  sel (mK kms) (mM kms) ne d = jk 0 (map (fun km => sel_of km ne d) kms).
Proof.
  intros H Hd. unfold sel, sel_of, sel. destruct ne; [|reflexivity]. unfold mK, mM. rewrite select_jk.
  - f_equal. clear. induction kms as [|km t IH]; cbn [map combine]; [reflexivity|]. rewrite IH. reflexivity.
  - clear - H Hd. induction H as [|o km os kms (T & _) H IH]; cbn [map]; constructor; [|exact IH]. apply (t_mask _ _ _ _ T d Hd).
Qed.

Lemma thm_merge_cells o0 os o d ne : mergeable o0 os -> merge_octrees os = Ok o -> (d <= depth o0)%nat ->
  exists css, mapM (fun oi => octree_xyzb oi d ne) os = Ok css /\ octree_xyzb o d ne = Ok (join_cells css).
Proof.
  intros Hm E Hd. destruct (mergeable_members _ _ Hm) as (kms & Hk). rewrite (merge_Ok o0 os kms Hm Hk) in E.
  assert (o = merged o0 os kms) by congruence. subst o. clear E.
  pose proof (mem_sel_vkey o0 os kms d ne Hk Hd) as Hv.
  destruct (mergeable_dims _ _ Hm) as (_ & H16).
  exists (map (map (coords d)) (map (fun km => sel_of km ne d) kms)). split.
  - clear - Hk Hd. induction Hk as [|o km os kms (T & _) Hk IH]; cbn [mapM map]; [reflexivity|].
    rewrite (tree_xyzb _ _ _ _ d ne T Hd). cbn [bind]. rewrite IH. reflexivity.
  - rewrite (tree_xyzb _ _ _ _ d ne (merged_tree o0 os kms Hm Hk) Hd). f_equal.
    rewrite (merged_sel kms o0 os ne d Hk Hd). unfold join_cells. apply jk_coords; [lia|exact Hv].
Qed.

(** ** neighbours of a merged octree *)
Lemma rowno_jk d i kss j ks k0 : (d <= 16)%nat -> Forall (Forall (vkey 1 d)) kss -> Forall sorted kss ->
  nth_error kss j = Some ks -> 0 <= k0 < 2 ^ 48 ->
  rowno (jk i kss) ((i + Z.of_nat j) * 2 ^ 48 + k0)
  = shift_row (Z.of_nat (length (concat (firstn j kss)))) (rowno ks k0).
Proof.
  intros Hd Hv Hs Hj Hk0. apply (found_unique (jk i kss) ((i + Z.of_nat j) * 2 ^ 48 + k0)).
  - apply (jk_sorted d); assumption.
  - apply rowno_found.
  - assert (Hn : forall r k, nth_error ks r = Some k ->
      nth_error (jk i kss) (length (concat (firstn j kss)) + r) = Some ((i + Z.of_nat j) * 2 ^ 48 + k)).
    { clear - Hj. intros r k Hr. revert i j Hj. induction kss as [|k1 t IH]; intros i j Hj; [destruct j; discriminate|].
      destruct j as [|j]; cbn [nth_error firstn concat jk length] in *.
      - injection Hj as ->. rewrite Z.add_0_r. cbn [Nat.add]. rewrite nth_error_app1 by (rewrite map_length; apply nth_error_Some; congruence).
        rewrite nth_error_map, Hr. reflexivity.
      - rewrite app_length. rewrite nth_error_app2 by (rewrite map_length; lia). rewrite map_length.
        replace (length k1 + length (concat (firstn j t)) + r - length k1)%nat with (length (concat (firstn j t)) + r)%nat by lia.
        rewrite (IH (i + 1) j Hj). f_equal. f_equal. f_equal. lia. }
    destruct (rowno_found ks k0) as [(H1 & H2)|(H1 & H2)]; unfold shift_row, found.
    + left. destruct (Z.ltb_spec (rowno ks k0) 0); [lia|]. split; [lia|].
      specialize (Hn _ _ H2). rewrite <- Hn. f_equal. lia.
    + right. rewrite H1. split; [reflexivity|]. intros Hin. apply H2. apply jk_in in Hin.
      destruct Hin as (j' & ks' & k' & E1 & E2 & E3).
      rewrite Forall_forall in Hv. pose proof (Hv _ (nth_error_In _ _ E1)) as Hv'. rewrite Forall_forall in Hv'.
      destruct (Hv' k' E2) as (b & m & Hb & Hm & ->). pose proof (pow8_lt48 d Hd). replace b with 0 in * by lia.
      assert (i + Z.of_nat j = i + Z.of_nat j') by nia. assert (j' = j) by lia. subst j'. 
      assert (ks' = ks) by congruence. subst ks'. replace k0 with (0 * 2 ^ 48 + m) by nia. exact E2.
Qed.

Lemma rows_jk d offs tss css : (d <= 16)%nat -> Forall (Forall (vkey 1 d)) tss -> Forall sorted tss ->
  Forall (Forall (vkey 1 d)) css -> length css = length tss ->
  map (nb_rowg d (jk 0 tss) offs) (jk 0 css) =
  join_tables (map zlen tss) (map (fun tc => map (nb_rowg d (fst tc) offs) (snd tc)) (combine tss css)).
Proof.
  intros Hd Hv Hs Hc Hl.
  assert (G : forall post pre cpost, tss = pre ++ post -> length cpost = length post -> Forall (Forall (vkey 1 d)) cpost ->
     map (nb_rowg d (jk 0 tss) offs) (jk (Z.of_nat (length pre)) cpost) =
     concat (map (fun '(n, t) => map (map (shift_row n)) t)
        (combine (starts (Z.of_nat (length (concat pre))) (map zlen post))
                 (map (fun tc => map (nb_rowg d (fst tc) offs) (snd tc)) (combine post cpost))))).
  { induction post as [|ks post IH]; intros pre cpost E Hlp Hcp; [destruct cpost; [reflexivity|discriminate]|].
    destruct cpost as [|cs cpost]; [discriminate|]. inversion Hcp as [|? ? Hv1 Hcp']; subst.
    cbn [jk map starts combine concat fst snd]. rewrite map_app. f_equal.
    - rewrite !map_map. apply map_ext_in. intros k Hk. set (tss := pre ++ ks :: post) in *.
      assert (Hj : nth_error tss (length pre) = Some ks) by (unfold tss; rewrite nth_error_app2, Nat.sub_diag by lia; reflexivity).
      rewrite Forall_forall in Hv1.
      unfold nb_rowg. rewrite coords_shift. destruct (coords d k) as (((x, y), z), b) eqn:Ec.
      destruct (coords_key_of 1 d k x y z b Hd (Hv1 k Hk) Ec) as (_ & _ & Hb). assert (b = 0) by lia. subst b.
      rewrite map_map. apply map_ext. intros ((dx, dy), dz). unfold cellno.
      destruct (incubeb d (x + dx) (y + dy) (z + dz)) eqn:Ei; [|reflexivity].
      apply incubeb_spec in Ei.
      replace (key_of d (Z.of_nat (length pre) + 0) (x + dx) (y + dy) (z + dz)) with
        ((0 + Z.of_nat (length pre)) * 2 ^ 48 + morton d (x + dx) (y + dy) (z + dz)) by (unfold key_of; f_equal; f_equal; lia).
      rewrite (rowno_jk d 0 tss (length pre) ks); [|exact Hd|exact Hv|exact Hs|exact Hj|].
      + f_equal. unfold tss. rewrite firstn_app, Nat.sub_diag, firstn_all, firstn_O, app_nil_r. reflexivity.
      + pose proof (pow8_lt48 d Hd). pose proof (morton_range d (x + dx) (y + dy) (z + dz)). lia.
    - specialize (IH (pre ++ [ks]) cpost). rewrite app_length, concat_app, app_length in IH. cbn [length concat] in IH.
      rewrite app_nil_r in IH. replace (Z.of_nat (length pre) + 1) with (Z.of_nat (length pre + 1)) by lia.
      rewrite <- app_assoc in IH. rewrite IH; [|reflexivity|cbn [length] in Hlp; lia|exact Hcp'].
      replace (Z.of_nat (length (concat pre)) + zlen ks) with (Z.of_nat (length (concat pre) + length ks)) by (unfold zlen; lia).
      reflexivity. }
  exact (G tss [] css eq_refl Hl Hc).
Qed.

Lemma mem_all_neigh o0 os kms : Forall2 (mem_tree o0) os kms -> (1 <= full_depth o0)%nat ->
  exists os', mapM construct_all_neigh os = Ok os' /\
    Forall2 (fun o' km => mem_tree o0 o' km /\ neigh_upto o' (fst km) 1 (depth o0)) os' kms.
Proof.
  intros H Hf. induction H as [|o km os kms (T & Hb & Hd & Hff & Hv) H (os' & I1 & I2)]; cbn [mapM].
  - exists []. split; [reflexivity|constructor].
  - rewrite <- Hd in T. destruct (tree_all_neigh o _ _ T) as (o' & E & On & T' & N); [lia|].
    rewrite E. cbn [bind]. rewrite I1. cbn [bind]. exists (o' :: os'). split; [reflexivity|].
    destruct On as (O1 & O2 & O3 & O4 & _). constructor; [|exact I2]. unfold mem_tree.
    rewrite O1, O2, O3, O4. rewrite O1, Hd in T', N. tauto.
Qed.

Definition cen (km : KM) := centres (fst km) (snd km).

Lemma first_kid_shift i k : first_kid (i * 2 ^ 48 + k) = i * 2 ^ 48 + first_kid k.
Proof.
  unfold first_kid. rewrite (Z.div_add_l i (2 ^ 48) k) by (vm_compute; discriminate).
  rewrite (Z.add_comm (i * 2 ^ 48) k), Z.mod_add by (vm_compute; discriminate). ring.
Qed.

Lemma merged_centres o0 os kms d stride ne : Forall2 (mem_tree o0) os kms -> (d <= depth o0)%nat ->
  centres (mK kms) (mM kms) d stride ne = jk 0 (map (fun km => cen km d stride ne) kms).
Proof.
  intros H Hd. unfold centres, cen, centres. destruct (stride =? 1).
  - apply (merged_sel kms o0 os ne d); assumption.
  - pose proof (merged_sel kms o0 os true (Nat.pred d) H ltac:(lia)) as E. unfold sel, sel_of, sel in E. rewrite E.
    clear. generalize 0. induction kms as [|km t IH]; intros i; cbn [map jk]; [reflexivity|].
    rewrite map_app, IH. f_equal. rewrite !map_map. apply map_ext. intros k. apply first_kid_shift.
Qed.

Lemma thm_merge_neigh o0 os o : mergeable o0 os -> (1 <= full_depth o0)%nat -> merge_octrees os = Ok o ->
  exists o' os', construct_all_neigh o = Ok o' /\ mapM construct_all_neigh os = Ok os' /\
    forall d kernel stride ne, (1 <= d <= depth o0)%nat -> In kernel kernels -> (stride = 1 \/ stride = 2) ->
    exists ls tss, Forall2 (fun oi li => nth_error (layers oi) d = Some li) os ls /\
      mapM (fun oi => get_neigh oi d kernel stride ne) os' = Ok tss /\
      get_neigh o' d kernel stride ne = Ok (join_tables (map (if ne : bool then nnum_nempty else nnum) ls) tss).
Proof.
  intros Hm Hf E. destruct (mergeable_members _ _ Hm) as (kms & Hk). rewrite (merge_Ok o0 os kms Hm Hk) in E.
  assert (o = merged o0 os kms) by congruence. subst o. clear E.
  pose proof (merged_tree o0 os kms Hm Hk) as T.
  destruct (mergeable_dims _ _ Hm) as (_ & H16).
  destruct (tree_all_neigh (merged o0 os kms) _ _ T Hf) as (o' & E' & On & T' & N').
  destruct (mem_all_neigh o0 os kms Hk Hf) as (os' & Eo & Hk').
  exists o', os'. split; [exact E'|]. split; [exact Eo|]. intros d kernel stride ne Hd Hker Hst.
  assert (Hdo : depth o' = depth o0) by (destruct On as (O1 & _); exact O1).
  destruct (mem_layers o0 os kms d Hk) as (_ & E2 & E3); [lia|].
  exists (map (fun o => layer_at o d) os).
  exists (map (fun tc => map (nb_rowg d (fst tc) (box kernel)) (snd tc)) (combine (map (fun km => sel_of km ne d) kms) (map (fun km => cen km d stride ne) kms))).
  split; [exact E3|]. split.
  - clear - Hk' Hd Hker Hst. induction Hk' as [|o km os kms ((T & _) & N) Hk IH]; cbn [map combine mapM fst snd]; [reflexivity|].
    rewrite (get_neigh_Ok o (depth o0) _ _ 1 T N d kernel stride ne) by (auto; intuition lia). cbn [bind].
    rewrite IH. reflexivity.
  - rewrite Hdo in T', N'. rewrite (get_neigh_Ok o' (depth o0) _ _ 1 T' N' d kernel stride ne) by (auto; intuition lia). f_equal.
    rewrite (merged_centres o0 os) by (auto; lia). rewrite (merged_sel kms o0 os) by (auto; lia).
    assert (Ez : map (if ne then nnum_nempty else nnum) (map (fun o => layer_at o d) os) = map zlen (map (fun km => sel_of km ne d) kms)).
    { clear - Hk Hd. induction Hk as [|o km os kms Hmem Hk IH]; cbn [map]; [reflexivity|]. rewrite IH. f_equal.
      destruct (mem_layer _ _ _ d Hmem) as (_ & _ & (H1 & H2 & H3 & H4 & H5 & _)); [lia|]. cbn [fst snd] in *.
      unfold sel_of, sel, zlen. destruct ne; [|exact H3]. rewrite H4, nflag_count.
      destruct Hmem as (T & _). rewrite (tree_nempty_len _ _ _ _ T) by lia. reflexivity. }
    rewrite Ez. apply rows_jk; [lia|apply (mem_sel_vkey o0 os); auto; lia| | |rewrite !map_length; reflexivity].
    + clear - Hk Hd. induction Hk as [|o km os kms (T & _) H IH]; cbn [map]; constructor; [|exact IH].
      apply (sel_sorted o (depth o0)); [exact T|lia].
    + clear - Hk Hd Hst. induction Hk as [|o km os kms (T & Hb & _) H IH]; cbn [map]; constructor; [|exact IH].
      rewrite <- Hb. apply (centres_vkey o (depth o0)); auto; intuition lia.
Qed.
