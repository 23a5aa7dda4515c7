(** Building a merged cloud = merging the built octrees; merge_points. *)
From Coq Require Import List ZArith Bool Lia Sorting.Sorted Qcanon.
From Verif Require Import Res Tensor Key Num Points Octree Spec SpecGeo SpecBuild SpecNeigh SpecMerge WF KeyFacts ListFacts KidsFacts
  ScatterFacts BuildFacts BuildClosed WFFacts SearchFacts NeighFacts NeighSparse NeighThms GrowFacts MergeFacts.
Import ListNotations.
Open Scope Z_scope.

(** ** merge_points *)
Lemma cat_opt {A B} (f : A -> option (list B)) p0 ps : cat_ok f (p0 :: ps) ->
  match f p0 with Some _ => r <- cat_attr (map f (p0 :: ps)) ;; Ok (Some r) | None => Ok None end = Ok (opt_cat f (p0 :: ps)).
Proof.
  intros H. unfold opt_cat. unfold cat_ok in H. cbn [first_has] in *. destruct (f p0) eqn:E; [|reflexivity].
  rewrite cat_attr_Ok by (apply H; reflexivity). reflexivity.
Qed.

Definition joined_cloud {T} (ps : list (pcloud T)) (p0 : pcloud T) : pcloud T :=
  mkPoints (concat (map p_points ps)) (opt_cat p_normals ps) (opt_cat p_features ps) (opt_cat p_labels ps)
    (Some (batch_ids ps)) (length ps) (Some (map (fun p => Z.of_nat (length (p_points p))) ps)) (p_device p0).

Lemma merge_points_Ok {T} (p0 : pcloud T) ps : cat_ok p_normals (p0 :: ps) -> cat_ok p_features (p0 :: ps) -> cat_ok p_labels (p0 :: ps) ->
  merge_points (p0 :: ps) true = Ok (joined_cloud (p0 :: ps) p0).
Proof.
  intros H1 H2 H3. unfold merge_points. rewrite (cat_opt _ _ _ H1). cbn [bind]. rewrite (cat_opt _ _ _ H2). cbn [bind].
  rewrite (cat_opt _ _ _ H3). cbn [bind]. unfold joined_cloud, batch_ids. rewrite enumerate_indexed.
  do 4 f_equal. apply map_ext. intros (i, p). reflexivity.
Qed.

Lemma merge_points_Ok0 {T} (p0 : pcloud T) ps : cat_ok p_normals (p0 :: ps) -> cat_ok p_features (p0 :: ps) -> cat_ok p_labels (p0 :: ps) ->
  merge_points (p0 :: ps) false = Ok (mkPoints (concat (map p_points (p0 :: ps))) (opt_cat p_normals (p0 :: ps))
     (opt_cat p_features (p0 :: ps)) (opt_cat p_labels (p0 :: ps)) None 1 None (p_device p0)).
Proof.
  intros H1 H2 H3. unfold merge_points. rewrite (cat_opt _ _ _ H1). cbn [bind]. rewrite (cat_opt _ _ _ H2). cbn [bind].
  rewrite (cat_opt _ _ _ H3). reflexivity.
Qed.

Lemma cut_concat {A} (ls : list (list A)) : cut (map (fun l => Z.of_nat (length l)) ls) (concat ls) = ls.
Proof.
  induction ls as [|l t IH]; cbn [map concat cut]; [reflexivity|]. rewrite Nat2Z.id.
  rewrite firstn_app, firstn_all, Nat.sub_diag, firstn_O, app_nil_r, skipn_app, skipn_all, Nat.sub_diag, skipn_O. cbn [app]. rewrite IH. reflexivity.
Qed.

(** ** keys of the merged cloud *)
Lemma cell_key_shift dep p b : cell_key dep p b = b * 2 ^ 48 + cell_key dep p 0.
Proof. destruct p as ((x, y), z). unfold cell_key, key_of. lia. Qed.

Lemma combine_app2 {A B} (l1 l2 : list A) (m1 m2 : list B) : length l1 = length m1 ->
  combine (l1 ++ l2) (m1 ++ m2) = combine l1 m1 ++ combine l2 m2.
Proof. revert m1; induction l1 as [|a l1 IH]; intros [|b m1] H; cbn in *; try discriminate; [reflexivity|]. rewrite IH by lia. reflexivity. Qed.
Lemma zip_with_app {A B C} (f : A -> B -> C) l1 l2 m1 m2 : length l1 = length m1 ->
  zip_with f (l1 ++ l2) (m1 ++ m2) = zip_with f l1 m1 ++ zip_with f l2 m2.
Proof. intros H. unfold zip_with. rewrite combine_app2 by exact H. apply map_app. Qed.

Lemma batches_single p : good_cloud 1 p -> point_batches p = repeat 0 (length (p_points p)).
Proof. intros G. unfold point_batches. rewrite (gc_size _ _ G). reflexivity. Qed.

Lemma cloud_keys_ids dep ps i : Forall (good_cloud 1) ps ->
  zip_with (cell_key dep) (concat (map p_points ps)) (concat (map (fun '(i, p) => repeat i (length (p_points p))) (indexed i ps)))
  = jk i (map (cloud_keys dep) ps).
Proof.
  intros H. revert i; induction H as [|p ps G H IH]; intros i; cbn [map concat indexed jk]; [reflexivity|].
  rewrite zip_with_app by (rewrite repeat_length; reflexivity). rewrite IH. f_equal.
  unfold cloud_keys. rewrite (batches_single p G), !zip_repeat, map_map. apply map_ext. intros a. apply cell_key_shift.
Qed.

Lemma cloud_keys_joined dep p0 ps : Forall (good_cloud 1) (p0 :: ps) -> cloud_keys dep (joined_cloud (p0 :: ps) p0) = jk 0 (map (cloud_keys dep) (p0 :: ps)).
Proof.
  intros H. rewrite <- cloud_keys_ids by exact H. unfold cloud_keys, point_batches, joined_cloud. cbn [p_points p_batch_size p_batch_id].
  destruct ps as [|p1 ps]; [|reflexivity].
  cbn [length Nat.eqb map concat indexed]. rewrite !app_nil_r. reflexivity.
Qed.

Lemma jk_sort_uniq d i kss : (d <= 16)%nat -> Forall (Forall (vkey 1 d)) kss -> sort_uniq (jk i kss) = jk i (map sort_uniq kss).
Proof.
  intros Hd Hv. assert (Hv' : Forall (Forall (vkey 1 d)) (map sort_uniq kss)).
  { apply Forall_forall. intros ks Hk. apply in_map_iff in Hk. destruct Hk as (ks' & <- & Hk). rewrite Forall_forall in Hv. specialize (Hv _ Hk).
    rewrite Forall_forall in *. intros k Hi. apply Hv. apply (proj1 (sort_uniq_In _ _)) in Hi. exact Hi. }
  apply sorted_unique.
  - apply sort_uniq_sorted.
  - apply (jk_sorted d); [exact Hd|exact Hv'|]. apply Forall_forall. intros ks Hk. apply in_map_iff in Hk. destruct Hk as (? & <- & _). apply sort_uniq_sorted.
  - intros a. rewrite sort_uniq_In, !jk_in. split; intros (j & ks & k0 & H1 & H2 & H3).
    + exists j, (sort_uniq ks), k0. rewrite nth_error_map, H1. split; [reflexivity|]. split; [apply sort_uniq_In; exact H2|exact H3].
    + rewrite nth_error_map in H1. destruct (nth_error kss j) as [ks'|] eqn:E; [|discriminate]. cbn in H1. injection H1 as <-.
      exists j, ks', k0. split; [exact E|]. split; [apply (proj1 (sort_uniq_In _ _)) in H2; exact H2|exact H3].
Qed.

Lemma parent_shift i k : parent (i * 2 ^ 48 + k) = i * 2 ^ 48 + parent k.
Proof.
  unfold parent. rewrite (Z.div_add_l i (2 ^ 48) k) by (vm_compute; discriminate).
  rewrite (Z.add_comm (i * 2 ^ 48) k), Z.mod_add by (vm_compute; discriminate). ring.
Qed.

Lemma jk_parents d i kss : (d < 16)%nat -> Forall (Forall (vkey 1 (S d))) kss -> parents (jk i kss) = jk i (map parents kss).
Proof.
  intros Hd Hv. unfold parents at 1. replace (map parent (jk i kss)) with (jk i (map (map parent) kss)).
  - rewrite (jk_sort_uniq d); [rewrite map_map; reflexivity|lia|].
    apply Forall_forall. intros ks Hk. apply in_map_iff in Hk. destruct Hk as (ks' & <- & Hk). rewrite Forall_forall in Hv. specialize (Hv _ Hk).
    rewrite Forall_forall in *. intros k Hi. apply in_map_iff in Hi. destruct Hi as (k' & <- & Hi). apply (parent_vkey 1 d); auto.
  - clear. revert i; induction kss as [|ks t IH]; intros i; cbn [map jk]; [reflexivity|]. rewrite map_app, IH. f_equal.
    rewrite !map_map. apply map_ext. intros k. symmetry. apply parent_shift.
Qed.

Lemma ancestors_jk d n i kss : (d + n <= 16)%nat -> Forall sorted kss -> Forall (Forall (vkey 1 (d + n))) kss ->
  ancestors n (jk i kss) = jk i (map (ancestors n) kss).
Proof.
  revert d. induction n as [|n IH]; intros d Hd Hs Hv; cbn [ancestors].
  - rewrite map_id. reflexivity.
  - replace (d + S n)%nat with (S d + n)%nat in * by lia. rewrite (IH (S d)) by assumption. rewrite (jk_parents d); [rewrite map_map; reflexivity|lia|].
    apply Forall_forall. intros ks Hk. apply in_map_iff in Hk. destruct Hk as (ks' & <- & Hk).
    rewrite Forall_forall in Hs, Hv. apply (ancestors_vkey 1 (S d) n ks'); auto.
Qed.

Lemma Forall2_nth_intro {A B} (R : A -> B -> Prop) l m : length l = length m ->
  (forall i a b, nth_error l i = Some a -> nth_error m i = Some b -> R a b) -> Forall2 R l m.
Proof.
  revert m; induction l as [|a l IH]; intros [|b m] Hl H; try discriminate; constructor.
  - apply (H O); reflexivity.
  - apply IH; [cbn in Hl; lia|]. intros i x y Hx Hy. apply (H (S i)); assumption.
Qed.

Section BM.
  Variables (normalize : v3 Qc -> v3 Qc) (dep full dev : nat) (p0 : pcloud Qc) (ps0 : list (pcloud Qc)).
  Let ps := p0 :: ps0.
  Let mp := joined_cloud ps p0.
  Let n := length ps.
  Hypothesis Hf : (full <= dep)%nat.
  Hypothesis H16 : (dep <= 16)%nat.
  Hypothesis Hn : Z.of_nat (length ps) <= 32768.
  Hypothesis Hc : clouds_ok dev ps.

  Lemma c_good : Forall (good_cloud 1) ps.
  Proof. apply Hc. Qed.

  Lemma cells_joined : cells dep mp = jk 0 (map (cells dep) ps).
  Proof.
    unfold cells at 1, mp, ps. rewrite cloud_keys_joined by apply c_good. rewrite (jk_sort_uniq dep); [rewrite map_map; reflexivity|exact H16|].
    apply Forall_forall. intros ks Hk. apply in_map_iff in Hk. destruct Hk as (p & <- & Hk).
    apply cloud_keys_vkey. pose proof c_good as G. rewrite Forall_forall in G. apply G. exact Hk.
  Qed.

  Lemma NE_joined d : (d <= dep)%nat -> NE dep mp d = jk 0 (map (fun p => NE dep p d) ps).
  Proof.
    intros Hd. unfold NE. rewrite cells_joined. rewrite (ancestors_jk d).
    - rewrite map_map. reflexivity.
    - lia.
    - apply Forall_forall. intros ks Hk. apply in_map_iff in Hk. destruct Hk as (p & <- & Hk).
      pose proof c_good as G. rewrite Forall_forall in G. apply (cells_ok 1 dep p (G p Hk)).
    - apply Forall_forall. intros ks Hk. apply in_map_iff in Hk. destruct Hk as (p & <- & Hk).
      pose proof c_good as G. rewrite Forall_forall in G. replace (d + (dep - d))%nat with dep by lia. apply (cells_ok 1 dep p (G p Hk)).
  Qed.

  Definition o1 := octree_new dep full 1 dev.
  Definition on := octree_new dep full n dev.
  Definition kms : list KM := map (fun p => (bK o1 p, bM o1 p)) ps.

  Lemma bK_joined d : (d <= dep)%nat -> bK on mp d = mK kms d.
  Proof.
    intros Hd. unfold mK, kms. rewrite map_map. cbn [fst]. unfold bK. cbn [batch_size full_depth depth on o1 octree_new].
    destruct (Nat.leb_spec d full).
    - rewrite full_grid_jk. unfold n. f_equal. clear. induction ps as [|p t IH]; cbn [length repeat map]; [reflexivity|]. rewrite IH. reflexivity.
    - rewrite NE_joined by lia. rewrite jk_kids, map_map. reflexivity.
  Qed.

  Lemma memb_jk d kss j ks k : (d <= 16)%nat -> Forall (Forall (vkey 1 d)) kss -> nth_error kss j = Some ks -> vkey 1 d k ->
    memb (Z.of_nat j * 2 ^ 48 + k) (jk 0 kss) = memb k ks.
  Proof.
    intros Hd Hv Hj Hk. apply Bool.eq_true_iff_eq. rewrite !memb_In, jk_in. split.
    - intros (j' & ks' & k' & E1 & E2 & E3). rewrite Forall_forall in Hv. pose proof (Hv _ (nth_error_In _ _ E1)) as Hv'. rewrite Forall_forall in Hv'.
      destruct (Hv' k' E2) as (b' & m' & Hb' & Hm' & Ek'). destruct Hk as (b & m & Hb & Hm & Ek).
      pose proof (pow8_lt48 d Hd). assert (b = 0) by lia. assert (b' = 0) by lia. subst b b'.
      assert (j' = j) by nia. subst j'. assert (ks' = ks) by congruence. subst ks'. replace k with k' by lia. exact E2.
    - intros Hi. exists j, ks, k. rewrite Z.add_0_l. auto.
  Qed.

  Lemma blocks_map {X} (F : Z -> X) (G : list Z -> Z -> X) d nss kss : (d <= 16)%nat -> length nss = length kss ->
    Forall (Forall (vkey 1 d)) kss ->
    (forall j ks k, nth_error nss j = Some ks -> vkey 1 d k -> F (Z.of_nat j * 2 ^ 48 + k) = G ks k) ->
    map F (jk 0 kss) = concat (map (fun nk => map (G (fst nk)) (snd nk)) (combine nss kss)).
  Proof.
    intros Hd Hl Hv HF.
    assert (E : forall kss' nss' j, length nss' = length kss' -> Forall (Forall (vkey 1 d)) kss' ->
      (forall j' ks k, nth_error nss' j' = Some ks -> vkey 1 d k -> F (Z.of_nat (j + j') * 2 ^ 48 + k) = G ks k) ->
      map F (jk (Z.of_nat j) kss') = concat (map (fun nk => map (G (fst nk)) (snd nk)) (combine nss' kss'))).
    { clear. induction kss' as [|ks kss' IH]; intros [|ns nss'] j Hl Hv HF; try discriminate; [reflexivity|].
      cbn [jk map combine concat fst snd]. rewrite map_app. f_equal.
      - rewrite map_map. inversion Hv as [|? ? Hks _]; subst. rewrite Forall_forall in Hks. apply map_ext_in. intros k Hk.
        specialize (HF O ns k eq_refl (Hks k Hk)). rewrite Nat.add_0_r in HF. exact HF.
      - replace (Z.of_nat j + 1) with (Z.of_nat (S j)) by lia. apply IH; [cbn in Hl; lia|inversion Hv; assumption|].
        intros j' ks' k Hj Hk. replace (S j + j')%nat with (j + S j')%nat by lia. apply HF; assumption. }
    apply (E kss nss O); [exact Hl|exact Hv|]. intros j' ks k. apply HF.
  Qed.

  Lemma bK_vkey d : (d <= dep)%nat -> Forall (Forall (vkey 1 d)) (map (fun p => bK o1 p d) ps).
  Proof.
    intros Hd. apply Forall_forall. intros ks Hk. apply in_map_iff in Hk. destruct Hk as (p & <- & Hk).
    pose proof c_good as G. rewrite Forall_forall in G. apply (bK_ok o1 p Hf H16); [cbn [layers o1 octree_new depth]; rewrite repeat_length; lia|apply G; exact Hk|exact Hd].
  Qed.
  Lemma NE_vkey d : (d <= dep)%nat -> Forall (Forall (vkey 1 d)) (map (fun p => NE dep p d) ps).
  Proof.
    intros Hd. apply Forall_forall. intros ks Hk. apply in_map_iff in Hk. destruct Hk as (p & <- & Hk).
    pose proof c_good as G. rewrite Forall_forall in G. apply (NE_ok 1 dep p d (G p Hk) H16 Hd).
  Qed.

  Lemma bM_joined d : (d <= dep)%nat -> bM on mp d = mM kms d.
  Proof.
    intros Hd. unfold bM. rewrite bK_joined by exact Hd. unfold mM, mK, kms. rewrite !map_map. cbn [fst snd].
    cbn [batch_size full_depth depth on octree_new]. destruct (Nat.ltb d full) eqn:El.
    - rewrite (blocks_map (fun _ => true) (fun _ _ => true) d (map (fun p => NE dep p d) ps)); [|lia|rewrite !map_length; reflexivity|apply bK_vkey; exact Hd|reflexivity].
      f_equal. rewrite combine_map2, map_map. apply map_ext. intros p. unfold bM at 1. cbn [full_depth o1 octree_new fst snd]. rewrite El. reflexivity.
    - rewrite NE_joined by exact Hd.
      rewrite (blocks_map _ (fun ne k => memb k ne) d (map (fun p => NE dep p d) ps)); [|lia|rewrite !map_length; reflexivity|apply bK_vkey; exact Hd|].
      + f_equal. rewrite combine_map2, map_map. apply map_ext. intros p. unfold bM at 1. cbn [full_depth o1 octree_new fst snd depth]. rewrite El. reflexivity.
      + intros j ks k Hj Hk. apply (memb_jk d); [lia|apply NE_vkey; exact Hd|exact Hj|exact Hk].
  Qed.

  (** signals *)
  Lemma rows_at_app {A} t1 t2 k (s1 s2 : list A) : length t1 = length s1 -> rows_at (t1 ++ t2) k (s1 ++ s2) = rows_at t1 k s1 ++ rows_at t2 k s2.
  Proof.
    intros H. unfold rows_at. rewrite combine_app2 by exact H. rewrite filter_app, map_app. reflexivity.
  Qed.
  Lemma rows_at_none {A} tags k (src : list A) : ~ In k tags -> rows_at tags k src = [].
  Proof.
    revert src; induction tags as [|t tags IH]; intros [|a src] H; try reflexivity. rewrite rows_at_cons.
    destruct (Z.eqb_spec t k) as [->|Hne]; [exfalso; apply H; left; reflexivity|]. cbn [app]. apply IH. intros Hi. apply H. right. exact Hi.
  Qed.
  Lemma rows_at_map_tags {A} (f : Z -> Z) tags k (src : list A) : (forall a b, f a = f b -> a = b) -> rows_at (map f tags) (f k) src = rows_at tags k src.
  Proof.
    intros Hf'. revert src; induction tags as [|t tags IH]; intros [|a src]; try reflexivity. cbn [map]. rewrite !rows_at_cons, IH.
    f_equal. destruct (Z.eqb_spec t k) as [->|Hne]; [rewrite Z.eqb_refl; reflexivity|].
    destruct (Z.eqb_spec (f t) (f k)) as [E|_]; [apply Hf' in E; contradiction|reflexivity].
  Qed.

  Lemma rows_at_jk {A} d kss (srcs : list (list A)) i j ks src k : (d <= 16)%nat -> Forall (Forall (vkey 1 d)) kss ->
    Forall2 (fun ks s => length ks = length s) kss srcs ->
    nth_error kss j = Some ks -> nth_error srcs j = Some src -> vkey 1 d k ->
    rows_at (jk i kss) ((i + Z.of_nat j) * 2 ^ 48 + k) (concat srcs) = rows_at ks k src.
  Proof.
    intros Hd Hv Hl. revert i j Hv. induction Hl as [|k1 s1 kss srcs Hl1 Hl IH]; intros i j Hv Hj Hs Hk; [destruct j; discriminate|].
    inversion Hv as [|? ? Hv1 Hv2]; subst. cbn [jk concat]. rewrite rows_at_app by (rewrite map_length; exact Hl1).
    destruct Hk as (b & m & Hb & Hm & ->). assert (b = 0) by lia. subst b. pose proof (pow8_lt48 d Hd) as P.
    destruct j as [|j]; cbn [nth_error] in Hj, Hs.
    - injection Hj as ->. injection Hs as ->. rewrite Z.add_0_r.
      rewrite (rows_at_map_tags (fun k => i * 2 ^ 48 + k)) by (intros; lia).
      rewrite (rows_at_none (jk (i + 1) kss)); [apply app_nil_r|].
      intros Hi. pose proof (jk_lower d _ _ _ Hd Hv2 Hi). nia.
    - rewrite rows_at_none.
      + cbn [app]. replace (i + Z.of_nat (S j)) with (i + 1 + Z.of_nat j) by lia. apply IH; auto. exists 0, m. auto.
      + intros Hi. apply in_map_iff in Hi. destruct Hi as (k' & E & Hk'). rewrite Forall_forall in Hv1.
        destruct (Hv1 k' Hk') as (b' & m' & Hb' & Hm' & ->). nia.
  Qed.

  Lemma group_count_rows {A} key k (src : list A) : length key = length src -> group_count key k = zlen (rows_at key k src).
  Proof.
    intros H. unfold group_count, zlen. f_equal. revert src H; induction key as [|t key IH]; intros [|a src] H; try discriminate; [reflexivity|].
    rewrite rows_at_cons. cbn [filter]. rewrite Z.eqb_sym. destruct (t =? k); cbn [length app]; rewrite IH with (src := src) by (cbn in H; lia); reflexivity.
  Qed.

  (** per-cell reductions of a concatenation *)
  Lemma reduce_joined {A X} (F : list A -> X) (src : pcloud Qc -> list A) :
    (forall p, In p ps -> length (src p) = length (p_points p)) ->
    map (fun k => F (rows_at (cloud_keys dep mp) k (concat (map src ps)))) (cells dep mp)
    = concat (map (fun p => map (fun k => F (rows_at (cloud_keys dep p) k (src p))) (cells dep p)) ps).
  Proof.
    intros Hl. pose proof c_good as G. rewrite Forall_forall in G.
    rewrite cells_joined. unfold mp, ps at 1. rewrite cloud_keys_joined by apply c_good. fold ps.
    assert (Hck : Forall (Forall (vkey 1 dep)) (map (cloud_keys dep) ps)).
    { apply Forall_forall. intros ks Hk. apply in_map_iff in Hk. destruct Hk as (p & <- & Hk). apply cloud_keys_vkey. auto. }
    assert (E : forall post pre, ps = pre ++ post ->
       map (fun k => F (rows_at (jk 0 (map (cloud_keys dep) ps)) k (concat (map src ps)))) (jk (Z.of_nat (length pre)) (map (cells dep) post))
       = concat (map (fun p => map (fun k => F (rows_at (cloud_keys dep p) k (src p))) (cells dep p)) post)).
    { induction post as [|p post IH]; intros pre Ep; [reflexivity|]. cbn [map jk concat]. rewrite map_app. f_equal.
      - rewrite map_map. apply map_ext_in. intros k Hk. f_equal.
        assert (Hj : nth_error ps (length pre) = Some p) by (rewrite Ep, nth_error_app2, Nat.sub_diag by lia; reflexivity).
        assert (Hin : In p ps) by (apply nth_error_In in Hj; exact Hj).
        rewrite <- (Z.add_0_l (Z.of_nat (length pre))).
        apply (rows_at_jk dep); [exact H16|exact Hck| | | |].
        + assert (forall q, In q ps -> length (cloud_keys dep q) = length (src q)) as Hq.
          { intros q Hq. rewrite Hl by exact Hq. apply (cloud_keys_length 1). auto. }
          clear - Hq. induction ps as [|q qs IH]; cbn [map]; constructor; [apply Hq; left; reflexivity|apply IH; intros; apply Hq; right; assumption].
        + rewrite nth_error_map, Hj. reflexivity.
        + rewrite nth_error_map, Hj. reflexivity.
        + destruct (cells_ok 1 dep p (G p Hin)) as (_ & Hv). rewrite Forall_forall in Hv. apply Hv. exact Hk.
      - specialize (IH (pre ++ [p])). rewrite app_length in IH. cbn [length] in IH.
        replace (Z.of_nat (length pre) + 1) with (Z.of_nat (length pre + 1)) by lia. apply IH. rewrite <- app_assoc. exact Ep. }
    exact (E ps [] eq_refl).
  Qed.

  Lemma new_layers B : length (layers (octree_new dep full B dev)) = S dep.
  Proof. clear. cbn [layers octree_new]. rewrite repeat_length. lia. Qed.
  Lemma new_nth B d : (d <= dep)%nat -> nth_error (layers (octree_new dep full B dev)) d = Some (empty_layer B).
  Proof. intros H. clear - H. cbn [layers octree_new]. apply nth_error_repeat. lia. Qed.

  Lemma built_signals B pc d : 
    let l := built_layer normalize B full dep pc d (empty_layer B) in
    neighs l = None /\
    l_points l = (if Nat.eqb d dep then Some (avg_points dep pc) else None) /\
    l_normals l = (if Nat.eqb d dep then option_map (sum_normals normalize dep pc) (p_normals pc) else None) /\
    l_features l = (if Nat.eqb d dep then option_map (avg_features dep pc) (p_features pc) else None).
  Proof.
    unfold built_layer, tree_layer, signal_layer, full_layer, full_children_layer, sparse_layer.
    destruct (Nat.eqb d dep), (Nat.ltb d full), (Nat.eqb d full), (p_normals pc), (p_features pc); repeat split; reflexivity.
  Qed.

  (** joined signals *)
  Lemma cat_map_in {A C} (f g : A -> list C) l : (forall a, In a l -> f a = g a) -> concat (map f l) = concat (map g l).
  Proof. intros H. f_equal. apply map_ext_in. exact H. Qed.

  Lemma avg_points_joined : avg_points dep mp = concat (map (avg_points dep) ps).
  Proof.
    pose proof c_good as G. rewrite Forall_forall in G.
    set (F := fun rows : list (v3 Qc) => v3map (fun c => c / qz (zlen rows))%Qc (fold_left v3add rows v3zero)).
    assert (E : forall pc B, good_cloud B pc -> avg_points dep pc = map (fun k => F (rows_at (cloud_keys dep pc) k (map (rescale dep) (p_points pc)))) (cells dep pc)).
    { intros pc B Gp. unfold avg_points, F. apply map_ext. intros k.
      rewrite (group_count_rows _ k (map (rescale dep) (p_points pc))); [reflexivity|]. rewrite map_length. apply (cloud_keys_length B). exact Gp. }
    assert (Gm : length (cloud_keys dep mp) = length (p_points mp)).
    { unfold mp at 1, ps. rewrite cloud_keys_joined by apply c_good. fold ps. rewrite jk_length. cbn [p_points mp joined_cloud].
      clear - G. induction ps as [|p t IH]; [reflexivity|]. cbn [map concat]. rewrite !app_length. rewrite IH by (intros; apply G; right; assumption).
      rewrite (cloud_keys_length 1) by (apply G; left; reflexivity). reflexivity. }
    transitivity (map (fun k => F (rows_at (cloud_keys dep mp) k (map (rescale dep) (p_points mp)))) (cells dep mp)).
    { unfold avg_points, F. apply map_ext. intros k.
      rewrite (group_count_rows _ k (map (rescale dep) (p_points mp))); [reflexivity|]. rewrite map_length. exact Gm. }
    rewrite (cat_map_in (avg_points dep) (fun p => map (fun k => F (rows_at (cloud_keys dep p) k (map (rescale dep) (p_points p)))) (cells dep p))).
    2:{ intros p Hp. apply (E p 1%nat). auto. }
    rewrite <- (reduce_joined F (fun p => map (rescale dep) (p_points p))).
    - apply map_ext. intros k. f_equal. f_equal. cbn [p_points mp joined_cloud]. rewrite concat_map, map_map. reflexivity.
    - intros p _. apply map_length.
  Qed.

  Definition opt_rows {A C} (f : A -> option (list C)) (a : A) : list C := match f a with Some r => r | None => [] end.

  Lemma normals_joined : first_has p_normals ps = true ->
    option_map (sum_normals normalize dep mp) (p_normals mp) = Some (concat (map (fun p => opt_rows (fun p => option_map (sum_normals normalize dep p) (p_normals p)) p) ps)).
  Proof.
    intros Hfirst. pose proof c_good as G. rewrite Forall_forall in G.
    assert (Hall : Forall (fun p => p_normals p <> None) ps) by (apply Hc; exact Hfirst). rewrite Forall_forall in Hall.
    cbn [p_normals mp joined_cloud]. unfold opt_cat. rewrite Hfirst. cbn [option_map]. f_equal.
    set (F := fun rows : list (v3 Qc) => normalize (fold_left v3add rows v3zero)).
    transitivity (concat (map (fun p => map (fun k => F (rows_at (cloud_keys dep p) k (opt_rows p_normals p))) (cells dep p)) ps)).
    - rewrite <- (reduce_joined F (opt_rows p_normals)); [reflexivity|].
      intros p Hp. unfold opt_rows. destruct (p_normals p) as [r|] eqn:E; [|elim (Hall p Hp E)]. apply (gc_normals _ _ (G p Hp) r E).
    - apply cat_map_in. intros p Hp. unfold opt_rows. destruct (p_normals p) as [r|] eqn:E; [|elim (Hall p Hp E)]. reflexivity.
  Qed.

  Lemma width_const c (f : list vec) : Forall (fun r => length r = c) f -> f <> [] -> width f = c.
  Proof. intros H Hne. destruct f as [|r t]; [congruence|]. inversion H; subst. reflexivity. Qed.

  Lemma features_joined : first_has p_features ps = true ->
    option_map (avg_features dep mp) (p_features mp) = Some (concat (map (fun p => opt_rows (fun p => option_map (avg_features dep p) (p_features p)) p) ps)).
  Proof.
    intros Hfirst. pose proof c_good as G. rewrite Forall_forall in G.
    destruct Hc as (_ & _ & _ & _ & Hcf & _ & c & Hw).
    assert (Hall : Forall (fun p => p_features p <> None) ps) by (apply Hcf; exact Hfirst). rewrite Forall_forall in Hall.
    cbn [p_features mp joined_cloud]. unfold opt_cat. rewrite Hfirst. cbn [option_map]. f_equal.
    set (F := fun rows : list vec => map (fun c => c / qz (zlen rows))%Qc (fold_left vadd rows (vzero c))).
    assert (E : forall pc f, length (cloud_keys dep pc) = length f -> Forall (fun r => length r = c) f ->
       avg_features dep pc f = map (fun k => F (rows_at (cloud_keys dep pc) k f)) (cells dep pc)).
    { intros pc f Hl Hwf. unfold avg_features, F. destruct (list_eq_dec Z.eq_dec (cells dep pc) []) as [E0|E0]; [rewrite E0; reflexivity|].
      rewrite (width_const c) ; [|exact Hwf|].
      - apply map_ext. intros k. rewrite (group_count_rows _ k f) by exact Hl. reflexivity.
      - intros ->. apply E0. unfold cells. destruct (cloud_keys dep pc); [reflexivity|discriminate]. }
    assert (Hlen : forall p, In p ps -> length (opt_rows p_features p) = length (p_points p) /\ Forall (fun r => length r = c) (opt_rows p_features p)).
    { intros p Hp. unfold opt_rows. destruct (p_features p) as [r|] eqn:Er; [|elim (Hall p Hp Er)].
      split; [apply (gc_features _ _ (G p Hp) r Er)|apply (Hw p r Hp Er)]. }
    transitivity (concat (map (fun p => map (fun k => F (rows_at (cloud_keys dep p) k (opt_rows p_features p))) (cells dep p)) ps)).
    - refine (eq_trans _ (reduce_joined F (opt_rows p_features) (fun p Hp => proj1 (Hlen p Hp)))).
      apply E.
      + unfold mp, ps at 1. rewrite cloud_keys_joined by apply c_good. fold ps. rewrite jk_length. unfold cat_some.
        clear - G Hlen. induction ps as [|p t IH]; [reflexivity|]. cbn [map concat]. rewrite !app_length.
        rewrite IH; [|intros; apply G; right; assumption|intros; apply Hlen; right; assumption].
        rewrite (cloud_keys_length 1) by (apply G; left; reflexivity). f_equal. symmetry. apply (Hlen p). left; reflexivity.
      + unfold cat_some. apply Forall_concat. apply Forall_forall. intros r Hr. apply in_map_iff in Hr. destruct Hr as (p & <- & Hp). apply (Hlen p Hp).
    - apply cat_map_in. intros p Hp. destruct (Hlen p Hp) as (H1 & H2). unfold opt_rows in *. destruct (p_features p) as [r|] eqn:Er; [|elim (Hall p Hp Er)].
      cbn [option_map]. symmetry. apply E; [|exact H2]. rewrite H1. apply (cloud_keys_length 1). auto.
  Qed.

  Definition built_of (B : nat) (pc : pcloud Qc) (o' : octree) : Prop :=
    depth o' = dep /\ full_depth o' = full /\ batch_size o' = B /\ device o' = dev /\
    tree_upto o' dep (bK (octree_new dep full B dev) pc) (bM (octree_new dep full B dev) pc) /\
    forall d, (d <= dep)%nat -> nth_error (layers o') d = Some (built_layer normalize B full dep pc d (empty_layer B)).

  Lemma build_of B pc : Z.of_nat B <= 32768 -> good_cloud B pc -> p_device pc = dev ->
    exists o', build_octree normalize (octree_new dep full B dev) pc = Ok (o', inverse_of (cloud_keys dep pc)) /\ built_of B pc o'.
  Proof.
    intros HB G Hdev. destruct (built_tree normalize (octree_new dep full B dev) pc) as (o' & E & D1 & D2 & D3 & D4 & T & Hl); auto.
    - apply new_layers.
    - exists o'. split; [exact E|]. split; [exact D1|]. split; [exact D2|]. split; [exact D3|]. split; [congruence|]. split; [exact T|].
      intros d Hd. apply Hl. apply new_nth. exact Hd.
  Qed.

  Lemma joined_good : good_cloud n mp.
  Proof.
    pose proof c_good as G. rewrite Forall_forall in G. constructor.
    - reflexivity.
    - intros _. exists (batch_ids ps). split; [reflexivity|]. cbn [p_points mp joined_cloud]. unfold batch_ids. split.
      + clear. generalize 0. induction ps as [|p t IH]; intros i; [reflexivity|]. cbn [indexed map concat]. rewrite !app_length, repeat_length, IH. reflexivity.
      + unfold n. clear. assert (H : forall (ps : list (pcloud Qc)) i, 0 <= i -> Forall (fun b => 0 <= b < i + Z.of_nat (length ps))
           (concat (map (fun '(i, p) => repeat i (length (p_points p))) (indexed i ps)))).
        { clear. induction ps as [|p t IH]; intros i Hi; [constructor|]. cbn [indexed map concat length]. apply Forall_app. split.
          - apply Forall_forall. intros b Hb. apply repeat_spec in Hb. subst. lia.
          - eapply Forall_impl; [|apply (IH (i + 1)); lia]. cbn beta. intros; lia. }
        apply (H ps 0). lia.
    - unfold n, ps. cbn. lia.
    - intros r Hr. cbn [p_points p_normals mp joined_cloud] in *. unfold opt_cat in Hr. destruct (first_has p_normals ps) eqn:Hfirst; [|discriminate].
      injection Hr as <-. assert (Hall : Forall (fun p => p_normals p <> None) ps) by (apply Hc; exact Hfirst). rewrite Forall_forall in Hall.
      unfold cat_some. clear - G Hall. induction ps as [|p t IH]; [reflexivity|]. cbn [map concat]. rewrite !app_length.
      rewrite IH; [|intros; apply G; right; assumption|intros; apply Hall; right; assumption]. f_equal.
      destruct (p_normals p) as [r|] eqn:E; [|elim (Hall p (or_introl eq_refl) E)]. apply (gc_normals _ _ (G p (or_introl eq_refl)) r E).
    - intros r Hr. cbn [p_points p_features mp joined_cloud] in *. unfold opt_cat in Hr. destruct (first_has p_features ps) eqn:Hfirst; [|discriminate].
      destruct Hc as (_ & _ & _ & _ & Hcf & _ & c & Hw).
      injection Hr as <-. assert (Hall : Forall (fun p => p_features p <> None) ps) by (apply Hcf; exact Hfirst). rewrite Forall_forall in Hall.
      split.
      + unfold cat_some. clear - G Hall. induction ps as [|p t IH]; [reflexivity|]. cbn [map concat]. rewrite !app_length.
        rewrite IH; [|intros; apply G; right; assumption|intros; apply Hall; right; assumption]. f_equal.
        destruct (p_features p) as [r|] eqn:E; [|elim (Hall p (or_introl eq_refl) E)]. apply (gc_features _ _ (G p (or_introl eq_refl)) r E).
      + exists c. apply Forall_concat. apply Forall_forall. intros r Hr. apply in_map_iff in Hr. destruct Hr as (p & <- & Hp).
        destruct (p_features p) as [f|] eqn:E; [|constructor]. apply (Hw p f Hp E).
  Qed.

  Lemma builds : exists os, mapM (fun p => r <- build_octree normalize o1 p ;; Ok (fst r)) ps = Ok os /\ Forall2 (built_of 1) ps os.
  Proof.
    pose proof c_good as G. rewrite Forall_forall in G. destruct Hc as (_ & _ & Hdev & _). rewrite Forall_forall in Hdev.
    assert (E : forall qs, (forall p, In p qs -> In p ps) ->
      exists os, mapM (fun p => r <- build_octree normalize o1 p ;; Ok (fst r)) qs = Ok os /\ Forall2 (built_of 1) qs os).
    { induction qs as [|p t IH]; intros Hq; cbn [mapM]; [exists []; split; [reflexivity|constructor]|].
      destruct (build_of 1 p) as (o' & E & Hb); [lia|apply G, Hq; left; reflexivity|apply Hdev, Hq; left; reflexivity|].
      unfold o1 in *. rewrite E. cbn [bind fst]. destruct IH as (os & E' & Hos); [intros; apply Hq; right; assumption|].
      rewrite E'. cbn [bind]. exists (o' :: os). split; [reflexivity|]. constructor; assumption. }
    apply E. auto.
  Qed.

  Lemma built_mem os oh : Forall2 (built_of 1) ps os -> hd_error os = Some oh -> mergeable oh os /\ Forall2 (mem_tree oh) os kms /\
     depth oh = dep /\ full_depth oh = full /\ device oh = dev.
  Proof.
    intros H Hh. assert (D : depth oh = dep /\ full_depth oh = full /\ device oh = dev).
    { unfold ps in H. inversion H as [|? o' ? os' (D1 & D2 & D3 & D4 & _) _]; subst. cbn in Hh. injection Hh as <-. auto. }
    destruct D as (D1 & D2 & D3).
    assert (Hk : Forall2 (mem_tree oh) os kms).
    { unfold kms. clear Hh. clear - H D1 D2 D3. induction H as [|p o t os (E1 & E2 & E3 & E4 & T & _) H IH]; cbn [map]; constructor; [|exact IH].
      unfold mem_tree. rewrite D1, D2, D3. cbn [fst snd]. auto. }
    split; [|auto]. split; [exact Hh|]. split; [rewrite (Forall2_len _ _ _ H); exact Hn|]. split.
    - clear - Hk D1. induction Hk as [|o km os t (T & E1 & E2 & E3 & E4) Hk IH]; constructor; [|exact IH].
      split; [|auto]. exists (fst km), (snd km). rewrite E2. exact T.
    - intros ls Hls. rewrite D1 in Hls.
      assert (El : ls = map (fun p => built_layer normalize 1 full dep p dep (empty_layer 1)) ps).
      { clear - H Hls. revert ls Hls. induction H as [|p o t os (_ & _ & _ & _ & _ & E) H IH]; intros ls Hls; inversion Hls; subst; [reflexivity|].
        cbn [map]. rewrite (E dep (Nat.le_refl _)) in H2. injection H2 as <-. f_equal. apply IH. assumption. }
      subst ls. pose proof (fun p => built_signals 1 p dep) as S. cbv zeta in S.
      assert (Tr : forall {A C} (f : layer -> option (list A)) (g : pcloud Qc -> option (list C)),
         (forall p, f (built_layer normalize 1 full dep p dep (empty_layer 1)) = None <-> g p = None) -> cat_ok g ps ->
         cat_ok f (map (fun p => built_layer normalize 1 full dep p dep (empty_layer 1)) ps)).
      { intros A C f g Hfg Hg Hfirst. apply Forall_forall. intros l Hl. apply in_map_iff in Hl. destruct Hl as (p & <- & Hp).
        intros E. apply (proj1 (Hfg p)) in E. assert (first_has g ps = true) as E1.
        { unfold ps in *. cbn [map first_has] in *. specialize (Hfg p0). destruct (g p0) eqn:E0; [reflexivity|].
          destruct (f (built_layer normalize 1 full dep p0 dep (empty_layer 1))); [|discriminate]. destruct Hfg as (_ & Hfg). discriminate Hfg. reflexivity. }
        specialize (Hg E1). rewrite Forall_forall in Hg. exact (Hg p Hp E). }
      destruct Hc as (_ & _ & _ & Hc1 & Hc2 & _).
      split; [|split].
      + apply (Tr _ _ _ p_features); [|exact Hc2]. intros p. destruct (S p) as (_ & _ & _ & ->). rewrite Nat.eqb_refl. destruct (p_features p); cbn; split; congruence.
      + apply (Tr _ _ _ p_normals); [|exact Hc1]. intros p. destruct (S p) as (_ & _ & -> & _). rewrite Nat.eqb_refl. destruct (p_normals p); cbn; split; congruence.
      + intros _. apply Forall_forall. intros l Hl. apply in_map_iff in Hl. destruct Hl as (p & <- & Hp). destruct (S p) as (_ & -> & _). rewrite Nat.eqb_refl. discriminate.
  Qed.

  Lemma rows_joined : exists idxs, mapM (fun p => r <- build_octree normalize o1 p ;; Ok (snd r)) ps = Ok idxs /\
     inverse_of (cloud_keys dep mp) = join_rows (map (fun p => zlen (cells dep p)) ps) idxs.
  Proof.
    pose proof c_good as G. rewrite Forall_forall in G. pose proof Hc as (_ & _ & Hdev & _). rewrite Forall_forall in Hdev.
    exists (map (fun p => inverse_of (cloud_keys dep p)) ps). split.
    - apply mapM_Ok. intros p Hp. destruct (build_of 1 p) as (o' & E & _); [lia|auto|auto|]. unfold o1. rewrite E. reflexivity.
    - transitivity (map (rowno (cells dep mp)) (cloud_keys dep mp)); [reflexivity|].
      rewrite cells_joined. unfold mp, ps at 2. rewrite cloud_keys_joined by apply c_good. fold ps.
      assert (Hck : Forall (Forall (vkey 1 dep)) (map (cells dep) ps)).
      { apply Forall_forall. intros ks Hk. apply in_map_iff in Hk. destruct Hk as (p & <- & Hk). apply cells_ok. auto. }
      assert (Hcs : Forall sorted (map (cells dep) ps)).
      { apply Forall_forall. intros ks Hk. apply in_map_iff in Hk. destruct Hk as (p & <- & Hk). apply (cells_ok 1 dep p). auto. }
      assert (E : forall post pre, ps = pre ++ post ->
        map (rowno (jk 0 (map (cells dep) ps))) (jk (Z.of_nat (length pre)) (map (cloud_keys dep) post)) =
        concat (map (fun '(n, rs) => map (shift_row n) rs)
          (combine (starts (Z.of_nat (length (concat (map (cells dep) pre)))) (map (fun p => zlen (cells dep p)) post)) (map (fun p => inverse_of (cloud_keys dep p)) post)))).
      { induction post as [|p post IH]; intros pre Ep; [reflexivity|]. cbn [map jk starts combine concat]. rewrite map_app. f_equal.
        - rewrite map_map. transitivity (map (shift_row (Z.of_nat (length (concat (map (cells dep) pre))))) (map (rowno (cells dep p)) (cloud_keys dep p))); [|reflexivity].
          rewrite map_map. apply map_ext_in. intros k Hk.
          assert (Hj : nth_error ps (length pre) = Some p) by (rewrite Ep, nth_error_app2, Nat.sub_diag by lia; reflexivity).
          assert (Hin : In p ps) by (apply nth_error_In in Hj; exact Hj).
          rewrite <- (Z.add_0_l (Z.of_nat (length pre))).
          rewrite (rowno_jk dep 0 (map (cells dep) ps) (length pre) (cells dep p)); [|exact H16|exact Hck|exact Hcs|rewrite nth_error_map, Hj; reflexivity|].
          + f_equal. rewrite Ep, map_app, firstn_app, map_length, Nat.sub_diag, firstn_O, app_nil_r.
            rewrite <- (map_length (cells dep) pre) at 1. rewrite firstn_all. reflexivity.
          + pose proof (cloud_keys_vkey 1 dep p (G p Hin)) as Hv. rewrite Forall_forall in Hv. destruct (Hv k Hk) as (b & m & Hb & Hm & ->).
            pose proof (pow8_lt48 dep H16). lia.
        - specialize (IH (pre ++ [p])). rewrite map_app, app_length, concat_app, app_length in IH. cbn [length map concat] in IH. rewrite app_nil_r in IH.
          replace (Z.of_nat (length pre) + 1) with (Z.of_nat (length pre + 1)) by lia. rewrite IH by (rewrite <- app_assoc; exact Ep).
          replace (Z.of_nat (length (concat (map (cells dep) pre))) + zlen (cells dep p)) with (Z.of_nat (length (concat (map (cells dep) pre)) + length (cells dep p))) by (unfold zlen; lia).
          reflexivity. }
      exact (E ps [] eq_refl).
  Qed.

  Lemma build_merge : exists ob idx os om idxs ls,
    merge_points ps true = Ok mp /\ build_octree normalize on mp = Ok (ob, idx) /\
    mapM (fun p => r <- build_octree normalize o1 p ;; Ok (fst r)) ps = Ok os /\
    mapM (fun p => r <- build_octree normalize o1 p ;; Ok (snd r)) ps = Ok idxs /\
    merge_octrees os = Ok om /\ same_octree om ob /\
    Forall2 (fun o l => nth_error (layers o) dep = Some l) os ls /\
    idx = join_rows (map nnum_nempty ls) idxs.
  Proof.
    destruct builds as (os & Eos & Hos). destruct rows_joined as (idxs & Ei & Ej).
    assert (Hh : exists oh, hd_error os = Some oh) by (clear - Hos; unfold ps in Hos; inversion Hos; subst; cbn [hd_error]; eexists; reflexivity).
    destruct Hh as (oh & Hh). destruct (built_mem os oh Hos Hh) as (Hm & Hk & D1 & D2 & D3).
    assert (Hdev : p_device mp = dev).
    { destruct Hc as (_ & _ & Hdev & _). unfold ps in Hdev. inversion Hdev as [|? ? Hd0 _]. cbn [mp joined_cloud p_device]. exact Hd0. }
    destruct (build_of n mp Hn joined_good Hdev) as (ob & Eb & B1 & B2 & B3 & B4 & Tb & Lb).
    exists ob, (inverse_of (cloud_keys dep mp)), os, (merged oh os kms), idxs, (map (fun o => layer_at o dep) os).
    split; [unfold mp, ps; apply merge_points_Ok; apply Hc|]. split; [exact Eb|]. split; [exact Eos|]. split; [exact Ei|].
    split; [apply merge_Ok; assumption|]. split; [|split].
    2:{ apply (mem_layers oh os kms dep Hk). lia. }
    2:{ rewrite Ej. f_equal. clear - Hos Hf H16 Hc. pose proof c_good as G. rewrite Forall_forall in G.
        clear Hc. revert G. induction Hos as [|p o t os (_ & _ & _ & _ & T & _) H IH]; intros G; cbn [map]; [reflexivity|].
        rewrite IH by (intros; apply G; right; assumption). f_equal.
        destruct (tree_get _ _ _ _ T dep (Nat.le_refl _)) as (l & _ & Hn & _ & _ & _ & E).
        unfold layer_at. rewrite Hn, E, nflag_count. rewrite <- (tree_nempty_len _ _ _ _ T dep (Nat.le_refl _)).
        rewrite (bM_select (octree_new dep full 1 dev) p); [rewrite NE_top; reflexivity|exact Hf|exact H16|apply new_layers|apply G; left; reflexivity|].
        cbn [octree_new full_depth depth]. lia. }
    unfold same_octree. cbn [depth full_depth batch_size device merged]. rewrite B1, B2, B3, B4, D1, D2, D3.
    split; [reflexivity|]. split; [reflexivity|]. split; [symmetry; apply (Forall2_len _ _ _ Hos)|]. split; [reflexivity|].
    pose proof (merged_tree oh os kms Hm Hk) as Tm. rewrite D1 in Tm.
    assert (Lm : length (layers (merged oh os kms)) = S dep) by (rewrite (t_len _ _ _ _ Tm); cbn [depth merged]; lia).
    assert (Lo : length (layers ob) = S dep) by (rewrite (t_len _ _ _ _ Tb); lia).
    apply Forall2_nth_intro; [lia|]. intros d l l' Hl Hl'.
    assert (Hd : (d <= dep)%nat) by (assert (d < length (layers ob))%nat by (apply nth_error_Some; congruence); lia).
    destruct (t_layer _ _ _ _ Tm d Hd) as (lm & Em & M1 & M2 & M3 & M4). destruct (t_layer _ _ _ _ Tb d Hd) as (lb & Ebl & N1 & N2 & N3 & N4).
    assert (lm = l) by congruence. assert (lb = l') by congruence. subst lm lb.
    pose proof (bK_joined d Hd) as EK. pose proof (bM_joined d Hd) as EM. unfold on in EK, EM.
    rewrite EK in N1, N3. rewrite EM in N2, N4.
    assert (Els : map (fun o => layer_at o d) os = map (fun p => built_layer normalize 1 full dep p d (empty_layer 1)) ps).
    { clear - Hos Hd. induction Hos as [|p o t os (_ & _ & _ & _ & _ & E) H IH]; [reflexivity|]. cbn [map]. rewrite IH. f_equal.
      unfold layer_at. rewrite (E d Hd). reflexivity. }
    rewrite (merged_nth oh os kms d) in Hl by lia. assert (El : l = joined_layer (Nat.eqb d (depth oh)) (map (fun o => layer_at o d) os)
       (map (fun km => (fst km d, snd km d)) kms)) by congruence.
    rewrite (Lb d Hd) in Hl'. assert (El' : l' = built_layer normalize n full dep mp d (empty_layer n)) by congruence.
    destruct (built_signals n mp d) as (S0 & S1 & S2 & S3). rewrite <- El' in S0, S1, S2, S3.
    assert (R0 : neighs l = None) by (rewrite El; reflexivity).
    assert (R1 : l_points l = joined_signal l_points (Nat.eqb d dep) (map (fun p => built_layer normalize 1 full dep p d (empty_layer 1)) ps)) by (rewrite El, D1, Els; reflexivity).
    assert (R2 : l_normals l = joined_signal l_normals (Nat.eqb d dep) (map (fun p => built_layer normalize 1 full dep p d (empty_layer 1)) ps)) by (rewrite El, D1, Els; reflexivity).
    assert (R3 : l_features l = joined_signal l_features (Nat.eqb d dep) (map (fun p => built_layer normalize 1 full dep p d (empty_layer 1)) ps)) by (rewrite El, D1, Els; reflexivity).
    unfold same_layer. rewrite M1, M2, M3, M4, N1, N2, N3, N4, R0, R1, R2, R3, S0, S1, S2, S3.
    pose proof (fun p => built_signals 1 p d) as S. cbv zeta in S.
    do 3 (split; [reflexivity|]). unfold joined_signal.
    destruct (Nat.eqb d dep) eqn:Ed; cbn [andb].
    2:{ repeat split; reflexivity. }
    assert (FH : forall {A C} (f : layer -> option (list A)) (g : pcloud Qc -> option (list C)),
         (forall p, f (built_layer normalize 1 full dep p d (empty_layer 1)) = None <-> g p = None) ->
         first_has f (map (fun p => built_layer normalize 1 full dep p d (empty_layer 1)) ps) = first_has g ps).
    { intros A C f g Hfg. unfold ps. cbn [map first_has]. specialize (Hfg p0).
      destruct (f (built_layer normalize 1 full dep p0 d (empty_layer 1))), (g p0); try reflexivity; destruct Hfg as (F1 & F2); [discriminate F2; reflexivity|discriminate F1; reflexivity]. }
    assert (CS : forall {A} (f : layer -> option (list A)) (g : pcloud Qc -> option (list A)),
         (forall p, f (built_layer normalize 1 full dep p d (empty_layer 1)) = g p) ->
         cat_some f (map (fun p => built_layer normalize 1 full dep p d (empty_layer 1)) ps) = concat (map (fun p => opt_rows g p) ps)).
    { intros A f g Hfg. unfold cat_some. rewrite map_map. apply cat_map_in. intros p _. unfold opt_rows. rewrite Hfg. reflexivity. }
    split; [|split; [|split; [|split; reflexivity]]].
    - rewrite (FH _ _ l_features p_features) by (intros p; destruct (S p) as (_ & _ & _ & ->); destruct (p_features p); cbn; split; congruence).
      rewrite (CS _ l_features (fun p => option_map (avg_features dep p) (p_features p))) by (intros p; destruct (S p) as (_ & _ & _ & ->); reflexivity).
      destruct (first_has p_features ps) eqn:Hfirst; [apply features_joined; exact Hfirst|].
      cbn [p_features mp joined_cloud]. unfold opt_cat. rewrite Hfirst. reflexivity.
    - rewrite (FH _ _ l_normals p_normals) by (intros p; destruct (S p) as (_ & _ & -> & _); destruct (p_normals p); cbn; split; congruence).
      rewrite (CS _ l_normals (fun p => option_map (sum_normals normalize dep p) (p_normals p))) by (intros p; destruct (S p) as (_ & _ & -> & _); reflexivity).
      destruct (first_has p_normals ps) eqn:Hfirst; [apply normals_joined; exact Hfirst|].
      cbn [p_normals mp joined_cloud]. unfold opt_cat. rewrite Hfirst. reflexivity.
    - rewrite (CS _ l_points (fun p => Some (avg_points dep p))) by (intros p; destruct (S p) as (_ & -> & _); reflexivity).
      rewrite avg_points_joined. unfold ps at 2. cbn [map first_has]. destruct (S p0) as (_ & -> & _). reflexivity.
  Qed.
End BM.

Lemma thm_build_merge normalize dep full dev ps : (full <= dep)%nat -> (dep <= 16)%nat -> Z.of_nat (length ps) <= 32768 -> clouds_ok dev ps ->
  exists mp ob idx os om idxs ls,
    merge_points ps true = Ok mp /\ build_octree normalize (octree_new dep full (length ps) dev) mp = Ok (ob, idx) /\
    mapM (fun p => r <- build_octree normalize (octree_new dep full 1 dev) p ;; Ok (fst r)) ps = Ok os /\
    mapM (fun p => r <- build_octree normalize (octree_new dep full 1 dev) p ;; Ok (snd r)) ps = Ok idxs /\
    merge_octrees os = Ok om /\ same_octree om ob /\
    Forall2 (fun o l => nth_error (layers o) dep = Some l) os ls /\
    idx = join_rows (map nnum_nempty ls) idxs.
Proof.
  intros Hf H16 Hn Hc. destruct ps as [|p0 ps]; [destruct Hc as (H & _); congruence|].
  exists (joined_cloud (p0 :: ps) p0). exact (build_merge normalize dep full dev p0 ps Hf H16 Hn Hc).
Qed.

Lemma thm_merge_points {T} (ps : list (pcloud T)) p0 : hd_error ps = Some p0 -> cat_ok p_normals ps -> cat_ok p_features ps -> cat_ok p_labels ps ->
  exists p, merge_points ps true = Ok p /\
    p_points p = concat (map p_points ps) /\ p_normals p = opt_cat p_normals ps /\
    p_features p = opt_cat p_features ps /\ p_labels p = opt_cat p_labels ps /\
    p_batch_size p = length ps /\ p_batch_npt p = Some (map (fun q => Z.of_nat (length (p_points q))) ps) /\
    p_batch_id p = Some (batch_ids ps) /\ p_device p = p_device p0.
Proof.
  intros H0 H1 H2 H3. destruct ps as [|q ps]; [discriminate|]. cbn in H0. injection H0 as ->.
  exists (joined_cloud (p0 :: ps) p0). split; [apply merge_points_Ok; assumption|]. repeat split; reflexivity.
Qed.

Lemma thm_split_recovers {T X} (ps : list (pcloud T)) (f : pcloud T -> list X) :
  (forall q, In q ps -> length (f q) = length (p_points q)) ->
  cut (map (fun q => Z.of_nat (length (p_points q))) ps) (concat (map f ps)) = map f ps.
Proof.
  intros H. rewrite <- (cut_concat (map f ps)) at 2. f_equal. rewrite map_map. apply map_ext_in. intros q Hq. rewrite H by exact Hq. reflexivity.
Qed.

Lemma batch_ids_nth {T} (ps : list (pcloud T)) : forall pre q post r, ps = pre ++ q :: post -> (r < length (p_points q))%nat ->
  nth_error (batch_ids ps) (length (concat (map p_points pre)) + r) = Some (Z.of_nat (length pre)).
Proof.
  intros pre q post r E Hr. unfold batch_ids.
  assert (G : forall pre i, nth_error (concat (map (fun '(i, p) => repeat i (length (p_points p))) (indexed i (pre ++ q :: post))))
      (length (concat (map p_points pre)) + r) = Some (i + Z.of_nat (length pre))).
  { clear E. clear ps pre. induction pre as [|p pre IH]; intros i.
    - cbn [app indexed map concat length Nat.add]. rewrite nth_error_app1 by (rewrite repeat_length; exact Hr).
      rewrite nth_error_repeat by exact Hr. f_equal. lia.
    - cbn [app indexed map concat length]. rewrite app_length, nth_error_app2 by (rewrite repeat_length; lia). rewrite repeat_length.
      replace (length (p_points p) + length (concat (map p_points pre)) + r - length (p_points p))%nat with (length (concat (map p_points pre)) + r)%nat by lia.
      rewrite IH. f_equal. lia. }
  rewrite E, G. reflexivity.
Qed.

Lemma mapM_err {A B} (f : A -> res B) l a e : (forall x e', f x = Err e' -> e' = e) -> In a l -> f a = Err e -> mapM f l = Err e.
Proof.
  intros He Hin Ha. induction l as [|x l IH]; [destruct Hin|]. cbn [mapM]. destruct (f x) as [b|e'] eqn:E.
  - cbn [bind]. destruct Hin as [->|Hin]; [congruence|]. rewrite (IH Hin). reflexivity.
  - rewrite (He x e' E). reflexivity.
Qed.
Lemma cat_attr_none {A} (l : list (option (list A))) : In None l -> cat_attr l = Err TypeError.
Proof.
  intros H. unfold cat_attr. rewrite (mapM_err _ l None TypeError); [reflexivity| |exact H|reflexivity].
  intros [x|] e'; [discriminate|]. intros E; injection E as <-; reflexivity.
Qed.

Lemma thm_missing {T} (ps : list (pcloud T)) q b : In q ps ->
  (first_has p_normals ps = true /\ p_normals q = None) \/
  (cat_ok p_normals ps /\ first_has p_features ps = true /\ p_features q = None) \/
  (cat_ok p_normals ps /\ cat_ok p_features ps /\ first_has p_labels ps = true /\ p_labels q = None) ->
  merge_points ps b = Err TypeError.
Proof.
  destruct ps as [|p0 ps]; [intros []|]. intros Hin H. unfold merge_points.
  assert (C : forall {B} (f : pcloud T -> option (list B)), first_has f (p0 :: ps) = true -> f q = None ->
     (match f p0 with Some _ => r <- cat_attr (map f (p0 :: ps)) ;; Ok (Some r) | None => Ok None end) = Err TypeError).
  { intros B f H1 H2. cbn [first_has] in H1. destruct (f p0); [|discriminate]. rewrite cat_attr_none; [reflexivity|]. rewrite <- H2. apply in_map. exact Hin. }
  destruct H as [(H1 & H2)|[(H1 & H2 & H3)|(H1 & H2 & H3 & H4)]].
  - rewrite (C _ p_normals H1 H2). reflexivity.
  - rewrite (cat_opt _ _ _ H1). cbn [bind]. rewrite (C _ p_features H2 H3). reflexivity.
  - rewrite (cat_opt _ _ _ H1). cbn [bind]. rewrite (cat_opt _ _ _ H2). cbn [bind]. rewrite (C _ p_labels H3 H4). reflexivity.
Qed.

(** ** merging batches *)
Lemma nodup_app_l {A} (l m : list A) : NoDup (l ++ m) -> NoDup l.
Proof.
  induction l as [|a l IH]; intros H; [constructor|]. cbn [app] in H. inversion H as [|? ? Hn Hd]; subst.
  constructor; [|apply IH; exact Hd]. intros Hi. apply Hn. apply in_or_app. left. exact Hi.
Qed.
Lemma nodup_app_r {A} (l m : list A) : NoDup (l ++ m) -> NoDup m.
Proof. induction l as [|a l IH]; intros H; [exact H|]. inversion H; subst. apply IH. assumption. Qed.
Lemma nodup_concat {A} (ls : list (list A)) l : In l ls -> NoDup (concat ls) -> NoDup l.
Proof.
  induction ls as [|x ls IH]; intros Hi H; [destruct Hi|]. cbn [concat] in H. destruct Hi as [->|Hi].
  - apply nodup_app_l in H. exact H.
  - apply IH; [exact Hi|]. apply nodup_app_r in H. exact H.
Qed.

Lemma indexed_in {A} (l : list A) a i : In a l -> exists j, In (j, a) (indexed i l).
Proof.
  revert i; induction l as [|x l IH]; intros i Hin; [destruct Hin|]. cbn [indexed]. destruct Hin as [->|Hin].
  - exists i. left. reflexivity.
  - destruct (IH (i + 1) Hin) as (j & Hj). exists j. right. exact Hj.
Qed.

Lemma mapM_in {A B} (f : A -> res B) l r a : mapM f l = Ok r -> In a l -> exists b, f a = Ok b /\ In b r.
Proof.
  revert r; induction l as [|x l IH]; intros r E Hin; [destruct Hin|]. cbn [mapM] in E.
  destruct (f x) as [b|e] eqn:Ex; cbn [bind] in E; [|discriminate]. destruct (mapM f l) as [bs|e] eqn:El; cbn [bind] in E; [|discriminate].
  injection E as <-. destruct Hin as [->|Hin]; [exists b; split; [exact Ex|left; reflexivity]|].
  destruct (IH bs eq_refl Hin) as (b' & H1 & H2). exists b'. split; [exact H1|right; exact H2].
Qed.

Lemma mapM_cons {A B} (f : A -> res B) a l : mapM f (a :: l) = (b <- f a ;; bs <- mapM f l ;; Ok (b :: bs)).
Proof. reflexivity. Qed.

Lemma thm_merge_batched os o oi : merge_octrees os = Ok o -> In oi os -> wf_octree oi -> (2 <= batch_size oi)%nat ->
  (exists l ks, nth_error (layers o) 0 = Some l /\ keys l = Some ks /\ ~ NoDup ks) /\ ~ wf_octree o.
Proof.
  intros E Hin (K & M & T) HB.
  assert (G : exists l ks, nth_error (layers o) 0 = Some l /\ keys l = Some ks /\ ~ NoDup ks).
  { destruct os as [|o0 rest]; [discriminate|]. unfold merge_octrees in E.
    match type of E with (_ <- assert_ ?c ;; _) = _ => destruct c; cbn [assert_ bind] in E; [|discriminate] end.
    replace (depth o0 + 1)%nat with (S (depth o0)) in E by lia. cbn [seq] in E. rewrite mapM_cons in E.
    destruct (mapM (fun o => get_layer o (Z.of_nat 0)) (o0 :: rest)) as [ld|e] eqn:Eld; cbn [bind] in E; [|discriminate].
    destruct (merge_layer ld (Nat.eqb 0 (depth o0))) as [l|e] eqn:El; cbn [bind] in E; [|discriminate].
    match type of E with (bind ?x _) = _ => destruct x as [ls|e] eqn:Els; [|discriminate] end. cbn [bind] in E.
    match type of Els with (bind ?x _) = _ => destruct x as [ls'|e]; [|discriminate] end. cbn [bind] in Els.
    assert (Eo : nth_error (layers o) 0 = Some l).
    { assert (o = mkOctree (depth o0) (full_depth o0) (length (o0 :: rest)) (device o0) (l :: ls')) by congruence. subst o. reflexivity. }
    exists l. unfold merge_layer in El.
    match type of El with (bind ?x _) = _ => destruct x as [key|e] eqn:Ek; [|discriminate] end. cbn [bind] in El.
    exists (concat key).
    match type of El with (bind ?x _) = _ => destruct x as [child|e]; [|discriminate] end. cbn [bind] in El.
    match type of El with (bind ?x _) = _ => destruct x as [feat|e]; [|discriminate] end. cbn [bind] in El.
    match type of El with (bind ?x _) = _ => destruct x as [norm|e]; [|discriminate] end. cbn [bind] in El.
    match type of El with (bind ?x _) = _ => destruct x as [pts|e]; [|discriminate] end. cbn [bind] in El.
    split; [exact Eo|]. split.
    { assert (Some (concat key) = keys l) by (injection El as <-; reflexivity). congruence. }
    destruct (mapM_in _ _ _ oi Eld Hin) as (li & Gli & Hli).
    destruct (tree_get _ _ _ _ T 0%nat ltac:(lia)) as (l' & Gl & _ & Kl & _).
    assert (l' = li) by congruence. subst l'.
    rewrite enumerate_indexed in Ek. destruct (indexed_in ld li 0 Hli) as (j & Hj).
    destruct (mapM_in _ _ _ _ Ek Hj) as (b & Eb & Hb). cbn [snd fst] in Eb. rewrite Kl in Eb. cbn [need bind] in Eb.
    intros Hnd. pose proof (nodup_concat _ _ Hb Hnd) as Hnb.
    rewrite (t_grid _ _ _ _ T 0%nat ltac:(lia) ltac:(lia)) in Eb.
    set (h := fun k => Z.lor (Z.land k (Z.shiftl 1 48 - 1)) (shl64 j 48)) in Eb.
    assert (Eb' : b = map h (full_grid (batch_size oi) 0)) by congruence. subst b.
    assert (F0 : nth_error (full_grid (batch_size oi) 0) 0 = Some 0) by (apply (full_grid_nth (batch_size oi) 0 0 0); [lia|cbn; lia]).
    assert (F1 : nth_error (full_grid (batch_size oi) 0) 1 = Some (2 ^ 48)) by (apply (full_grid_nth (batch_size oi) 0 1 0); [lia|cbn; lia]).
    assert (N0 : nth_error (map h (full_grid (batch_size oi) 0)) 0 = Some (h 0)) by (rewrite nth_error_map, F0; reflexivity).
    assert (N1 : nth_error (map h (full_grid (batch_size oi) 0)) 1 = Some (h 0)).
    { rewrite nth_error_map, F1. cbn [option_map]. f_equal. }
    pose proof (nth_error_NoDup_inj _ _ _ _ Hnb N0 N1). discriminate. }
  split; [exact G|]. intros (K' & M' & T'). destruct G as (l & ks & H1 & H2 & H3). apply H3.
  destruct (tree_get _ _ _ _ T' 0%nat ltac:(lia)) as (l' & _ & Hn & Kl & _). assert (ks = K' 0%nat) by congruence. subst ks.
  apply sorted_NoDup. apply (tree_sorted _ _ _ _ T'). lia.
Qed.
