(** Global pooling. *)
From Coq Require Import String List ZArith Bool QArith Qcanon Lia Lqa Field.
From Verif Require Import Res Tensor Num NumFacts Points Octree NnBasic NnConv Spec SpecGeo SpecNeigh SpecNN SpecMerge WF ListFacts ScatterFacts SumFacts NnFacts KidsFacts WFFacts SearchFacts
  BuildProps NeighFacts MergeFacts PadFacts PoolFacts Finite AvgPool.
Import ListNotations.
Open Scope Z_scope.

Definition gmean (C : nat) (rows : list vec) : vec :=
  let n := qz (Z.of_nat (length rows)) in
  map (fun x => (x / (if qltb n 1 then 1 else n))%Qc) (fold_left vadd rows (vzero C)).

Lemma map_repeat {A B} (f : A -> B) a n : map f (repeat a n) = repeat (f a) n.
Proof. induction n as [|n IH]; cbn; [reflexivity|]. rewrite IH. reflexivity. Qed.
Lemma gmean_spec C rows : (rows = [] -> gmean C rows = vzero C) /\ (rows <> [] -> gmean C rows = meanv C rows).
Proof.
  unfold gmean. cbn zeta. split.
  - intros ->. cbn [fold_left]. unfold vzero. rewrite map_repeat. reflexivity.
  - intros H. unfold meanv. rewrite sumv_fold. replace (qltb (qz (Z.of_nat (length rows))) 1) with false; [reflexivity|].
    symmetry. destruct (qltb (qz (Z.of_nat (length rows))) 1) eqn:E; [|reflexivity]. apply qltb_lt in E. change 1%Qc with (qz 1) in E. apply (proj1 (qz_lt _ _)) in E.
    destruct rows; [congruence|cbn [length] in E; lia].
Qed.
Lemma rows_at_ones {A} tags b (src : list A) : rows_at tags b (map (fun _ => 1%Qc) src) = repeat 1%Qc (length (rows_at tags b src)).
Proof.
  revert tags; induction src as [|a src IH]; intros [|t tags]; try reflexivity. cbn [map]. rewrite !rows_at_cons, IH. destruct (t =? b); reflexivity.
Qed.
Lemma fold_ones n : forall a, fold_left Qcplus (repeat 1%Qc n) a = (a + qz (Z.of_nat n))%Qc.
Proof.
  induction n as [|n IH]; intros a; cbn [repeat fold_left]; [change (qz (Z.of_nat 0)) with 0%Qc; ring|].
  rewrite IH, Nat2Z.inj_succ, <- Z.add_1_r, qz_add. change (qz 1) with 1%Qc. ring.
Qed.
Lemma zip_map {A B C D} (f : B -> C -> D) (g : A -> B) (h : A -> C) l : zip_with f (map g l) (map h l) = map (fun a => f (g a) (h a)) l.
Proof. unfold zip_with. induction l as [|a l IH]; cbn [map combine fst snd]; [reflexivity|]. rewrite IH. reflexivity. Qed.

Lemma scatter_some {A} (add : A -> A -> A) zero (src : list A) idx n : length idx = length src -> (forall i, In i idx -> 0 <= i < Z.of_nat n) ->
  scatter_add add zero src idx (Some n) = Ok (map (fun b => fold_left add (rows_at idx (Z.of_nat b) src) zero) (seq 0 n)).
Proof.
  intros Hl Hi. unfold scatter_add, scatter_size. destruct (scatter_into_spec add idx src (repeat zero n) Hl) as (r & Er & Hr & Hn).
  { intros i Hin. unfold zlen. rewrite repeat_length. apply Hi. exact Hin. }
  rewrite Er. f_equal. apply nth_error_ext. intros j. rewrite Hn, nth_error_map. destruct (Nat.lt_ge_cases j n) as [H|H].
  - rewrite nth_error_repeat by exact H. rewrite (nth_error_nth' (seq 0 n) O) by (rewrite seq_length; exact H). rewrite seq_nth by exact H. reflexivity.
  - rewrite (proj2 (nth_error_None (repeat zero n) j)) by (rewrite repeat_length; exact H).
    rewrite (proj2 (nth_error_None (seq 0 n) j)) by (rewrite seq_length; exact H). reflexivity.
Qed.

Lemma vkey_batch B d k : (d <= 16)%nat -> vkey B d k -> 0 <= k / 2 ^ 48 < Z.of_nat B.
Proof.
  intros Hd Hk. destruct (coords d k) as [[[x y] z] b] eqn:E. destruct (coords_key_of B d k x y z b Hd Hk E) as (_ & _ & Hb).
  unfold coords in E. assert (k / 2 ^ 48 = b) by congruence. lia.
Qed.

Lemma tree_global o L K M d ne C x : tree_upto o L K M -> (d <= L)%nat -> shape (node_count o d ne) C x ->
  octree_global_pool C x o d ne = Ok (map (fun b => gmean C (rows_at (map (fun k => k / 2 ^ 48) (sel K M ne d)) (Z.of_nat b) x)) (seq 0 (batch_size o))).
Proof.
  intros T Hd [Hx _]. unfold octree_global_pool. rewrite (tree_batch_id o L K M) by assumption. cbn [bind].
  assert (H1 : length (map (fun k => k / 2 ^ 48) (sel K M ne d)) = length x) by (rewrite map_length, Hx, (node_count_sel o L K M T) by exact Hd; reflexivity).
  assert (H2 : forall i, In i (map (fun k => k / 2 ^ 48) (sel K M ne d)) -> 0 <= i < Z.of_nat (batch_size o)).
  { intros i Hi. apply in_map_iff in Hi. destruct Hi as (k & <- & Hk). pose proof (sel_vkey o L K M T ne d Hd) as V. rewrite Forall_forall in V.
    apply (vkey_batch _ d); [pose proof (t_depth _ _ _ _ T); pose proof (t_L _ _ _ _ T); lia|apply V; exact Hk]. }
  rewrite scatter_some by (rewrite ?map_length; assumption || (rewrite <- H1; rewrite map_length; reflexivity)). cbn [bind]. rewrite scatter_some by assumption. cbn [bind].
  f_equal. rewrite map_map, zip_map. apply map_ext. intros b. unfold gmean. cbn zeta. rewrite rows_at_ones, fold_ones.
  rewrite Qcplus_0_l.
  reflexivity.
Qed.

Lemma thm_global_pool o d ne C x : wf_octree o -> (d <= depth o)%nat -> shape (node_count o d ne) C x ->
  exists cs y, octree_xyzb o d ne = Ok cs /\ octree_global_pool C x o d ne = Ok y /\ length y = batch_size o /\
    forall b v, nth_error y b = Some v ->
      let rows := rows_at (samples cs) (Z.of_nat b) x in
      (rows = [] -> v = vzero C) /\ (rows <> [] -> v = meanv C rows).
Proof.
  intros [K [M T]] Hd Hx. exists (map (coords d) (sel K M ne d)). eexists. split; [apply (tree_xyzb o (depth o) K M); assumption|].
  split; [apply (tree_global o (depth o) K M); assumption|]. split; [rewrite map_length; apply seq_length|].
  intros b v Hv. cbn zeta. unfold samples. rewrite map_map. change (fun x0 : Z => let '(_, _, _, b0) := coords d x0 in b0) with (fun k : Z => k / 2 ^ 48).
  rewrite nth_error_map in Hv. destruct (nth_error (seq 0 (batch_size o)) b) as [b'|] eqn:Eb; [|discriminate]. cbn [option_map] in Hv. apply some_inj in Hv. subst v.
  assert (b' = b). { assert (b < batch_size o)%nat by (rewrite <- (seq_length (batch_size o) 0); apply nth_error_Some; congruence). rewrite (nth_error_nth' _ O) in Eb by (rewrite seq_length; assumption). rewrite seq_nth in Eb by assumption. injection Eb as <-. reflexivity. }
  subst b'. apply gmean_spec.
Qed.

Lemma rows_at_app {A} t1 t2 b (s1 s2 : list A) : length t1 = length s1 -> rows_at (t1 ++ t2) b (s1 ++ s2) = rows_at t1 b s1 ++ rows_at t2 b s2.
Proof. intros H. unfold rows_at. rewrite combine_app3 by exact H. rewrite filter_app, map_app. reflexivity. Qed.
Lemma rows_at_const {A} i b (s : list A) : rows_at (repeat i (length s)) b s = if i =? b then s else [].
Proof. induction s as [|a s IH]; cbn [length repeat]; [destruct (i =? b); reflexivity|]. rewrite rows_at_cons, IH. destruct (i =? b); reflexivity. Qed.
Lemma rows_at_blocks {A} (xs : list (list A)) : forall i b, i <= b -> 
  rows_at (concat (map (fun '(i, x) => repeat i (length x)) (indexed i xs))) b (concat xs) = nth (Z.to_nat (b - i)) xs [].
Proof.
  induction xs as [|x xs IH]; intros i b Hb; cbn [indexed map concat]; [destruct (Z.to_nat (b - i)); reflexivity|].
  rewrite rows_at_app by apply repeat_length. rewrite rows_at_const. destruct (Z.eqb_spec i b) as [->|Hne].
  - rewrite Z.sub_diag. cbn [Z.to_nat nth]. assert (E : rows_at (concat (map (fun '(i, x) => repeat i (length x)) (indexed (b + 1) xs))) b (concat xs) = []).
    { assert (G : forall xs j, b < j -> rows_at (concat (map (fun '(i, x) => repeat i (length x)) (indexed j xs))) b (concat xs) = ([] : list A)).
      { clear. intros xs; induction xs as [|x xs IH]; intros j Hj; [reflexivity|]. cbn [indexed map concat]. rewrite rows_at_app by apply repeat_length. rewrite rows_at_const, IH by lia.
        destruct (Z.eqb_spec j b); [lia|reflexivity]. }
      apply G. lia. }
    rewrite E. apply app_nil_r.
  - rewrite IH by lia. replace (Z.to_nat (b - i)) with (S (Z.to_nat (b - (i + 1)))) by lia. reflexivity.
Qed.

Lemma Forall2_len {A B} (R : A -> B -> Prop) l m : Forall2 R l m -> length l = length m.
Proof. intros H. induction H; cbn; congruence. Qed.
Lemma jk_samples d kss : (d <= 16)%nat -> Forall (Forall (vkey 1 d)) kss -> forall i,
  map (fun k => k / 2 ^ 48) (jk i kss) = concat (map (fun '(i, ks) => repeat i (length ks)) (indexed i kss)).
Proof.
  intros Hd H. induction H as [|ks t Hv H IH]; intros i; cbn [jk map indexed concat]; [reflexivity|].
  rewrite map_app, IH. f_equal. rewrite map_map. clear - Hv Hd. induction Hv as [|k ks Hk Hv IH]; cbn [map length repeat]; [reflexivity|].
  f_equal; [|exact IH]. rewrite Z.div_add_l by (vm_compute; discriminate). pose proof (vkey_batch 1 d k Hd Hk). lia.
Qed.
Lemma indexed_lengths {A B} (kss : list (list A)) (xs : list (list B)) : Forall2 (fun ks x => length ks = length x) kss xs -> forall i : Z,
  concat (map (fun '(i, ks) => repeat i (length ks)) (indexed i kss)) = concat (map (fun '(i, x) => repeat i (length x)) (indexed i xs)).
Proof. intros H. induction H as [|k x kss xs H1 H IH]; intros i; cbn [indexed map concat]; [reflexivity|]. rewrite H1, IH. reflexivity. Qed.

Lemma thm_merge_global o0 os o d ne C xs : mergeable o0 os -> merge_octrees os = Ok o -> (d <= depth o0)%nat ->
  Forall2 (fun oi x => shape (node_count oi d ne) C x) os xs ->
  exists ys, mapM (fun ox => octree_global_pool C (snd ox) (fst ox) d ne) (combine os xs) = Ok ys /\
    octree_global_pool C (concat xs) o d ne = Ok (concat ys).
Proof.
  intros Hm E Hd Hxs. destruct (mergeable_members _ _ Hm) as (kms & Hk). rewrite (merge_Ok o0 os kms Hm Hk) in E.
  assert (o = merged o0 os kms) by congruence. subst o. clear E. pose proof (merged_tree o0 os kms Hm Hk) as T.
  pose proof (mem_sel_vkey o0 os kms d ne Hk Hd) as Hv. destruct (mergeable_dims _ _ Hm) as (_ & H16).
  exists (map (fun x => [gmean C x]) xs). split.
  - clear - Hk Hxs Hd H16. revert xs Hxs. induction Hk as [|oi km os kms Hm Hk IH]; intros xs Hxs; inversion Hxs as [|? x ? xs' Hx Hxs' E1 E2]; subst; cbn [combine mapM map fst snd]; [reflexivity|].
    destruct Hm as (T & Hb & Hdd & _). rewrite (tree_global oi (depth o0) _ _ d ne C x T Hd Hx). cbn [bind]. rewrite IH by exact Hxs'. cbn [bind]. rewrite Hb. cbn [seq map].
    do 4 f_equal. change (Z.of_nat 0) with 0.
    assert (El : map (fun k => k / 2 ^ 48) (sel (fst km) (snd km) ne d) = repeat 0 (length x)).
    { rewrite (proj1 Hx), (node_count_sel oi (depth o0) _ _ T) by exact Hd. pose proof (sel_vkey oi (depth o0) _ _ T ne d Hd) as V. rewrite Hb in V.
      clear - V Hd H16. induction V as [|k ks Hk V IH]; cbn [map length repeat]; [reflexivity|]. f_equal; [|exact IH]. pose proof (vkey_batch 1 d k ltac:(lia) Hk). lia. }
    rewrite El, rows_at_const. reflexivity.
  - assert (Hlen : Forall2 (fun ks x => length ks = length x) (map (fun km => sel_of km ne d) kms) xs).
    { clear - Hk Hxs Hd. revert xs Hxs. induction Hk as [|oi km os kms Hm Hk IH]; intros xs Hxs; inversion Hxs as [|? x ? xs' Hx Hxs' E1 E2]; subst; cbn [map]; constructor; [|apply IH; exact Hxs'].
      destruct Hm as (T & _). rewrite (proj1 Hx), (node_count_sel oi (depth o0) _ _ T) by exact Hd. reflexivity. }
    assert (Hsh : shape (node_count (merged o0 os kms) d ne) C (concat xs)).
    { split.
      - rewrite (node_count_sel _ _ _ _ T) by exact Hd. rewrite (merged_sel kms o0 os ne d Hk Hd). clear - Hlen. unfold jk. revert xs Hlen.
        assert (G : forall i (kss : list (list Z)) (xs : list (list vec)), Forall2 (fun ks x => length ks = length x) kss xs -> length (concat xs) = length (jk i kss)).
        { intros i kss xs H. revert i; induction H as [|ks x kss xs H1 H IH]; intros i; [reflexivity|]. cbn [jk concat]. rewrite !app_length, map_length, (IH (i + 1)). lia. }
        intros xs Hlen. apply G. exact Hlen.
      - apply Forall_concat. clear - Hxs. induction Hxs as [|oi x os xs H Hxs IH]; constructor; [apply H|exact IH]. }
    rewrite (tree_global _ _ _ _ d ne C (concat xs) T Hd Hsh). f_equal. rewrite (merged_sel kms o0 os ne d Hk Hd).
    rewrite jk_samples with (d := d) by (lia || exact Hv). rewrite (indexed_lengths _ _ Hlen).
    assert (Hbs : batch_size (merged o0 os kms) = length xs) by (rewrite <- (Forall2_len _ _ _ Hxs); reflexivity). rewrite Hbs.
    assert (Ec : concat (map (fun x => [gmean C x]) xs) = map (gmean C) xs) by (clear; induction xs as [|x xs IH]; cbn; [reflexivity|rewrite IH; reflexivity]). rewrite Ec.
    apply (list_ext [] (length xs)); [rewrite map_length; apply seq_length|apply map_length|]. intros b Hb. rewrite nth_map_seq by exact Hb.
    rewrite rows_at_blocks by lia. rewrite Z.sub_0_r, Nat2Z.id. rewrite (nth_map_lt _ _ _ []) by exact Hb. reflexivity.
Qed.
