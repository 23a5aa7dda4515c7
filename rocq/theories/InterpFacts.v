(** Nearest interpolation, upsampling, alignment. *)
From Coq Require Import String List ZArith Bool Lia QArith Qcanon Lqa Field.
From Verif Require Import Res Tensor Key Num Points Octree NnBasic NnInterp Spec SpecGeo SpecNN SpecInterp WF KeyFacts ListFacts NumFacts ScatterFacts SumFacts NnFacts KidsFacts WFFacts SearchFacts PadFacts PoolFacts Family Finite.
Import ListNotations.
Open Scope Z_scope.

(** ** rows selected by a mask *)
Definition put_row {A} (data : list (list A)) (z : list A) (e : Z) (v : bool) : list A := if v then nth (Z.to_nat e) data [] else z.
Lemma fill_rows {A} (f : Z -> A) z idx : forall valid, length valid = length idx ->
  fill valid (repeat z (length idx)) (map f (select valid idx)) = zip_with (fun e (v : bool) => if v then f e else z) idx valid /\ count_true valid = length (select valid idx).
Proof.
  unfold zip_with, count_true. induction idx as [|e idx IH]; intros [|v valid] H; cbn [length] in H; try discriminate; [split; reflexivity|].
  destruct (IH valid) as [I1 I2]; [lia|]. destruct v; cbn [repeat length select map fill combine filter fst snd]; rewrite I1, ?I2; split; reflexivity.
Qed.
Lemma put_rows {A} (data : list (list A)) z idx valid n : length idx = n -> length valid = n ->
  (forall i e, nth_error idx i = Some e -> nth_error valid i = Some true -> 0 <= e < zlen data) ->
  (i <- mask_get idx valid ;; rows <- gather data i ;; mask_put (repeat z n) valid rows) = Ok (zip_with (put_row data z) idx valid).
Proof.
  intros Hi Hv H. unfold mask_get. replace (Nat.eqb (length valid) (length idx)) with true by (symmetry; apply Nat.eqb_eq; lia). cbn [bind].
  unfold gather. rewrite (mapM_Ok _ (fun e => nth (Z.to_nat e) data [])).
  2:{ intros e He. apply in_select in He. destruct He as (i & Hvi & Hei). apply tget_nth. apply (H i e); assumption. }
  cbn [bind]. unfold mask_put. rewrite repeat_length. replace (Nat.eqb (length valid) n) with true by (symmetry; apply Nat.eqb_eq; lia). cbn [negb].
  destruct (fill_rows (fun e => nth (Z.to_nat e) data []) z idx valid ltac:(lia)) as [F1 F2]. rewrite F2, map_length, Nat.eqb_refl. rewrite <- Hi, F1. reflexivity.
Qed.
Lemma zip_nth_error {A B C} (f : A -> B -> C) l m i a b : nth_error l i = Some a -> nth_error m i = Some b -> nth_error (zip_with f l m) i = Some (f a b).
Proof.
  unfold zip_with. revert m i; induction l as [|a0 l IH]; intros m i; destruct i, m; cbn [nth_error combine map]; try discriminate; intros H1 H2.
  - apply some_inj in H1, H2. subst. reflexivity.
  - apply IH; assumption.
Qed.
Lemma zip_len {A B C} (f : A -> B -> C) l m n : length l = n -> length m = n -> length (zip_with f l m) = n.
Proof. intros. unfold zip_with. rewrite map_length, combine_length. lia. Qed.

(** ** queries *)
Definition pkey (d : nat) (p : qpoint) : Z := let '((x, y, z), b) := p in key_of d b (qtrunc x) (qtrunc y) (qtrunc z).
Definition batch_in (p : qpoint) : Prop := -32768 <= snd p < 32768.

Section Tree.
  Variables (o : octree) (L : nat) (K : nat -> list Z) (M : nat -> list bool).
  Hypothesis T : tree_upto o L K M.

  Lemma tree_search_pts d ne pts : (d <= L)%nat -> Forall batch_in pts ->
    exists r, search_pts o pts d ne = Ok r /\ length r = length pts /\
      forall i p e, nth_error pts i = Some p -> nth_error r i = Some e -> found (sel K M ne d) (pkey d p) e.
  Proof.
    intros Hd Hb. unfold search_pts, search_xyzb. rewrite mapM_keys; [|exact (d16 _ _ _ _ T d Hd)|].
    2:{ apply Forall_map. eapply Forall_impl; [|exact Hb]. intros [[[x y] z] b] H. exact H. }
    cbn [bind]. rewrite map_map. destruct (tree_search o L K M d ne (map (fun x : qpoint => let '(x0, y, z, b) := let '(x0, y, z, b) := x in (qtrunc x0, qtrunc y, qtrunc z, b) in key_of d b x0 y z) pts) T Hd) as (r & E & F).
    exists r. split; [exact E|]. pose proof (Forall2_len _ _ _ F) as Hl. rewrite map_length in Hl. split; [exact Hl|].
    intros i p e Hi He. assert (Hk : nth_error (map (fun x : qpoint => let '(x0, y, z, b) := let '(x0, y, z, b) := x in (qtrunc x0, qtrunc y, qtrunc z, b) in key_of d b x0 y z) pts) i = Some (pkey d p)).
    { rewrite nth_error_map, Hi. destruct p as [[[x y] z] b]. reflexivity. }
    exact (Forall2_nth _ _ _ i _ _ F Hk He).
  Qed.
  Lemma tree_check {A} d ne (data : list A) : (d <= L)%nat -> length data = node_count o d ne -> check_rows data o d ne = Ok tt.
  Proof.
    intros Hd Hx. unfold check_rows. destruct (tree_get o L K M T d Hd) as (l & E & _ & _ & _ & E1 & E2). rewrite E. cbn [bind].
    rewrite (node_count_sel o L K M T) in Hx by exact Hd. unfold assert_. replace (zlen data =? (if ne then nnum_nempty l else nnum l)) with true; [reflexivity|].
    symmetry. apply Z.eqb_eq. unfold zlen. destruct ne; cbn [sel] in Hx; [|lia]. rewrite E2, nflag_count, Hx. rewrite select_length by (apply (t_mask _ _ _ _ T); exact Hd). reflexivity.
  Qed.
  Lemma found_row d ne k e C (data : list vec) : (d <= L)%nat -> shape (node_count o d ne) C data -> found (sel K M ne d) k e -> 0 <= e -> 0 <= e < zlen data.
  Proof.
    intros Hd [Hx _] [[He Hn]|[He _]] H0; [|lia]. split; [exact H0|]. unfold zlen. rewrite Hx, (node_count_sel o L K M T) by exact Hd.
    assert (Z.to_nat e < length (sel K M ne d))%nat by (apply nth_error_Some; rewrite Hn; discriminate). lia.
  Qed.
  (** a found row is the row of the cell *)
  Lemma found_cell d ne b x y z e : (d <= L)%nat -> in_cube d x y z -> found (sel K M ne d) (key_of d b x y z) e ->
    (forall j, nth_error (map (coords d) (sel K M ne d)) j = Some (x, y, z, b) -> e = Z.of_nat j) /\
    (~ In (x, y, z, b) (map (coords d) (sel K M ne d)) -> e = -1).
  Proof.
    intros Hd Hc F. pose proof (sel_vkey o L K M T ne d Hd) as V. rewrite Forall_forall in V. pose proof (d16 _ _ _ _ T d Hd) as H16. split.
    - intros j Hj. rewrite nth_error_map in Hj. destruct (nth_error (sel K M ne d) j) as [k|] eqn:Ek; [|discriminate]. cbn [option_map] in Hj. apply some_inj in Hj.
      destruct (coords_key_of (batch_size o) d k x y z b H16 (V k (nth_error_In _ _ Ek)) Hj) as (-> & _).
      destruct F as [[He Hn]|[_ Hn]]; [|exfalso; apply Hn; eapply nth_error_In; exact Ek].
      assert (Z.to_nat e = j) by (eapply (sorted_nth_inj (sel K M ne d)); [apply (sel_sorted o L K M T); exact Hd|eassumption..]). lia.
    - intros Hn. destruct F as [[He Hk]|[He _]]; [|exact He]. exfalso. apply Hn. rewrite <- (coords_of_key d b x y z H16 Hc). apply in_map. eapply nth_error_In. exact Hk.
  Qed.
End Tree.

Lemma in_bound_spec d p : in_bound d p = true <-> in_range d p.
Proof.
  destruct p as [[x y] z]. unfold in_bound, in_range. rewrite !andb_true_iff.
  assert (H : forall c, qleb 0 c = true <-> (0 <= c)%Qc) by (intros c; apply Qle_bool_iff).
  rewrite !H, !qltb_lt. tauto.
Qed.
Lemma range_cube d x y z : in_range d (x, y, z) -> qtrunc x = qfloor x /\ qtrunc y = qfloor y /\ qtrunc z = qfloor z /\ in_cube d (qfloor x) (qfloor y) (qfloor z).
Proof.
  intros ((Hx0 & Hx1) & (Hy0 & Hy1) & (Hz0 & Hz1)).
  assert (G : forall c, (0 <= c)%Qc -> (c < qz (2 ^ Z.of_nat d))%Qc -> qtrunc c = qfloor c /\ in_grid d (qfloor c)).
  { intros c H0 H1. split; [apply qtrunc_floor; exact H0|]. destruct (proj1 (qfloor_spec c (qfloor c)) eq_refl) as [F1 F2]. unfold in_grid. split.
    - assert (qz 0 < qz (qfloor c + 1))%Qc by (eapply Qcle_lt_trans; [|exact F2]; exact H0). apply (proj1 (qz_lt _ _)) in H. lia.
    - assert (qz (qfloor c) < qz (2 ^ Z.of_nat d))%Qc by (eapply Qcle_lt_trans; eassumption). apply (proj1 (qz_lt _ _)) in H. exact H. }
  destruct (G x Hx0 Hx1), (G y Hy0 Hy1), (G z Hz0 Hz1). unfold in_cube. tauto.
Qed.

(** ** C51 *)
Lemma thm_nearest o d ne bc C data pts : wf_octree o -> (d <= depth o)%nat -> shape (node_count o d ne) C data -> Forall batch_in pts ->
  exists cs y, octree_xyzb o d ne = Ok cs /\ octree_nearest_pts C data o d pts ne bc = Ok y /\ shape (length pts) C y /\
    forall i p b, nth_error pts i = Some (p, b) ->
      (in_range d p -> (forall j, nth_error cs j = Some (cell_at p b) -> nth_error y i = nth_error data j) /\
                       (~ In (cell_at p b) cs -> nth_error y i = Some (vzero C))) /\
      (~ in_range d p -> bc = true -> nth_error y i = Some (vzero C)).
Proof.
  intros [K [M T]] Hd Hx Hb. exists (map (coords d) (sel K M ne d)).
  destruct (tree_search_pts o (depth o) K M T d ne pts Hd Hb) as (idx & Es & Hl & Hf).
  set (bound := map (fun p : qpoint => in_bound d (fst p)) pts).
  set (valid := valid_mask idx bc bound).
  assert (Hv : length valid = length pts).
  { unfold valid, valid_mask. destruct bc; [apply zip_len; [rewrite map_length; exact Hl|apply map_length]|rewrite map_length; exact Hl]. }
  assert (Hvi : forall i e p, nth_error idx i = Some e -> nth_error pts i = Some p -> nth_error valid i = Some ((-1 <? e) && (negb bc || in_bound d (fst p)))).
  { intros i e p He Hp. unfold valid, valid_mask, bound. destruct bc; cbn [negb orb].
    - apply zip_nth_error; rewrite nth_error_map; [rewrite He|rewrite Hp]; reflexivity.
    - rewrite nth_error_map, He, andb_true_r. reflexivity. }
  exists (zip_with (put_row data (vzero C)) idx valid). split; [apply (tree_xyzb o (depth o) K M); assumption|]. split.
  { unfold octree_nearest_pts. rewrite (tree_check o (depth o) K M T) by (exact Hd || apply Hx). cbn [bind]. rewrite Es. cbn [bind]. fold bound. fold valid.
    apply put_rows; [exact Hl|exact Hv|]. intros i e He Hvt. assert (Hi : (i < length pts)%nat) by (rewrite <- Hl; apply nth_error_Some; rewrite He; discriminate).
    destruct (nth_error pts i) as [p|] eqn:Ep; [|apply nth_error_None in Ep; lia]. rewrite (Hvi i e p He Ep) in Hvt. apply some_inj in Hvt. apply andb_true_iff in Hvt. destruct Hvt as [Hvt _]. apply Z.ltb_lt in Hvt.
    apply (found_row o (depth o) K M T d ne (pkey d p) e C data Hd Hx (Hf i p e Ep He)). lia. }
  assert (Hrow : forall i p, nth_error pts i = Some p -> exists e, nth_error idx i = Some e /\ found (sel K M ne d) (pkey d p) e /\
     nth_error (zip_with (put_row data (vzero C)) idx valid) i = Some (put_row data (vzero C) e ((-1 <? e) && (negb bc || in_bound d (fst p))))).
  { intros i p Hp. destruct (nth_error idx i) as [e|] eqn:Ee. 2:{ apply nth_error_None in Ee. assert (i < length pts)%nat by (apply nth_error_Some; rewrite Hp; discriminate). lia. }
    exists e. split; [reflexivity|]. split; [apply (Hf i); assumption|]. apply zip_nth_error; [exact Ee|]. apply Hvi; assumption. }
  split.
  { split; [apply zip_len; assumption|]. apply Forall_forall. intros r Hr. apply In_nth_error in Hr. destruct Hr as [i Hr].
    destruct (nth_error pts i) as [p|] eqn:Ep.
    - destruct (Hrow i p Ep) as (e & _ & F & E). rewrite E in Hr. apply some_inj in Hr. subst r. unfold put_row.
      destruct (Z.ltb_spec (-1) e) as [He|He]; cbn [andb]; [|apply repeat_length]. destruct (negb bc || in_bound d (fst p)); [|apply repeat_length].
      pose proof (found_row o (depth o) K M T d ne _ e C data Hd Hx F ltac:(lia)) as Hz. apply (shape_nth (node_count o d ne) C); [exact Hx|]. destruct Hx as [<- _]. unfold zlen in Hz. lia.
    - exfalso. apply nth_error_None in Ep. assert (i < length (zip_with (put_row data (vzero C)) idx valid))%nat by (apply nth_error_Some; rewrite Hr; discriminate). rewrite (zip_len _ _ _ (length pts)) in H by assumption. lia. }
  intros i p b Hp. destruct (Hrow i (p, b) Hp) as (e & Ee & F & E). rewrite E. cbn [fst]. split.
  - intros Hr. assert (Hib : in_bound d p = true) by (apply in_bound_spec; exact Hr). rewrite Hib, orb_true_r, andb_true_r.
    destruct p as [[x y] z]. destruct (range_cube d x y z Hr) as (E1 & E2 & E3 & Hc). unfold pkey in F. rewrite E1, E2, E3 in F.
    destruct (found_cell o (depth o) K M T d ne b _ _ _ e Hd Hc F) as [G1 G2]. unfold cell_at. split.
    + intros j Hj. rewrite (G1 j Hj). replace (-1 <? Z.of_nat j) with true by (symmetry; apply Z.ltb_lt; lia). unfold put_row. rewrite Nat2Z.id.
      symmetry. apply nth_error_nth'. destruct Hx as [-> _]. rewrite (node_count_sel o (depth o) K M T) by exact Hd.
      rewrite <- (map_length (coords d)). apply nth_error_Some. rewrite Hj. discriminate.
    + intros Hn. rewrite (G2 Hn). reflexivity.
  - intros Hr ->. assert (Hib : in_bound d p = false) by (apply not_true_is_false; rewrite in_bound_spec; exact Hr). rewrite Hib. cbn [negb orb]. rewrite andb_false_r. reflexivity.
Qed.
