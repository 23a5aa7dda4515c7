(** Average pooling and global pooling. *)
From Coq Require Import String List ZArith Bool QArith Qcanon Lia Lqa Field.
From Verif Require Import Res Tensor Num NumFacts Points Octree NnBasic NnConv Spec SpecGeo SpecNeigh SpecNN SpecMerge WF ListFacts ScatterFacts SumFacts NnFacts KidsFacts WFFacts SearchFacts
  BuildProps NeighFacts MergeFacts PadFacts ConvOct Finite.
Import ListNotations.
Open Scope Z_scope.

Definition count_nonneg (row : list Z) : Z := Z.of_nat (length (filter (Z.leb 0) row)).

Lemma qz_pos z : 0 <= z -> (0 <= qz z)%Qc.
Proof. intros H. change 0%Qc with (qz 0). apply qz_le. exact H. Qed.
Lemma Qcinv_nonneg a : (0 < a)%Qc -> (0 <= / a)%Qc.
Proof.
  intros H. assert (Hn : a <> 0%Qc) by (intros E; rewrite E in H; exact (Qclt_not_eq _ _ H eq_refl)).
  replace (/ a)%Qc with (a * (/ a * / a))%Qc by (field; exact Hn). apply Qcmult_nonneg; [apply Qclt_le_weak; exact H|].
  destruct (Qclt_le_dec (/ a) 0) as [E|E]; [|apply Qcmult_nonneg; exact E].
  replace (/ a * / a)%Qc with (- / a * - / a)%Qc by ring. apply Qcmult_nonneg; qclra.
Qed.
Lemma eps8_pos : (0 < eps8)%Qc.
Proof. vm_compute. reflexivity. Qed.
Lemma den_pos row : (0 < qz (count_nonneg row) + eps8)%Qc.
Proof. pose proof eps8_pos. pose proof (qz_pos (count_nonneg row) ltac:(unfold count_nonneg; lia)). qclra. Qed.
Lemma nth_vscale v (r : vec) c : nth c (vscale v r) 0%Qc = (v * nth c r 0)%Qc.
Proof.
  unfold vscale. destruct (Nat.lt_ge_cases c (length r)) as [H|H].
  - rewrite (nth_map_lt _ _ _ 0%Qc) by exact H. ring.
  - rewrite !nth_overflow by (rewrite ?map_length; exact H). ring.
Qed.

Lemma avg_fold C x n v row : shape n C x -> Forall (fun e => e < Z.of_nat n) row -> forall acc, length acc = C ->
  exists z, foldM (fun acc e => if 0 <=? e
                      then if e <? zlen x then r <- tget x e ;; Ok (vadd acc (vscale v r)) else Err RuntimeError
                      else Ok acc) acc row = Ok z /\ length z = C /\
    forall c, nth c z 0%Qc = (nth c acc 0 + v * qsum_list (map (fun e => at_row x e c) row))%Qc.
Proof.
  intros Hx Hrow. induction Hrow as [|e row He Hrow IH]; intros acc Ha; cbn [foldM map].
  - exists acc. split; [reflexivity|]. split; [exact Ha|]. intros c. change (qsum_list []) with 0%Qc. ring.
  - unfold at_row. destruct (Z.leb_spec 0 e) as [H0|H0].
    + destruct (Z.ltb_spec e (zlen x)) as [H1|H1]; [|unfold zlen in H1; rewrite (proj1 Hx) in H1; lia].
      rewrite (tget_nth x e []) by (unfold zlen in *; lia). cbn [bind].
      assert (Hl : length (vscale v (nth (Z.to_nat e) x [])) = C).
      { unfold vscale. rewrite map_length. apply (shape_nth n C); [exact Hx|]. lia. }
      destruct (IH (vadd acc (vscale v (nth (Z.to_nat e) x [])))) as (z & Ez & Hz & Hv); [rewrite vadd_len; congruence|].
      exists z. split; [exact Ez|]. split; [exact Hz|]. intros c. rewrite Hv, vadd_nth by congruence. rewrite nth_vscale.
      destruct (Z.ltb_spec e 0); [lia|]. unfold qsum_list in *. cbn [fold_right]. unfold at2. unfold at_row, at2. ring.
    + destruct (IH acc Ha) as (z & Ez & Hz & Hv). exists z. cbn [bind]. split; [exact Ez|]. split; [exact Hz|]. intros c. rewrite Hv.
      destruct (Z.ltb_spec e 0); [|lia]. unfold qsum_list in *. cbn [fold_right]. unfold at_row. ring.
Qed.

Lemma avg_row_Ok C x n row : shape n C x -> Forall (fun e => e < Z.of_nat n) row ->
  exists z, avg_row C x row = Ok z /\ length z = C /\
    forall c, nth c z 0%Qc = (qsum_list (map (fun e => at_row x e c) row) / (qz (count_nonneg row) + eps8))%Qc.
Proof.
  intros Hx Hrow. unfold avg_row. cbn zeta.
  destruct (avg_fold C x n (1 / (qz (zlen (filter (Z.leb 0) row)) + eps8))%Qc row Hx Hrow (vzero C)) as (z & Ez & Hz & Hv); [apply repeat_length|].
  exists z. split; [exact Ez|]. split; [exact Hz|]. intros c. rewrite Hv. change (zlen (filter (Z.leb 0) row)) with (count_nonneg row).
  unfold vzero. rewrite nth_repeat_same. pose proof (den_pos row) as Hd. field. intros E. rewrite E in Hd. exact (Qclt_not_eq _ _ Hd eq_refl).
Qed.

Lemma avg_bounds x row c lo hi : (lo <= 0)%Qc -> (0 <= hi)%Qc ->
  (forall e, In e row -> 0 <= e -> (lo <= at_row x e c)%Qc /\ (at_row x e c <= hi)%Qc) ->
  let s := (qsum_list (map (fun e => at_row x e c) row) / (qz (count_nonneg row) + eps8))%Qc in (lo <= s)%Qc /\ (s <= hi)%Qc.
Proof.
  intros Hlo Hhi H. cbn zeta. pose proof (den_pos row) as Hd. pose proof eps8_pos as He.
  assert (G : (lo * qz (count_nonneg row) <= qsum_list (map (fun e => at_row x e c) row))%Qc /\
              (qsum_list (map (fun e => at_row x e c) row) <= hi * qz (count_nonneg row))%Qc).
  { clear Hd. induction row as [|e row IH].
    - unfold count_nonneg. cbn [map filter length]. change (qsum_list []) with 0%Qc. change (qz (Z.of_nat 0)) with 0%Qc. replace (lo * 0)%Qc with 0%Qc by ring. replace (hi * 0)%Qc with 0%Qc by ring. split; apply Qcle_refl.
    - destruct IH as [I1 I2]; [intros e' Hin; apply H; right; exact Hin|]. unfold qsum_list in *. cbn [map fold_right]. unfold count_nonneg in *. cbn [filter].
      destruct (Z.leb_spec 0 e) as [H0|H0].
      + destruct (H e (or_introl eq_refl) H0) as [A1 A2]. cbn [length]. rewrite Nat2Z.inj_succ, <- Z.add_1_r, qz_add.
        set (q := qz (Z.of_nat (length (filter (Z.leb 0) row)))) in *. change (qz 1) with 1%Qc. split; [replace (lo * (q + 1))%Qc with (lo * q + lo)%Qc by ring|replace (hi * (q + 1))%Qc with (hi * q + hi)%Qc by ring]; qclra.
      + unfold at_row at 1 3. destruct (Z.ltb_spec e 0); [|lia]. split; qclra. }
  set (D := (qz (count_nonneg row) + eps8)%Qc) in *. set (N := qsum_list (map (fun e => at_row x e c) row)) in *.
  assert (HD0 : D <> 0%Qc) by (intros E; rewrite E in Hd; exact (Qclt_not_eq _ _ Hd eq_refl)).
  assert (Hi : (0 <= / D)%Qc) by (apply Qcinv_nonneg; exact Hd).
  destruct G as [G1 G2]. split.
  - replace lo with (lo * D / D)%Qc by (field; exact HD0). unfold Qcdiv. apply Qcmult_le_compat_r; [|exact Hi].
    apply Qcle_trans with (lo * qz (count_nonneg row))%Qc; [|exact G1]. unfold D. replace (lo * (qz (count_nonneg row) + eps8))%Qc with (lo * qz (count_nonneg row) + lo * eps8)%Qc by ring.
    rewrite <- (Qcplus_0_r (lo * qz (count_nonneg row))) at 2. apply Qcplus_le_compat; [apply Qcle_refl|]. replace 0%Qc with (0 * eps8)%Qc by ring. apply Qcmult_le_compat_r; [exact Hlo|apply Qclt_le_weak; exact He].
  - replace hi with (hi * D / D)%Qc by (field; exact HD0). unfold Qcdiv. apply Qcmult_le_compat_r; [|exact Hi].
    apply Qcle_trans with (hi * qz (count_nonneg row))%Qc; [exact G2|]. unfold D. replace (hi * (qz (count_nonneg row) + eps8))%Qc with (hi * qz (count_nonneg row) + hi * eps8)%Qc by ring.
    rewrite <- (Qcplus_0_r (hi * qz (count_nonneg row))) at 1. apply Qcplus_le_compat; [apply Qcle_refl|]. replace 0%Qc with (0 * eps8)%Qc by ring. apply Qcmult_le_compat_r; [exact Hhi|apply Qclt_le_weak; exact He].
Qed.

Lemma thm_avg_pool o d kernel stride ne C x : conv_ready o d kernel stride -> shape (node_count o d ne) C x ->
  exists t y, get_neigh o d kernel stride ne = Ok t /\ octree_avg_pool C x o d kernel stride ne = Ok y /\
    length t = out_count o d stride ne /\ shape (length t) C y /\
    forall r c, (r < length t)%nat -> (c < C)%nat ->
      at2 y r c = (sum_n (length (box kernel)) (fun k => at_row x (entry t r k) c) / (qz (neighbour_count t r) + / qz 100000000))%Qc /\
      (neighbour_count t r = 0 -> at2 y r c = 0%Qc) /\
      forall lo hi, (lo <= 0)%Qc -> (0 <= hi)%Qc ->
        (forall k, (k < length (box kernel))%nat -> 0 <= entry t r k -> (lo <= at_row x (entry t r k) c)%Qc /\ (at_row x (entry t r k) c <= hi)%Qc) ->
        (lo <= at2 y r c)%Qc /\ (at2 y r c <= hi)%Qc.
Proof.
  intros Hr Hx. destruct (conv_table o d kernel stride ne Hr) as (K & M & t & T & Et & _ & _ & Ht & Hl). exists t.
  set (f := fun row => match avg_row C x row with Ok z => z | Err _ => [] end).
  assert (HF : forall row, In row t -> exists z, avg_row C x row = Ok z /\ f row = z /\ length z = C /\ length row = length (box kernel) /\
    forall c, nth c z 0%Qc = (qsum_list (map (fun e => at_row x e c) row) / (qz (count_nonneg row) + eps8))%Qc).
  { intros row Hin. unfold table_ok in Ht. rewrite Forall_forall in Ht. destruct (Ht row Hin) as [H1 H2]. destruct (avg_row_Ok C x _ row Hx H2) as (z & Ez & Hz & Hv).
    exists z. unfold f. rewrite Ez. auto. }
  exists (map f t). split; [exact Et|]. split.
  { unfold octree_avg_pool. rewrite Et. cbn [bind]. apply mapM_Ok. intros row Hin. destruct (HF row Hin) as (z & Ez & -> & _). exact Ez. }
  split; [exact Hl|]. split.
  { apply shape_map; [reflexivity|]. intros row Hin. destruct (HF row Hin) as (z & _ & -> & H & _). exact H. }
  intros r c Hrr Hc. assert (Hin : In (nth r t []) t) by (apply nth_In; exact Hrr). destruct (HF _ Hin) as (z & _ & Ef & _ & Hlr & Hv).
  assert (Ea : at2 (map f t) r c = nth c z 0%Qc) by (unfold at2; rewrite (nth_map_lt _ _ _ []) by exact Hrr; rewrite Ef; reflexivity).
  rewrite Ea, Hv. change (/ qz 100000000)%Qc with eps8. change (neighbour_count t r) with (count_nonneg (nth r t [])).
  assert (Es : qsum_list (map (fun e => at_row x e c) (nth r t [])) = sum_n (length (box kernel)) (fun k => at_row x (entry t r k) c)).
  { rewrite (qsum_list_sum _ _ (-1)), Hlr. reflexivity. }
  split; [rewrite Es; reflexivity|]. split.
  - intros H0. assert (E0 : qsum_list (map (fun e => at_row x e c) (nth r t [])) = 0%Qc).
    { rewrite Es. apply sum_zero. intros k Hk. unfold at_row. destruct (Z.ltb_spec (entry t r k) 0); [reflexivity|].
      assert (Hin0 : In (entry t r k) (filter (Z.leb 0) (nth r t []))).
      { apply filter_In. split; [apply nth_In; lia|apply Z.leb_le; assumption]. }
      unfold count_nonneg in H0. destruct (filter (Z.leb 0) (nth r t [])); [contradiction|cbn [length] in H0; lia]. }
    rewrite E0. unfold Qcdiv. ring.
  - intros lo hi Hlo Hhi H. apply avg_bounds; [exact Hlo|exact Hhi|]. intros e He He0. apply In_nth with (d := -1) in He. destruct He as (k & Hk & <-).
    apply H; [lia|exact He0].
Qed.

Lemma thm_avg_height o d kernel C x : conv_ready o (S d) kernel 2 -> shape (node_count o (S d) false) C x ->
  exists y, octree_avg_pool C x o (S d) kernel 2 false = Ok y /\ length y = node_count o d true /\
    (length y = node_count o d false <-> forall flags, nempty_mask o (Z.of_nat d) = Ok flags -> ~ In false flags).
Proof.
  intros Hr Hx. destruct (thm_avg_pool o (S d) kernel 2 false C x Hr Hx) as (t & y & _ & Ey & Hl & [Hy _] & _). exists y. split; [exact Ey|].
  unfold out_count in Hl. change (2 =? 1) with false in Hl. cbn iota in Hl. replace (S d - 1)%nat with d in Hl by lia. rewrite Hy, Hl. split; [reflexivity|].
  destruct Hr as ([K [M T]] & Hd & _). destruct (mask_len o (depth o) K M T d ltac:(lia)) as [H1 H2]. rewrite <- H1, <- H2.
  rewrite (tree_mask o (depth o) K M T) by lia.
  assert (G : forall m : list bool, count_true m = length m <-> ~ In false m).
  { induction m as [|b m IH]; [cbn; tauto|]. rewrite count_true_cons. cbn [length In]. destruct b.
    - split; [intros H [E|E]; [discriminate|]; apply IH in E; [exact E|lia]|]. intros H. assert (count_true m = length m) by (apply IH; tauto). lia.
    - split; [|tauto]. intros H _. pose proof (select_length m m eq_refl) as Hs. assert (length (select m m) <= length m)%nat; [|lia].
      clear. induction m as [|b m IH]; [cbn; lia|]. destruct b; cbn [select length]; lia. }
  rewrite G. split.
  - intros H flags E. injection E as <-. exact H.
  - intros H. apply H. reflexivity.
Qed.
