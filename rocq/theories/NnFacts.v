(** Gathering, scattering and the sub-matrix loop. *)
From Coq Require Import List ZArith Bool QArith Qcanon Lia Field.
From Verif Require Import Res Tensor Num NumFacts Points Octree NnBasic NnConv Spec SpecGeo SpecNeigh SpecNN ListFacts ScatterFacts SumFacts.
Import ListNotations.
Open Scope Z_scope.

(** ** tables *)
Definition table_ok (t : list (list Z)) (K n : nat) : Prop :=
  Forall (fun row => length row = K /\ Forall (fun e => e < Z.of_nat n) row) t.

Definition grow (C : nat) (data : feat) (row : list Z) : feat :=
  map (fun n => if 0 <=? n then nth (Z.to_nat n) data [] else vzero C) row.

Lemma tget_nth {A} (l : list A) i d : 0 <= i < zlen l -> tget l i = Ok (nth (Z.to_nat i) l d).
Proof.
  intros Hi. unfold zlen in Hi. rewrite <- (Z2Nat.id i) at 1 by lia. apply tget_Ok. apply nth_error_nth'. lia.
Qed.

Lemma gather_cols_Ok C data t K n : length data = n -> table_ok t K n ->
  gather_cols C data t = Ok (map (grow C data) t).
Proof.
  intros Hd Ht. unfold gather_cols. apply mapM_Ok. intros row Hrow. apply mapM_Ok. intros e He.
  unfold table_ok in Ht. rewrite Forall_forall in Ht. destruct (Ht row Hrow) as [_ Hr]. rewrite Forall_forall in Hr.
  specialize (Hr e He). destruct (Z.leb_spec 0 e); [|reflexivity]. apply tget_nth. unfold zlen. lia.
Qed.
Lemma grow_shape C data row n : shape n C data -> Forall (fun e => e < Z.of_nat n) row -> shape (length row) C (grow C data row).
Proof.
  intros Hd Hr. split; [apply map_length|]. apply Forall_forall. intros r Hin. apply in_map_iff in Hin.
  destruct Hin as (e & <- & He). rewrite Forall_forall in Hr. specialize (Hr e He).
  destruct (Z.leb_spec 0 e); [apply (shape_nth n C); [exact Hd|lia]|apply repeat_length].
Qed.
Lemma nth_map_lt {A B} (f : A -> B) l i da db : (i < length l)%nat -> nth i (map f l) db = f (nth i l da).
Proof. intros Hi. rewrite (nth_indep _ _ (f da)) by (rewrite map_length; exact Hi). apply map_nth. Qed.
Lemma at2_grow C data row k c : at2 (grow C data row) k c = at_row data (nth k row (-1)) c.
Proof.
  unfold at2, grow, at_row. destruct (Nat.lt_ge_cases k (length row)) as [Hk|Hk].
  - rewrite (nth_map_lt _ _ _ (-1)) by exact Hk. destruct (Z.leb_spec 0 (nth k row (-1))); destruct (Z.ltb_spec (nth k row (-1)) 0); try lia; [reflexivity|].
    apply nth_repeat_same.
  - rewrite (nth_overflow row) by exact Hk. rewrite (nth_overflow (map _ row)) by (rewrite map_length; exact Hk).
    destruct c; reflexivity.
Qed.
Lemma table_row t K n r : table_ok t K n -> (r < length t)%nat -> length (nth r t []) = K /\ Forall (fun e => e < Z.of_nat n) (nth r t []).
Proof. intros Ht Hr. unfold table_ok in Ht. rewrite Forall_forall in Ht. apply Ht. apply nth_In. exact Hr. Qed.
Lemma map_grow_shape C data t K n : shape n C data -> table_ok t K n -> shape3 (length t) K C (map (grow C data) t).
Proof.
  intros Hd Ht. split; [apply map_length|]. apply Forall_forall. intros x Hx. apply in_map_iff in Hx. destruct Hx as (row & <- & Hrow).
  unfold table_ok in Ht. rewrite Forall_forall in Ht. destruct (Ht row Hrow) as [<- H2]. apply (grow_shape C data row n); assumption.
Qed.
Lemma at3_grow C data t r k c : (r < length t)%nat -> at3 (map (grow C data) t) r k c = at_row data (entry t r k) c.
Proof. intros Hr. unfold at3, entry. rewrite (nth_map_lt _ _ _ []) by exact Hr. apply at2_grow. Qed.

(** ** scattering *)
Definition srcs (V : feat) (E : list Z) : feat := map fst (filter (fun vn => 0 <=? snd vn) (combine V E)).

Lemma rows_at_srcs E : forall (V : feat) j, 0 <= j -> length V = length E ->
  rows_at (filter (Z.leb 0) E) j (srcs V E) = map fst (filter (fun ve => snd ve =? j) (combine V E)).
Proof.
  induction E as [|e E IH]; intros V j Hj Hl; [destruct V; reflexivity|].
  destruct V as [|v V]; [discriminate|]. cbn [length] in Hl. unfold srcs. cbn [combine filter snd].
  destruct (Z.leb_spec 0 e) as [He|He].
  - cbn [map fst]. rewrite rows_at_cons. fold (srcs V E). rewrite IH by lia.
    destruct (Z.eqb_spec e j); reflexivity.
  - fold (srcs V E). rewrite IH by lia. destruct (Z.eqb_spec e j); [lia|reflexivity].
Qed.
Lemma srcs_length E : forall (V : feat), length V = length E -> length (srcs V E) = length (filter (Z.leb 0) E).
Proof.
  induction E as [|e E IH]; intros V Hl; [destruct V; reflexivity|]. destruct V as [|v V]; [discriminate|].
  unfold srcs. cbn [combine filter snd]. destruct (Z.leb_spec 0 e); cbn [map length]; fold (srcs V E); rewrite IH by (cbn in Hl; lia); reflexivity.
Qed.
Lemma fold_vadd C rows : forall a, length a = C -> Forall (fun r => length r = C) rows ->
  length (fold_left vadd rows a) = C /\
  forall c, nth c (fold_left vadd rows a) 0%Qc = (nth c a 0 + qsum_list (map (fun r => nth c r 0%Qc) rows))%Qc.
Proof.
  induction rows as [|r t IH]; intros a Ha Hf.
  - split; [exact Ha|]. intros c. cbn. ring.
  - inversion Hf as [|? ? Hr Ht]; subst. cbn [fold_left].
    destruct (IH (vadd a r)) as [H1 H2]; [rewrite vadd_len; congruence|exact Ht|].
    split; [exact H1|]. intros c. rewrite H2, vadd_nth by congruence. cbn [map qsum_list fold_right].
    fold (qsum_list (map (fun r => nth c r 0%Qc) t)). ring.
Qed.
Lemma qsum_filter (f : vec -> Qc) (V : feat) (E : list Z) j : length V = length E ->
  qsum_list (map f (map fst (filter (fun ve => snd ve =? j) (combine V E)))) =
  sum_n (length E) (fun p => if nth p E (-1) =? j then f (nth p V []) else 0%Qc).
Proof.
  revert V; induction E as [|e E IH]; intros V Hl; [destruct V; reflexivity|].
  destruct V as [|v V]; [discriminate|]. cbn [combine filter snd length]. rewrite sum_S. cbn [nth].
  rewrite <- IH by (cbn in Hl; lia). destruct (Z.eqb_spec e j).
  - cbn [map fst qsum_list fold_right]. reflexivity.
  - ring.
Qed.

(** Scattering adds, for every entry of the table that equals i, the block entry. *)
Lemma scatter_entries n C out (V : feat) (E : list Z) : shape n C out -> shape (length E) C V ->
  Forall (fun e => e < Z.of_nat n) E ->
  exists z, scatter_add_into vadd out (filter (Z.leb 0) E) (srcs V E) = Ok z /\ shape n C z /\
    forall i c, (i < n)%nat -> at2 z i c = (at2 out i c +
      sum_n (length E) (fun p => if nth p E (-1) =? Z.of_nat i then at2 V p c else 0))%Qc.
Proof.
  intros Ho HV HE. pose proof HV as [HVl HVf].
  destruct (scatter_into_spec vadd (filter (Z.leb 0) E) (srcs V E) out) as (z & Hz & Hlz & Hnz).
  { symmetry. apply srcs_length. exact HVl. }
  { intros i Hi. apply filter_In in Hi. destruct Hi as [Hi1 Hi2]. apply Z.leb_le in Hi2. rewrite Forall_forall in HE.
    specialize (HE i Hi1). unfold zlen. destruct Ho as [-> _]. lia. }
  assert (Hrow : forall i, (i < n)%nat -> length (nth i z []) = C /\ forall c, nth c (nth i z []) 0%Qc =
     (nth c (nth i out []) 0 + sum_n (length E) (fun p => if (nth p E (-1) =? Z.of_nat i)%Z then at2 V p c else 0))%Qc).
  { intros i Hi. specialize (Hnz i). rewrite (nth_error_nth' out []) in Hnz by (destruct Ho as [-> _]; exact Hi).
    rewrite rows_at_srcs in Hnz by (try exact HVl; lia).
    assert (Hzi := nth_error_nth _ _ [] Hnz). rewrite Hzi.
    destruct (fold_vadd C (map fst (filter (fun ve => snd ve =? Z.of_nat i) (combine V E))) (nth i out [])) as [H1 H2].
    - apply (shape_nth n C); assumption.
    - apply Forall_forall. intros r Hr. apply in_map_iff in Hr. destruct Hr as ([v e] & <- & Hf). apply filter_In in Hf.
      destruct Hf as [Hf _]. apply in_combine_l in Hf. rewrite Forall_forall in HVf. apply HVf. exact Hf.
    - split; [exact H1|]. intros c. rewrite H2. f_equal. rewrite (qsum_filter (fun r => nth c r 0%Qc)) by exact HVl. reflexivity. }
  exists z. split; [exact Hz|]. destruct Ho as [Hol Hof]. split.
  - split; [lia|]. apply Forall_forall. intros r Hr. destruct (In_nth _ _ [] Hr) as (i & Hi & <-). apply Hrow. lia.
  - intros i c Hi. apply Hrow. exact Hi.
Qed.

Lemma valid_rows_Ok R K C buf t n : shape3 R K C buf -> length t = R -> table_ok t K n ->
  valid_rows buf t = Ok (srcs (concat buf) (concat t), filter (Z.leb 0) (concat t)).
Proof.
  intros [Hb1 Hb2] Ht1 Ht2. unfold valid_rows. replace (Nat.eqb _ _) with true by (symmetry; apply Nat.eqb_eq; lia).
  replace (forallb _ (combine buf t)) with true; [reflexivity|]. symmetry. apply forallb_forall. intros [b row] Hin.
  apply Nat.eqb_eq. cbn [fst snd]. rewrite Forall_forall in Hb2. unfold table_ok in Ht2. rewrite Forall_forall in Ht2.
  destruct (Hb2 b) as [-> _]; [eapply in_combine_l; exact Hin|]. destruct (Ht2 row) as [-> _]; [eapply in_combine_r; exact Hin|reflexivity].
Qed.
Lemma table_shape t K n : table_ok t K n -> shape (length t) K t.
Proof. intros H. split; [reflexivity|]. apply Forall_impl with (2 := H). intros a [Ha _]. exact Ha. Qed.

(** The same for a table and a block of shape (R, K, C). *)
Lemma scatter_table n K C out buf t : shape n C out -> shape3 (length t) K C buf -> table_ok t K n ->
  exists z, scatter_add_into vadd out (filter (Z.leb 0) (concat t)) (srcs (concat buf) (concat t)) = Ok z /\ shape n C z /\
    forall i c, (i < n)%nat -> at2 z i c = (at2 out i c +
      sum_n (length t) (fun r => sum_n K (fun k => if entry t r k =? Z.of_nat i then at3 buf r k c else 0)))%Qc.
Proof.
  intros Ho Hb Ht. pose proof (table_shape t K n Ht) as Hts.
  assert (HL : length (concat t) = (length t * K)%nat) by (apply (length_concat_shape _ _ _ Hts)).
  destruct (scatter_entries n C out (concat buf) (concat t)) as (z & H1 & H2 & H3).
  - exact Ho.
  - rewrite HL. apply shape_concat. exact Hb.
  - apply Forall_forall. intros e He. apply in_concat in He. destruct He as (row & Hrow & He).
    unfold table_ok in Ht. rewrite Forall_forall in Ht. destruct (Ht row Hrow) as [_ Hr]. rewrite Forall_forall in Hr. apply Hr. exact He.
  - exists z. split; [exact H1|]. split; [exact H2|]. intros i c Hi. rewrite H3 by exact Hi. f_equal. rewrite HL, sum_mul.
    apply sum_ext. intros r Hr. apply sum_ext. intros k Hk. rewrite (at2_concat (length t) K C) by assumption.
    unfold entry. rewrite (nth_concat (-1) (length t) K) by assumption. reflexivity.
Qed.

(** Adjointness of gathering and scattering. *)
Lemma at_row_sum x e c n : e < Z.of_nat n -> at_row x e c = sum_n n (fun i => if e =? Z.of_nat i then at2 x i c else 0%Qc).
Proof.
  intros He. unfold at_row. destruct (Z.ltb_spec e 0) as [Hn|Hn].
  - symmetry. apply sum_zero. intros i Hi. destruct (Z.eqb_spec e (Z.of_nat i)); [lia|reflexivity].
  - rewrite (sum_one n (Z.to_nat e)); [|lia|].
    + rewrite Z2Nat.id, Z.eqb_refl by lia. reflexivity.
    + intros i Hi Hne. destruct (Z.eqb_spec e (Z.of_nat i)); [lia|reflexivity].
Qed.
Lemma entry_bound t K n r k : table_ok t K n -> (r < length t)%nat -> (k < K)%nat -> entry t r k < Z.of_nat n.
Proof.
  intros Ht Hr Hk. destruct (table_row t K n r Ht Hr) as [Hl Hf]. rewrite Forall_forall in Hf. apply Hf. apply nth_In. lia.
Qed.
Lemma gather_scatter t K n C (x z : list vec) (y : list feat) : table_ok t K n ->
  (forall i c, (i < n)%nat -> (c < C)%nat -> at2 z i c = sum_n (length t) (fun r => sum_n K (fun k => if entry t r k =? Z.of_nat i then at3 y r k c else 0%Qc))) ->
  sum_n (length t) (fun r => sum_n K (fun k => sum_n C (fun c => at_row x (entry t r k) c * at3 y r k c)%Qc)) = inner n C x z.
Proof.
  intros Ht Hz. unfold inner.
  transitivity (sum_n n (fun i => sum_n (length t) (fun r => sum_n K (fun k => sum_n C (fun c =>
     if entry t r k =? Z.of_nat i then (at2 x i c * at3 y r k c)%Qc else 0%Qc))))).
  - rewrite (sum_swap n). apply sum_ext. intros r Hr. rewrite (sum_swap n). apply sum_ext. intros k Hk.
    rewrite (sum_swap n). apply sum_ext. intros c Hc.
    rewrite (at_row_sum x _ c n) by (apply (entry_bound t K); assumption). rewrite <- sum_scale_r. apply sum_ext. intros i Hi.
    destruct (_ =? _); ring.
  - apply sum_ext. intros i Hi.
    transitivity (sum_n (length t) (fun r => sum_n C (fun c => sum_n K (fun k => if entry t r k =? Z.of_nat i then (at2 x i c * at3 y r k c)%Qc else 0%Qc)))).
    { apply sum_ext. intros r Hr. apply sum_swap. }
    rewrite (sum_swap (length t) C). apply sum_ext. intros c Hc. rewrite Hz by assumption.
    rewrite <- sum_scale. apply sum_ext. intros r Hr. rewrite <- sum_scale. apply sum_ext. intros k Hk. destruct (_ =? _); ring.
Qed.

(** ** the sub-matrix plan *)
Definition plan_ok (n h H : Z) : Prop := 1 <= n /\ 0 <= h /\ H <= n * h /\ (n - 1) * h <= H.
Definition fits (rows kc mb : Z) : Prop := kc <= mb \/ (rows = 0 /\ 0 <= mb).

Lemma ceil_spec a b : 0 < b -> a <= b * ((a + b - 1) / b) /\ b * ((a + b - 1) / b) < a + b.
Proof.
  intros Hb. pose proof (Z.div_mod (a + b - 1) b ltac:(lia)) as E. pose proof (Z.mod_pos_bound (a + b - 1) b Hb) as M.
  remember ((a + b - 1) / b) as n. remember ((a + b - 1) mod b) as r. remember (b * n) as bn. lia.
Qed.
Lemma buffer_plan_Ok rows kdim inc mb : 0 <= rows -> 0 <= kdim -> 0 <= inc -> fits rows (kdim * inc) mb ->
  exists n h, buffer_plan rows kdim inc mb = Ok (n, h) /\ plan_ok n h rows /\
    (h * (kdim * inc) <= mb).
Proof.
  intros Hr Hk Hc Hf. unfold buffer_plan. rewrite <- Z.mul_assoc.
  assert (Hkc0 : 0 <= kdim * inc) by (apply Z.mul_nonneg_nonneg; assumption).
  remember (kdim * inc) as kc eqn:Ekc. clear Ekc Hk Hc kdim inc.
  destruct (Z.ltb_spec mb (rows * kc)) as [Hlt|Hge].
  - destruct Hf as [Hf|[-> Hf]]; [|rewrite Z.mul_0_l in Hlt; lia].
    assert (Hkc : 0 < kc). { destruct (Z.eq_dec kc 0) as [->|]; [rewrite Z.mul_0_r in Hlt; lia|lia]. }
    assert (Hr1 : 1 <= rows). { destruct (Z.eq_dec rows 0) as [->|]; [rewrite Z.mul_0_l in Hlt; lia|lia]. }
    unfold floordiv. destruct (Z.eqb_spec kc 0) as [|_]; [lia|]. cbn [bind].
    assert (Hq : 1 <= mb / kc) by (apply Z.div_le_lower_bound; lia).
    assert (Hqk : mb / kc * kc <= mb) by (rewrite Z.mul_comm; apply Z.mul_div_le; lia).
    remember (mb / kc) as q eqn:Eq. clear Eq.
    assert (Hqk0 : 0 < q * kc) by (apply Z.mul_pos_pos; lia).
    destruct (Z.eqb_spec (q * kc) 0) as [|_]; [lia|]. cbn [bind].
    destruct (ceil_spec (rows * kc) (q * kc) Hqk0) as [N1 N2].
    remember ((rows * kc + q * kc - 1) / (q * kc)) as n eqn:En. clear En.
    assert (Hn3 : rows <= q * n). { apply (Z.mul_le_mono_pos_r _ _ kc Hkc). rewrite <- (Z.mul_assoc q n), (Z.mul_comm n kc), Z.mul_assoc. exact N1. }
    assert (Hn4 : q * n < rows + q). { apply (Z.mul_lt_mono_pos_r kc _ _ Hkc). rewrite Z.mul_add_distr_r, <- (Z.mul_assoc q n), (Z.mul_comm n kc), Z.mul_assoc. exact N2. }
    assert (Hn5 : 1 <= n). { destruct (Z.le_gt_cases 1 n) as [|Hn]; [assumption|]. pose proof (Z.mul_le_mono_nonneg_l n 0 q ltac:(lia) ltac:(lia)). lia. }
    destruct (Z.eqb_spec n 0) as [|_]; [lia|]. cbn [bind].
    destruct (ceil_spec rows n ltac:(lia)) as [M1 M2]. remember ((rows + n - 1) / n) as h eqn:Eh. clear Eh.
    assert (Hh4 : h <= q). { destruct (Z.le_gt_cases h q) as [|Hh]; [assumption|]. pose proof (Z.mul_le_mono_nonneg_l (q + 1) h n ltac:(lia) ltac:(lia)) as HH.
      rewrite Z.mul_add_distr_l, (Z.mul_comm n q) in HH. lia. }
    assert (Hh5 : 0 <= h). { destruct (Z.le_gt_cases 0 h) as [|Hh]; [assumption|]. pose proof (Z.mul_le_mono_nonneg_l h 0 n ltac:(lia) ltac:(lia)). lia. }
    exists n, h. split; [reflexivity|]. split.
    + unfold plan_ok. repeat split; try lia.
      pose proof (Z.mul_le_mono_nonneg_l h q (n - 1) ltac:(lia) Hh4) as HH. rewrite (Z.mul_sub_distr_r n 1 q), (Z.mul_comm n q) in HH. lia.
    + pose proof (Z.mul_le_mono_nonneg_r h q kc ltac:(lia) Hh4). lia.
  - exists 1, rows. split; [reflexivity|]. split; [|exact Hge]. unfold plan_ok. repeat split; lia.
Qed.
Lemma buffer_plan_small rows kdim inc mb : 0 < rows -> 0 <= kdim -> 0 <= inc -> 0 <= mb < kdim * inc ->
  buffer_plan rows kdim inc mb = Err ZeroDivisionError.
Proof.
  intros Hr Hk Hc Hm. unfold buffer_plan. rewrite <- Z.mul_assoc.
  pose proof (Z.mul_le_mono_nonneg_r 1 rows (kdim * inc) ltac:(lia) ltac:(lia)) as HH.
  destruct (Z.ltb_spec mb (rows * (kdim * inc))) as [Hlt|Hge]; [|lia].
  unfold floordiv. destruct (Z.eqb_spec (kdim * inc) 0); [lia|]. cbn [bind]. rewrite Z.div_small by lia.
  reflexivity.
Qed.

(** ** the loop over the sub-matrices *)
Definition cstart (s : conv_geo) (i : Z) : Z := i * g_h s.
Definition cend (s : conv_geo) (i : Z) : Z := Z.min ((i + 1) * g_h s) (zlen (g_neigh s)).

Lemma foldM_ext {A S} (f g : S -> A -> res S) l : forall s, (forall s a, In a l -> f s a = g s a) -> foldM f s l = foldM g s l.
Proof.
  induction l as [|a t IH]; intros s H; [reflexivity|]. cbn [foldM]. rewrite H by (left; reflexivity).
  destruct (g s a); cbn [bind]; [|reflexivity]. apply IH. intros; apply H; right; assumption.
Qed.
Lemma arange_S n : arange (S n) = arange n ++ [Z.of_nat n].
Proof. unfold arange. rewrite seq_S, map_app. reflexivity. Qed.

Lemma loop_bounds {S} (step : S -> Z -> Z -> Z -> res S) (s : conv_geo) (x0 : S) :
  plan_ok (g_n s) (g_h s) (zlen (g_neigh s)) ->
  (r <- foldM (fun st i =>
        let '(x, b) := st in
        '(start, end_, b) <- chunk_bounds s b i ;;
        x <- step x start end_ b ;;
        Ok (x, b)) (x0, g_h s) (arange (Z.to_nat (g_n s))) ;; Ok (fst r)) =
  foldM (fun x i => step x (cstart s i) (cend s i) (cend s i - cstart s i)) x0 (arange (Z.to_nat (g_n s))).
Proof.
  intros (Hn & Hh & H1 & H2). remember (Z.to_nat (g_n s)) as n eqn:En. destruct n as [|n]; [lia|].
  rewrite arange_S, !foldM_app.
  assert (Hpre : forall k, (k <= n)%nat ->
    foldM (fun st i => let '(x, b) := st in
        '(start, end_, b) <- chunk_bounds s b i ;; x <- step x start end_ b ;; Ok (x, b)) (x0, g_h s) (arange k) =
    (x <- foldM (fun x i => step x (cstart s i) (cend s i) (cend s i - cstart s i)) x0 (arange k) ;; Ok (x, g_h s))).
  { induction k as [|k IH]; intros Hk; [reflexivity|]. rewrite arange_S, !foldM_app, IH by lia.
    destruct (foldM _ x0 (arange k)) as [x|e]; cbn [bind foldM]; [|reflexivity].
    unfold chunk_bounds at 1. assert (Hc : (Z.of_nat k + 1) * g_h s <= zlen (g_neigh s)) by nia.
    destruct (Z.ltb_spec (zlen (g_neigh s)) ((Z.of_nat k + 1) * g_h s)) as [Hlt|_]; [lia|]. cbn [bind].
    unfold cstart, cend. rewrite Z.min_l by lia. replace ((Z.of_nat k + 1) * g_h s - Z.of_nat k * g_h s) with (g_h s) by ring.
    destruct (step x _ _ _); reflexivity. }
  rewrite Hpre by lia. destruct (foldM _ x0 (arange n)) as [x|e]; cbn [bind foldM]; [|reflexivity].
  unfold chunk_bounds, cstart, cend. replace (Z.of_nat n + 1) with (g_n s) by lia. replace (Z.of_nat n) with (g_n s - 1) by lia.
  destruct (Z.ltb_spec (zlen (g_neigh s)) (g_n s * g_h s)) as [Hlt|Hge].
  - rewrite Z.min_r by lia.
    replace (0 <=? g_h s - (g_n s * g_h s - zlen (g_neigh s))) with true by (symmetry; apply Z.leb_le; nia).
    replace (g_h s - (g_n s * g_h s - zlen (g_neigh s)) + (g_n s * g_h s - zlen (g_neigh s)) =? g_h s) with true by (symmetry; apply Z.eqb_eq; ring).
    cbn [andb bind]. replace (g_h s - (g_n s * g_h s - zlen (g_neigh s))) with (zlen (g_neigh s) - (g_n s - 1) * g_h s) by ring.
    destruct (step x _ _ _); reflexivity.
  - rewrite Z.min_l by lia. cbn [bind]. replace (g_n s * g_h s - (g_n s - 1) * g_h s) with (g_h s) by ring.
    destruct (step x _ _ _); reflexivity.
Qed.

(** Slices. *)
Lemma skipn_plus {A} a b (l : list A) : skipn a (skipn b l) = skipn (b + a) l.
Proof. revert l; induction b as [|b IH]; intros l; [reflexivity|]. destruct l; [rewrite !skipn_nil; reflexivity|]. cbn. apply IH. Qed.
Lemma tslice_len {A} (l : list A) s e : 0 <= s <= e -> e <= zlen l -> length (tslice l s e) = Z.to_nat (e - s).
Proof. intros H1 H2. unfold tslice, zlen in *. rewrite firstn_length, skipn_length. lia. Qed.
Lemma tslice_zlen {A} (l : list A) s e : 0 <= s <= e -> e <= zlen l -> zlen (tslice l s e) = e - s.
Proof. intros H1 H2. unfold zlen at 1. rewrite tslice_len by assumption. lia. Qed.
Lemma tslice_step {A} (l : list A) s e : 0 <= s <= e -> e <= zlen l ->
  firstn (Z.to_nat e) l = firstn (Z.to_nat s) l ++ tslice l s e.
Proof.
  intros H1 H2. unfold tslice. rewrite <- (firstn_skipn (Z.to_nat s) (firstn (Z.to_nat e) l)) at 1.
  rewrite firstn_firstn, Nat.min_l by lia. f_equal. rewrite skipn_firstn_comm. f_equal. lia.
Qed.
Lemma tslice_map {A B} (f : A -> B) l s e : tslice (map f l) s e = map f (tslice l s e).
Proof. unfold tslice. rewrite skipn_map, firstn_map. reflexivity. Qed.
Lemma Forall_tslice {A} (P : A -> Prop) l s e : Forall P l -> Forall P (tslice l s e).
Proof.
  intros H. rewrite Forall_forall in *. intros x Hx. apply H. unfold tslice in Hx.
  assert (Hin : In x (skipn (Z.to_nat s) l)) by (rewrite <- (firstn_skipn (Z.to_nat (e - s)) (skipn (Z.to_nat s) l)); apply in_or_app; left; exact Hx).
  rewrite <- (firstn_skipn (Z.to_nat s) l). apply in_or_app. right. exact Hin.
Qed.
Lemma slice_put_step {A} (l v : list A) s e w : 0 <= s <= e -> e <= zlen l -> length v = Z.to_nat s -> length w = Z.to_nat (e - s) ->
  slice_put (v ++ skipn (Z.to_nat s) l) s e w = Ok ((v ++ w) ++ skipn (Z.to_nat e) l).
Proof.
  intros H1 H2 Hv Hw. unfold slice_put.
  assert (Hz : zlen (v ++ skipn (Z.to_nat s) l) = zlen l) by (unfold zlen in *; rewrite app_length, skipn_length; lia).
  rewrite tslice_len by lia. rewrite Hw, Nat.eqb_refl. f_equal. rewrite <- app_assoc. f_equal.
  - rewrite firstn_app. replace (Z.to_nat s - length v)%nat with O by lia. rewrite firstn_all2 by lia. cbn. apply app_nil_r.
  - f_equal. rewrite skipn_app, skipn_all2 by lia. cbn [app]. replace (Z.to_nat s + Z.to_nat (e - s) - length v)%nat with (Z.to_nat (e - s)) by lia.
    rewrite skipn_plus. f_equal. lia.
Qed.

Lemma nth_tslice {A} (l : list A) s e i d : 0 <= s -> (i < Z.to_nat (e - s))%nat -> nth i (tslice l s e) d = nth (Z.to_nat s + i) l d.
Proof.
  intros Hs Hi. unfold tslice.
  assert (G1 : forall m (l : list A) i, (i < m)%nat -> nth i (firstn m l) d = nth i l d).
  { induction m as [|m IHm]; intros l' j Hj; [lia|]. destruct l'; [reflexivity|]. destruct j; [reflexivity|]. cbn [firstn nth]. apply IHm. lia. }
  assert (G2 : forall n (l : list A) i, nth i (skipn n l) d = nth (n + i) l d).
  { induction n as [|n IHn]; intros l' j; [reflexivity|]. destruct l'; [destruct j; reflexivity|]. cbn [skipn Nat.add nth]. apply IHn. }
  rewrite G1 by exact Hi. apply G2.
Qed.
Lemma combine_app3 {A B} (l1 l2 : list A) (m1 m2 : list B) : length l1 = length m1 -> combine (l1 ++ l2) (m1 ++ m2) = combine l1 m1 ++ combine l2 m2.
Proof. revert m1; induction l1 as [|a l1 IH]; intros [|b m1] H; try discriminate; [reflexivity|]. cbn. rewrite IH by (cbn in H; lia). reflexivity. Qed.
Lemma scatter_into_app {A} (add : A -> A -> A) out i1 i2 s1 s2 : length i1 = length s1 -> length i2 = length s2 ->
  scatter_add_into add out (i1 ++ i2) (s1 ++ s2) = (z <- scatter_add_into add out i1 s1 ;; scatter_add_into add z i2 s2).
Proof.
  intros H1 H2. unfold scatter_add_into. rewrite !app_length, H1, H2, !Nat.eqb_refl. rewrite combine_app3 by exact H1. apply foldM_app.
Qed.
Lemma srcs_app (V1 V2 : feat) E1 E2 : length V1 = length E1 -> srcs (V1 ++ V2) (E1 ++ E2) = srcs V1 E1 ++ srcs V2 E2.
Proof. intros H. unfold srcs. rewrite combine_app3 by exact H. rewrite filter_app, map_app. reflexivity. Qed.
Lemma table_firstn t K n k : table_ok t K n -> table_ok (firstn k t) K n.
Proof.
  intros H. unfold table_ok in *. rewrite Forall_forall in *. intros x Hx. apply H. rewrite <- (firstn_skipn k t). apply in_or_app. left. exact Hx.
Qed.
Lemma shape3_map {A} K C (f : A -> feat) (l : list A) : (forall a, In a l -> shape K C (f a)) -> shape3 (length l) K C (map f l).
Proof. intros H. split; [apply map_length|]. apply Forall_forall. intros x Hx. apply in_map_iff in Hx. destruct Hx as (a & <- & Ha). apply H. exact Ha. Qed.

Section Loop.
Variables (s : conv_geo).
Hypothesis P : plan_ok (g_n s) (g_h s) (zlen (g_neigh s)).
Let H := zlen (g_neigh s).

Lemma cbound i : (i < Z.to_nat (g_n s))%nat -> 0 <= cstart s (Z.of_nat i) <= cend s (Z.of_nat i) /\ cend s (Z.of_nat i) <= H.
Proof. clear - P. intros Hi. destruct P as (P1 & P2 & P3 & P4). unfold cstart, cend, H in *. split; [|lia]. split; [nia|]. apply Z.min_glb; nia. Qed.
Lemma cnext i : (S i < Z.to_nat (g_n s))%nat -> cend s (Z.of_nat i) = cstart s (Z.of_nat (S i)).
Proof. clear - P. intros Hi. destruct P as (P1 & P2 & P3 & P4). unfold cstart, cend. replace (Z.of_nat (S i)) with (Z.of_nat i + 1) by lia. apply Z.min_l. nia. Qed.
Definition upto (k : nat) : Z := match k with O => 0 | S i => cend s (Z.of_nat i) end.
Lemma upto_start i : (i < Z.to_nat (g_n s))%nat -> upto i = cstart s (Z.of_nat i).
Proof. clear - P. intros Hi. destruct i as [|i]; [reflexivity|]. apply cnext. exact Hi. Qed.
Lemma upto_last : upto (Z.to_nat (g_n s)) = H.
Proof.
  clear - P. destruct P as (P1 & P2 & P3 & P4). destruct (Z.to_nat (g_n s)) as [|n] eqn:E; [lia|]. cbn [upto]. unfold cend, H.
  apply Z.min_r. replace (Z.of_nat n + 1) with (g_n s) by lia. lia.
Qed.

(** forward_loop with a row-wise product computes that product on every row. *)
Lemma forward_loop_Ok C K nd prod (f : feat -> vec) out data : shape nd C data -> table_ok (g_neigh s) K nd ->
  (forall buf R, shape3 R K C buf -> prod buf = Ok (map f buf)) -> zlen out = H ->
  forward_loop C prod s out data = Ok (map (fun row => f (grow C data row)) (g_neigh s)).
Proof.
  intros Hd Ht Hp Ho. unfold forward_loop.
  refine (eq_trans _ (eq_trans (loop_bounds (fun out start end_ b => buf <- fill_buffer C s data start end_ b ;; p <- prod buf ;; slice_put out start end_ p) s out P) _)).
  { apply (f_equal (fun x => bind x (fun r => Ok (fst r)))). apply foldM_ext. intros [x b] i _.
    destruct (chunk_bounds s b i) as [[[st en] b']|]; cbn [bind]; [|reflexivity].
    destruct (fill_buffer C s data st en b'); cbn [bind]; [|reflexivity]. destruct (prod _); reflexivity. }
  set (F := fun row => f (grow C data row)).
  assert (Hk : forall k, (k <= Z.to_nat (g_n s))%nat ->
    foldM (fun x i => buf <- fill_buffer C s data (cstart s i) (cend s i) (cend s i - cstart s i) ;; p <- prod buf ;; slice_put x (cstart s i) (cend s i) p) out (arange k)
    = Ok (map F (firstn (Z.to_nat (upto k)) (g_neigh s)) ++ skipn (Z.to_nat (upto k)) out)).
  { induction k as [|k IH]; intros Hk; [reflexivity|]. rewrite arange_S, foldM_app, IH by lia. cbn [bind foldM].
    destruct (cbound k ltac:(lia)) as [B1 B2]. unfold fill_buffer.
    rewrite tslice_zlen by (try exact B2; lia). rewrite Z.eqb_refl. cbn [bind].
    assert (Hts : table_ok (tslice (g_neigh s) (cstart s (Z.of_nat k)) (cend s (Z.of_nat k))) K nd) by (apply Forall_tslice; exact Ht).
    rewrite (gather_cols_Ok C data _ K nd) by (try apply Hd; exact Hts). cbn [bind].
    rewrite (Hp _ _ (map_grow_shape C data _ K nd Hd Hts)). cbn [bind]. rewrite upto_start by lia.
    rewrite slice_put_step.
    - cbn [bind foldM upto]. f_equal. f_equal. rewrite map_map. fold F. rewrite <- map_app. f_equal.
      symmetry. apply tslice_step; [lia|]. exact B2.
    - lia.
    - fold H in Ho. lia.
    - rewrite map_length, firstn_length. unfold H, zlen in *. lia.
    - rewrite !map_length. apply tslice_len; [lia|exact B2]. }
  rewrite Hk by lia. rewrite upto_last. unfold H, zlen in *. rewrite !Nat2Z.id, firstn_all.
  rewrite skipn_all2 by lia. rewrite app_nil_r. reflexivity.
Qed.

(** backward_loop with a row-wise spreading is one scatter over the whole table. *)
Lemma backward_loop_Ok C K n Cg spread (f : vec -> feat) out grad : table_ok (g_neigh s) K n ->
  shape (length (g_neigh s)) Cg grad -> (forall r, length r = Cg -> shape K C (f r)) ->
  (forall gr, Forall (fun r => length r = Cg) gr -> spread gr = Ok (map f gr)) ->
  backward_loop spread s out grad =
  scatter_add_into vadd out (filter (Z.leb 0) (concat (g_neigh s))) (srcs (concat (map f grad)) (concat (g_neigh s))).
Proof.
  intros Ht [Hg1 Hg2] Hf Hs. unfold backward_loop.
  assert (Hfg : forall l, Forall (fun r => length r = Cg) l -> forall a, In a l -> shape K C (f a)).
  { intros l Hl a Ha. apply Hf. rewrite Forall_forall in Hl. apply Hl. exact Ha. }
  assert (HLen : forall g t, length g = length t -> Forall (fun r => length r = Cg) g -> table_ok t K n -> length (concat (map f g)) = length (concat t)).
  { intros g t Hl Hg Htt. rewrite (length_concat_shape (length t) K t) by (apply (table_shape t K n Htt)).
    pose proof (shape_concat (length g) K C (map f g) (shape3_map K C f g (Hfg g Hg))) as [E _]. rewrite E, Hl. reflexivity. }
  assert (Hk : forall k, (k <= Z.to_nat (g_n s))%nat ->
    foldM (fun out i => let start := i * g_h s in let end_ := Z.min ((i + 1) * g_h s) (zlen (g_neigh s)) in
      buf <- spread (tslice grad start end_) ;; '(src, idx) <- valid_rows buf (tslice (g_neigh s) start end_) ;; scatter_add_into vadd out idx src) out (arange k)
    = scatter_add_into vadd out (filter (Z.leb 0) (concat (firstn (Z.to_nat (upto k)) (g_neigh s))))
        (srcs (concat (map f (firstn (Z.to_nat (upto k)) grad))) (concat (firstn (Z.to_nat (upto k)) (g_neigh s))))).
  { induction k as [|k IH]; intros Hk; [reflexivity|]. rewrite arange_S, foldM_app, IH by lia.
    destruct (cbound k ltac:(lia)) as [B1 B2]. pose proof (upto_start k ltac:(lia)) as Eu.
    assert (Hzg : zlen grad = H) by (unfold H, zlen; rewrite Hg1; reflexivity).
    cbn [upto]. rewrite (tslice_step (g_neigh s) (upto k) (cend s (Z.of_nat k))) by (rewrite ?Eu; first [exact B1|exact B2]).
    rewrite (tslice_step grad (upto k) (cend s (Z.of_nat k))) by (rewrite ?Eu, ?Hzg; first [exact B1|exact B2]).
    set (t1 := firstn (Z.to_nat (upto k)) (g_neigh s)). set (g1 := firstn (Z.to_nat (upto k)) grad).
    rewrite Eu. set (t2 := tslice (g_neigh s) _ _). set (g2 := tslice grad _ _).
    assert (Ht1 : table_ok t1 K n) by (apply table_firstn; exact Ht). assert (Ht2 : table_ok t2 K n) by (apply Forall_tslice; exact Ht).
    assert (Hg2' : Forall (fun r => length r = Cg) g2) by (apply Forall_tslice; exact Hg2).
    assert (Hg1' : Forall (fun r => length r = Cg) g1).
    { rewrite Forall_forall in *. intros x Hx. apply Hg2. rewrite <- (firstn_skipn (Z.to_nat (upto k)) grad). apply in_or_app. left. exact Hx. }
    assert (L1 : length g1 = length t1) by (unfold g1, t1; rewrite !firstn_length, Hg1; reflexivity).
    assert (L2 : length g2 = length t2) by (unfold g2, t2; rewrite !tslice_len by (try exact B2; try (rewrite Hzg; exact B2); lia); reflexivity).
    rewrite map_app, !concat_app, filter_app, srcs_app by (apply HLen; assumption).
    rewrite scatter_into_app by (symmetry; apply srcs_length; apply HLen; assumption).
    destruct (scatter_add_into vadd out _ _) as [z|e]; cbn [bind foldM]; [|reflexivity].
    change (Z.min ((Z.of_nat k + 1) * g_h s) (zlen (g_neigh s))) with (cend s (Z.of_nat k)).
    change (Z.of_nat k * g_h s) with (cstart s (Z.of_nat k)). fold t2 g2. rewrite Hs by exact Hg2'. cbn [bind].
    rewrite (valid_rows_Ok (length t2) K C _ t2 n); [|rewrite <- L2; apply shape3_map; apply Hfg; exact Hg2'|reflexivity|exact Ht2].
    cbn [bind]. destruct (scatter_add_into vadd z _ _); reflexivity. }
  rewrite Hk by lia. rewrite upto_last. unfold H, zlen. rewrite Nat2Z.id, firstn_all. rewrite <- Hg1, firstn_all. reflexivity.
Qed.

(** weight_loop with an additive step accumulates over all rows. *)
Lemma weight_loop_Ok C K nd Cg W1 W2 acc (T : feat -> vec -> nat -> nat -> Qc) out data grad :
  shape nd C data -> table_ok (g_neigh s) K nd -> shape (length (g_neigh s)) Cg grad -> shape W1 W2 out ->
  (forall R out buf gr, shape W1 W2 out -> shape3 R K C buf -> shape R Cg gr ->
     exists out', acc out buf gr = Ok out' /\ shape W1 W2 out' /\
       forall a b, (a < W1)%nat -> (b < W2)%nat -> at2 out' a b = (at2 out a b + sum_n R (fun r => T (nth r buf []) (nth r gr []) a b))%Qc) ->
  exists out', weight_loop C acc s out data grad = Ok out' /\ shape W1 W2 out' /\
    forall a b, (a < W1)%nat -> (b < W2)%nat -> at2 out' a b =
      (at2 out a b + sum_n (length (g_neigh s)) (fun r => T (grow C data (nth r (g_neigh s) [])) (nth r grad []) a b))%Qc.
Proof.
  intros Hd Ht [Hg1 Hg2] Ho Hacc. unfold weight_loop.
  assert (E : forall X, (foldM (fun x i => buf <- fill_buffer C s data (cstart s i) (cend s i) (cend s i - cstart s i) ;; acc x buf (tslice grad (cstart s i) (cend s i))) out (arange (Z.to_nat (g_n s))) = X) ->
    (r <- foldM (fun st i => let '(out, b) := st in '(start, end_, b) <- chunk_bounds s b i ;; buf <- fill_buffer C s data start end_ b ;;
         out <- acc out buf (tslice grad start end_) ;; Ok (out, b)) (out, g_h s) (arange (Z.to_nat (g_n s))) ;; Ok (fst r)) = X).
  { intros X HX. refine (eq_trans _ (eq_trans (loop_bounds (fun out start end_ b => buf <- fill_buffer C s data start end_ b ;; acc out buf (tslice grad start end_)) s out P) HX)).
    apply (f_equal (fun x => bind x (fun r => Ok (fst r)))). apply foldM_ext. intros [x b] i _.
    destruct (chunk_bounds s b i) as [[[st en] b']|]; cbn [bind]; [|reflexivity].
    destruct (fill_buffer C s data st en b'); reflexivity. }
  assert (Hk : forall k, (k <= Z.to_nat (g_n s))%nat -> exists out',
    foldM (fun x i => buf <- fill_buffer C s data (cstart s i) (cend s i) (cend s i - cstart s i) ;; acc x buf (tslice grad (cstart s i) (cend s i))) out (arange k) = Ok out' /\
    shape W1 W2 out' /\ forall a b, (a < W1)%nat -> (b < W2)%nat -> at2 out' a b =
      (at2 out a b + sum_n (Z.to_nat (upto k)) (fun r => T (grow C data (nth r (g_neigh s) [])) (nth r grad []) a b))%Qc).
  { induction k as [|k IH]; intros Hk.
    - exists out. split; [reflexivity|]. split; [exact Ho|]. intros a b _ _. cbn. ring.
    - destruct (IH ltac:(lia)) as (o1 & E1 & S1 & A1). destruct (cbound k ltac:(lia)) as [B1 B2]. pose proof (upto_start k ltac:(lia)) as Eu.
      assert (Hzg : zlen grad = H) by (unfold H, zlen; rewrite Hg1; reflexivity).
      assert (Hts : table_ok (tslice (g_neigh s) (cstart s (Z.of_nat k)) (cend s (Z.of_nat k))) K nd) by (apply Forall_tslice; exact Ht).
      set (R := Z.to_nat (cend s (Z.of_nat k) - cstart s (Z.of_nat k))).
      assert (LR : length (tslice (g_neigh s) (cstart s (Z.of_nat k)) (cend s (Z.of_nat k))) = R) by (apply tslice_len; [lia|exact B2]).
      destruct (Hacc R o1 (map (grow C data) (tslice (g_neigh s) (cstart s (Z.of_nat k)) (cend s (Z.of_nat k)))) (tslice grad (cstart s (Z.of_nat k)) (cend s (Z.of_nat k)))) as (o2 & E2 & S2 & A2).
      + exact S1.
      + rewrite <- LR. apply (map_grow_shape C data _ K nd); assumption.
      + split; [apply tslice_len; [lia|rewrite Hzg; exact B2]|apply Forall_tslice; exact Hg2].
      + exists o2. rewrite arange_S, foldM_app, E1. cbn [bind foldM]. unfold fill_buffer.
        rewrite tslice_zlen by (try exact B2; lia). rewrite Z.eqb_refl.
        rewrite (gather_cols_Ok C data _ K nd) by (try apply Hd; exact Hts). cbn [bind]. rewrite E2. cbn [bind].
        split; [reflexivity|]. split; [exact S2|]. intros a b Ha Hb. rewrite A2, A1 by assumption. cbn [upto].
        replace (Z.to_nat (cend s (Z.of_nat k))) with (Z.to_nat (upto k) + R)%nat by (rewrite Eu; unfold R; lia).
        rewrite sum_app. rewrite <- Qcplus_assoc. f_equal. f_equal. apply sum_ext. intros r Hr.
        rewrite (nth_map_lt (grow C data) _ r []) by (rewrite LR; exact Hr). rewrite !nth_tslice by (try exact Hr; lia). rewrite Eu. reflexivity. }
  destruct (Hk (Z.to_nat (g_n s)) ltac:(lia)) as (o' & E1 & S1 & A1). exists o'. split; [apply E; exact E1|]. split; [exact S1|].
  intros a b Ha Hb. rewrite A1 by assumption. rewrite upto_last. unfold H, zlen. rewrite Nat2Z.id. reflexivity.
Qed.
End Loop.
