(** Proofs about the averaged points in single precision. *)
From Coq Require Import List ZArith Bool Reals Lra Lia.
From Flocq Require Import Core.Core IEEE754.BinarySingleNaN.
From Verif Require Import Res Tensor Key Spec Num KeyFacts ScatterFacts NormFacts DecodeBatch Points Octree SpecGeo Float32 SpecSingle FloatFacts
  FloatMean SpecMean.
Import ListNotations.
Open Scope R_scope.
Local Instance p24 : Prec_gt_0 24 := eq_refl.
Local Instance fex_valid : Valid_exp fex := FLT_exp_valid (-149) 24.
Local Instance fex_mono : Monotone_exp fex := FLT_exp_monotone (-149) 24.

(** ** representable numbers *)
Lemma fmt_scaled m e : (Z.abs m <= 2 ^ 24)%Z -> (-149 <= e)%Z -> generic_format radix2 fex (IZR m * bpow radix2 e).
Proof.
  intros Hm He. destruct (Z.eq_dec (Z.abs m) (2 ^ 24)) as [E|N].
  - destruct (Z.abs_eq_or_opp m) as [A|A]; rewrite A in E.
    + rewrite E, (IZR_pow 24), <- bpow_plus by lia. apply fmt_bpow; lia.
    + replace m with (- 2 ^ 24)%Z by lia. rewrite opp_IZR, (IZR_pow 24) by lia.
      rewrite Ropp_mult_distr_l_reverse, <- bpow_plus. apply generic_format_opp, fmt_bpow; lia.
  - apply generic_format_FLT. exists (Float radix2 m e); cbn [Fnum Fexp]; [reflexivity| |exact He].
    change (radix_val radix2 ^ 24)%Z with (2 ^ 24)%Z. lia.
Qed.
Lemma fmt_int m : (Z.abs m <= 2 ^ 24)%Z -> generic_format radix2 fex (IZR m).
Proof. intros H. rewrite <- (Rmult_1_r (IZR m)). apply (fmt_scaled m 0 H). lia. Qed.

(** ** the operations on bounded numbers *)
Lemma rne_bound x e : (-149 <= e)%Z -> Rabs x <= bpow radix2 e -> Rabs (rne x) <= bpow radix2 e.
Proof.
  intros He H. apply Rabs_le_inv in H. apply Rabs_le. split.
  - rewrite <- (rne_id (- bpow radix2 e)) by (apply generic_format_opp, fmt_bpow; lia). apply rne_le; lra.
  - rewrite <- (rne_id (bpow radix2 e)) by (apply fmt_bpow; lia). apply rne_le; lra.
Qed.
Lemma rne_half_ulp x e : (-120 <= e)%Z -> Rabs x <= bpow radix2 e -> Rabs (rne x - x) <= bpow radix2 (e - 25).
Proof.
  intros He H. destruct (Req_dec (Rabs x) (bpow radix2 e)) as [E|N].
  - replace (rne x) with x; [replace (x - x) with 0 by ring; rewrite Rabs_R0; apply bpow_ge_0|].
    symmetry. apply rne_id. unfold Rabs in E. destruct (Rcase_abs x).
    + replace x with (- bpow radix2 e) by lra. apply generic_format_opp, fmt_bpow; lia.
    + rewrite E. apply fmt_bpow; lia.
  - eapply Rle_trans; [apply error_le_half_ulp; auto with typeclass_instances|].
    assert (Hu : ulp radix2 fex x <= bpow radix2 (e - 24)).
    { destruct (Req_dec x 0) as [->|Hn].
      - unfold fex. rewrite ulp_FLT_0 by auto with typeclass_instances. apply bpow_le; lia.
      - rewrite ulp_neq_0 by exact Hn. apply bpow_le. unfold cexp, fex, FLT_exp.
        assert (mag radix2 x <= e)%Z; [|lia]. apply mag_le_bpow; [exact Hn|]. lra. }
    replace (e - 24)%Z with (1 + (e - 25))%Z in Hu by lia. rewrite bpow_plus in Hu.
    change (bpow radix2 1) with 2 in Hu. lra.
Qed.
Lemma fadd_val x y : is_finite x = true -> is_finite y = true -> Rabs (B2R x + B2R y) <= bpow radix2 100 ->
  B2R (fadd x y) = rne (B2R x + B2R y) /\ is_finite (fadd x y) = true.
Proof.
  intros Hx Hy Hb.
  pose proof (@Bplus_correct 24 128 f32_prec f32_emax mode_NE x y Hx Hy) as H.
  rewrite fex_eq in H. change (round radix2 fex (round_mode mode_NE)) with rne in H.
  rewrite (big_bound _ 100) in H; [tauto|lia|apply rne_bound; [lia|exact Hb]].
Qed.
Lemma fsub_val x y : is_finite x = true -> is_finite y = true -> Rabs (B2R x - B2R y) <= bpow radix2 100 ->
  B2R (fsub x y) = rne (B2R x - B2R y) /\ is_finite (fsub x y) = true.
Proof.
  intros Hx Hy Hb.
  pose proof (@Bminus_correct 24 128 f32_prec f32_emax mode_NE x y Hx Hy) as H.
  rewrite fex_eq in H. change (round radix2 fex (round_mode mode_NE)) with rne in H.
  rewrite (big_bound _ 100) in H; [tauto|lia|apply rne_bound; [lia|exact Hb]].
Qed.
Lemma fmul_val x y : is_finite x = true -> is_finite y = true -> Rabs (B2R x * B2R y) <= bpow radix2 100 ->
  B2R (fmul x y) = rne (B2R x * B2R y) /\ is_finite (fmul x y) = true.
Proof.
  intros Hx Hy Hb.
  pose proof (@Bmult_correct 24 128 f32_prec f32_emax mode_NE x y) as H.
  rewrite fex_eq in H. change (round radix2 fex (round_mode mode_NE)) with rne in H.
  rewrite (big_bound _ 100) in H; [|lia|apply rne_bound; [lia|exact Hb]].
  rewrite Hx, Hy in H. tauto.
Qed.
Lemma fdiv_val x y : is_finite x = true -> B2R y <> 0 -> Rabs (B2R x / B2R y) <= bpow radix2 100 ->
  B2R (fdiv x y) = rne (B2R x / B2R y) /\ is_finite (fdiv x y) = true.
Proof.
  intros Hx Hy Hb.
  pose proof (@Bdiv_correct 24 128 f32_prec f32_emax mode_NE x y Hy) as H.
  rewrite fex_eq in H. change (round radix2 fex (round_mode mode_NE)) with rne in H.
  rewrite (big_bound _ 100) in H; [|lia|apply rne_bound; [lia|exact Hb]].
  rewrite Hx in H. tauto.
Qed.
Lemma fnormal_val m s : (Z.abs m <= 2 ^ 24)%Z ->
  B2R (binary_normalize 24 128 f32_prec f32_emax mode_NE m 0 s) = IZR m /\
  is_finite (binary_normalize 24 128 f32_prec f32_emax mode_NE m 0 s) = true.
Proof.
  intros Hm. pose proof (@binary_normalize_correct 24 128 f32_prec f32_emax mode_NE m 0 s) as H.
  rewrite fex_eq in H. change (round radix2 fex (round_mode mode_NE)) with rne in H.
  unfold F2R in H. cbn [Fnum Fexp] in H. change (bpow radix2 0) with 1 in H. rewrite Rmult_1_r in H.
  rewrite rne_id in H by (apply fmt_int; exact Hm).
  rewrite (big_bound _ 24) in H; [tauto|lia|].
  rewrite <- IZR_pow, <- abs_IZR by lia. apply IZR_le; exact Hm.
Qed.
Lemma fcount_val n : (Z.abs n <= 2 ^ 24)%Z -> B2R (fcount n) = IZR n /\ is_finite (fcount n) = true.
Proof. apply fnormal_val. Qed.

(** ** sums *)
Definition fsum (xs : list f32) : f32 := fold_left fadd xs fzero.
Definition favg (xs : list f32) : f32 := fdiv (fsum xs) (fcount (Z.of_nat (length xs))).

Lemma sum_between lo hi N : 0 <= lo -> lo <= hi -> IZR N * hi <= bpow radix2 100 ->
  (forall m, (0 <= m <= N)%Z -> generic_format radix2 fex (IZR m * lo) /\ generic_format radix2 fex (IZR m * hi)) ->
  forall xs s m, (0 <= m)%Z -> (m + Z.of_nat (length xs) <= N)%Z ->
  Forall (fun v => is_finite v = true /\ lo <= B2R v <= hi) xs ->
  is_finite s = true -> IZR m * lo <= B2R s <= IZR m * hi ->
  is_finite (fold_left fadd xs s) = true /\
  IZR (m + Z.of_nat (length xs)) * lo <= B2R (fold_left fadd xs s) <= IZR (m + Z.of_nat (length xs)) * hi.
Proof.
  intros H0 H1 HN Hf. induction xs as [|v xs IH]; intros s m Hm Hl Hv Hs Hb.
  - cbn [length fold_left]. rewrite Z.add_0_r. auto.
  - cbn [length fold_left] in *. inversion Hv as [|? ? (Hvf & Hvb) Hv']; subst.
    assert (Hm1 : IZR (m + 1) = IZR m + 1) by (rewrite plus_IZR; reflexivity).
    assert (Hmp : 0 <= IZR m) by (apply (IZR_le 0); exact Hm).
    assert (HmN : IZR (m + 1) <= IZR N) by (apply IZR_le; lia).
    assert (Hsb : IZR (m + 1) * lo <= B2R s + B2R v <= IZR (m + 1) * hi) by (rewrite Hm1; lra).
    assert (Hup : IZR (m + 1) * hi <= IZR N * hi) by (apply Rmult_le_compat_r; lra).
    destruct (fadd_val s v Hs Hvf) as [E F].
    { rewrite Rabs_pos_eq; [lra|]. apply Rle_trans with (2 := proj1 Hsb). apply Rmult_le_pos; lra. }
    destruct (Hf (m + 1)%Z ltac:(lia)) as [Fl Fh].
    replace (m + Z.of_nat (S (length xs)))%Z with (m + 1 + Z.of_nat (length xs))%Z by lia.
    apply IH; [lia|lia|exact Hv'|exact F|]. rewrite E. split.
    + rewrite <- (rne_id _ Fl). apply rne_le; lra.
    + rewrite <- (rne_id _ Fh). apply rne_le; lra.
Qed.

Lemma fsum_between lo hi xs : 0 <= lo -> lo <= hi -> INR (length xs) * hi <= bpow radix2 100 ->
  (forall m, (0 <= m <= Z.of_nat (length xs))%Z ->
     generic_format radix2 fex (IZR m * lo) /\ generic_format radix2 fex (IZR m * hi)) ->
  Forall (fun v => is_finite v = true /\ lo <= B2R v <= hi) xs ->
  is_finite (fsum xs) = true /\ INR (length xs) * lo <= B2R (fsum xs) <= INR (length xs) * hi.
Proof.
  intros H0 H1 H2 H3 H4. rewrite INR_IZR_INZ in *.
  apply (sum_between lo hi (Z.of_nat (length xs)) H0 H1 H2 H3 xs fzero 0%Z); try lia; auto.
  cbn. lra.
Qed.

(** ** averages stay in the cell *)

(** the distance from an integer to the next smaller number *)
Definition gap (X : Z) : R := bpow radix2 (Z.log2_up X - 24).
Lemma gap_pos X : 0 < gap X.
Proof. apply bpow_gt_0. Qed.
Lemma log2_up_24 X : (1 <= X <= 2 ^ 24)%Z -> (0 <= Z.log2_up X <= 24)%Z.
Proof. intros H. split; [apply Z.log2_up_nonneg|]. apply Z.log2_up_le_pow2; lia. Qed.
Lemma le_log2_up X : (1 <= X)%Z -> IZR X <= bpow radix2 (Z.log2_up X).
Proof.
  intros H. rewrite <- IZR_pow by apply Z.log2_up_nonneg. apply IZR_le.
  apply (proj2 (Z.log2_up_le_pow2 X (Z.log2_up X) ltac:(lia))). lia.
Qed.
Lemma gt_log2_up X : (1 <= X)%Z -> bpow radix2 (Z.log2_up X - 1) < IZR X.
Proof.
  intros H. destruct (Z.eq_dec X 1) as [->|N]; [cbn; lra|].
  pose proof (Z.log2_up_spec X ltac:(lia)) as [A _]. rewrite Z.sub_1_r.
  pose proof (Z.log2_up_pos X ltac:(lia)) as Hp.
  rewrite <- IZR_pow by lia. apply IZR_lt. exact A.
Qed.
Lemma below_int x X : (1 <= X <= 2 ^ 24)%Z -> generic_format radix2 fex x -> x < IZR X -> x <= IZR X - gap X.
Proof.
  intros HX Hx Hlt. pose proof (log2_up_24 X ltac:(lia)) as He.
  pose proof (le_log2_up X ltac:(lia)) as Hle. pose proof (gt_log2_up X ltac:(lia)) as Hgt.
  assert (Hp : 0 < IZR X) by (apply (IZR_lt 0); lia).
  eapply Rle_trans; [apply (pred_ge_gt radix2 fex x (IZR X)); [exact Hx|apply fmt_int; lia|exact Hlt]|].
  rewrite pred_eq_pos by lra. unfold pred_pos. set (e := Z.log2_up X) in *.
  destruct (Req_dec (IZR X) (bpow radix2 e)) as [E|N].
  - assert (Em : mag radix2 (IZR X) = (e + 1)%Z :> Z) by (rewrite E; apply mag_bpow).
    rewrite Em, Req_bool_true by (rewrite E; f_equal; lia).
    replace (e + 1 - 1)%Z with e by lia. unfold gap, fex, FLT_exp. fold e.
    replace (Z.max (e - 24) (-149)) with (e - 24)%Z by lia. lra.
  - assert (Em : mag radix2 (IZR X) = e :> Z) by (apply mag_unique_pos; lra).
    rewrite Em, Req_bool_false by lra. rewrite ulp_neq_0 by lra. unfold cexp. rewrite Em.
    unfold gap, fex, FLT_exp. fold e. replace (Z.max (e - 24) (-149)) with (e - 24)%Z by lia. lra.
Qed.
Lemma rne_below y X : (1 <= X <= 2 ^ 24)%Z -> 0 <= y -> y < IZR X - gap X / 2 -> rne y < IZR X.
Proof.
  intros HX H0 Hy. pose proof (gap_pos X). pose proof (le_log2_up X ltac:(lia)) as Hle.
  pose proof (log2_up_24 X ltac:(lia)) as He.
  pose proof (rne_half_ulp y (Z.log2_up X) ltac:(lia) ltac:(rewrite Rabs_pos_eq; lra)) as Hr.
  replace (bpow radix2 (Z.log2_up X - 25)) with (gap X / 2) in Hr.
  - apply Rabs_le_inv in Hr. lra.
  - unfold gap. replace (Z.log2_up X - 24)%Z with (1 + (Z.log2_up X - 25))%Z by lia. rewrite bpow_plus.
    change (bpow radix2 1) with 2. lra.
Qed.

(** the sum of m numbers below K stays below m * K *)
Lemma gap_add M K : (1 <= K)%Z -> (K <= M)%Z -> gap (M + K) <= 2 * gap M.
Proof.
  intros HK HM. unfold gap. replace 2 with (bpow radix2 1) by reflexivity. rewrite <- bpow_plus. apply bpow_le.
  assert (Z.log2_up (M + K) <= Z.log2_up M + 1)%Z; [|lia].
  apply Z.log2_up_le_pow2; [lia|]. rewrite Z.pow_add_r by (apply Z.log2_up_nonneg || lia).
  assert (M <= 2 ^ Z.log2_up M)%Z by (apply (proj2 (Z.log2_up_le_pow2 M (Z.log2_up M) ltac:(lia))); lia). lia.
Qed.
Lemma sum_below K N : (1 <= K)%Z -> (N * K <= 2 ^ 24)%Z ->
  forall xs s m, (1 <= m)%Z -> (m + Z.of_nat (length xs) <= N)%Z ->
  Forall (fun v => is_finite v = true /\ 0 <= B2R v < IZR K) xs ->
  is_finite s = true -> 0 <= B2R s < IZR (m * K) ->
  B2R (fold_left fadd xs s) < IZR ((m + Z.of_nat (length xs)) * K).
Proof.
  intros HK HN. induction xs as [|v xs IH]; intros s m Hm Hl Hv Hs Hb.
  - cbn [length fold_left]. rewrite Z.add_0_r. tauto.
  - cbn [length fold_left] in *. inversion Hv as [|? ? (Hvf & Hvb) Hv']; subst.
    assert (HmK : (m * K <= N * K)%Z) by (apply Z.mul_le_mono_nonneg_r; lia).
    assert (Hm1K : ((m + 1) * K <= N * K)%Z) by (apply Z.mul_le_mono_nonneg_r; lia).
    assert (HKm : (K <= m * K)%Z) by (rewrite <- (Z.mul_1_l K) at 1; apply Z.mul_le_mono_nonneg_r; lia).
    assert (E1 : ((m + 1) * K = m * K + K)%Z) by ring.
    pose proof (below_int (B2R s) (m * K) ltac:(lia) (generic_format_B2R 24 128 s) ltac:(lra)) as B1.
    pose proof (gap_add (m * K) K HK HKm) as G. pose proof (gap_pos (m * K)) as G1.
    assert (Hup : IZR (m * K + K) <= bpow radix2 100).
    { apply Rle_trans with (bpow radix2 24); [|apply bpow_le; lia]. rewrite <- (IZR_pow 24) by lia. apply IZR_le; lia. }
    rewrite plus_IZR in Hup.
    destruct (fadd_val s v Hs Hvf) as [E F]; [rewrite Rabs_pos_eq; lra|].
    replace (m + Z.of_nat (S (length xs)))%Z with (m + 1 + Z.of_nat (length xs))%Z by lia.
    apply IH; [lia|lia|exact Hv'|exact F|]. rewrite E. split.
    + rewrite <- (rne_id 0 fmt_0). apply rne_le; lra.
    + rewrite E1. apply rne_below; [lia|lra|]. rewrite plus_IZR. lra.
Qed.
Lemma fadd_zero v : is_finite v = true -> Rabs (B2R v) <= bpow radix2 100 ->
  B2R (fadd fzero v) = B2R v /\ is_finite (fadd fzero v) = true.
Proof.
  intros Hf Hb. destruct (fadd_val fzero v eq_refl Hf) as [E F]; change (B2R fzero) with 0 in *; rewrite Rplus_0_l in *.
  - exact Hb.
  - split; [|exact F]. rewrite E. apply rne_id. apply (generic_format_B2R 24 128 v).
Qed.

Lemma favg_slab xs (k : Z) (dep : nat) : xs <> [] -> (0 <= k < 2 ^ Z.of_nat dep)%Z ->
  (Z.of_nat (length xs) * 2 ^ Z.of_nat dep <= 2 ^ 24)%Z ->
  Forall (fun v => is_finite v = true /\ IZR k <= B2R v < IZR k + 1) xs ->
  in_slab k (favg xs).
Proof.
  intros Hne Hk Hn Hv. set (n := Z.of_nat (length xs)) in *.
  assert (Hn1 : (1 <= n)%Z) by (destruct xs; [congruence|cbn [length] in n; lia]).
  assert (Hkr : 0 <= IZR k) by (apply (IZR_le 0); lia).
  assert (Hk1 : IZR (k + 1) = IZR k + 1) by (rewrite plus_IZR; reflexivity).
  assert (Hnk : (n * (k + 1) <= 2 ^ 24)%Z) by (apply Z.le_trans with (2 := Hn); apply Z.mul_le_mono_nonneg_l; lia).
  assert (Hn24 : (n <= 2 ^ 24)%Z) by (apply Z.le_trans with (2 := Hnk); rewrite <- (Z.mul_1_r n) at 1; apply Z.mul_le_mono_nonneg_l; lia).
  assert (Hk24 : (k + 1 <= n * (k + 1))%Z) by (rewrite <- (Z.mul_1_l (k + 1)) at 1; apply Z.mul_le_mono_nonneg_r; lia).
  assert (Hk24r : IZR k + 1 <= bpow radix2 24) by (rewrite <- Hk1, <- IZR_pow by lia; apply IZR_le; lia).
  destruct (fsum_between (IZR k) (IZR k + 1) xs Hkr ltac:(lra)) as [Fs Bs].
  - rewrite INR_IZR_INZ. fold n. rewrite <- Hk1, <- mult_IZR. apply Rle_trans with (bpow radix2 24); [|apply bpow_le; lia].
    rewrite <- IZR_pow by lia. apply IZR_le; exact Hnk.
  - intros m Hm. fold n in Hm. rewrite <- Hk1, <- !mult_IZR.
    assert (m * (k + 1) <= n * (k + 1))%Z by (apply Z.mul_le_mono_nonneg_r; lia).
    assert (0 <= m * k)%Z by (apply Z.mul_nonneg_nonneg; lia).
    assert (m * k <= m * (k + 1))%Z by (apply Z.mul_le_mono_nonneg_l; lia).
    split; apply fmt_int; lia.
  - eapply Forall_impl; [|exact Hv]. cbn beta. intros v (H1 & H2). split; [exact H1|lra].
  - rewrite INR_IZR_INZ in Bs. fold n in Bs.
    assert (Bt : B2R (fsum xs) < IZR (n * (k + 1))).
    { unfold fsum. destruct xs as [|v xs]; [congruence|]. cbn [fold_left]. inversion Hv as [|? ? (Hvf & Hvb) Hv']; subst.
      destruct (fadd_zero v Hvf) as [E0 F0].
      { rewrite Rabs_pos_eq by lra. apply Rle_trans with (bpow radix2 24); [lra|apply bpow_le; lia]. }
      assert (En : n = (1 + Z.of_nat (length xs))%Z) by (unfold n; cbn [length]; lia). rewrite En.
      apply (sum_below (k + 1) n); [lia|exact Hnk|lia|lia| |exact F0|].
      - eapply Forall_impl; [|exact Hv']. cbn beta. intros u (H1 & H2). split; [exact H1|lra].
      - rewrite E0, Z.mul_1_l, Hk1. lra. }
    pose proof (below_int (B2R (fsum xs)) (n * (k + 1)) ltac:(lia) (generic_format_B2R 24 128 (fsum xs)) Bt) as Bp.
    destruct (fcount_val n ltac:(lia)) as [Ec Fc].
    assert (Hnr : 1 <= IZR n) by (apply IZR_le; exact Hn1).
    assert (Hb : IZR k <= B2R (fsum xs) / IZR n).
    { apply Rmult_le_reg_r with (IZR n); try lra; unfold Rdiv; rewrite Rmult_assoc, Rinv_l by lra; lra. }
    assert (Hgap : gap (k + 1) / 2 * IZR n < gap (n * (k + 1))).
    { pose proof (le_log2_up (n * (k + 1)) ltac:(lia)) as L1. pose proof (gt_log2_up (k + 1) ltac:(lia)) as L2.
      unfold gap. unfold Zminus in *. rewrite !bpow_plus. rewrite bpow_plus in L2. rewrite mult_IZR in L1.
      change (bpow radix2 (- (1))) with (/ 2) in L2. set (h := bpow radix2 (- (24))). assert (0 < h) by apply bpow_gt_0.
      set (B := bpow radix2 (Z.log2_up (k + 1))) in *. set (A := bpow radix2 (Z.log2_up (n * (k + 1)))) in *.
      apply Rlt_le_trans with (IZR n * IZR (k + 1) * h); [|apply Rmult_le_compat_r; [lra|exact L1]].
      replace (B * h / 2 * IZR n) with (IZR n * (B * / 2) * h) by field.
      apply Rmult_lt_compat_r; [lra|]. apply Rmult_lt_compat_l; lra. }
    assert (Hu : B2R (fsum xs) / IZR n < IZR (k + 1) - gap (k + 1) / 2).
    { apply Rmult_lt_reg_r with (IZR n); [lra|]. unfold Rdiv at 1. rewrite Rmult_assoc, Rinv_l by lra.
      rewrite mult_IZR in Bp. rewrite Rmult_minus_distr_r. lra. }
    pose proof (gap_pos (k + 1)) as Gk.
    destruct (fdiv_val (fsum xs) (fcount n) Fs) as [Ed Fd]; rewrite ?Ec.
    + lra.
    + rewrite Rabs_pos_eq by lra. apply Rle_trans with (bpow radix2 24); [lra|apply bpow_le; lia].
    + unfold in_slab. change (favg xs) with (fdiv (fsum xs) (fcount n)). split; [exact Fd|]. rewrite Ed, Ec. split.
      * rewrite <- (rne_id (IZR k)) by (apply fmt_int; lia). apply rne_le; lra.
      * rewrite <- Hk1. apply rne_below; [lia|lra|exact Hu].
Qed.

(** ** distance from the exact mean *)
Lemma sum_error (dep j : nat) : (dep <= 40)%nat -> (j <= 24)%nat ->
  forall xs s m, (0 <= m)%Z -> (m + Z.of_nat (length xs) <= 2 ^ Z.of_nat j)%Z ->
  Forall (fun v => is_finite v = true /\ 0 <= B2R v <= bpow radix2 (Z.of_nat dep)) xs ->
  is_finite s = true -> 0 <= B2R s <= IZR m * bpow radix2 (Z.of_nat dep) ->
  Rabs (B2R (fold_left fadd xs s) - (B2R s + fold_right Rplus 0 (map B2R xs)))
  <= INR (length xs) * bpow radix2 (Z.of_nat (j + dep) - 25).
Proof.
  intros Hd Hj. induction xs as [|v xs IH]; intros s m Hm Hl Hv Hs Hb.
  - cbn [length fold_left map fold_right]. rewrite Rplus_0_r. replace (B2R s - B2R s) with 0 by ring.
    rewrite Rabs_R0. cbn. lra.
  - cbn [length fold_left map fold_right] in *. inversion Hv as [|? ? (Hvf & Hvb) Hv']; subst.
    set (w := bpow radix2 (Z.of_nat dep)) in *.
    assert (Hw : 0 <= w) by apply bpow_ge_0.
    assert (Hm1 : IZR (m + 1) = IZR m + 1) by (rewrite plus_IZR; reflexivity).
    assert (Hmp : 0 <= IZR m) by (apply (IZR_le 0); exact Hm).
    assert (HmN : IZR (m + 1) <= bpow radix2 (Z.of_nat j)) by (rewrite <- IZR_pow by lia; apply IZR_le; lia).
    assert (Hsb : 0 <= B2R s + B2R v <= IZR (m + 1) * w) by (rewrite Hm1; lra).
    assert (Hup : IZR (m + 1) * w <= bpow radix2 (Z.of_nat (j + dep))).
    { rewrite Nat2Z.inj_add, bpow_plus. apply Rmult_le_compat_r; assumption. }
    assert (Hj24 : (2 ^ Z.of_nat j <= 2 ^ 24)%Z) by (apply Z.pow_le_mono_r; lia).
    destruct (fadd_val s v Hs Hvf) as [E F].
    { rewrite Rabs_pos_eq by lra. eapply Rle_trans; [|apply (bpow_le radix2 (Z.of_nat (j + dep))); lia]. lra. }
    specialize (IH (fadd s v) (m + 1)%Z ltac:(lia) ltac:(lia) Hv' F).
    assert (Hb' : 0 <= B2R (fadd s v) <= IZR (m + 1) * w).
    { rewrite E. split.
      - rewrite <- (rne_id 0 fmt_0). apply rne_le; lra.
      - rewrite <- (rne_id (IZR (m + 1) * w)) by (apply fmt_scaled; lia). apply rne_le; lra. }
    specialize (IH Hb').
    assert (He : Rabs (rne (B2R s + B2R v) - (B2R s + B2R v)) <= bpow radix2 (Z.of_nat (j + dep) - 25)).
    { apply rne_half_ulp; [lia|]. rewrite Rabs_pos_eq; lra. }
    rewrite S_INR. rewrite <- E in He. set (h := bpow radix2 (Z.of_nat (j + dep) - 25)) in *.
    apply Rabs_le_inv in IH. apply Rabs_le_inv in He. apply Rabs_le. lra.
Qed.

Lemma favg_error (dep j : nat) xs : (dep <= 40)%nat -> (j <= 24)%nat -> xs <> [] ->
  (Z.of_nat (length xs) <= 2 ^ Z.of_nat j)%Z ->
  Forall (fun v => is_finite v = true /\ 0 <= B2R v <= bpow radix2 (Z.of_nat dep)) xs ->
  is_finite (favg xs) = true /\
  Rabs (B2R (favg xs) - mean (map B2R xs)) <= (2 ^ j + 1) * bpow radix2 (Z.of_nat dep - 25).
Proof.
  intros Hd Hj Hne Hn Hv. set (n := Z.of_nat (length xs)) in *.
  assert (Hn1 : (1 <= n)%Z) by (destruct xs; [congruence|cbn [length] in n; lia]).
  assert (Hj24 : (2 ^ Z.of_nat j <= 2 ^ 24)%Z) by (apply Z.pow_le_mono_r; lia).
  pose proof (sum_error dep j Hd Hj xs fzero 0%Z ltac:(lia) ltac:(fold n; lia) Hv eq_refl ltac:(cbn; lra)) as He.
  fold (fsum xs) in He. change (B2R fzero) with 0 in He. rewrite Rplus_0_l in He.
  set (w := bpow radix2 (Z.of_nat dep)) in *. assert (Hw : 0 < w) by apply bpow_gt_0.
  assert (Hnr : 1 <= IZR n) by (apply IZR_le; exact Hn1).
  assert (Hnj : IZR n <= bpow radix2 (Z.of_nat j)) by (rewrite <- IZR_pow by lia; apply IZR_le; lia).
  destruct (fsum_between 0 w xs ltac:(lra) ltac:(lra)) as [Fs Bs].
  - rewrite INR_IZR_INZ. fold n. apply Rle_trans with (bpow radix2 (Z.of_nat j + Z.of_nat dep)); [|apply bpow_le; lia].
    rewrite bpow_plus. apply Rmult_le_compat_r; [apply bpow_ge_0|exact Hnj].
  - intros m Hm. fold n in Hm. rewrite Rmult_0_r. split; [apply fmt_0|apply fmt_scaled; lia].
  - exact Hv.
  - rewrite INR_IZR_INZ in Bs, He. fold n in Bs, He.
    destruct (fcount_val n ltac:(lia)) as [Ec Fc].
    assert (Hb : 0 <= B2R (fsum xs) / IZR n <= w).
    { split; apply Rmult_le_reg_r with (IZR n); try lra; unfold Rdiv; rewrite Rmult_assoc, Rinv_l by lra; lra. }
    destruct (fdiv_val (fsum xs) (fcount n) Fs) as [Ed Fd]; rewrite ?Ec.
    + lra.
    + rewrite Rabs_pos_eq by lra. apply Rle_trans with w; [lra|apply bpow_le; lia].
    + change (favg xs) with (fdiv (fsum xs) (fcount n)). split; [exact Fd|]. rewrite Ed, Ec. unfold mean. rewrite map_length, INR_IZR_INZ. fold n.
      assert (Hr : Rabs (rne (B2R (fsum xs) / IZR n) - B2R (fsum xs) / IZR n) <= bpow radix2 (Z.of_nat dep - 25)).
      { apply rne_half_ulp; [lia|]. fold w. rewrite Rabs_pos_eq; lra. }
      rewrite Nat2Z.inj_add in He. replace (Z.of_nat j + Z.of_nat dep - 25)%Z with (Z.of_nat j + (Z.of_nat dep - 25))%Z in He by lia.
      rewrite bpow_plus, <- pow_bpow in He. set (h := bpow radix2 (Z.of_nat dep - 25)) in *.
      set (S := fold_right Rplus 0 (map B2R xs)) in *.
      assert (Hs : Rabs (B2R (fsum xs) / IZR n - S / IZR n) <= 2 ^ j * h).
      { replace (B2R (fsum xs) / IZR n - S / IZR n) with ((B2R (fsum xs) - S) * / IZR n) by (field; lra).
        rewrite Rabs_mult, (Rabs_pos_eq (/ IZR n)) by (left; apply Rinv_0_lt_compat; lra).
        apply Rmult_le_reg_r with (IZR n); [lra|]. rewrite Rmult_assoc, Rinv_l by lra. lra. }
      apply Rabs_le_inv in Hr. apply Rabs_le_inv in Hs. apply Rabs_le. lra.
Qed.

(** ** the stored points, node by node *)
Lemma fold_v3 (l : list (v3 f32)) a b c :
  fold_left (v3zip fadd) l (a, b, c)
  = (fold_left fadd (map (fun '(x, _, _) => x) l) a, fold_left fadd (map (fun '(_, y, _) => y) l) b,
     fold_left fadd (map (fun '(_, _, z) => z) l) c).
Proof.
  revert a b c. induction l as [|[[x y] z] l IH]; intros a b c; [reflexivity|].
  cbn [fold_left map v3zip]. apply IH.
Qed.

Definition avg32 (rows : list (v3 f32)) : v3 f32 :=
  (favg (map (fun '(x, _, _) => x) rows), favg (map (fun '(_, y, _) => y) rows), favg (map (fun '(_, _, z) => z) rows)).

Lemma point_key32_ok dep p (ob : option Z) : (dep <= 16)%nat -> safe_point32 p ->
  (forall b, ob = Some b -> (0 <= b < 2 ^ 15)%Z) ->
  exists x y z b, in_cube dep x y z /\ point_key32 dep p ob = Ok (key_of dep b x y z) /\
    v3map (cell32 dep) p = (Some x, Some y, Some z).
Proof.
  destruct p as [[px py] pz]. intros Hd (Hx & Hy & Hz) Hb.
  destruct (cell32_range dep px ltac:(lia) Hx) as (x & Ex & Rx & _).
  destruct (cell32_range dep py ltac:(lia) Hy) as (y & Ey & Ry & _).
  destruct (cell32_range dep pz ltac:(lia) Hz) as (z & Ez & Rz & _).
  exists x, y, z. unfold point_key32. cbn [v3map]. rewrite Ex, Ey, Ez. destruct ob as [b|].
  - specialize (Hb b eq_refl). exists b. rewrite xyz2key_b by lia. repeat split; auto; apply Rx || apply Ry || apply Rz.
  - exists 0%Z. rewrite xyz2key_morton by lia. unfold key_of. rewrite Z.mul_0_l, Z.add_0_l. repeat split; auto; apply Rx || apply Ry || apply Rz.
Qed.

(** every point together with its key *)
Definition tagged (dep : nat) (p : v3 f32) (k : Z) : Prop :=
  exists x y z b, in_cube dep x y z /\ k = key_of dep b x y z /\ v3map (cell32 dep) p = (Some x, Some y, Some z).

Lemma mapM_exists {A B} (f : A -> res B) (P : A -> B -> Prop) l :
  (forall a, In a l -> exists b, f a = Ok b /\ P a b) -> exists m, mapM f l = Ok m /\ Forall2 P l m.
Proof.
  induction l as [|a l IH]; intros H; [exists []; split; [reflexivity|constructor]|].
  destruct (H a (or_introl eq_refl)) as (b & E & Pb).
  destruct (IH (fun x Hx => H x (or_intror Hx))) as (m & Em & Pm).
  exists (b :: m). cbn [mapM]. rewrite E. cbn [bind]. rewrite Em. split; [reflexivity|constructor; assumption].
Qed.

Lemma keys32_ok dep pts batch : (dep <= 16)%nat -> Forall safe_point32 pts -> good_ids (length pts) batch ->
  exists keys, keys32 dep pts batch = Ok keys /\ Forall2 (tagged dep) pts keys.
Proof.
  intros Hd Hs Hg. rewrite Forall_forall in Hs. destruct batch as [ids|]; cbn [good_ids keys32] in *.
  - destruct Hg as [Hl Hr]. rewrite Hl, Nat.eqb_refl.
    destruct (mapM_exists (fun pb => point_key32 dep (fst pb) (Some (snd pb))) (fun pb k => tagged dep (fst pb) k)
      (combine pts ids)) as (m & E & F).
    + intros [p b] Hin. cbn [fst snd]. rewrite Forall_forall in Hr.
      destruct (point_key32_ok dep p (Some b) Hd) as (x & y & z & b' & H1 & H2 & H3).
      * apply Hs. eapply in_combine_l; exact Hin.
      * intros b0 [= <-]. apply Hr. eapply in_combine_r; exact Hin.
      * eexists. split; [exact H2|]. unfold tagged. eauto 10.
    + exists m. split; [exact E|]. clear E Hs Hr. revert ids m Hl F.
      induction pts as [|p pts IH]; intros [|i ids] m Hl F; cbn [length combine] in *; try discriminate.
      * inversion F. constructor.
      * inversion F; subst. constructor; [assumption|]. eapply IH; [|eassumption]. congruence.
  - apply mapM_exists. intros p Hin.
    destruct (point_key32_ok dep p None Hd (Hs p Hin)) as (x & y & z & b' & H1 & H2 & H3); [discriminate|].
    eexists. split; [exact H2|]. unfold tagged. eauto 10.
Qed.

Lemma rows_tagged {A} (P : A -> Z -> Prop) keys k (src : list A) : Forall2 P src keys ->
  Forall (fun a => P a k) (rows_at keys k src).
Proof.
  intros H. unfold rows_at. induction H as [|a t src keys Ha H IH]; [constructor|].
  cbn [combine filter fst]. destruct (Z.eqb_spec t k) as [->|]; [|exact IH].
  cbn [map snd]. constructor; assumption.
Qed.
Lemma rows_nonempty {A} keys k (src : list A) : length src = length keys -> In k keys -> rows_at keys k src <> [].
Proof.
  unfold rows_at. revert src. induction keys as [|t keys IH]; intros [|a src] Hl Hin; cbn [length] in *; try discriminate; [contradiction|].
  cbn [combine filter fst]. destruct (Z.eqb_spec t k) as [->|N]; [discriminate|].
  destruct Hin as [E|Hin]; [congruence|]. apply IH; [congruence|exact Hin].
Qed.
Lemma rows_length_count {A} keys k (src : list A) : length src = length keys ->
  length (filter (Z.eqb k) keys) = length (rows_at keys k src).
Proof.
  unfold rows_at. rewrite map_length. revert src.
  induction keys as [|t keys IH]; intros [|a src] Hl; cbn [length] in *; try discriminate; [reflexivity|].
  cbn [combine filter fst]. rewrite (Z.eqb_sym k t). destruct (t =? k)%Z; cbn [length]; rewrite (IH src) by congruence; reflexivity.
Qed.

Lemma node_points32_ok dep pts batch keys : length keys = length pts -> keys32 dep pts batch = Ok keys ->
  node_points32 dep pts batch
  = Ok (sort_uniq keys, map (fun k => avg32 (map (rescale32 dep) (rows_at keys k pts))) (sort_uniq keys)).
Proof.
  intros Hl E. unfold node_points32. rewrite E. cbn [bind unique].
  change (map (fun k => match index_of k (sort_uniq keys) with Some i => Z.of_nat i | None => (-1)%Z end) keys) with (inverse_of keys).
  rewrite scatter_unique by (rewrite map_length; congruence). cbn [bind]. f_equal. f_equal.
  unfold zip_with. induction (sort_uniq keys) as [|k ks IH]; [reflexivity|].
  cbn [map combine fst snd]. f_equal; [|exact IH].
  rewrite (rows_length_count keys k pts) by congruence.
  rewrite <- (map_length (rescale32 dep) (rows_at keys k pts)).
  rewrite rows_at_map, fold_v3. cbn [v3map]. unfold avg32, favg, fsum. rewrite !map_length. reflexivity.
Qed.

(** one coordinate of one point *)
Lemma frescale_slab dep c x : (dep <= 16)%nat -> safe32 c -> cell32 dep c = Some x ->
  is_finite (frescale dep c) = true /\ IZR x <= B2R (frescale dep c) < IZR x + 1 /\
  0 <= B2R (frescale dep c) <= bpow radix2 (Z.of_nat dep) /\
  Rabs (B2R (frescale dep c) - units dep c) <= bpow radix2 (Z.of_nat dep - 25).
Proof.
  intros Hd Hs Hx. destruct (safe_le c Hs) as (Hf & Hb & Hlt).
  destruct (fadd_one c Hf Hb) as (_ & _ & Hr).
  rewrite cell32_val in Hx by (assumption || lia). injection Hx as <-.
  destruct (frescale_val dep c ltac:(lia) Hf Hb) as [Hv Hvf]. rewrite Hv.
  split; [exact Hvf|]. set (w := bpow radix2 (Z.of_nat dep - 1)). assert (Hw : 0 < w) by apply bpow_gt_0.
  assert (Hw2 : bpow radix2 (Z.of_nat dep) = 2 * w).
  { unfold w. replace (Z.of_nat dep) with (1 + (Z.of_nat dep - 1))%Z at 1 by lia. rewrite bpow_plus. reflexivity. }
  split; [split; [apply Zfloor_lb|apply Zfloor_ub]|]. split; [rewrite Hw2; split; [apply Rmult_le_pos; lra|apply Rmult_le_compat_r; lra]|].
  unfold units. rewrite pow_bpow, Hw2. destruct Hs as (_ & H0 & H1). rewrite inv24 in H1. pose proof (bpow_ge_0 radix2 (-24)).
  pose proof (rne_err (B2R c + 1) ltac:(lra)) as He.
  replace (rne (B2R c + 1) * w - (B2R c + 1) / 2 * (2 * w)) with ((rne (B2R c + 1) - (B2R c + 1)) * w) by field.
  rewrite Rabs_mult, (Rabs_pos_eq w) by lra.
  replace (Z.of_nat dep - 25)%Z with (-24 + (Z.of_nat dep - 1))%Z by lia. rewrite bpow_plus. fold w.
  apply Rmult_le_compat_r; lra.
Qed.

Lemma mean_close {A} (f g : A -> R) eps l : l <> [] -> Forall (fun a => Rabs (f a - g a) <= eps) l ->
  Rabs (mean (map f l) - mean (map g l)) <= eps.
Proof.
  intros Hne H. unfold mean. rewrite !map_length.
  assert (Hn : 0 < INR (length l)) by (apply lt_0_INR; destruct l; [congruence|cbn; lia]).
  assert (Hs : Rabs (fold_right Rplus 0 (map f l) - fold_right Rplus 0 (map g l)) <= INR (length l) * eps).
  { clear Hne Hn. induction H as [|a l Ha H IH]; [cbn [map fold_right length INR]; rewrite Rminus_0_r, Rabs_R0; lra|].
    cbn [map fold_right length]. rewrite S_INR. apply Rabs_le_inv in Ha. apply Rabs_le_inv in IH. apply Rabs_le. lra. }
  unfold Rdiv. rewrite <- Rmult_minus_distr_r, Rabs_mult, (Rabs_pos_eq (/ _)) by (left; apply Rinv_0_lt_compat; exact Hn).
  apply Rmult_le_reg_r with (INR (length l)); [exact Hn|]. rewrite Rmult_assoc, Rinv_l by lra. lra.
Qed.

Section Axis.
  Variables (dep : nat) (pr : v3 f32 -> f32) (rows : list (v3 f32)) (x : Z).
  Hypothesis Hd : (dep <= 16)%nat.
  Hypothesis Hne : rows <> [].
  Hypothesis Hs : Forall (fun p => safe32 (pr p) /\ cell32 dep (pr p) = Some x) rows.
  Let xs := map (fun p => frescale dep (pr p)) rows.

  Lemma axis_vals : Forall (fun p => is_finite (frescale dep (pr p)) = true /\
     IZR x <= B2R (frescale dep (pr p)) < IZR x + 1 /\ 0 <= B2R (frescale dep (pr p)) <= bpow radix2 (Z.of_nat dep) /\
     Rabs (B2R (frescale dep (pr p)) - units dep (pr p)) <= bpow radix2 (Z.of_nat dep - 25)) rows.
  Proof. eapply Forall_impl; [|exact Hs]. intros p (H1 & H2). apply frescale_slab; assumption. Qed.

  Lemma axis_slab : (0 <= x < 2 ^ Z.of_nat dep)%Z -> (Z.of_nat (length rows) * 2 ^ Z.of_nat dep <= 2 ^ 24)%Z ->
    in_slab x (favg xs).
  Proof.
    intros Hx Hn. apply favg_slab with dep; [|exact Hx|unfold xs; rewrite map_length; exact Hn|].
    - unfold xs. intros E. apply map_eq_nil in E. congruence.
    - unfold xs. rewrite Forall_map. eapply Forall_impl; [|exact axis_vals]. cbn. tauto.
  Qed.

  Lemma axis_error (j : nat) : (j <= 24)%nat -> (Z.of_nat (length rows) <= 2 ^ Z.of_nat j)%Z ->
    Rabs (B2R (favg xs) - mean (map (fun p => units dep (pr p)) rows)) <= (2 ^ j + 2) * 2 ^ dep / 2 ^ 25.
  Proof.
    intros Hj Hn.
    destruct (favg_error dep j xs) as [_ He]; [lia|exact Hj| | | |].
    - unfold xs. intros E. apply map_eq_nil in E. congruence.
    - unfold xs. rewrite map_length. exact Hn.
    - unfold xs. rewrite Forall_map. eapply Forall_impl; [|exact axis_vals]. cbn. tauto.
    - unfold xs in He at 2. rewrite map_map in He.
      pose proof (mean_close (fun p => B2R (frescale dep (pr p))) (fun p => units dep (pr p))
        (bpow radix2 (Z.of_nat dep - 25)) rows Hne) as Hm.
      specialize (Hm ltac:(eapply Forall_impl; [|exact axis_vals]; cbn; tauto)).
      assert (Hh : bpow radix2 (Z.of_nat dep - 25) = 2 ^ dep / 2 ^ 25).
      { unfold Zminus. rewrite bpow_plus, <- pow_bpow. unfold Rdiv. f_equal. rewrite (pow_bpow 25), <- bpow_opp. reflexivity. }
      rewrite Hh in *. replace ((2 ^ j + 2) * 2 ^ dep / 2 ^ 25) with ((2 ^ j + 1) * (2 ^ dep / 2 ^ 25) + 2 ^ dep / 2 ^ 25) by (unfold Rdiv; ring).
      apply Rabs_le_inv in He. apply Rabs_le_inv in Hm. apply Rabs_le. lra.
  Qed.
End Axis.
