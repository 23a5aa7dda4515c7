(** Proofs about normalisation in single precision. *)
From Coq Require Import List ZArith Bool Reals Lra Lia QArith Qcanon Qreals.
From Flocq Require Import Core.Core IEEE754.BinarySingleNaN.
From Flocq Require Import Relative.
From Verif Require Import Res Num Points Float32 FloatMean SpecSingle FloatFacts FloatMeanFacts FloatMeanThms PointsOps NormFloat SpecNorm32.
Import ListNotations.
Open Scope R_scope.
Local Existing Instances p24 fex_valid fex_mono.

Lemma fmax_val a b : is_finite a = true -> is_finite b = true -> is_finite (fmax a b) = true /\ B2R (fmax a b) = Rmax (B2R a) (B2R b).
Proof.
  intros Fa Fb. unfold fmax. rewrite Bltb_correct by assumption. case Rlt_bool_spec; intros H; split; try assumption; symmetry.
  - apply Rmax_right. lra.
  - apply Rmax_left. exact H.
Qed.

Section Norm.
  Variable k : Z.
  Hypothesis Hk : (-60 <= k <= 60)%Z.
  Let W := bpow radix2 k.
  Let U := bpow radix2 (k - 25).
  Let W0 : 0 < W. Proof. apply bpow_gt_0. Qed.
  Let U0 : 0 < U. Proof. apply bpow_gt_0. Qed.
  Let WU : W = 33554432 * U.
  Proof. unfold W, U. replace k with (25 + (k - 25))%Z at 1 by lia. rewrite bpow_plus. reflexivity. Qed.
  Let W2 : bpow radix2 (k + 1) = 2 * W.
  Proof. unfold W. rewrite bpow_plus. change (bpow radix2 1) with 2. lra. Qed.
  Let U2 : bpow radix2 (k + 1 - 25) = 2 * U.
  Proof. unfold U. replace (k + 1 - 25)%Z with (1 + (k - 25))%Z by lia. rewrite bpow_plus. reflexivity. Qed.
  Let big e : (e <= 100)%Z -> forall x, Rabs x <= bpow radix2 e -> Rabs x <= bpow radix2 100.
  Proof. intros He x H. eapply Rle_trans; [exact H|]. apply bpow_le. exact He. Qed.

  Section Axis.
    Variables m M : f32.
    Hypothesis Fm : is_finite m = true.
    Hypothesis FM : is_finite M = true.
    Hypothesis Bm : Rabs (B2R m) <= W.
    Hypothesis BM : Rabs (B2R M) <= W.

    Lemma center_near : is_finite (fcenter m M) = true /\ Rabs (B2R (fcenter m M) - (B2R m + B2R M) / 2) <= 2 * U /\ Rabs (B2R (fcenter m M)) <= W.
    Proof.
      apply Rabs_le_inv in Bm, BM. assert (HS : Rabs (B2R m + B2R M) <= bpow radix2 (k + 1)) by (rewrite W2; apply Rabs_le; lra).
      destruct (fadd_val m M Fm FM (big (k + 1)%Z ltac:(lia) _ HS)) as [E F].
      pose proof (rne_half_ulp _ (k + 1) ltac:(lia) HS) as R1. pose proof (rne_bound _ (k + 1) ltac:(lia) HS) as R2. rewrite <- E in R1, R2. rewrite U2 in R1. rewrite W2 in R2.
      destruct fhalf_val as [Eh Fh].
      assert (HT : Rabs (B2R (fadd m M) * B2R fhalf) <= bpow radix2 k) by (rewrite Eh; apply Rabs_le_inv in R2; apply Rabs_le; fold W; lra).
      destruct (fmul_val (fadd m M) fhalf F Fh (big k%Z ltac:(lia) _ HT)) as [E2 F2].
      pose proof (rne_half_ulp _ k ltac:(lia) HT) as R3. pose proof (rne_bound _ k ltac:(lia) HT) as R4. rewrite <- E2 in R3, R4. rewrite Eh in R3. fold U in R3. fold W in R4.
      split; [exact F2|]. split; [|exact R4]. unfold fcenter in *. apply Rabs_le_inv in R1, R3. apply Rabs_le. lra.
    Qed.
    Lemma extent_near : is_finite (fsub M m) = true /\ Rabs (B2R (fsub M m) - (B2R M - B2R m)) <= 2 * U /\ Rabs (B2R (fsub M m)) <= 2 * W /\
      (bpow radix2 (k - 10) <= B2R M - B2R m -> bpow radix2 (k - 10) <= B2R (fsub M m)).
    Proof.
      apply Rabs_le_inv in Bm, BM. assert (HS : Rabs (B2R M - B2R m) <= bpow radix2 (k + 1)) by (rewrite W2; apply Rabs_le; lra).
      destruct (fsub_val M m FM Fm (big (k + 1)%Z ltac:(lia) _ HS)) as [E F].
      pose proof (rne_half_ulp _ (k + 1) ltac:(lia) HS) as R1. pose proof (rne_bound _ (k + 1) ltac:(lia) HS) as R2. rewrite <- E in R1, R2. rewrite U2 in R1. rewrite W2 in R2.
      split; [exact F|]. split; [exact R1|]. split; [exact R2|]. intros H. rewrite E, <- (rne_id (bpow radix2 (k - 10))) by (apply fmt_bpow; lia). apply rne_le. exact H.
    Qed.
    Lemma offset_near c X : between m M c -> B2R (fsub M m) <= X -> is_finite (fsub c (fcenter m M)) = true /\
      Rabs (B2R (fsub c (fcenter m M))) <= X / 2 + 5 * U.
    Proof.
      intros [Fc Hc] HX. destruct center_near as (Fe & E1 & E2). destruct extent_near as (_ & E3 & _ & _).
      apply Rabs_le_inv in Bm, BM, E1, E2, E3.
      assert (HS : Rabs (B2R c - B2R (fcenter m M)) <= bpow radix2 (k + 1)) by (rewrite W2; apply Rabs_le; lra).
      destruct (fsub_val c (fcenter m M) Fc Fe (big (k + 1)%Z ltac:(lia) _ HS)) as [E F]. pose proof (rne_half_ulp _ (k + 1) ltac:(lia) HS) as R1. rewrite <- E, U2 in R1.
      split; [exact F|]. apply Rabs_le_inv in R1. apply Rabs_le. lra.
    Qed.
  End Axis.

  Variables (X s2 : f32).
  Hypothesis FX : is_finite X = true.
  Hypothesis XL : bpow radix2 (k - 10) <= B2R X.
  Hypothesis XH : B2R X <= 2 * W.
  Hypothesis Fs : is_finite s2 = true.
  Hypothesis Bs : 0 <= B2R s2 <= 2.
  Let L := bpow radix2 (k - 10).
  Let L0 : 0 < L. Proof. apply bpow_gt_0. Qed.
  Let LU : L = 32768 * U.
  Proof. unfold L, U. replace (k - 10)%Z with (15 + (k - 25))%Z by lia. rewrite bpow_plus. reflexivity. Qed.

  Lemma box_above : is_finite (fadd X feps6) = true /\ B2R X <= B2R (fadd X feps6).
  Proof.
    assert (Ee : 0 <= B2R feps6 <= 1) by (unfold feps6, B2R, F2R; cbn; lra).
    assert (HS : Rabs (B2R X + B2R feps6) <= bpow radix2 100).
    { assert (bpow radix2 k <= bpow radix2 60) by (apply bpow_le; lia). fold W in H.
      assert (2 * bpow radix2 60 + 1 <= bpow radix2 100) by (cbn; lra). fold L in XL. apply Rabs_le. lra. }
    destruct (fadd_val X feps6 FX eq_refl HS) as [E F]. split; [exact F|]. rewrite E.
    rewrite <- (rne_id (B2R X)) at 1; [|pose proof (generic_format_B2R 24 128 X) as G; change (SpecFloat.fexp 24 128) with fex in G; exact G].
    apply rne_le. lra.
  Qed.
  Let V := bpow radix2 (- k - 15).
  Let VU : V * U = / 1099511627776.
  Proof. unfold V, U. rewrite <- bpow_plus. replace (- k - 15 + (k - 25))%Z with (-40)%Z by lia. reflexivity. Qed.
  Let V0 : 0 < V. Proof. apply bpow_gt_0. Qed.
  Let Linv : / L = 33554432 * V.
  Proof. unfold L, V. rewrite <- bpow_opp. replace (- (k - 10))%Z with (25 + (- k - 15))%Z by lia. rewrite bpow_plus. reflexivity. Qed.

  Lemma factor_near : let f := fmul (fdiv fone (fadd X feps6)) s2 in
    is_finite f = true /\ 0 <= B2R f <= B2R s2 / B2R X + 4 * V.
  Proof.
    destruct box_above as [FB HB]. set (Bx := fadd X feps6) in *. fold L in XL.
    assert (H1 : 0 < / B2R Bx <= / B2R X) by (split; [apply Rinv_0_lt_compat; lra|apply Rinv_le; lra]).
    assert (H2 : / B2R X <= / L) by (apply Rinv_le; lra).
    assert (HS : Rabs (B2R fone / B2R Bx) <= bpow radix2 (10 - k)).
    { rewrite fone_val. unfold Rdiv. rewrite Rmult_1_l, Rabs_pos_eq by lra. replace (bpow radix2 (10 - k)) with (/ L); [lra|]. unfold L. rewrite <- bpow_opp. f_equal. lia. }
    destruct (fdiv_val fone Bx fone_fin ltac:(lra) (big (10 - k)%Z ltac:(lia) _ HS)) as [E F]. pose proof (rne_half_ulp _ (10 - k) ltac:(lia) HS) as R1.
    pose proof (rne_bound _ (10 - k) ltac:(lia) HS) as R2. rewrite <- E in R1, R2. rewrite fone_val in R1. replace (10 - k - 25)%Z with (- k - 15)%Z in R1 by lia. fold V in R1.
    assert (R0 : 0 <= B2R (fdiv fone Bx)) by (rewrite E, <- (rne_id 0 fmt_0); apply rne_le; rewrite fone_val; lra).
    unfold Rdiv in R1. rewrite Rmult_1_l in R1. set (r := fdiv fone Bx) in *. rewrite Rabs_pos_eq in R2 by exact R0. apply Rabs_le_inv in R1.
    assert (P0 : 0 <= B2R r * B2R s2) by (apply Rmult_le_pos; lra).
    assert (HT : Rabs (B2R r * B2R s2) <= bpow radix2 (11 - k)).
    { rewrite Rabs_pos_eq by exact P0. replace (11 - k)%Z with (10 - k + 1)%Z by lia. rewrite bpow_plus. change (bpow radix2 1) with 2. apply Rmult_le_compat; lra. }
    destruct (fmul_val r s2 F Fs (big (11 - k)%Z ltac:(lia) _ HT)) as [E2 F2]. pose proof (rne_half_ulp _ (11 - k) ltac:(lia) HT) as R3. rewrite <- E2 in R3.
    replace (11 - k - 25)%Z with (1 + (- k - 15))%Z in R3 by lia. rewrite bpow_plus in R3. change (bpow radix2 1) with 2 in R3. fold V in R3.
    cbn zeta. split; [exact F2|]. split; [rewrite E2, <- (rne_id 0 fmt_0); apply rne_le; exact P0|].
    assert (P1 : B2R r * B2R s2 <= (/ B2R X + V) * B2R s2) by (apply Rmult_le_compat_r; lra).
    assert (P2 : V * B2R s2 <= V * 2) by (apply Rmult_le_compat_l; lra).
    apply Rabs_le_inv in R3. unfold Rdiv. lra.
  Qed.
  Lemma norm_near m M c : is_finite m = true -> is_finite M = true -> Rabs (B2R m) <= W -> Rabs (B2R M) <= W -> between m M c -> B2R (fsub M m) <= B2R X ->
    within (B2R s2 / 2 + / 2 ^ 10) (fnorm (fadd X feps6) s2 m M c).
  Proof.
    intros Fm FM Bm BM Hc HX. destruct (offset_near m M Fm FM Bm BM c (B2R X) Hc HX) as [Fo Ho]. destruct factor_near as [Ff Hf]. cbn zeta in Ff, Hf.
    unfold fnorm. set (o := fsub c (fcenter m M)) in *. set (f := fmul (fdiv fone (fadd X feps6)) s2) in *. fold L in XL.
    assert (A : Rabs (B2R o * B2R f) <= (B2R X / 2 + 5 * U) * (B2R s2 / B2R X + 4 * V)).
    { rewrite Rabs_mult, (Rabs_pos_eq (B2R f)) by lra. apply Rmult_le_compat; try lra. apply Rabs_pos. }
    assert (Bd : (B2R X / 2 + 5 * U) * (B2R s2 / B2R X + 4 * V) = B2R s2 / 2 + 5 * (U * / B2R X) * B2R s2 + 2 * (B2R X * V) + 20 * (V * U)) by (field; lra).
    assert (C1 : U * / B2R X <= / 32768).
    { apply Rle_trans with (U * / L); [apply Rmult_le_compat_l; [lra|apply Rinv_le; lra]|]. rewrite LU. apply Req_le. field. lra. }
    assert (C2 : B2R X * V <= 67108864 * (V * U)) by (rewrite WU in XH; apply Rle_trans with (67108864 * U * V); [apply Rmult_le_compat_r; lra|lra]).
    assert (C3 : 0 <= U * / B2R X) by (apply Rmult_le_pos; [lra|apply Rlt_le, Rinv_0_lt_compat; lra]).
    assert (C4 : 5 * (U * / B2R X) * B2R s2 <= 5 * / 32768 * 2) by (apply Rmult_le_compat; lra).
    rewrite Bd in A. rewrite VU in *.
    assert (A2 : Rabs (B2R o * B2R f) <= B2R s2 / 2 + 15 / 32768) by lra.
    assert (A3 : Rabs (B2R o * B2R f) <= bpow radix2 1) by (change (bpow radix2 1) with 2; lra).
    destruct (fmul_val o f Fo Ff (big 1%Z ltac:(lia) _ A3)) as [E F]. pose proof (rne_half_ulp _ 1 ltac:(lia) A3) as R. rewrite <- E in R.
    change (bpow radix2 (1 - 25)) with (/ 16777216) in R. split; [exact F|]. replace (2 ^ 10) with 1024 by ring.
    apply Rabs_le_inv in R, A2. apply Rabs_le. lra.
  Qed.
  Variable D : R.
  Hypothesis XD : Rabs (B2R X - D) <= 2 * U.
  Hypothesis DL : L <= D.
  Hypothesis DH : D <= 2 * W.
  Let T := D + 1 / 10 ^ 6.
  Let E6 : 1 / 10 ^ 6 = / 1000000.
  Proof. replace (10 ^ 6) with 1000000 by ring. lra. Qed.
  Lemma box_near : Rabs (B2R (fadd X feps6) - T) <= / 4096 * T.
  Proof.
    assert (Ee : Rabs (B2R feps6 - / 1000000) <= / 10000000000000) by (unfold feps6, B2R, F2R; cbn; apply Rabs_le; lra).
    apply Rabs_le_inv in XD, Ee. fold L in XL.
    assert (HS : Rabs (B2R X + B2R feps6) <= bpow radix2 100).
    { assert (bpow radix2 k <= bpow radix2 60) by (apply bpow_le; lia). fold W in H.
      assert (2 * bpow radix2 60 + 1 <= bpow radix2 100) by (cbn; lra). apply Rabs_le. lra. }
    destruct (fadd_val X feps6 FX eq_refl HS) as [E _]. rewrite E.
    destruct (relative_error_N_FLT_ex radix2 (-149) 24 eq_refl (fun z => negb (Z.even z)) (B2R X + B2R feps6)) as (e & He & Er).
    { rewrite Rabs_pos_eq by lra. apply Rle_trans with L; [unfold L; apply bpow_le; lia|lra]. }
    change (rne (B2R X + B2R feps6) = (B2R X + B2R feps6) * (1 + e)) in Er. rewrite Er.
    assert (He' : Rabs e <= / 8388608) by (eapply Rle_trans; [exact He|]; cbn; lra).
    assert (HP : Rabs ((B2R X + B2R feps6) * e) <= (B2R X + B2R feps6) * / 8388608).
    { rewrite Rabs_mult, Rabs_pos_eq by lra. apply Rmult_le_compat_l; lra. }
    apply Rabs_le_inv in HP. unfold T. rewrite E6. apply Rabs_le. lra.
  Qed.
  Lemma factor_close : Rabs (B2R (fmul (fdiv fone (fadd X feps6)) s2) - B2R s2 / B2R (fadd X feps6)) <= 4 * V.
  Proof.
    destruct box_above as [FB HB]. set (Bx := fadd X feps6) in *. fold L in XL.
    assert (H1 : 0 < / B2R Bx <= / B2R X) by (split; [apply Rinv_0_lt_compat; lra|apply Rinv_le; lra]).
    assert (H2 : / B2R X <= / L) by (apply Rinv_le; lra).
    assert (HS : Rabs (B2R fone / B2R Bx) <= bpow radix2 (10 - k)).
    { rewrite fone_val. unfold Rdiv. rewrite Rmult_1_l, Rabs_pos_eq by lra. replace (bpow radix2 (10 - k)) with (/ L); [lra|]. unfold L. rewrite <- bpow_opp. f_equal. lia. }
    destruct (fdiv_val fone Bx fone_fin ltac:(lra) (big (10 - k)%Z ltac:(lia) _ HS)) as [E F]. pose proof (rne_half_ulp _ (10 - k) ltac:(lia) HS) as R1.
    pose proof (rne_bound _ (10 - k) ltac:(lia) HS) as R2. rewrite <- E in R1, R2. rewrite fone_val in R1. replace (10 - k - 25)%Z with (- k - 15)%Z in R1 by lia. fold V in R1.
    unfold Rdiv in R1. rewrite Rmult_1_l in R1. set (r := fdiv fone Bx) in *.
    assert (HT : Rabs (B2R r * B2R s2) <= bpow radix2 (11 - k)).
    { rewrite Rabs_mult, (Rabs_pos_eq (B2R s2)) by lra. replace (11 - k)%Z with (10 - k + 1)%Z by lia. rewrite bpow_plus. change (bpow radix2 1) with 2. apply Rmult_le_compat; try lra. apply Rabs_pos. }
    destruct (fmul_val r s2 F Fs (big (11 - k)%Z ltac:(lia) _ HT)) as [E2 F2]. pose proof (rne_half_ulp _ (11 - k) ltac:(lia) HT) as R3. rewrite <- E2 in R3.
    replace (11 - k - 25)%Z with (1 + (- k - 15))%Z in R3 by lia. rewrite bpow_plus in R3. change (bpow radix2 1) with 2 in R3. fold V in R3.
    assert (P1 : Rabs ((B2R r - / B2R Bx) * B2R s2) <= V * 2) by (rewrite Rabs_mult, (Rabs_pos_eq (B2R s2)) by lra; apply Rmult_le_compat; try lra; apply Rabs_pos).
    replace (B2R (fmul r s2) - B2R s2 / B2R Bx) with ((B2R (fmul r s2) - B2R r * B2R s2) + (B2R r - / B2R Bx) * B2R s2) by (unfold Rdiv; ring).
    eapply Rle_trans; [apply Rabs_triang|]. lra.
  Qed.
  Lemma norm_close m M c : is_finite m = true -> is_finite M = true -> Rabs (B2R m) <= W -> Rabs (B2R M) <= W -> between m M c -> B2R (fsub M m) <= B2R X ->
    B2R M - B2R m <= D -> Rabs (B2R (fnorm (fadd X feps6) s2 m M c) - (B2R c - (B2R m + B2R M) / 2) * (B2R s2 / T)) <= / 2 ^ 10.
  Proof.
    intros Fm FM Bm BM Hc HX HD. destruct (offset_near m M Fm FM Bm BM c (B2R X) Hc HX) as [Fo Ho]. destruct factor_near as [Ff Hf]. cbn zeta in Ff, Hf.
    pose proof factor_close as Hg. pose proof box_near as HB. destruct box_above as [_ HA].
    destruct (norm_near m M c Fm FM Bm BM Hc HX) as [_ HN].
    destruct (center_near m M Fm FM Bm BM) as (Fe & C1 & C2). destruct Hc as [Fc Hc].
    assert (Oc : Rabs (B2R (fsub c (fcenter m M)) - (B2R c - (B2R m + B2R M) / 2)) <= 4 * U).
    { apply Rabs_le_inv in Bm, BM, C1, C2.
      assert (HS : Rabs (B2R c - B2R (fcenter m M)) <= bpow radix2 (k + 1)) by (rewrite W2; apply Rabs_le; lra).
      destruct (fsub_val c (fcenter m M) Fc Fe (big (k + 1)%Z ltac:(lia) _ HS)) as [E F]. pose proof (rne_half_ulp _ (k + 1) ltac:(lia) HS) as R1. rewrite <- E, U2 in R1.
      apply Rabs_le_inv in R1. apply Rabs_le. lra. }
    unfold fnorm in *. set (o := fsub c (fcenter m M)) in *. set (f := fmul (fdiv fone (fadd X feps6)) s2) in *. set (Bx := fadd X feps6) in *. fold L in XL.
    set (oe := B2R c - (B2R m + B2R M) / 2) in *. assert (Hoe : Rabs oe <= D / 2) by (unfold oe; apply Rabs_le; lra).
    assert (T0 : 0 < T) by (unfold T; rewrite E6; lra). assert (DT : D <= T) by (unfold T; rewrite E6; lra). assert (B0 : 0 < B2R Bx) by lra.
    assert (F2 : 0 <= B2R f <= 67108868 * V).
    { split; [lra|]. eapply Rle_trans; [apply Hf|]. assert (B2R s2 / B2R X <= 2 * / L) by (unfold Rdiv; apply Rmult_le_compat; try lra; [apply Rlt_le, Rinv_0_lt_compat; lra|apply Rinv_le; lra]). rewrite Linv in H. lra. }
    assert (G1 : Rabs ((B2R o - oe) * B2R f) <= 4 * U * (67108868 * V)).
    { rewrite Rabs_mult, (Rabs_pos_eq (B2R f)) by lra. apply Rmult_le_compat; try lra. apply Rabs_pos. }
    assert (G2 : Rabs (oe * (B2R f - B2R s2 / B2R Bx)) <= D / 2 * (4 * V)).
    { rewrite Rabs_mult. apply Rmult_le_compat; try lra; apply Rabs_pos. }
    assert (G3 : D * V <= 67108864 * (V * U)) by (rewrite WU in DH; apply Rle_trans with (67108864 * U * V); [apply Rmult_le_compat_r; lra|lra]).
    assert (G4 : Rabs (oe * (B2R s2 / B2R Bx - B2R s2 / T)) <= / 4000).
    { replace (oe * (B2R s2 / B2R Bx - B2R s2 / T)) with ((oe * / B2R Bx) * (B2R s2 * ((T - B2R Bx) * / T))) by (field; lra).
      assert (Q1 : Rabs (oe * / B2R Bx) <= 4096 / 8190).
      { rewrite Rabs_mult, (Rabs_pos_eq (/ B2R Bx)) by (apply Rlt_le, Rinv_0_lt_compat; exact B0). apply Rmult_le_reg_r with (1 := B0). rewrite Rmult_assoc, Rinv_l by lra.
        apply Rabs_le_inv in HB. lra. }
      assert (Q2 : Rabs ((T - B2R Bx) * / T) <= / 4096).
      { rewrite Rabs_mult, (Rabs_pos_eq (/ T)) by (apply Rlt_le, Rinv_0_lt_compat; exact T0). apply Rmult_le_reg_r with (1 := T0). rewrite Rmult_assoc, Rinv_l by lra.
        rewrite Rabs_minus_sym. lra. }
      assert (Q3 : Rabs (B2R s2 * ((T - B2R Bx) * / T)) <= 2 * / 4096) by (rewrite Rabs_mult, (Rabs_pos_eq (B2R s2)) by lra; apply Rmult_le_compat; try lra; apply Rabs_pos).
      rewrite Rabs_mult. apply Rle_trans with (4096 / 8190 * (2 * / 4096)); [apply Rmult_le_compat; try apply Rabs_pos; assumption|lra]. }
    assert (S : Rabs (B2R o * B2R f - oe * (B2R s2 / T)) <= 4 * 67108868 * (V * U) + 2 * (67108864 * (V * U)) + / 4000).
    { replace (B2R o * B2R f - oe * (B2R s2 / T)) with ((B2R o - oe) * B2R f + oe * (B2R f - B2R s2 / B2R Bx) + oe * (B2R s2 / B2R Bx - B2R s2 / T)) by ring.
      apply Rabs_le_inv in G1, G2, G4. apply Rabs_le. lra. }
    rewrite VU in S.
    assert (A3 : Rabs (B2R o * B2R f) <= bpow radix2 1).
    { change (bpow radix2 1) with 2.
      assert (Z1 : Rabs (oe * (B2R s2 / T)) <= 1).
      { unfold Rdiv. rewrite Rabs_mult, (Rabs_pos_eq (B2R s2 * / T)) by (apply Rmult_le_pos; [lra|apply Rlt_le, Rinv_0_lt_compat; exact T0]).
        apply Rle_trans with (D / 2 * (2 * / T)); [apply Rmult_le_compat; try lra; [apply Rabs_pos|apply Rmult_le_pos; [lra|apply Rlt_le, Rinv_0_lt_compat; exact T0]|apply Rmult_le_compat_r; [apply Rlt_le, Rinv_0_lt_compat; exact T0|lra]]|].
        apply Rmult_le_reg_r with (1 := T0). replace (D / 2 * (2 * / T) * T) with D by (field; lra). lra. }
      apply Rabs_le_inv in S, Z1. apply Rabs_le. lra. }
    destruct (fmul_val o f Fo Ff (big 1%Z ltac:(lia) _ A3)) as [E F]. pose proof (rne_half_ulp _ 1 ltac:(lia) A3) as R. rewrite <- E in R.
    change (bpow radix2 (1 - 25)) with (/ 16777216) in R. replace (2 ^ 10) with 1024 by ring.
    apply Rabs_le_inv in R, S. apply Rabs_le. lra.
  Qed.
End Norm.

Lemma thm_normalize32 : forall k bbmin bbmax s2 pts, (-60 <= k <= 60)%Z -> box_ok k bbmin bbmax -> box_long (powerRZ 2 (k - 10)) bbmin bbmax ->
  is_finite s2 = true -> 0 <= B2R s2 <= 2 -> Forall (in_box32 bbmin bbmax) pts ->
  Forall (point_within (B2R s2 / 2 + / 2 ^ 10)) (normalize32 bbmin bbmax s2 pts).
Proof.
  intros k [[x0 y0] z0] [[x1 y1] z1] s2 pts Hk (Hx & Hy & Hz) HL Fs Bs HP. cbn [box_long] in HL. cbn [normalize32].
  assert (PW : forall e, powerRZ 2 e = bpow radix2 e) by (intros e; rewrite bpow_powerRZ; reflexivity).
  unfold axis_ok in *. rewrite !PW in *. destruct Hx as (Fx0 & Fx1 & Bx0 & Bx1), Hy as (Fy0 & Fy1 & By0 & By1), Hz as (Fz0 & Fz1 & Bz0 & Bz1).
  destruct (extent_near k Hk x0 x1 Fx0 Fx1 Bx0 Bx1) as (F1 & _ & U1 & L1). destruct (extent_near k Hk y0 y1 Fy0 Fy1 By0 By1) as (F2 & _ & U2 & L2).
  destruct (extent_near k Hk z0 z1 Fz0 Fz1 Bz0 Bz1) as (F3 & _ & U3 & L3).
  set (X := fextent (x0, y0, z0) (x1, y1, z1)). destruct (fmax_val _ _ F1 F2) as [F4 E4]. destruct (fmax_val _ _ F4 F3) as [F5 E5]. rewrite E4 in E5.
  change (fmax (fmax (fsub x1 x0) (fsub y1 y0)) (fsub z1 z0)) with X in F5, E5.
  pose proof (Rmax_l (B2R (fsub x1 x0)) (B2R (fsub y1 y0))) as M1. pose proof (Rmax_r (B2R (fsub x1 x0)) (B2R (fsub y1 y0))) as M2.
  pose proof (Rmax_l (Rmax (B2R (fsub x1 x0)) (B2R (fsub y1 y0))) (B2R (fsub z1 z0))) as M3. pose proof (Rmax_r (Rmax (B2R (fsub x1 x0)) (B2R (fsub y1 y0))) (B2R (fsub z1 z0))) as M4.
  rewrite <- E5 in M3, M4.
  assert (XL : bpow radix2 (k - 10) <= B2R X) by (destruct HL as [H|[H|H]]; [apply L1 in H|apply L2 in H|apply L3 in H]; lra).
  assert (XH : B2R X <= 2 * bpow radix2 k) by (apply Rabs_le_inv in U1, U2, U3; rewrite E5; repeat apply Rmax_lub; lra).
  apply Forall_forall. intros q Hq. apply in_map_iff in Hq. destruct Hq as ([[x y] z] & <- & Hin). rewrite Forall_forall in HP. destruct (HP _ Hin) as (Px & Py & Pz).
  cbn [point_within]. unfold fbox. fold X. split; [|split]; apply (norm_near k Hk X s2 F5 XL XH Fs Bs); try assumption; lra.
Qed.
Lemma thm_normal_safe : forall k bbmin bbmax s2 pts, (-60 <= k <= 60)%Z -> box_ok k bbmin bbmax -> box_long (powerRZ 2 (k - 10)) bbmin bbmax ->
  is_finite s2 = true -> 0 <= B2R s2 <= 2 * (998 / 1000) -> Forall (in_box32 bbmin bbmax) pts -> Forall safe_point32 (normalize32 bbmin bbmax s2 pts).
Proof.
  intros k a b s2 pts Hk Hb HL Fs Bs HP. eapply Forall_impl; [|apply (thm_normalize32 k); try eassumption; lra].
  assert (T : B2R s2 / 2 + / 2 ^ 10 < 1 - / 2 ^ 24) by (replace (2 ^ 10) with 1024 by ring; replace (2 ^ 24) with 16777216 by ring; lra).
  assert (T2 : 0 < / 2 ^ 24) by (apply Rinv_0_lt_compat, pow_lt; lra).
  intros [[x y] z] ((Fx & Bx) & (Fy & By) & (Fz & Bz)). apply Rabs_le_inv in Bx, By, Bz. cbn [safe_point32]. unfold safe32. repeat split; try assumption; lra.
Qed.
Lemma Rmax_near a b a' b' e : Rabs (a - a') <= e -> Rabs (b - b') <= e -> Rabs (Rmax a b - Rmax a' b') <= e.
Proof.
  intros H1 H2. apply Rabs_le_inv in H1, H2. unfold Rmax. destruct (Rle_dec a b), (Rle_dec a' b'); apply Rabs_le; lra.
Qed.
Lemma thm_normal_near : forall k bbmin bbmax s2 pts, (-60 <= k <= 60)%Z -> box_ok k bbmin bbmax -> box_long (powerRZ 2 (k - 10)) bbmin bbmax ->
  is_finite s2 = true -> 0 <= B2R s2 <= 2 -> Forall (in_box32 bbmin bbmax) pts ->
  Forall2 (near_point (/ 2 ^ 10))
    (p_points (normalize (v3map (fun c : f32 => B2R c) bbmin) (v3map (fun c : f32 => B2R c) bbmax) (B2R s2 / 2) (bare (map (v3map (fun c : f32 => B2R c)) pts))))
    (normalize32 bbmin bbmax s2 pts).
Proof.
  intros k [[x0 y0] z0] [[x1 y1] z1] s2 pts Hk (Hx & Hy & Hz) HL Fs Bs HP. cbn [box_long] in HL. unfold normalize. cbn [normalize32 v3map v3zip set_points bare p_points].
  assert (PW : forall e, powerRZ 2 e = bpow radix2 e) by (intros e; rewrite bpow_powerRZ; reflexivity).
  unfold axis_ok in *. rewrite !PW in *. destruct Hx as (Fx0 & Fx1 & Bx0 & Bx1), Hy as (Fy0 & Fy1 & By0 & By1), Hz as (Fz0 & Fz1 & Bz0 & Bz1).
  destruct (extent_near k Hk x0 x1 Fx0 Fx1 Bx0 Bx1) as (F1 & N1 & U1 & L1). destruct (extent_near k Hk y0 y1 Fy0 Fy1 By0 By1) as (F2 & N2 & U2 & L2).
  destruct (extent_near k Hk z0 z1 Fz0 Fz1 Bz0 Bz1) as (F3 & N3 & U3 & L3).
  set (X := fextent (x0, y0, z0) (x1, y1, z1)). destruct (fmax_val _ _ F1 F2) as [F4 E4]. destruct (fmax_val _ _ F4 F3) as [F5 E5]. rewrite E4 in E5.
  change (fmax (fmax (fsub x1 x0) (fsub y1 y0)) (fsub z1 z0)) with X in F5, E5.
  set (D := Rmax (Rmax (B2R x1 - B2R x0) (B2R y1 - B2R y0)) (B2R z1 - B2R z0)).
  assert (XD : Rabs (B2R X - D) <= 2 * bpow radix2 (k - 25)) by (rewrite E5; unfold D; apply Rmax_near; [apply Rmax_near|]; assumption).
  pose proof (Rmax_l (B2R (fsub x1 x0)) (B2R (fsub y1 y0))) as M1. pose proof (Rmax_r (B2R (fsub x1 x0)) (B2R (fsub y1 y0))) as M2.
  pose proof (Rmax_l (Rmax (B2R (fsub x1 x0)) (B2R (fsub y1 y0))) (B2R (fsub z1 z0))) as M3. pose proof (Rmax_r (Rmax (B2R (fsub x1 x0)) (B2R (fsub y1 y0))) (B2R (fsub z1 z0))) as M4.
  rewrite <- E5 in M3, M4.
  pose proof (Rmax_l (B2R x1 - B2R x0) (B2R y1 - B2R y0)) as D1. pose proof (Rmax_r (B2R x1 - B2R x0) (B2R y1 - B2R y0)) as D2.
  pose proof (Rmax_l (Rmax (B2R x1 - B2R x0) (B2R y1 - B2R y0)) (B2R z1 - B2R z0)) as D3. pose proof (Rmax_r (Rmax (B2R x1 - B2R x0) (B2R y1 - B2R y0)) (B2R z1 - B2R z0)) as D4.
  fold D in D3, D4.
  assert (DL : bpow radix2 (k - 10) <= D) by (destruct HL as [H|[H|H]]; lra).
  assert (DH : D <= 2 * bpow radix2 k).
  { apply Rabs_le_inv in Bx0, Bx1, By0, By1, Bz0, Bz1. unfold D. repeat apply Rmax_lub; lra. }
  assert (XL : bpow radix2 (k - 10) <= B2R X) by (destruct HL as [H|[H|H]]; [apply L1 in H|apply L2 in H|apply L3 in H]; lra).
  assert (XH : B2R X <= 2 * bpow radix2 k) by (apply Rabs_le_inv in U1, U2, U3; rewrite E5; repeat apply Rmax_lub; lra).
  rewrite map_map. unfold fbox. fold X. clear HL. induction HP as [|[[x y] z] l (Px & Py & Pz) _ IH]; cbn [map]; constructor; [|exact IH].
  cbn [near_point v3map v3zip]. replace (2 * (B2R s2 / 2)) with (B2R s2) by lra.
  split; [|split]; apply (norm_close k Hk X s2 F5 XL XH Fs Bs D XD DL DH); try assumption; lra.
Qed.

(** ** bbox *)
Lemma fmin_val a b : is_finite a = true -> is_finite b = true -> is_finite (fmin a b) = true /\ B2R (fmin a b) = Rmin (B2R a) (B2R b).
Proof.
  intros Fa Fb. unfold fmin. rewrite Bltb_correct by assumption. case Rlt_bool_spec; intros H; split; try assumption; symmetry.
  - apply Rmin_right. lra.
  - apply Rmin_left. exact H.
Qed.
Lemma fold_min l : forall a, is_finite a = true -> Forall (fun c : f32 => is_finite c = true) l ->
  let m := fold_left fmin l a in is_finite m = true /\ Forall (fun c : f32 => B2R m <= B2R c) (a :: l) /\ In m (a :: l).
Proof.
  induction l as [|b l IH]; intros a Fa HF; cbn [fold_left]; cbn zeta.
  - split; [exact Fa|]. split; [constructor; [lra|constructor]|left; reflexivity].
  - inversion HF; subst. destruct (fmin_val a b Fa H1) as [Fm Em]. destruct (IH (fmin a b) Fm H2) as (A & B & C). cbn zeta in *. inversion B; subst.
    pose proof (Rmin_l (B2R a) (B2R b)). pose proof (Rmin_r (B2R a) (B2R b)). split; [exact A|]. split.
    + constructor; [lra|]. constructor; [lra|assumption].
    + destruct C as [C|C]; [|right; right; exact C]. rewrite <- C. unfold fmin. destruct (Bltb b a); [right; left|left]; reflexivity.
Qed.
Lemma fold_max l : forall a, is_finite a = true -> Forall (fun c : f32 => is_finite c = true) l ->
  let m := fold_left fmax l a in is_finite m = true /\ Forall (fun c : f32 => B2R c <= B2R m) (a :: l) /\ In m (a :: l).
Proof.
  induction l as [|b l IH]; intros a Fa HF; cbn [fold_left]; cbn zeta.
  - split; [exact Fa|]. split; [constructor; [lra|constructor]|left; reflexivity].
  - inversion HF; subst. destruct (fmax_val a b Fa H1) as [Fm Em]. destruct (IH (fmax a b) Fm H2) as (A & B & C). cbn zeta in *. inversion B; subst.
    pose proof (Rmax_l (B2R a) (B2R b)). pose proof (Rmax_r (B2R a) (B2R b)). split; [exact A|]. split.
    + constructor; [lra|]. constructor; [lra|assumption].
    + destruct C as [C|C]; [|right; right; exact C]. rewrite <- C. unfold fmax. destruct (Bltb a b); [right; left|left]; reflexivity.
Qed.
Lemma fold_zip (g : f32 -> f32 -> f32) l : forall x y z, fold_left (v3zip g) l (x, y, z) =
  (fold_left g (map (fun p => fst (fst p)) l) x, fold_left g (map (fun p => snd (fst p)) l) y, fold_left g (map snd l) z).
Proof. induction l as [|[[u v] w] l IH]; intros x y z; [reflexivity|]. cbn [fold_left map v3zip fst snd]. apply IH. Qed.
Lemma thm_bbox32 : forall pts, pts <> [] -> Forall finite_point pts ->
  exists bbmin bbmax, bbox32 pts = Ok (bbmin, bbmax) /\ Forall (in_box32 bbmin bbmax) pts /\ tight bbmin bbmax pts.
Proof.
  intros [|[[x y] z] ps] Hne HF; [congruence|]. clear Hne. inversion HF as [|q l Hp Hps]; subst. destruct Hp as (Fx & Fy & Fz).
  cbn [bbox32]. rewrite !fold_zip. eexists _, _. split; [reflexivity|].
  assert (Gx : Forall (fun c : f32 => is_finite c = true) (map (fun p => fst (fst p)) ps)) by (apply Forall_map; eapply Forall_impl; [|exact Hps]; intros [[u v] w] (A & B & C); exact A).
  assert (Gy : Forall (fun c : f32 => is_finite c = true) (map (fun p => snd (fst p)) ps)) by (apply Forall_map; eapply Forall_impl; [|exact Hps]; intros [[u v] w] (A & B & C); exact B).
  assert (Gz : Forall (fun c : f32 => is_finite c = true) (map snd ps)) by (apply Forall_map; eapply Forall_impl; [|exact Hps]; intros [[u v] w] (A & B & C); exact C).
  destruct (fold_min _ x Fx Gx) as (_ & A1 & A2). destruct (fold_max _ x Fx Gx) as (_ & A3 & A4).
  destruct (fold_min _ y Fy Gy) as (_ & B1 & B2). destruct (fold_max _ y Fy Gy) as (_ & B3 & B4).
  destruct (fold_min _ z Fz Gz) as (_ & C1 & C2). destruct (fold_max _ z Fz Gz) as (_ & C3 & C4). cbn zeta in *.
  split.
  - apply Forall_forall. intros p Hin. rewrite Forall_forall in HF. pose proof (HF _ Hin) as Hf. rewrite Forall_forall in A1, A3, B1, B3, C1, C3.
    assert (Ix : In (fst (fst p)) (x :: map (fun p => fst (fst p)) ps)) by (destruct Hin as [<-|Hin]; [left; reflexivity|right; apply in_map_iff; eauto]).
    assert (Iy : In (snd (fst p)) (y :: map (fun p => snd (fst p)) ps)) by (destruct Hin as [<-|Hin]; [left; reflexivity|right; apply in_map_iff; eauto]).
    assert (Iz : In (snd p) (z :: map snd ps)) by (destruct Hin as [<-|Hin]; [left; reflexivity|right; apply in_map_iff; eauto]).
    apply A1 in Ix as X1. apply A3 in Ix as X2. apply B1 in Iy as Y1. apply B3 in Iy as Y2. apply C1 in Iz as Z1. apply C3 in Iz as Z2.
    destruct p as [[u v] w]. destruct Hf as (Fu & Fv & Fw). cbn [fst snd] in *. cbn [in_box32]. unfold between. auto 10.
  - assert (K : forall (f : v3 f32 -> f32) c, In c (f (x, y, z) :: map f ps) -> exists p, In p ((x, y, z) :: ps) /\ f p = c).
    { intros f c [<-|H]; [exists (x, y, z); split; [left|]; reflexivity|]. apply in_map_iff in H. destruct H as (p & <- & Hp). exists p. split; [right; exact Hp|reflexivity]. }
    cbn [tight]. repeat split; [apply (K (fun p => fst (fst p)))|apply (K (fun p => snd (fst p)))|apply (K snd)|apply (K (fun p => fst (fst p)))|apply (K (fun p => snd (fst p)))|apply (K snd)]; assumption.
Qed.
