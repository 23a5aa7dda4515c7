(** Proofs about the matrix of linear interpolation in single precision. *)
From Coq Require Import List ZArith Bool Reals Lra Lia QArith Qcanon Qreals.
From Flocq Require Import Core.Core IEEE754.BinarySingleNaN.
From Flocq Require Import Relative.
From Verif Require Import Res Tensor Key Spec Num KeyFacts NumFacts ListFacts Points Octree NnBasic NnInterp
  Float32 FloatMean SpecSingle FloatFacts FloatMeanFacts BuildFloat SpecNudge NudgeFacts LinearFloat SpecLinear32.
Import ListNotations.
Open Scope R_scope.
Local Existing Instances p24 fex_valid fex_mono.

(** ** numbers on a grid *)
Lemma grid_of x e : generic_format radix2 fex x -> bpow radix2 (e + 23) <= Rabs x -> exists k, x = IZR k * bpow radix2 e.
Proof.
  intros G H. assert (Hm : (e + 24 <= mag radix2 x)%Z).
  { replace (e + 24)%Z with ((e + 23) + 1)%Z by lia. apply mag_ge_bpow. replace (e + 23 + 1 - 1)%Z with (e + 23)%Z by lia. exact H. }
  assert (Hc : (e <= cexp radix2 fex x)%Z) by (unfold cexp, fex, FLT_exp; lia).
  unfold generic_format, F2R in G. cbn [Fnum Fexp] in G.
  set (c := cexp radix2 fex x) in *. set (m := Ztrunc (scaled_mantissa radix2 fex x)) in *.
  exists (m * 2 ^ (c - e))%Z. rewrite mult_IZR, IZR_pow by lia. rewrite Rmult_assoc, <- bpow_plus.
  replace (c - e + e)%Z with c by lia. exact G.
Qed.

(** c + 1 is a multiple of 2^-24, and of 2^-23 from 1 on *)
Lemma sum_grid (c : f32) : in_unit32 c -> exists k, rne (B2R c + 1) = IZR k * bpow radix2 (-24) /\ (0 <= k <= 2 ^ 25)%Z /\
  ((2 ^ 24 <= k)%Z -> exists j, k = (2 * j)%Z).
Proof.
  intros [Hf Hb]. destruct (fadd_one c Hf Hb) as (_ & _ & Hr).
  assert (G : generic_format radix2 fex (rne (B2R c + 1))) by (apply generic_format_round; auto with typeclass_instances).
  assert (K : exists k, rne (B2R c + 1) = IZR k * bpow radix2 (-24)).
  { destruct (Rle_lt_dec (1/2) (rne (B2R c + 1))) as [H|H].
    - apply grid_of; [exact G|]. rewrite Rabs_pos_eq by lra. change (bpow radix2 (-24 + 23)) with (/ 2). lra.
    - assert (Hc : B2R c < - (1 / 2)).
      { apply Rnot_le_lt. intros Hc. apply (Rlt_not_le _ _ H). replace (1/2) with (bpow radix2 (-1)) by (cbn; lra).
        rewrite <- (rne_id (bpow radix2 (-1))) by (apply fmt_bpow; lia). apply rne_le. change (bpow radix2 (-1)) with (/ 2). lra. }
      destruct (grid_of (B2R c) (-24)) as [k Ek].
      + pose proof (generic_format_B2R 24 128 c) as G'. exact G'.
      + rewrite Rabs_left by lra. change (bpow radix2 (-24 + 23)) with (/ 2). lra.
      + exists (k + 2 ^ 24)%Z. rewrite plus_IZR, IZR_pow by lia. rewrite Rmult_plus_distr_r, <- bpow_plus, <- Ek.
        change (bpow radix2 (24 + -24)) with 1. apply rne_id.
        assert (E : B2R c + 1 = IZR (k + 2 ^ 24) * bpow radix2 (-24)).
        { rewrite plus_IZR, IZR_pow by lia. rewrite Rmult_plus_distr_r, <- bpow_plus, <- Ek. reflexivity. }
        rewrite E. apply fmt_scaled; [|lia].
        change (bpow radix2 (-24)) with (/ 16777216) in Ek.
        assert (Hk : (-16777216 <= k <= 0)%Z) by (split; apply le_IZR; lra). change (2 ^ 24)%Z with 16777216%Z. lia. }
  destruct K as [k Ek]. exists k. split; [exact Ek|]. pose proof Ek as Ek'. change (bpow radix2 (-24)) with (/ 16777216) in Ek'.
  assert (Hk : (0 <= k <= 33554432)%Z) by (split; apply le_IZR; lra).
  split; [exact Hk|]. intros Hbig.
  assert (H1 : 1 <= rne (B2R c + 1)).
  { rewrite Ek'. assert (IZR 16777216 <= IZR k) by (apply IZR_le; exact Hbig). lra. }
  destruct (grid_of (rne (B2R c + 1)) (-23) G) as [j Ej].
  { rewrite Rabs_pos_eq by lra. change (bpow radix2 (-23 + 23)) with 1. exact H1. }
  exists j. apply eq_IZR. rewrite mult_IZR. change (bpow radix2 (-23)) with (/ 8388608) in Ej. lra.
Qed.

(** ** exact operations *)
Lemma fsub_exact x y v : is_finite x = true -> is_finite y = true -> B2R x - B2R y = v ->
  generic_format radix2 fex v -> Rabs v <= bpow radix2 100 -> B2R (fsub x y) = v /\ is_finite (fsub x y) = true.
Proof. intros Hx Hy <- G B. destruct (fsub_val x y Hx Hy B) as [E F]. rewrite rne_id in E by exact G. auto. Qed.
Lemma fadd_exact x y v : is_finite x = true -> is_finite y = true -> B2R x + B2R y = v ->
  generic_format radix2 fex v -> Rabs v <= bpow radix2 100 -> B2R (fadd x y) = v /\ is_finite (fadd x y) = true.
Proof. intros Hx Hy <- G B. destruct (fadd_val x y Hx Hy B) as [E F]. rewrite rne_id in E by exact G. auto. Qed.
Lemma fhalf_val : B2R fhalf = / 2 /\ is_finite fhalf = true.
Proof.
  destruct (fscale_val 0 ltac:(lia)) as [H F]. unfold fscale in H, F. change (Z.of_nat 0 - 1)%Z with (-1)%Z in H, F. split; [exact H|exact F].
Qed.
Lemma ffloor_val x : is_finite x = true -> B2R (ffloor x) = IZR (Zfloor (B2R x)) /\ is_finite (ffloor x) = true.
Proof.
  intros Hf. destruct (Bnearbyint_correct 24 128 f32_emax mode_DN x) as (E & F & _). unfold ffloor. split; [|rewrite F; exact Hf].
  rewrite E. apply round_FIX_IZR.
Qed.
Lemma floor_q (q : Qc) x : Q2R q = x -> qfloor q = Zfloor x.
Proof.
  intros <-. apply qfloor_spec. split.
  - unfold Qcle. apply Rle_Qle. rewrite Q2R_qz. apply Zfloor_lb.
  - unfold Qclt. apply Rlt_Qlt. rewrite Q2R_qz, plus_IZR. apply Zfloor_ub.
Qed.
Lemma half_val : Q2R half = / 2.
Proof. unfold half. rewrite Q2R_Q2Qc. unfold Q2R. cbn. lra. Qed.
Lemma small_abs k e : (Z.abs k <= 2 ^ 24)%Z -> (e <= 70)%Z -> Rabs (IZR k * bpow radix2 e) <= bpow radix2 100.
Proof.
  intros Hk He. rewrite Rabs_mult, (Rabs_pos_eq (bpow _ _)) by apply bpow_ge_0.
  apply Rle_trans with (bpow radix2 24 * bpow radix2 70); [|rewrite <- bpow_plus; apply bpow_le; lia].
  apply Rmult_le_compat; try apply Rabs_pos; try apply bpow_ge_0; [|apply bpow_le; exact He].
  rewrite <- abs_IZR, <- IZR_pow by lia. apply IZR_le. exact Hk.
Qed.

(** ** one coordinate *)
Section Coord.
  Variables (d : nat) (c : f32).
  Hypothesis Hd : (1 <= d <= 23)%nat.
  Hypothesis Hc : in_unit32 c.
  Let D := Z.of_nat d.
  Let q : Qc := ((nudge c + 1) * q2pow (D - 1))%Qc.
  Let n : Z := qfloor (q - half)%Qc.
  Let HD : (1 <= D <= 23)%Z.
  Proof. unfold D. lia. Qed.

  Lemma pos_grid : exists k, Q2R q = IZR k * bpow radix2 (D - 25) /\ (0 <= k <= 2 ^ 25)%Z /\ ((2 ^ 24 <= k)%Z -> exists j, k = (2 * j)%Z).
  Proof.
    destruct (sum_grid c Hc) as (k & Ek & Hk & He). exists k. split; [|auto].
    unfold q. rewrite Q2R_mult, Q2R_plus, Q2R_q2pow, Q2R_one, (nudge_val c Hc).
    replace (rne (B2R c + 1) - 1 + 1) with (rne (B2R c + 1)) by lra. rewrite Ek, Rmult_assoc, <- bpow_plus. do 2 f_equal. lia.
  Qed.
  Lemma half_grid : / 2 = IZR (2 ^ (24 - D)) * bpow radix2 (D - 25).
  Proof. rewrite IZR_pow by lia. rewrite <- bpow_plus. replace (24 - D + (D - 25))%Z with (-1)%Z by lia. reflexivity. Qed.
  Lemma one_grid : 1 = IZR (2 ^ (25 - D)) * bpow radix2 (D - 25).
  Proof. rewrite IZR_pow by lia. rewrite <- bpow_plus. replace (25 - D + (D - 25))%Z with 0%Z by lia. reflexivity. Qed.

  Lemma centred : B2R (fsub (frescale d c) fhalf) = Q2R (q - half)%Qc /\ is_finite (fsub (frescale d c) fhalf) = true /\
    (-1 <= n < 2 ^ D)%Z /\ n = Zfloor (Q2R (q - half)%Qc) /\ exists k, Q2R (q - half)%Qc = IZR k * bpow radix2 (D - 25).
  Proof.
    destruct (frescale_exact d c ltac:(lia) Hc) as (F & V & R). fold D q in V, R. destruct fhalf_val as [Eh Fh].
    destruct pos_grid as (k & Ek & Hk & He).
    assert (EQ : Q2R (q - half)%Qc = IZR (k - 2 ^ (24 - D)) * bpow radix2 (D - 25)).
    { rewrite Q2R_minus', half_val, minus_IZR, Rmult_minus_distr_r, <- half_grid, <- Ek. reflexivity. }
    assert (P : (2 <= 2 ^ (24 - D) <= 2 ^ 23)%Z).
    { split; [apply (Z.pow_le_mono_r 2 1 (24 - D)); lia|apply Z.pow_le_mono_r; lia]. }
    assert (GB : generic_format radix2 fex (Q2R (q - half)%Qc) /\ Rabs (Q2R (q - half)%Qc) <= bpow radix2 100).
    { destruct (Z_lt_le_dec k (2 ^ 24)) as [Hs|Hb].
      - rewrite EQ. change (2 ^ 24)%Z with 16777216%Z in *. change (2 ^ 23)%Z with 8388608%Z in *.
        split; [apply fmt_scaled|apply small_abs]; change (2 ^ 24)%Z with 16777216%Z; lia.
      - destruct (He Hb) as [j Ej].
        assert (Ej2 : (k - 2 ^ (24 - D) = (j - 2 ^ (23 - D)) * 2)%Z).
        { replace (24 - D)%Z with (1 + (23 - D))%Z by lia. rewrite Z.pow_add_r by lia. change (2 ^ 1)%Z with 2%Z. lia. }
        rewrite EQ, Ej2, mult_IZR, Rmult_assoc. replace (IZR 2 * bpow radix2 (D - 25)) with (bpow radix2 (D - 24)).
        2:{ replace (D - 24)%Z with (1 + (D - 25))%Z by lia. rewrite bpow_plus. reflexivity. }
        assert (1 <= 2 ^ (23 - D))%Z by (apply (Z.pow_le_mono_r 2 0 (23 - D)); lia).
        change (2 ^ 24)%Z with 16777216%Z in *. change (2 ^ 25)%Z with 33554432%Z in *. change (2 ^ 23)%Z with 8388608%Z in *.
        split; [apply fmt_scaled|apply small_abs]; change (2 ^ 24)%Z with 16777216%Z; lia. }
    destruct (fsub_exact (frescale d c) fhalf (Q2R (q - half)%Qc) F Fh) as [E1 E2]; [|apply GB|apply GB|].
    { rewrite V, Eh, Q2R_minus', half_val. reflexivity. }
    split; [exact E1|]. split; [exact E2|]. assert (En : n = Zfloor (Q2R (q - half)%Qc)) by (apply floor_q; reflexivity).
    split; [|split; [exact En|eexists; exact EQ]]. rewrite En. rewrite Q2R_minus', half_val, <- V.
    split.
    - apply Zfloor_lub. cbn. lra.
    - apply lt_IZR. rewrite IZR_pow by lia. eapply Rle_lt_trans; [apply Zfloor_lb|]. lra.
  Qed.

  Lemma base_val : B2R (base32 (frescale d c)) = IZR n /\ is_finite (base32 (frescale d c)) = true.
  Proof.
    destruct centred as (E & F & _ & En & _). unfold base32. destruct (ffloor_val _ F) as [E1 F1]. rewrite E1, E, <- En. auto.
  Qed.
  Lemma pow_23 : (2 <= 2 ^ D <= 2 ^ 23)%Z.
  Proof. split; [apply (Z.pow_le_mono_r 2 1 D); lia|apply Z.pow_le_mono_r; lia]. Qed.
  Lemma corner_val g : (0 <= g <= 1)%Z -> B2R (corner32 (frescale d c) g) = IZR (n + g) /\ is_finite (corner32 (frescale d c) g) = true.
  Proof.
    intros Hg. destruct base_val as [E F]. destruct centred as (_ & _ & Hn & _). pose proof pow_23. change (2 ^ 23)%Z with 8388608%Z in *.
    destruct (fcount_val g) as [Eg Fg]; [change (2 ^ 24)%Z with 16777216%Z; lia|].
    assert (Hs : (Z.abs (n + g) <= 2 ^ 24)%Z) by (change (2 ^ 24)%Z with 16777216%Z; lia).
    unfold corner32. apply fadd_exact; [exact F|exact Fg|rewrite E, Eg, plus_IZR; reflexivity|apply fmt_int; exact Hs|].
    rewrite <- (Rmult_1_r (IZR (n + g))). apply (small_abs _ 0); [exact Hs|lia].
  Qed.
  Lemma frac_val : exists k, (0 <= k < 2 ^ (25 - D))%Z /\ Q2R ((q - half) - qz n)%Qc = IZR k * bpow radix2 (D - 25) /\
    B2R (frac32 (frescale d c)) = Q2R ((q - half) - qz n)%Qc /\ is_finite (frac32 (frescale d c)) = true.
  Proof.
    destruct centred as (E & F & Hn & En & k & Ek). destruct base_val as [Eb Fb].
    assert (EQ : Q2R ((q - half) - qz n)%Qc = IZR (k - n * 2 ^ (25 - D)) * bpow radix2 (D - 25)).
    { rewrite Q2R_minus', Q2R_qz, minus_IZR, mult_IZR, Rmult_minus_distr_r, Rmult_assoc, <- one_grid, <- Ek. lra. }
    assert (Hr : 0 <= Q2R ((q - half) - qz n)%Qc < 1).
    { rewrite Q2R_minus', Q2R_qz, En. pose proof (Zfloor_lb (Q2R (q - half)%Qc)). pose proof (Zfloor_ub (Q2R (q - half)%Qc)). lra. }
    exists (k - n * 2 ^ (25 - D))%Z. pose proof (bpow_gt_0 radix2 (D - 25)) as Hp.
    assert (Hk : (0 <= k - n * 2 ^ (25 - D) < 2 ^ (25 - D))%Z).
    { split; [apply le_IZR|apply lt_IZR]; apply Rmult_le_reg_r with (1 := Hp) || apply Rmult_lt_reg_r with (1 := Hp).
      - rewrite <- EQ. lra.
      - rewrite <- EQ, <- one_grid. lra. }
    split; [exact Hk|]. split; [exact EQ|].
    assert (2 ^ (25 - D) <= 2 ^ 24)%Z by (apply Z.pow_le_mono_r; lia).
    unfold frac32. apply fsub_exact; [exact F|exact Fb| | |].
    - rewrite E, Eb, (Q2R_minus' (q - half) (qz n)), Q2R_qz. reflexivity.
    - rewrite EQ. apply fmt_scaled; [lia|lia].
    - rewrite EQ. apply small_abs; [lia|lia].
  Qed.
  (** the factor of a weight: exact, and either zero or at least 2^-24 *)
  Lemma side_val g : (0 <= g <= 1)%Z -> B2R (side32 (frescale d c) g) = Q2R ((1 - qz g) - ((q - half) - qz n))%Qc /\
    is_finite (side32 (frescale d c) g) = true /\ Rabs (B2R (side32 (frescale d c) g)) <= 1 /\
    (B2R (side32 (frescale d c) g) = 0 \/ bpow radix2 (-24) <= Rabs (B2R (side32 (frescale d c) g))).
  Proof.
    intros Hg. destruct frac_val as (k & Hk & EQ & Ef & Ff).
    destruct (fcount_val g) as [Eg Fg]; [change (2 ^ 24)%Z with 16777216%Z; lia|].
    assert (H1g : (Z.abs (1 - g) <= 2 ^ 24)%Z) by (change (2 ^ 24)%Z with 16777216%Z; lia).
    destruct (fsub_exact fone (fcount g) (IZR (1 - g)) fone_fin Fg) as [E1 F1].
    { rewrite fone_val, Eg, minus_IZR. reflexivity. }
    { apply fmt_int; exact H1g. }
    { rewrite <- (Rmult_1_r (IZR (1 - g))). apply (small_abs _ 0); [exact H1g|lia]. }
    assert (EV : Q2R ((1 - qz g) - ((q - half) - qz n))%Qc = IZR ((1 - g) * 2 ^ (25 - D) - k) * bpow radix2 (D - 25)).
    { rewrite Q2R_minus', (Q2R_minus' 1), Q2R_one, Q2R_qz, EQ, minus_IZR, mult_IZR, minus_IZR, Rmult_minus_distr_r, Rmult_assoc, <- one_grid. lra. }
    assert (Hp : (4 <= 2 ^ (25 - D) <= 2 ^ 24)%Z) by (split; [apply (Z.pow_le_mono_r 2 2 (25 - D)); lia|apply Z.pow_le_mono_r; lia]).
    assert (Hm : (Z.abs ((1 - g) * 2 ^ (25 - D) - k) <= 2 ^ (25 - D))%Z) by (assert (g = 0 \/ g = 1)%Z as [-> | ->] by lia; lia).
    destruct (fsub_exact (fsub fone (fcount g)) (frac32 (frescale d c)) (Q2R ((1 - qz g) - ((q - half) - qz n))%Qc) F1 Ff) as [E2 F2].
    { rewrite E1, Ef, (Q2R_minus' (1 - qz g)), (Q2R_minus' 1), Q2R_one, Q2R_qz, minus_IZR. reflexivity. }
    { rewrite EV. apply fmt_scaled; [lia|lia]. }
    { rewrite EV. apply small_abs; [lia|lia]. }
    unfold side32. rewrite E2. split; [reflexivity|]. split; [exact F2|]. rewrite EV. set (m := ((1 - g) * 2 ^ (25 - D) - k)%Z) in *.
    rewrite Rabs_mult, (Rabs_pos_eq (bpow _ _)) by apply bpow_ge_0. rewrite <- abs_IZR. split.
    - rewrite one_grid. apply Rmult_le_compat_r; [apply bpow_ge_0|]. apply IZR_le. exact Hm.
    - destruct (Z.eq_dec m 0) as [->|Nz]; [left; lra|right]. apply Rle_trans with (1 * bpow radix2 (D - 25)).
      + rewrite Rmult_1_l. apply bpow_le. lia.
      + apply Rmult_le_compat_r; [apply bpow_ge_0|]. apply (IZR_le 1). lia.
  Qed.
End Coord.

(** ** the weight *)
Lemma mul_rel x y lo : is_finite x = true -> is_finite y = true -> Rabs (B2R x) <= 1 -> Rabs (B2R y) <= 1 -> (-126 <= lo)%Z ->
  B2R x * B2R y = 0 \/ bpow radix2 lo <= Rabs (B2R x * B2R y) ->
  exists e, Rabs e <= / 2 ^ 24 /\ B2R (fmul x y) = B2R x * B2R y * (1 + e) /\ is_finite (fmul x y) = true /\ Rabs (B2R (fmul x y)) <= 1.
Proof.
  intros Fx Fy Bx By Hlo H. assert (B1 : Rabs (B2R x * B2R y) <= bpow radix2 0).
  { rewrite Rabs_mult. cbn [bpow]. pose proof (Rabs_pos (B2R x)). pose proof (Rabs_pos (B2R y)). nra. }
  destruct (fmul_val x y Fx Fy) as [E F]; [eapply Rle_trans; [exact B1|apply bpow_le; lia]|].
  assert (B2 : Rabs (B2R (fmul x y)) <= 1) by (rewrite E; exact (rne_bound _ 0 ltac:(lia) B1)).
  destruct H as [Z0|H].
  - exists 0. rewrite E, Z0, (rne_id 0 fmt_0). rewrite Rabs_R0. rewrite inv24. split; [apply bpow_ge_0|]. split; [lra|]. split; [exact F|].
    lra.
  - destruct (relative_error_N_FLT_ex radix2 (-149) 24 eq_refl (fun z => negb (Z.even z)) (B2R x * B2R y)) as (e & He & Er).
    { eapply Rle_trans; [|exact H]. apply bpow_le. lia. }
    exists e. split.
    + rewrite inv24. eapply Rle_trans; [exact He|]. replace (bpow radix2 (- (24) + 1)) with (2 * bpow radix2 (-24)) by (cbn; lra). lra.
    + split; [|auto]. rewrite E. exact Er.
Qed.
Lemma Q2R_qabs a : Q2R (qabs a) = Rabs (Q2R a).
Proof.
  unfold qabs, qleb. destruct (Qle_bool 0%Qc a) eqn:El.
  - apply Qle_bool_iff, Qle_Rle in El. rewrite Q2R_zero in El. rewrite Rabs_pos_eq by exact El. reflexivity.
  - rewrite Q2R_opp'. rewrite Rabs_left1; [reflexivity|]. apply Rnot_lt_le. intros H.
    assert (Qle_bool 0%Qc a = true); [|congruence]. apply Qle_bool_iff. apply Rle_Qle. rewrite Q2R_zero. lra.
Qed.
Lemma in_grid g : In g corner_grid -> let '(gx, gy, gz) := g in (0 <= gx <= 1)%Z /\ (0 <= gy <= 1)%Z /\ (0 <= gz <= 1)%Z.
Proof.
  assert (F : Forall (fun '(gx, gy, gz) => (0 <= gx <= 1)%Z /\ (0 <= gy <= 1)%Z /\ (0 <= gz <= 1)%Z) corner_grid) by (vm_compute; repeat constructor; discriminate).
  rewrite Forall_forall in F. apply F.
Qed.
Definition factor (a : f32) : Prop := is_finite a = true /\ Rabs (B2R a) <= 1 /\ (B2R a = 0 \/ bpow radix2 (-24) <= Rabs (B2R a)).
Lemma three_near a b c : factor a -> factor b -> factor c ->
  is_finite (fmul (fmul a b) c) = true /\
  (1 - / 2 ^ 24) ^ 2 * Rabs (B2R a * B2R b * B2R c) <= Rabs (B2R (fmul (fmul a b) c)) <= (1 + / 2 ^ 24) ^ 2 * Rabs (B2R a * B2R b * B2R c).
Proof.
  intros (Fx & Bx & Lx) (Fy & By & Ly) (Fz & Bz & Lz).
  assert (LL : B2R a * B2R b = 0 \/ bpow radix2 (-48) <= Rabs (B2R a * B2R b)).
  { destruct Lx as [->|Lx]; [left; ring|]. destruct Ly as [->|Ly]; [left; ring|]. right. rewrite Rabs_mult.
    replace (-48)%Z with (-24 + -24)%Z by lia. rewrite bpow_plus. apply Rmult_le_compat; try apply bpow_ge_0; assumption. }
  destruct (mul_rel a b (-48) Fx Fy Bx By ltac:(lia) LL) as (e & He & E1 & F1 & B1).
  assert (Hu : / 2 ^ 24 = / 16777216) by (rewrite inv24; reflexivity). rewrite Hu in *. pose proof (Rabs_le_inv _ _ He) as He'.
  assert (LL2 : B2R (fmul a b) * B2R c = 0 \/ bpow radix2 (-73) <= Rabs (B2R (fmul a b) * B2R c)).
  { destruct LL as [Z0|LL]; [left; rewrite E1, Z0; ring|]. destruct Lz as [->|Lz]; [left; ring|]. right. rewrite Rabs_mult.
    replace (-73)%Z with (-49 + -24)%Z by lia. rewrite bpow_plus. apply Rmult_le_compat; try apply bpow_ge_0; [|exact Lz].
    rewrite E1, Rabs_mult. replace (-49)%Z with (-48 + -1)%Z by lia. rewrite bpow_plus.
    apply Rmult_le_compat; try apply bpow_ge_0; [exact LL|]. change (bpow radix2 (-1)) with (/ 2). rewrite Rabs_pos_eq; lra. }
  destruct (mul_rel (fmul a b) c (-73) F1 Fz B1 Bz ltac:(lia) LL2) as (e2 & He2 & E2 & F2 & _). rewrite Hu in He2. pose proof (Rabs_le_inv _ _ He2) as He2'.
  split; [exact F2|]. rewrite E2, E1.
  replace (B2R a * B2R b * (1 + e) * B2R c * (1 + e2)) with ((B2R a * B2R b * B2R c) * ((1 + e) * (1 + e2))) by ring.
  rewrite (Rabs_mult (B2R a * B2R b * B2R c)). set (W := Rabs (B2R a * B2R b * B2R c)). assert (HW : 0 <= W) by apply Rabs_pos.
  rewrite Rabs_pos_eq by (apply Rmult_le_pos; lra). rewrite !(Rmult_comm _ W). split; apply Rmult_le_compat_l; try exact HW; cbn [pow]; rewrite Rmult_1_r; apply Rmult_le_compat; lra.
Qed.
Lemma weight_val d p g : (1 <= d <= 23)%nat -> point_in_unit32 p -> In g corner_grid ->
  near_weight (corner_weight (v3map (fun c => (c + 1) * q2pow (Z.of_nat d - 1))%Qc (v3map nudge p)) g) (weight32 (rescale32 d p) g).
Proof.
  intros Hd Hp Hg. apply in_grid in Hg. destruct g as [[gx gy] gz]. destruct Hg as (Gx & Gy & Gz).
  destruct p as [[x y] z]. destruct Hp as (Ux & Uy & Uz). unfold corner_weight, weight32, rescale32, frac_of, near_weight. cbn [v3map].
  destruct (side_val d x Hd Ux gx Gx) as (Ex & Fx & Bx & Lx). destruct (side_val d y Hd Uy gy Gy) as (Ey & Fy & By & Ly).
  destruct (side_val d z Hd Uz gz Gz) as (Ez & Fz & Bz & Lz).
  rewrite Q2R_qabs, !Q2R_mult, <- Ex, <- Ey, <- Ez. rewrite is_finite_Babs, B2R_Babs.
  apply three_near; repeat split; assumption.
Qed.

(** ** the cells *)
Definition same_int (x : f32) (a : Qc) : Prop := exists m, a = qz m /\ is_finite x = true /\ B2R x = IZR m /\ (Z.abs m <= 2 ^ 24)%Z.
Definition same_cell (pb : v3 f32 * Z) (qb : qpoint) : Prop :=
  let '((x, y, z), b) := pb in let '((u, v, w), b') := qb in same_int x u /\ same_int y v /\ same_int z w /\ b = b'.
Lemma flong_int x m : is_finite x = true -> B2R x = IZR m -> (Z.abs m <= 2 ^ 24)%Z -> flong x = Some m.
Proof.
  intros F E H. unfold flong. assert (T : Btrunc x = m).
  { apply eq_IZR. rewrite Btrunc_correct by exact f32_emax. rewrite round_FIX_IZR, E, Ztrunc_IZR. reflexivity. }
  rewrite F, T. change (2 ^ 24)%Z with 16777216%Z in H. change (2 ^ 63)%Z with 9223372036854775808%Z.
  replace (- (9223372036854775808) <=? m)%Z with true by (symmetry; apply Z.leb_le; lia).
  replace (m <? 9223372036854775808)%Z with true by (symmetry; apply Z.ltb_lt; lia). reflexivity.
Qed.
Lemma row_same pb qb : same_cell pb qb -> long_row32 pb = Ok (let '((x, y, z), b) := qb in (qtrunc x, qtrunc y, qtrunc z, b)).
Proof.
  destruct pb as [[[x y] z] b], qb as [[[u v] w] b']. intros ((m & -> & F1 & E1 & B1) & (k & -> & F2 & E2 & B2) & (l & -> & F3 & E3 & B3) & ->).
  cbn [long_row32 v3map]. rewrite (flong_int _ _ F1 E1 B1), (flong_int _ _ F2 E2 B2), (flong_int _ _ F3 E3 B3), !qtrunc_qz. reflexivity.
Qed.
Lemma search_same o a b d ne : Forall2 same_cell a b -> search_pts32 o a d ne = search_pts o b d ne.
Proof.
  intros F. unfold search_pts32, search_pts. replace (mapM long_row32 a) with (Ok (map (fun '((x, y, z), b) => (qtrunc x, qtrunc y, qtrunc z, b)) b)); [reflexivity|].
  induction F as [|p q a' b' H F IH]; [reflexivity|]. cbn [map mapM]. rewrite <- IH, (row_same _ _ H). destruct q as [[[u v] w] c]. reflexivity.
Qed.
Lemma bound_same d a b : (d <= 62)%nat -> Forall2 same_cell a b -> map (fun p => in_bound32 d (fst p)) a = map (fun p => in_bound d (fst p)) b.
Proof.
  intros Hd F. induction F as [|p q a' b' H F IH]; [reflexivity|]. cbn [map]. rewrite IH. f_equal.
  destruct p as [[[x y] z] c], q as [[[u v] w] c']. destruct H as ((m & -> & F1 & E1 & _) & (k & -> & F2 & E2 & _) & (l & -> & F3 & E3 & _) & _).
  rewrite <- Q2R_qz in E1, E2, E3. cbn [fst in_bound32 in_bound].
  rewrite (leb_zero _ _ F1 E1), (leb_zero _ _ F2 E2), (leb_zero _ _ F3 E3), (ltb_pow _ _ d Hd F1 E1), (ltb_pow _ _ d Hd F2 E2), (ltb_pow _ _ d Hd F3 E3). reflexivity.
Qed.
Lemma Forall2_flat {A B C D} (P : A -> B -> Prop) (Q : C -> D -> Prop) (f : A -> list C) (g : B -> list D) l m :
  (forall a b, P a b -> Forall2 Q (f a) (g b)) -> Forall2 P l m -> Forall2 Q (flat_map f l) (flat_map g m).
Proof. intros H F. induction F; [constructor|]. cbn [flat_map]. apply Forall2_app; auto. Qed.
Lemma Forall2_maps {A B C} (P : B -> C -> Prop) (f : A -> B) (g : A -> C) l : (forall a, In a l -> P (f a) (g a)) -> Forall2 P (map f l) (map g l).
Proof. induction l as [|a l IH]; intros H; [constructor|]. cbn [map]. constructor; [apply H; left; reflexivity|]. apply IH. intros; apply H; right; assumption. Qed.
Lemma Forall2_length {A B} (P : A -> B -> Prop) l m : Forall2 P l m -> length l = length m.
Proof. intros F. induction F; [reflexivity|]. cbn [length]. congruence. Qed.
Lemma Forall2_select {A B} (P : A -> B -> Prop) l m v : Forall2 P l m -> Forall2 P (select v l) (select v m).
Proof. intros F. revert v. induction F as [|a b l m H F IH]; intros [|[] v]; cbn [select]; auto. Qed.

Definition scaled_pair (d : nat) (pb : v3 f32 * Z) : (v3 f32 * Z) * qpoint :=
  ((rescale32 d (fst pb), snd pb), (v3map (fun c => (c + 1) * q2pow (Z.of_nat d - 1))%Qc (v3map nudge (fst pb)), snd pb)).

Section Matrix.
  Variables (d : nat) (pts : list (v3 f32 * Z)).
  Hypothesis Hd : (1 <= d <= 23)%nat.
  Hypothesis Hp : Forall (fun pb => point_in_unit32 (fst pb)) pts.

  Lemma same_corner c g : in_unit32 c -> (0 <= g <= 1)%Z ->
    same_int (corner32 (frescale d c) g) (qz (qfloor ((nudge c + 1) * q2pow (Z.of_nat d - 1) - half) + g)).
  Proof.
    intros Hc Hg. destruct (corner_val d c Hd Hc g Hg) as [E F]. eexists. split; [reflexivity|]. split; [exact F|]. split; [exact E|].
    destruct (centred d c Hd Hc) as (_ & _ & Hn & _). pose proof (pow_23 d c Hd). change (2 ^ 23)%Z with 8388608%Z in *. change (2 ^ 24)%Z with 16777216%Z. lia.
  Qed.
  Lemma cells_same : Forall2 same_cell
    (flat_map (fun '((x, y, z), b) => map (fun '(gx, gy, gz) => ((corner32 x gx, corner32 y gy, corner32 z gz), b)) corner_grid) (scaled32 d pts))
    (flat_map (fun '(p, b) => let '(x, y, z) := base_of p in
       map (fun '(gx, gy, gz) => ((qz (x + gx), qz (y + gy), qz (z + gz)), b)) corner_grid) (scaled d (map nudge_row pts))).
  Proof.
    eapply (Forall2_flat (fun pb qb => exists r, In r pts /\ (pb, qb) = scaled_pair d r)).
    - intros pb qb ([[[x y] z] b] & Hin & E). rewrite Forall_forall in Hp. destruct (Hp _ Hin) as (Ux & Uy & Uz).
      injection E as -> ->. cbn [rescale32 v3map fst snd base_of]. apply Forall2_maps. intros [[gx gy] gz] Hg. apply in_grid in Hg. destruct Hg as (Gx & Gy & Gz).
      cbn [same_cell]. auto using same_corner.
    - unfold scaled32, scaled. rewrite map_map. apply Forall2_maps. intros [[[x y] z] b] Hin. eexists. split; [exact Hin|]. reflexivity.
  Qed.
  Lemma weights_same : Forall2 (fun w32 w => near_weight w w32)
    (flat_map (fun '(p, _) => map (weight32 p) corner_grid) (scaled32 d pts))
    (flat_map (fun '(p, _) => map (corner_weight p) corner_grid) (scaled d (map nudge_row pts))).
  Proof.
    eapply (Forall2_flat (fun pb qb => exists r, In r pts /\ (pb, qb) = scaled_pair d r)).
    - intros pb qb (r & Hin & E). rewrite Forall_forall in Hp. specialize (Hp _ Hin). injection E as -> ->.
      apply Forall2_maps. intros g Hg. apply weight_val; assumption.
    - unfold scaled32, scaled. rewrite map_map. apply Forall2_maps. intros [[[x y] z] b] Hin. eexists. split; [exact Hin|]. reflexivity.
  Qed.
End Matrix.

Lemma Forall2_entries (ij : list (Z * Z)) w w32 : Forall2 (fun w32 w => near_weight w w32) w32 w -> Forall2 near_entry (combine ij w) (combine ij w32).
Proof.
  intros F. revert ij. induction F as [|a b l m H F IH]; intros [|i ij]; cbn [combine]; constructor; [split; [reflexivity|exact H]|apply IH].
Qed.

Lemma thm_matrix32 : forall nempty bound_check o d pts, (1 <= d <= 23)%nat -> Forall (fun pb => point_in_unit32 (fst pb)) pts ->
  match linear_matrix o d (scaled d (map nudge_row pts)) nempty bound_check with
  | Ok m => exists m32, interp_matrix32 nempty bound_check o d pts = Ok m32 /\ Forall2 near_entry m m32
  | Err e => interp_matrix32 nempty bound_check o d pts = Err e
  end.
Proof.
  intros ne bc o d pts Hd Hp. unfold linear_matrix, interp_matrix32, linear_matrix32. fold (scaled32 d pts).
  pose proof (cells_same d pts Hd Hp) as HC. pose proof (weights_same d pts Hd Hp) as HW.
  match type of HC with Forall2 _ ?a ?b => set (A := a) in *; set (B := b) in * end.
  rewrite (search_same o A B d ne HC). destruct (search_pts o B d ne) as [idx|e]; [|reflexivity]. cbn [bind].
  rewrite (bound_same d A B ltac:(lia) HC). set (v := valid_mask _ _ _).
  destruct (mask_get idx v) as [j|e]; [|reflexivity]. cbn [bind].
  replace (length (scaled32 d pts)) with (length (scaled d (map nudge_row pts))) by (unfold scaled, scaled32; rewrite !map_length; reflexivity).
  destruct (mask_get (flat_map _ (arange _)) v) as [i|e]; [|reflexivity]. cbn [bind].
  unfold mask_get. rewrite (Forall2_length _ _ _ HW). destruct (Nat.eqb _ _); [|reflexivity]. cbn [bind].
  eexists. split; [reflexivity|]. apply Forall2_entries. apply Forall2_select. exact HW.
Qed.

Lemma thm_linear_is C data o d pts ne bc : octree_linear_pts C data o d pts ne bc =
  (_ <- check_rows data o d ne ;; mat <- linear_matrix o d pts ne bc ;; linear_apply C data (length pts) mat).
Proof.
  unfold octree_linear_pts, linear_matrix, linear_apply. destruct (check_rows data o d ne); [|reflexivity]. cbn [bind].
  destruct (search_pts _ _ _ _); [|reflexivity]. cbn [bind]. destruct (mask_get _ _); [|reflexivity]. cbn [bind].
  destruct (mask_get _ _); [|reflexivity]. cbn [bind]. destruct (mask_get _ _); reflexivity.
Qed.

(** ** statements of the property file *)
Lemma thm_linear_near : forall nempty bound_check o d pts, (1 <= d <= 23)%nat -> Forall (fun pb => point_in_unit32 (fst pb)) pts ->
  match linear_matrix o d (map (fun pb => (v3map (fun c => (nudge c + 1) * q2pow (Z.of_nat d - 1))%Qc (fst pb), snd pb)) pts) nempty bound_check with
  | Ok m => exists m32, interp_matrix32 nempty bound_check o d pts = Ok m32 /\ Forall2 near_entry m m32
  | Err e => interp_matrix32 nempty bound_check o d pts = Err e
  end.
Proof.
  intros ne bc o d pts Hd Hp. pose proof (thm_matrix32 ne bc o d pts Hd Hp) as H.
  replace (scaled d (map nudge_row pts)) with (map (fun pb => (v3map (fun c => (nudge c + 1) * q2pow (Z.of_nat d - 1))%Qc (fst pb), snd pb)) pts) in H; [exact H|].
  unfold scaled. rewrite map_map. apply map_ext. intros [[[x y] z] b]. reflexivity.
Qed.
