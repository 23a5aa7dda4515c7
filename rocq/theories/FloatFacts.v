(** Proofs about the single-precision coordinate computation. *)
From Coq Require Import List ZArith Bool Reals Lra Lia QArith Qcanon Qreals.
From Flocq Require Import Core.Core IEEE754.BinarySingleNaN.
From Flocq Require Import Mult_error.
From Verif Require Import Res Tensor Key Spec Num KeyFacts NumFacts Points Octree SpecGeo Float32 SpecSingle.
Import ListNotations.
Open Scope R_scope.

Definition fex := FLT_exp (-149) 24.
Lemma fex_eq : SpecFloat.fexp 24 128 = fex.
Proof. reflexivity. Qed.
Definition rne (x : R) : R := round radix2 fex ZnearestE x.
Local Instance p24 : Prec_gt_0 24 := eq_refl.
Local Instance fex_valid : Valid_exp fex := FLT_exp_valid (-149) 24.
Local Instance fex_mono : Monotone_exp fex := FLT_exp_monotone (-149) 24.

Lemma rne_le x y : x <= y -> rne x <= rne y.
Proof. apply round_le; auto with typeclass_instances. Qed.
Lemma rne_id x : generic_format radix2 fex x -> rne x = x.
Proof. apply round_generic; auto with typeclass_instances. Qed.
Lemma fmt_bpow e : (-149 <= e)%Z -> generic_format radix2 fex (bpow radix2 e).
Proof. intros H. apply generic_format_bpow. unfold fex, FLT_exp. lia. Qed.
Lemma fmt_0 : generic_format radix2 fex 0.
Proof. apply generic_format_0. Qed.

Lemma fone_val : B2R fone = 1.
Proof. apply Bone_correct. Qed.
Lemma fone_fin : is_finite fone = true.
Proof. apply is_finite_Bone. Qed.

Lemma big_bound x e : (e < 128)%Z -> Rabs x <= bpow radix2 e -> Rlt_bool (Rabs x) (bpow radix2 128) = true.
Proof. intros He H. apply Rlt_bool_true. apply Rle_lt_trans with (1 := H). apply bpow_lt; exact He. Qed.

(** c + 1 *)
Lemma fadd_one c : is_finite c = true -> -1 <= B2R c <= 1 ->
  B2R (fadd c fone) = rne (B2R c + 1) /\ is_finite (fadd c fone) = true /\ 0 <= rne (B2R c + 1) <= 2.
Proof.
  intros Hf Hb.
  assert (Hr : 0 <= rne (B2R c + 1) <= 2).
  { split.
    - rewrite <- (rne_id 0 fmt_0). apply rne_le. lra.
    - replace 2 with (bpow radix2 1) by (cbn; lra). rewrite <- (rne_id (bpow radix2 1)) by (apply fmt_bpow; lia).
      apply rne_le. cbn; lra. }
  pose proof (@Bplus_correct 24 128 f32_prec f32_emax mode_NE c fone Hf fone_fin) as H.
  rewrite fone_val in H. rewrite fex_eq in H. change (round radix2 fex (round_mode mode_NE)) with rne in H.
  rewrite (big_bound _ 1) in H; [|lia|].
  - destruct H as (H1 & H2 & _). auto.
  - rewrite Rabs_pos_eq by lra. cbn. lra.
Qed.

Lemma fscale_val dep : (dep <= 100)%nat -> B2R (fscale dep) = bpow radix2 (Z.of_nat dep - 1) /\ is_finite (fscale dep) = true.
Proof.
  intros Hd. pose proof (@Bldexp_correct 24 128 f32_prec f32_emax mode_NE fone (Z.of_nat dep - 1)) as H.
  rewrite fone_val, Rmult_1_l, fex_eq in H. change (round radix2 fex (round_mode mode_NE)) with rne in H.
  rewrite rne_id in H by (apply fmt_bpow; lia).
  rewrite (big_bound _ (Z.of_nat dep - 1)) in H; [|lia|].
  - destruct H as (H1 & H2 & _). split; [exact H1|]. unfold fscale. rewrite H2. exact fone_fin.
  - rewrite Rabs_pos_eq by apply bpow_ge_0. lra.
Qed.

(** a value above -1 is at least 2^-24 above *)
Lemma above_minus_one (c : f32) : -1 < B2R c -> -1 + bpow radix2 (-24) <= B2R c.
Proof.
  intros H. change (bpow radix2 (-24)) with (/ 16777216). destruct (Rle_lt_dec (- (1 / 2)) (B2R c)) as [H2|H2]; [lra|].
  pose proof (generic_format_B2R 24 128 c) as G. change (SpecFloat.fexp 24 128) with fex in G.
  assert (E : cexp radix2 fex (B2R c) = (-24)%Z).
  { unfold cexp. rewrite (mag_unique radix2 (B2R c) 0); [reflexivity|]. rewrite Rabs_left by lra. cbn. lra. }
  unfold generic_format in G. rewrite E in G. unfold F2R in G. cbn [Fnum Fexp] in G.
  set (k := Ztrunc (scaled_mantissa radix2 fex (B2R c))) in *. change (bpow radix2 (-24)) with (/ 16777216) in G.
  assert (Hk : (-16777216 < k)%Z) by (apply lt_IZR; lra).
  assert (Hk' : IZR (-16777215) <= IZR k) by (apply IZR_le; lia). lra.
Qed.
Lemma sum_zero_or_large (c : f32) : is_finite c = true -> -1 <= B2R c <= 1 ->
  rne (B2R c + 1) = 0 \/ bpow radix2 (-24) <= rne (B2R c + 1).
Proof.
  intros Hf Hb. destruct (Req_dec (B2R c) (-1)) as [E|E].
  - left. rewrite E. replace (-1 + 1) with 0 by lra. apply rne_id, fmt_0.
  - right. rewrite <- (rne_id (bpow radix2 (-24))) by (apply fmt_bpow; lia). apply rne_le.
    pose proof (above_minus_one c ltac:(lra)). lra.
Qed.

(** the multiplication with the power of two is exact *)
Lemma frescale_val dep c : (dep <= 100)%nat -> is_finite c = true -> -1 <= B2R c <= 1 ->
  B2R (frescale dep c) = rne (B2R c + 1) * bpow radix2 (Z.of_nat dep - 1) /\ is_finite (frescale dep c) = true.
Proof.
  intros Hd Hf Hb. destruct (fadd_one c Hf Hb) as (Ha & Haf & Hr).
  destruct (fscale_val dep ltac:(lia)) as [Hs Hsf].
  pose proof (@Bmult_correct 24 128 f32_prec f32_emax mode_NE (fadd c fone) (fscale dep)) as H.
  rewrite Ha, Hs, fex_eq in H. change (round radix2 fex (round_mode mode_NE)) with rne in H.
  rewrite rne_id in H.
  2:{ destruct (sum_zero_or_large c Hf Hb) as [E|E].
      - rewrite E, Rmult_0_l. apply fmt_0.
      - apply mult_bpow_exact_FLT; [apply generic_format_round; auto with typeclass_instances|].
        assert (-23 <= mag radix2 (rne (B2R c + 1)))%Z; [|lia].
        apply mag_ge_bpow. rewrite Rabs_pos_eq by lra. exact E. }
  rewrite (big_bound _ (Z.of_nat dep)) in H; [|lia|].
  - destruct H as (H1 & H2 & _). split; [exact H1|]. unfold frescale, fmul. rewrite H2, Haf, Hsf. reflexivity.
  - rewrite Rabs_pos_eq.
    + replace (Z.of_nat dep) with (1 + (Z.of_nat dep - 1))%Z at 2 by lia. rewrite bpow_plus.
      apply Rmult_le_compat_r; [apply bpow_ge_0|]. cbn; lra.
    + apply Rmult_le_pos; [lra|apply bpow_ge_0].
Qed.

(** the addition is off by at most 2^-24 *)
Lemma rne_err x : 0 <= x < 2 -> Rabs (rne x - x) <= bpow radix2 (-24).
Proof.
  intros Hx. eapply Rle_trans; [apply error_le_half_ulp; auto with typeclass_instances|].
  assert (Hu : ulp radix2 fex x <= bpow radix2 (-23)).
  { destruct (Req_dec x 0) as [->|Hn].
    - unfold fex. rewrite ulp_FLT_0 by auto with typeclass_instances. apply bpow_le; lia.
    - rewrite ulp_neq_0 by exact Hn. apply bpow_le. unfold cexp, fex, FLT_exp.
      assert (mag radix2 x <= 1)%Z; [|lia].
      apply mag_le_bpow; [exact Hn|]. rewrite Rabs_pos_eq by lra. cbn; lra. }
  change (bpow radix2 (-24)) with (/ 16777216). change (bpow radix2 (-23)) with (/ 8388608) in Hu. lra.
Qed.

Lemma pow_bpow n : 2 ^ n = bpow radix2 (Z.of_nat n).
Proof.
  induction n as [|n IH]; [reflexivity|].
  rewrite Nat2Z.inj_succ, <- Z.add_1_l, bpow_plus, <- IH. cbn. lra.
Qed.
Lemma IZR_pow n : (0 <= n)%Z -> IZR (2 ^ n) = bpow radix2 n.
Proof. intros H. rewrite <- IZR_Zpower by exact H. reflexivity. Qed.
Lemma inv24 : / 2 ^ 24 = bpow radix2 (-24).
Proof. rewrite pow_bpow, <- bpow_opp. reflexivity. Qed.

(** the conversion *)
Lemma flong_val x : is_finite x = true -> (0 <= B2R x < bpow radix2 63) ->
  exists t, flong x = Some t /\ t = Zfloor (B2R x).
Proof.
  intros Hf Hb. unfold flong.
  assert (Ht : Btrunc x = Zfloor (B2R x)).
  { apply eq_IZR. rewrite Btrunc_correct by exact f32_emax. rewrite round_FIX_IZR, Ztrunc_floor by lra. reflexivity. }
  rewrite Hf, Ht. exists (Zfloor (B2R x)). split; [|reflexivity].
  assert (H0 : (0 <= Zfloor (B2R x))%Z) by (apply Zfloor_lub; cbn; lra).
  assert (H1 : (Zfloor (B2R x) < 2 ^ 63)%Z).
  { apply lt_IZR. rewrite IZR_pow by lia. eapply Rle_lt_trans; [apply Zfloor_lb|]. lra. }
  replace (- 2 ^ 63 <=? Zfloor (B2R x))%Z with true by (symmetry; apply Z.leb_le; lia).
  replace (Zfloor (B2R x) <? 2 ^ 63)%Z with true by (symmetry; apply Z.ltb_lt; lia). reflexivity.
Qed.

Lemma cell32_val dep c : (dep <= 62)%nat -> is_finite c = true -> -1 <= B2R c <= 1 ->
  cell32 dep c = Some (Zfloor (rne (B2R c + 1) * bpow radix2 (Z.of_nat dep - 1))).
Proof.
  intros Hd Hf Hb. destruct (frescale_val dep c ltac:(lia) Hf Hb) as [Hv Hvf].
  destruct (fadd_one c Hf Hb) as (_ & _ & Hr).
  destruct (flong_val (frescale dep c) Hvf) as (t & Ht & Htv).
  - rewrite Hv. pose proof (bpow_ge_0 radix2 (Z.of_nat dep - 1)). split; [nra|].
    eapply Rle_lt_trans; [|apply (bpow_lt radix2 (Z.of_nat dep)); lia].
    replace (Z.of_nat dep) with (1 + (Z.of_nat dep - 1))%Z at 2 by lia. rewrite bpow_plus.
    apply Rmult_le_compat_r; [assumption|]. cbn; lra.
  - unfold cell32. rewrite Ht, Htv, Hv. reflexivity.
Qed.

Lemma safe_le c : safe32 c -> is_finite c = true /\ -1 <= B2R c <= 1 /\ rne (B2R c + 1) < 2.
Proof.
  intros (Hf & H0 & H1). rewrite inv24 in H1. pose proof (bpow_ge_0 radix2 (-24)).
  split; [exact Hf|]. split; [lra|].
  pose proof (rne_err (B2R c + 1) ltac:(lra)) as He. apply Rabs_le_inv in He. lra.
Qed.

Lemma cell32_range dep c : (dep <= 62)%nat -> safe32 c ->
  exists x, cell32 dep c = Some x /\ (0 <= x < 2 ^ Z.of_nat dep)%Z /\ near_slab (/ 2 ^ 24) dep x (B2R c).
Proof.
  intros Hd Hs. destruct (safe_le c Hs) as (Hf & Hb & Hlt).
  destruct (fadd_one c Hf Hb) as (_ & _ & Hr).
  eexists. split; [apply cell32_val; assumption|].
  set (s := rne (B2R c + 1)) in *. set (w := bpow radix2 (Z.of_nat dep - 1)).
  assert (Hw : 0 < w) by apply bpow_gt_0.
  assert (Hw2 : 2 * w = 2 ^ dep).
  { unfold w. rewrite pow_bpow. replace (Z.of_nat dep) with (1 + (Z.of_nat dep - 1))%Z at 2 by lia.
    rewrite bpow_plus. cbn; lra. }
  split.
  - split; [apply Zfloor_lub; cbn; nra|]. apply lt_IZR. rewrite IZR_pow by lia. rewrite <- pow_bpow, <- Hw2.
    eapply Rle_lt_trans; [apply Zfloor_lb|]. nra.
  - unfold near_slab. rewrite inv24, <- Hw2.
    pose proof (Zfloor_lb (s * w)) as Hl. pose proof (Zfloor_ub (s * w)) as Hu.
    set (x := IZR (Zfloor (s * w))) in *.
    destruct Hs as (_ & H0 & H1). rewrite inv24 in H1. pose proof (bpow_ge_0 radix2 (-24)).
    pose proof (rne_err (B2R c + 1) ltac:(lra)) as He. apply Rabs_le_inv in He. fold s in He.
    replace (2 * x / (2 * w)) with (x / w) by (field; lra).
    replace (2 * (x + 1) / (2 * w)) with ((x + 1) / w) by (field; lra).
    assert (x / w <= s) by (apply Rmult_le_reg_r with w; [lra|]; unfold Rdiv; rewrite Rmult_assoc, Rinv_l; lra).
    assert (s <= (x + 1) / w) by (apply Rmult_le_reg_r with w; [lra|]; unfold Rdiv; rewrite Rmult_assoc, Rinv_l; lra).
    lra.
Qed.

Theorem thm_single_range : forall dep p b, (dep <= 16)%nat -> (-32768 <= b < 32768)%Z -> safe_point32 p ->
  exists x y z k, in_cube dep x y z /\ point_key32 dep p (Some b) = Ok k /\ xyz2key x y z (Some b) dep = Ok k /\
    near_cell (/ 2 ^ 24) dep x y z p.
Proof.
  intros dep [[px py] pz] b Hd Hb (Hx & Hy & Hz).
  destruct (cell32_range dep px ltac:(lia) Hx) as (x & Ex & Rx & Nx).
  destruct (cell32_range dep py ltac:(lia) Hy) as (y & Ey & Ry & Ny).
  destruct (cell32_range dep pz ltac:(lia) Hz) as (z & Ez & Rz & Nz).
  assert (Hc : in_cube dep x y z) by (unfold in_cube; auto).
  unfold point_key32. cbn [v3map]. rewrite Ex, Ey, Ez.
  exists x, y, z, (key_of dep b x y z). rewrite xyz2key_b by lia. unfold near_cell. auto 8.
Qed.

(** monotonicity *)
Theorem thm_single_mono : forall dep c c', (dep <= 62)%nat -> is_finite c = true -> is_finite c' = true ->
  -1 <= B2R c -> B2R c <= B2R c' -> B2R c' <= 1 ->
  exists x x', cell32 dep c = Some x /\ cell32 dep c' = Some x' /\ (x <= x')%Z.
Proof.
  intros dep c c' Hd Hf Hf' H0 H1 H2.
  do 2 eexists. split; [apply cell32_val; [assumption..|lra]|]. split; [apply cell32_val; [assumption..|lra]|].
  apply Zfloor_le. apply Rmult_le_compat_r; [apply bpow_ge_0|]. apply rne_le. lra.
Qed.

(** exact on the grid of step 2^-23 *)
Lemma grid_fmt (c : f32) k : -1 <= B2R c < 1 -> B2R c = IZR k / 2 ^ 23 -> rne (B2R c + 1) = B2R c + 1.
Proof.
  intros Hb Hk. apply rne_id. apply generic_format_FLT.
  assert (E : B2R c + 1 = F2R (Float radix2 (k + 2 ^ 23) (-23))).
  { unfold F2R. cbn [Fnum Fexp]. rewrite plus_IZR, Hk. change (bpow radix2 (-23)) with (/ 8388608).
    change (IZR (2 ^ 23)) with 8388608. replace (2 ^ 23) with 8388608 by lra. lra. }
  exists (Float radix2 (k + 2 ^ 23) (-23)); cbn [Fnum Fexp]; [exact E| |lia].
  apply lt_IZR. rewrite abs_IZR. change (IZR (Z.pow radix2 24)) with 16777216.
  rewrite plus_IZR. change (IZR (2 ^ 23)) with 8388608.
  assert (IZR k = B2R c * 8388608) by (rewrite Hk; replace (2 ^ 23) with 8388608 by lra; lra).
  rewrite Rabs_pos_eq; lra.
Qed.

Lemma Q2R_Q2Qc q : Q2R (Q2Qc q) = Q2R q.
Proof. unfold Q2Qc. cbn [this]. apply Qeq_eqR, Qred_correct. Qed.
Lemma Q2R_qz z : Q2R (qz z) = IZR z.
Proof. unfold qz. rewrite Q2R_Q2Qc. unfold Q2R, inject_Z. cbn [Qnum Qden]. lra. Qed.
Lemma Q2R_plus a b : Q2R (a + b)%Qc = Q2R a + Q2R b.
Proof. unfold Qcplus. rewrite Q2R_Q2Qc. apply Qreals.Q2R_plus. Qed.
Lemma Q2R_mult a b : Q2R (a * b)%Qc = Q2R a * Q2R b.
Proof. unfold Qcmult. rewrite Q2R_Q2Qc. apply Qreals.Q2R_mult. Qed.

Lemma floor_qtrunc (t : Qc) r : Q2R t = r -> 0 <= r -> qtrunc t = Zfloor r.
Proof.
  intros Ht Hr. subst r. apply qtrunc_spec.
  - unfold Qcle. apply Rle_Qle. cbn. rewrite RMicromega.Q2R_0. exact Hr.
  - split.
    + unfold Qcle. apply Rle_Qle. rewrite Q2R_qz. apply Zfloor_lb.
    + unfold Qclt. apply Rlt_Qlt. rewrite Q2R_qz, plus_IZR. apply Zfloor_ub.
Qed.

Lemma cell32_exact dep q c : (dep <= 62)%nat -> safe32 c -> on_grid c -> same_number q c ->
  cell32 dep c = Some (qtrunc ((q + 1) * q2pow (Z.of_nat dep - 1))%Qc).
Proof.
  intros Hd Hs (k & Hk) Hq. pose proof Hs as (Hf & H0 & H1). rewrite inv24 in H1. pose proof (bpow_ge_0 radix2 (-24)).
  rewrite cell32_val by (assumption || lra). f_equal.
  rewrite (grid_fmt c k) by (lra || assumption). symmetry. apply floor_qtrunc.
  - rewrite Q2R_mult, Q2R_plus. change 1%Qc with (qz 1). rewrite Q2R_qz. rewrite Hq. f_equal.
    destruct dep as [|dep].
    + vm_compute. lra.
    + unfold q2pow. replace (0 <=? Z.of_nat (S dep) - 1)%Z with true by (symmetry; apply Z.leb_le; lia).
      rewrite Q2R_qz. apply IZR_pow; lia.
  - apply Rmult_le_pos; [lra|apply bpow_ge_0].
Qed.

Theorem thm_single_exact : forall dep q p b, (dep <= 16)%nat -> safe_point32 p ->
  (let '(x, y, z) := p in on_grid x /\ on_grid y /\ on_grid z) -> same_point q p ->
  point_key32 dep p b = point_key dep q b.
Proof.
  intros dep [[qx qy] qz'] [[x y] z] b Hd (Hx & Hy & Hz) (Gx & Gy & Gz) (Sx & Sy & Sz).
  unfold point_key32, point_key, rescale. cbn [v3map].
  rewrite (cell32_exact dep qx x), (cell32_exact dep qy y), (cell32_exact dep qz' z) by (assumption || lia).
  reflexivity.
Qed.

Lemma ftop_val : B2R ftop = 1 - / 2 ^ 24.
Proof. rewrite inv24. cbn [B2R ftop]. unfold F2R. cbn [Fnum Fexp SpecFloat.cond_Zopp].
  change (bpow radix2 (-24)) with (/ 16777216). cbn. lra. Qed.
Lemma ftop_sum : B2SF (fadd ftop fone) = SpecFloat.S754_finite false 8388608 (-22).
Proof. vm_compute. reflexivity. Qed.
Lemma ftop_rne : rne (1 - / 2 ^ 24 + 1) = 2.
Proof.
  destruct (fadd_one ftop eq_refl) as (H & _ & _).
  - rewrite ftop_val, inv24. change (bpow radix2 (-24)) with (/ 16777216). lra.
  - rewrite ftop_val in H. rewrite <- H. rewrite <- SF2R_B2SF, ftop_sum. cbn [SF2R]. unfold F2R. cbn [Fnum Fexp SpecFloat.cond_Zopp].
    change (bpow radix2 (-22)) with (/ 4194304). cbn. lra.
Qed.

Lemma cell32_top dep c : (dep <= 62)%nat -> is_finite c = true -> 1 - / 2 ^ 24 <= B2R c <= 1 ->
  cell32 dep c = Some (2 ^ Z.of_nat dep)%Z.
Proof.
  intros Hd Hf Hb. rewrite cell32_val; [|assumption..|].
  2:{ rewrite inv24 in Hb. change (bpow radix2 (-24)) with (/ 16777216) in Hb. lra. }
  f_equal. assert (E : rne (B2R c + 1) = 2).
  { apply Rle_antisym.
    - replace 2 with (rne 2). apply rne_le; lra. apply rne_id. replace 2 with (bpow radix2 1) by (cbn; lra). apply fmt_bpow; lia.
    - rewrite <- ftop_rne. apply rne_le. lra. }
  rewrite E. replace 2 with (bpow radix2 1) by (cbn; lra). rewrite <- bpow_plus.
  replace (1 + (Z.of_nat dep - 1))%Z with (Z.of_nat dep) by lia. rewrite <- IZR_pow by lia. apply Zfloor_IZR.
Qed.

Theorem thm_single_top : forall dep c y z b, (dep <= 16)%nat -> (-32768 <= b < 32768)%Z ->
  is_finite c = true -> 1 - / 2 ^ 24 <= B2R c <= 1 -> safe32 y -> safe32 z ->
  exists y' z' k, in_cube dep 0 y' z' /\ near_slab (/ 2 ^ 24) dep y' (B2R y) /\ near_slab (/ 2 ^ 24) dep z' (B2R z) /\
    point_key32 dep (c, y, z) (Some b) = Ok k /\ xyz2key 0 y' z' (Some b) dep = Ok k.
Proof.
  intros dep c y z b Hd Hb Hf Hc Hy Hz.
  destruct (cell32_range dep y ltac:(lia) Hy) as (y' & Ey & Ry & Ny).
  destruct (cell32_range dep z ltac:(lia) Hz) as (z' & Ez & Rz & Nz).
  exists y', z', (key_of dep b 0 y' z').
  assert (Hcube : in_cube dep 0 y' z') by (unfold in_cube, in_grid; repeat split; try lia; apply Z.pow_pos_nonneg; lia).
  split; [exact Hcube|]. split; [exact Ny|]. split; [exact Nz|].
  unfold point_key32. cbn [v3map]. rewrite Ey, Ez, cell32_top by (assumption || lia).
  rewrite !xyz2key_b by lia. split; [|reflexivity]. f_equal. unfold key_of. f_equal.
  rewrite <- (morton_mod dep (2 ^ Z.of_nat dep) y' z' (Z.of_nat dep)) by lia.
  rewrite <- (morton_mod dep 0 y' z' (Z.of_nat dep)) by lia.
  rewrite Z.mod_same by (apply Z.pow_nonzero; lia). rewrite Z.mod_0_l by (apply Z.pow_nonzero; lia). reflexivity.
Qed.
