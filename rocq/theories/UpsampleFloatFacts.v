(** Proofs about linear upsampling in single precision. *)
From Coq Require Import Ascii String List ZArith Bool Reals Lra Lia QArith Qcanon Qreals.
From Flocq Require Import Core.Core IEEE754.BinarySingleNaN.
From Flocq Require Import Relative.
From Verif Require Import Res Tensor Key Spec Num KeyFacts NumFacts ListFacts Points Octree NnBasic NnInterp
  Float32 FloatMean SpecSingle FloatFacts FloatMeanFacts BuildFloat SpecNudge NudgeFacts LinearFloat SpecLinear32 LinearFloatFacts.
Import ListNotations.
Open Scope R_scope.
Open Scope string_scope.
Open Scope list_scope.
Local Existing Instances p24 fex_valid fex_mono.

(** ** coordinates read from keys are small *)
Lemma lor_small n a b : (0 <= n)%Z -> (0 <= a < 2 ^ n)%Z -> (0 <= b < 2 ^ n)%Z -> (0 <= Z.lor a b < 2 ^ n)%Z.
Proof.
  intros Hn Ha Hb. split; [apply Z.lor_nonneg; lia|]. destruct (Z.eq_dec (Z.lor a b) 0) as [->|N]; [apply Z.pow_pos_nonneg; lia|].
  assert (0 <= Z.lor a b)%Z by (apply Z.lor_nonneg; lia). apply Z.log2_lt_pow2; [lia|]. rewrite Z.log2_lor by lia.
  destruct (Z.eq_dec a 0) as [->|Na]; destruct (Z.eq_dec b 0) as [->|Nb]; cbn [Z.log2 Z.max] in *; try (exfalso; apply N; reflexivity).
  - assert (Z.log2 b < n)%Z by (apply Z.log2_lt_pow2; lia). pose proof (Z.log2_nonneg b). lia.
  - assert (Z.log2 a < n)%Z by (apply Z.log2_lt_pow2; lia). pose proof (Z.log2_nonneg a). lia.
  - assert (Z.log2 b < n)%Z by (apply Z.log2_lt_pow2; lia). assert (Z.log2 a < n)%Z by (apply Z.log2_lt_pow2; lia). lia.
Qed.
Definition small (x : Z) : Prop := (0 <= x < 2 ^ 18)%Z.
Lemma table_small (T : list Z) k v : Forall (fun v => (0 <= v < 8)%Z) T -> tget T k = Ok v -> (0 <= v < 8)%Z.
Proof.
  intros F. unfold tget. destruct (norm_index _ _) as [n|]; [|discriminate]. destruct (nth_error T n) as [x|] eqn:E; [|discriminate]. intros [= <-].
  rewrite Forall_forall in F. apply F. eapply nth_error_In; exact E.
Qed.
Lemma tables_small : Forall (fun v => (0 <= v < 8)%Z) DX /\ Forall (fun v => (0 <= v < 8)%Z) DY /\ Forall (fun v => (0 <= v < 8)%Z) DZ.
Proof.
  assert (H : forall T, forallb (fun v => (0 <=? v)%Z && (v <? 8)%Z) T = true -> Forall (fun v => (0 <= v < 8)%Z) T).
  { intros T E. apply Forall_forall. intros x Hx. rewrite forallb_forall in E. specialize (E x Hx). apply andb_true_iff in E. destruct E as [E1 E2].
    apply Z.leb_le in E1. apply Z.ltb_lt in E2. lia. }
  repeat split; apply H; vm_compute; reflexivity.
Qed.
Lemma step_small x v i : small x -> (0 <= v < 8)%Z -> (i <= 5)%nat -> small (Z.lor x (shl64 v (Z.of_nat i * 3))).
Proof.
  intros Hx Hv Hi. assert (P : (1 <= 2 ^ (Z.of_nat i * 3) <= 2 ^ 15)%Z).
  { split; [apply (Z.pow_le_mono_r 2 0 (Z.of_nat i * 3)); lia|apply Z.pow_le_mono_r; lia]. }
  change (2 ^ 15)%Z with 32768%Z in P. assert (B : (0 <= v * 2 ^ (Z.of_nat i * 3) < 262144)%Z) by nia.
  rewrite shl64_exact; [|lia|lia|change (2 ^ 63)%Z with 9223372036854775808%Z; lia].
  apply lor_small; [lia|exact Hx|exact B].
Qed.
Lemma key2xyz_small k d x y z b : (d <= 16)%nat -> key2xyz k d = Ok (x, y, z, b) -> small x /\ small y /\ small z.
Proof.
  intros Hd. unfold key2xyz. set (n := Nat.div (d + 2) 3).
  assert (Hn : (n <= 6)%nat) by (unfold n; apply Nat.div_le_upper_bound; lia). clearbody n.
  match goal with |- bind (foldM ?f _ _) _ = _ -> _ => set (F := f) end.
  assert (K : forall l s r, Forall (fun i => (i <= 5)%nat) l -> (let '(a, b0, c) := s in small a /\ small b0 /\ small c) ->
    foldM F s l = Ok r -> let '(a, b0, c) := r in small a /\ small b0 /\ small c).
  { induction l as [|i l IH]; intros s r Hl Hs E; cbn [foldM] in E; [injection E as <-; exact Hs|].
    inversion Hl; subst. destruct s as [[a b0] c]. destruct Hs as (Ha & Hb & Hc). unfold F at 1 in E.
    destruct tables_small as (TX & TY & TZ).
    destruct (tget DX _) as [dx|] eqn:EX; [|discriminate]. destruct (tget DY _) as [dy|] eqn:EY; [|discriminate].
    destruct (tget DZ _) as [dz|] eqn:EZ; [|discriminate]. cbn [bind] in E. eapply IH; [eassumption| |exact E].
    pose proof (table_small _ _ _ TX EX). pose proof (table_small _ _ _ TY EY). pose proof (table_small _ _ _ TZ EZ).
    split; [|split]; apply step_small; assumption. }
  destruct (foldM F _ _) as [[[a b0] c]|e] eqn:E; [|discriminate]. cbn [bind]. intros [= <- <- <- _].
  refine (K _ _ _ _ _ E).
  - apply Forall_forall. intros i Hi. apply in_seq in Hi. lia.
  - unfold small. repeat split; lia.
Qed.
Lemma mapM_Forall {A B} (P : B -> Prop) (f : A -> res B) l r : (forall a b, f a = Ok b -> P b) -> mapM f l = Ok r -> Forall P r.
Proof.
  intros H. revert r. induction l as [|a l IH]; intros r E; cbn [mapM] in E; [injection E as <-; constructor|].
  destruct (f a) as [b|] eqn:Eb; [|discriminate]. cbn [bind] in E. destruct (mapM f l) as [bs|]; [|discriminate]. cbn [bind] in E. injection E as <-.
  constructor; [eapply H; exact Eb|apply IH; reflexivity].
Qed.
Definition small_row (r : Z * Z * Z * Z) : Prop := let '(x, y, z, _) := r in small x /\ small y /\ small z.
Lemma xyzb_small o t ne rows : (t <= 16)%nat -> octree_xyzb o t ne = Ok rows -> Forall small_row rows.
Proof.
  intros Ht. unfold octree_xyzb. destruct (octree_key o _ ne) as [k|]; [|discriminate]. cbn [bind].
  apply mapM_Forall. intros a [[[x y] z] b] E. eapply key2xyz_small; [exact Ht|exact E].
Qed.

(** ** one coordinate *)
Section Centre.
  Variables (d t : nat) (x : Z).
  Hypothesis Hdt : (d < t <= 16)%nat.
  Hypothesis Hx : small x.
  Let s := (Z.of_nat t - Z.of_nat d)%Z.
  Let E := (s + 1)%Z.
  Let q : Qc := ((qz x + half) * q2pow (Z.of_nat d - Z.of_nat t))%Qc.
  Let n : Z := qfloor (q - half)%Qc.
  Let Hs : (1 <= s <= 16)%Z.
  Proof. unfold s. lia. Qed.
  Let HE : (2 <= E <= 17)%Z.
  Proof. unfold E. lia. Qed.
  Let Hx' : (0 <= x < 262144)%Z := Hx.
  Let P : (2 <= 2 ^ s <= 65536)%Z.
  Proof. split; [apply (Z.pow_le_mono_r 2 1 s); lia|apply (Z.pow_le_mono_r 2 s 16); lia]. Qed.
  Let PE : (2 ^ E = 2 * 2 ^ s)%Z.
  Proof. unfold E. rewrite Z.pow_add_r by lia. lia. Qed.

  Lemma c_val : Q2R q = IZR (2 * x + 1) * bpow radix2 (- E).
  Proof.
    unfold q. rewrite Q2R_mult, Q2R_plus, Q2R_qz, half_val, Q2R_q2pow, plus_IZR, mult_IZR.
    replace (Z.of_nat d - Z.of_nat t)%Z with (1 + - E)%Z by (unfold E, s; lia). rewrite bpow_plus. change (bpow radix2 1) with 2. ring_simplify.
    field_simplify; lra.
  Qed.
  Lemma c_float : B2R (fcentre d t x) = Q2R q /\ is_finite (fcentre d t x) = true.
  Proof.
    destruct (fcount_val x) as [Ex Fx]; [change (2 ^ 24)%Z with 16777216%Z; lia|]. destruct fhalf_val as [Eh Fh].
    destruct (fadd_exact (fcount x) fhalf (IZR (2 * x + 1) * bpow radix2 (-1)) Fx Fh) as [Ea Fa].
    { rewrite Ex, Eh, plus_IZR, mult_IZR. change (bpow radix2 (-1)) with (/ 2). lra. }
    { apply fmt_scaled; [change (2 ^ 24)%Z with 16777216%Z|]; lia. }
    { apply small_abs; [change (2 ^ 24)%Z with 16777216%Z|]; lia. }
    assert (L : B2R (@Bldexp 24 128 f32_prec f32_emax mode_NE fone (Z.of_nat d - Z.of_nat t)) = bpow radix2 (- s) /\
                is_finite (@Bldexp 24 128 f32_prec f32_emax mode_NE fone (Z.of_nat d - Z.of_nat t)) = true).
    { replace (Z.of_nat d - Z.of_nat t)%Z with (- s)%Z by (unfold s; lia).
      pose proof (@Bldexp_correct 24 128 f32_prec f32_emax mode_NE fone (- s)) as H.
      rewrite fone_val, Rmult_1_l, fex_eq in H. change (round radix2 fex (round_mode mode_NE)) with rne in H.
      rewrite rne_id in H by (apply fmt_bpow; lia). rewrite (big_bound _ 0) in H; [|lia|].
      - destruct H as (H1 & H2 & _). split; [exact H1|]. rewrite H2. exact fone_fin.
      - rewrite Rabs_pos_eq by apply bpow_ge_0. apply bpow_le. lia. }
    destruct L as [El Fl].
    assert (EV : B2R (fadd (fcount x) fhalf) * bpow radix2 (- s) = IZR (2 * x + 1) * bpow radix2 (- E)).
    { rewrite Ea, Rmult_assoc, <- bpow_plus. do 2 f_equal. unfold E. lia. }
    unfold fcentre. destruct (fmul_val _ _ Fa Fl) as [Em Fm].
    { rewrite El, EV. apply small_abs; [change (2 ^ 24)%Z with 16777216%Z|]; lia. }
    split; [|exact Fm]. rewrite Em, El, EV, c_val. apply rne_id, fmt_scaled; [change (2 ^ 24)%Z with 16777216%Z|]; lia.
  Qed.
  Lemma one_gridE : 1 = IZR (2 ^ E) * bpow radix2 (- E).
  Proof. rewrite IZR_pow by lia. rewrite <- bpow_plus. replace (E + - E)%Z with 0%Z by lia. reflexivity. Qed.
  Lemma half_gridE : / 2 = IZR (2 ^ s) * bpow radix2 (- E).
  Proof. rewrite IZR_pow by lia. rewrite <- bpow_plus. replace (s + - E)%Z with (-1)%Z by (unfold E; lia). reflexivity. Qed.
  Lemma c_centred : B2R (fsub (fcentre d t x) fhalf) = Q2R (q - half)%Qc /\ is_finite (fsub (fcentre d t x) fhalf) = true /\
    Q2R (q - half)%Qc = IZR (2 * x + 1 - 2 ^ s) * bpow radix2 (- E) /\ n = Zfloor (Q2R (q - half)%Qc) /\ (-1 <= n < 2 ^ 20)%Z.
  Proof.
    destruct c_float as [V F]. destruct fhalf_val as [Eh Fh].
    assert (EQ : Q2R (q - half)%Qc = IZR (2 * x + 1 - 2 ^ s) * bpow radix2 (- E)).
    { rewrite Q2R_minus', half_val, minus_IZR, Rmult_minus_distr_r, <- half_gridE, <- c_val. reflexivity. }
    destruct (fsub_exact (fcentre d t x) fhalf (Q2R (q - half)%Qc) F Fh) as [E1 E2].
    { rewrite V, Eh, Q2R_minus', half_val. reflexivity. }
    { rewrite EQ. apply fmt_scaled; [change (2 ^ 24)%Z with 16777216%Z|]; lia. }
    { rewrite EQ. apply small_abs; [change (2 ^ 24)%Z with 16777216%Z|]; lia. }
    assert (En : n = Zfloor (Q2R (q - half)%Qc)) by (apply floor_q; reflexivity).
    split; [exact E1|]. split; [exact E2|]. split; [exact EQ|]. split; [exact En|]. rewrite En, Q2R_minus', half_val, c_val.
    assert (0 <= IZR (2 * x + 1)) by (apply (IZR_le 0); lia). assert (IZR (2 * x + 1) <= 1048576) by (apply (IZR_le _ 1048576); lia).
    assert (0 < bpow radix2 (- E) <= 1) by (split; [apply bpow_gt_0|change 1 with (bpow radix2 0); apply bpow_le; lia]).
    assert (0 <= IZR (2 * x + 1) * bpow radix2 (- E) <= 1048576) by nra.
    split; [apply Zfloor_lub; change (IZR (-1)) with (-1); lra|]. apply lt_IZR. eapply Rle_lt_trans; [apply Zfloor_lb|]. change (IZR (2 ^ 20)) with 1048576. lra.
  Qed.
  Lemma c_base : B2R (base32 (fcentre d t x)) = IZR n /\ is_finite (base32 (fcentre d t x)) = true.
  Proof.
    destruct c_centred as (E1 & F & _ & En & _). unfold base32. destruct (ffloor_val _ F) as [E2 F2]. rewrite E2, E1, <- En. auto.
  Qed.
  Lemma c_corner g : (0 <= g <= 1)%Z -> same_int (corner32 (fcentre d t x) g) (qz (n + g)).
  Proof.
    intros Hg. destruct c_base as [E1 F]. destruct c_centred as (_ & _ & _ & _ & Hn). change (2 ^ 20)%Z with 1048576%Z in Hn.
    destruct (fcount_val g) as [Eg Fg]; [change (2 ^ 24)%Z with 16777216%Z; lia|].
    assert (Hm : (Z.abs (n + g) <= 2 ^ 24)%Z) by (change (2 ^ 24)%Z with 16777216%Z; lia).
    destruct (fadd_exact _ _ (IZR (n + g)) F Fg) as [E2 F2].
    { rewrite E1, Eg, plus_IZR. reflexivity. }
    { apply fmt_int; exact Hm. }
    { rewrite <- (Rmult_1_r (IZR (n + g))). apply (small_abs _ 0); [exact Hm|lia]. }
    exists (n + g)%Z. auto.
  Qed.
  Lemma c_side g : (0 <= g <= 1)%Z -> exists m, (Z.abs m <= 2 ^ E)%Z /\ Q2R ((1 - qz g) - ((q - half) - qz n))%Qc = IZR m * bpow radix2 (- E) /\
    B2R (side32 (fcentre d t x) g) = IZR m * bpow radix2 (- E) /\ is_finite (side32 (fcentre d t x) g) = true.
  Proof.
    intros Hg. destruct c_centred as (E1 & F & EQ & En & Hn). destruct c_base as [Eb Fb]. change (2 ^ 20)%Z with 1048576%Z in Hn.
    set (k := (2 * x + 1 - 2 ^ s)%Z) in *.
    assert (EF : Q2R ((q - half) - qz n)%Qc = IZR (k - n * 2 ^ E) * bpow radix2 (- E)).
    { rewrite (Q2R_minus' (q - half) (qz n)), Q2R_qz, minus_IZR, mult_IZR, Rmult_minus_distr_r, Rmult_assoc, <- one_gridE, <- EQ. lra. }
    assert (Hr : 0 <= Q2R ((q - half) - qz n)%Qc < 1).
    { rewrite (Q2R_minus' (q - half) (qz n)), Q2R_qz, En. pose proof (Zfloor_lb (Q2R (q - half)%Qc)). pose proof (Zfloor_ub (Q2R (q - half)%Qc)). lra. }
    pose proof (bpow_gt_0 radix2 (- E)) as Hp. set (f := (k - n * 2 ^ E)%Z) in *.
    assert (Hf : (0 <= f < 2 ^ E)%Z).
    { split; [apply le_IZR; apply Rmult_le_reg_r with (1 := Hp)|apply lt_IZR; apply Rmult_lt_reg_r with (1 := Hp)].
      - rewrite <- EF. lra.
      - rewrite <- EF, <- one_gridE. lra. }
    assert (H24 : (2 ^ E <= 131072)%Z) by lia.
    destruct (fsub_exact (fsub (fcentre d t x) fhalf) (base32 (fcentre d t x)) (IZR f * bpow radix2 (- E)) F Fb) as [E3 F3].
    { rewrite E1, Eb, <- EF, (Q2R_minus' (q - half) (qz n)), Q2R_qz. reflexivity. }
    { apply fmt_scaled; [change (2 ^ 24)%Z with 16777216%Z|]; lia. }
    { apply small_abs; [change (2 ^ 24)%Z with 16777216%Z|]; lia. }
    fold (frac32 (fcentre d t x)) in E3, F3.
    destruct (fcount_val g) as [Eg Fg]; [change (2 ^ 24)%Z with 16777216%Z; lia|].
    assert (H1g : (Z.abs (1 - g) <= 2 ^ 24)%Z) by (change (2 ^ 24)%Z with 16777216%Z; lia).
    destruct (fsub_exact fone (fcount g) (IZR (1 - g)) fone_fin Fg) as [E4 F4].
    { rewrite fone_val, Eg, minus_IZR. reflexivity. }
    { apply fmt_int; exact H1g. }
    { rewrite <- (Rmult_1_r (IZR (1 - g))). apply (small_abs _ 0); [exact H1g|lia]. }
    set (m := ((1 - g) * 2 ^ E - f)%Z). assert (Hm : (Z.abs m <= 2 ^ E)%Z) by (unfold m; assert (g = 0 \/ g = 1)%Z as [-> | ->] by lia; lia).
    assert (EM : IZR (1 - g) - IZR f * bpow radix2 (- E) = IZR m * bpow radix2 (- E)).
    { unfold m. rewrite (minus_IZR (_ * _)), mult_IZR, Rmult_minus_distr_r, Rmult_assoc, <- one_gridE. lra. }
    destruct (fsub_exact (fsub fone (fcount g)) (frac32 (fcentre d t x)) (IZR m * bpow radix2 (- E)) F4 F3) as [E5 F5].
    { rewrite E4, E3. exact EM. }
    { apply fmt_scaled; [change (2 ^ 24)%Z with 16777216%Z|]; lia. }
    { apply small_abs; [change (2 ^ 24)%Z with 16777216%Z|]; lia. }
    exists m. split; [exact Hm|]. split; [|split; [exact E5|exact F5]].
    rewrite (Q2R_minus' (1 - qz g)), (Q2R_minus' 1), Q2R_one, Q2R_qz, EF, <- EM, minus_IZR. reflexivity.
  Qed.
End Centre.

(** ** the matrix *)
Lemma c_factor d t x g : (d < t <= 16)%nat -> small x -> (0 <= g <= 1)%Z -> factor (side32 (fcentre d t x) g).
Proof.
  intros Hdt Hx Hg. destruct (c_side d t x Hdt Hx g Hg) as (m & Hm & _ & Ev & F). set (E := (Z.of_nat t - Z.of_nat d + 1)%Z) in *.
  unfold factor. rewrite Ev, Rabs_mult, (Rabs_pos_eq (bpow _ _)) by apply bpow_ge_0. rewrite <- abs_IZR. split; [exact F|]. split.
  - apply Rle_trans with (IZR (2 ^ E) * bpow radix2 (- E)).
    + apply Rmult_le_compat_r; [apply bpow_ge_0|]. apply IZR_le. exact Hm.
    + rewrite IZR_pow by (unfold E; lia). rewrite <- bpow_plus. replace (E + - E)%Z with 0%Z by lia. cbn. lra.
  - destruct (Z.eq_dec m 0) as [->|N]; [left; lra|right]. apply Rle_trans with (1 * bpow radix2 (- E)).
    + rewrite Rmult_1_l. apply bpow_le. unfold E. lia.
    + apply Rmult_le_compat_r; [apply bpow_ge_0|]. apply (IZR_le 1). lia.
Qed.
Definition centre_of (d t : nat) (r : Z * Z * Z * Z) : qpoint :=
  let '(x, y, z, b) := r in (v3map (fun c => (c + half) * q2pow (Z.of_nat d - Z.of_nat t))%Qc (qz x, qz y, qz z), b).
Definition centre32 (d t : nat) (r : Z * Z * Z * Z) : v3 f32 * Z := let '(x, y, z, b) := r in (v3map (fcentre d t) (x, y, z), b).
Definition up_weight (d t : nat) (w : Qc) (w32 : f32) : Prop := near_weight w w32 /\ ((t <= d + 7)%nat -> same_number w w32).

Lemma fmul_exact x y v : is_finite x = true -> is_finite y = true -> B2R x * B2R y = v ->
  generic_format radix2 fex v -> Rabs v <= bpow radix2 100 -> B2R (fmul x y) = v /\ is_finite (fmul x y) = true.
Proof. intros Hx Hy <- G B. destruct (fmul_val x y Hx Hy B) as [E F]. rewrite rne_id in E by exact G. auto. Qed.
Lemma abs_prod a b A B : (Z.abs a <= A)%Z -> (Z.abs b <= B)%Z -> (Z.abs (a * b) <= A * B)%Z.
Proof. intros Ha Hb. rewrite Z.abs_mul. apply Z.mul_le_mono_nonneg; lia. Qed.

Lemma up_weight_val d t r g : (d < t <= 16)%nat -> small_row r -> In g corner_grid ->
  up_weight d t (corner_weight (fst (centre_of d t r)) g) (weight32 (fst (centre32 d t r)) g).
Proof.
  intros Hdt Hr Hg. apply in_grid in Hg. destruct g as [[gx gy] gz]. destruct Hg as (Gx & Gy & Gz).
  destruct r as [[[x y] z] b]. destruct Hr as (Sx & Sy & Sz). cbn [centre_of centre32 fst v3map].
  unfold corner_weight, weight32, frac_of. cbn [v3map].
  pose proof (three_near _ _ _ (c_factor d t x gx Hdt Sx Gx) (c_factor d t y gy Hdt Sy Gy) (c_factor d t z gz Hdt Sz Gz)) as [F3 N3].
  destruct (c_side d t x Hdt Sx gx Gx) as (mx & Hmx & Ex & Vx & Fx). destruct (c_side d t y Hdt Sy gy Gy) as (my & Hmy & Ey & Vy & Fy).
  destruct (c_side d t z Hdt Sz gz Gz) as (mz & Hmz & Ez & Vz & Fz).
  unfold up_weight, near_weight, same_number. rewrite Q2R_qabs, !Q2R_mult, Ex, Ey, Ez, <- Vx, <- Vy, <- Vz. rewrite is_finite_Babs, B2R_Babs.
  split; [split; [exact F3|exact N3]|]. intros H7. f_equal. symmetry.
  set (E := (Z.of_nat t - Z.of_nat d + 1)%Z) in *. assert (HE : (2 <= E <= 8)%Z) by (unfold E; lia).
  assert (P : (2 ^ E <= 256)%Z) by (apply (Z.pow_le_mono_r 2 E 8); lia).
  assert (A1 : (Z.abs (mx * my) <= 256 * 256)%Z) by (apply abs_prod; lia).
  assert (A2 : (Z.abs (mx * my * mz) <= 256 * 256 * 256)%Z) by (apply abs_prod; lia).
  destruct (fmul_exact _ _ (IZR (mx * my) * bpow radix2 (- E + - E)) Fx Fy) as [E1 F1].
  { rewrite Vx, Vy, mult_IZR, bpow_plus. ring. }
  { apply fmt_scaled; [change (2 ^ 24)%Z with 16777216%Z|]; lia. }
  { apply small_abs; [change (2 ^ 24)%Z with 16777216%Z|]; lia. }
  destruct (fmul_exact _ _ (IZR (mx * my * mz) * bpow radix2 (- E + - E + - E)) F1 Fz) as [E2 F2].
  { rewrite E1, Vz, (mult_IZR (mx * my)), (bpow_plus radix2 (- E + - E)). ring. }
  { apply fmt_scaled; [change (2 ^ 24)%Z with 16777216%Z|]; lia. }
  { apply small_abs; [change (2 ^ 24)%Z with 16777216%Z|]; lia. }
  rewrite E2, Vx, Vy, Vz, !mult_IZR, !bpow_plus. ring.
Qed.
Lemma up_cells d t rows : (d < t <= 16)%nat -> Forall small_row rows -> Forall2 same_cell
    (flat_map (fun '((x, y, z), b) => map (fun '(gx, gy, gz) => ((corner32 x gx, corner32 y gy, corner32 z gz), b)) corner_grid) (map (centre32 d t) rows))
    (flat_map (fun '(p, b) => let '(x, y, z) := base_of p in
       map (fun '(gx, gy, gz) => ((qz (x + gx), qz (y + gy), qz (z + gz)), b)) corner_grid) (map (centre_of d t) rows)).
Proof.
  intros Hdt F. eapply (Forall2_flat (fun pb qb => exists r, small_row r /\ pb = centre32 d t r /\ qb = centre_of d t r)).
  - intros pb qb ([[[x y] z] b] & (Sx & Sy & Sz) & -> & ->). cbn [centre32 centre_of v3map base_of]. apply Forall2_maps. intros [[gx gy] gz] Hg.
    apply in_grid in Hg. destruct Hg as (Gx & Gy & Gz). cbn [same_cell].
    split; [apply c_corner; assumption|]. split; [apply c_corner; assumption|]. split; [apply c_corner; assumption|reflexivity].
  - apply Forall2_maps. intros r Hr. rewrite Forall_forall in F. exists r. auto.
Qed.
Lemma up_weights d t rows : (d < t <= 16)%nat -> Forall small_row rows -> Forall2 (fun w32 w => up_weight d t w w32)
    (flat_map (fun '(p, _) => map (weight32 p) corner_grid) (map (centre32 d t) rows))
    (flat_map (fun '(p, _) => map (corner_weight p) corner_grid) (map (centre_of d t) rows)).
Proof.
  intros Hdt F. eapply (Forall2_flat (fun pb qb => exists r, small_row r /\ pb = centre32 d t r /\ qb = centre_of d t r)).
  - intros pb qb (r & Sr & -> & ->). pose proof (up_weight_val d t r) as H. destruct (centre32 d t r) as [p32 b32]. destruct (centre_of d t r) as [p b].
    apply Forall2_maps. intros g Hg. apply H; assumption.
  - apply Forall2_maps. intros r Hr. rewrite Forall_forall in F. exists r. auto.
Qed.
Lemma thm_upsample32 : forall nempty o d t, (d < t <= 16)%nat ->
  match upsample_matrix o d t nempty with
  | Ok m => exists m32, upsample_matrix32 o d t nempty = Ok m32 /\
      Forall2 (fun e e32 => near_entry e e32 /\ ((t <= d + 7)%nat -> same_number (snd e) (snd e32))) m m32
  | Err e => upsample_matrix32 o d t nempty = Err e
  end.
Proof.
  intros ne o d t Hdt. unfold upsample_matrix, upsample_matrix32. destruct (octree_xyzb o t ne) as [rows|e] eqn:Er; [|reflexivity]. cbn [bind].
  pose proof (xyzb_small o t ne rows ltac:(lia) Er) as HS.
  change (map (fun '(x, y, z, b) => (v3map (fcentre d t) (x, y, z), b)) rows) with (map (centre32 d t) rows).
  match goal with |- context [linear_matrix o d ?l ne false] => change l with (map (centre_of d t) rows) end.
  unfold linear_matrix, linear_matrix32.
  pose proof (up_cells d t rows Hdt HS) as HC. pose proof (up_weights d t rows Hdt HS) as HW.
  match type of HC with Forall2 _ ?a ?b => set (A := a) in *; set (B := b) in * end.
  rewrite (search_same o A B d ne HC). destruct (search_pts o B d ne) as [idx|e]; [|reflexivity]. cbn [bind].
  unfold valid_mask. set (v := map _ idx).
  destruct (mask_get idx v) as [j|e]; [|reflexivity]. cbn [bind].
  replace (length (map (centre32 d t) rows)) with (length (map (centre_of d t) rows)) by (rewrite !map_length; reflexivity).
  destruct (mask_get (flat_map _ (arange _)) v) as [i|e]; [|reflexivity]. cbn [bind].
  unfold mask_get. rewrite (Forall2_length _ _ _ HW). destruct (Nat.eqb _ _); [|reflexivity]. cbn [bind].
  eexists. split; [reflexivity|]. apply (Forall2_select _ _ _ v) in HW. revert HW. generalize (combine i j).
  generalize (select v (flat_map (fun '(p, _) => map (weight32 p) corner_grid) (map (centre32 d t) rows))).
  generalize (select v (flat_map (fun '(p, _) => map (corner_weight p) corner_grid) (map (centre_of d t) rows))).
  intros w w32 ij HW. revert ij. induction HW as [|a b l m [H1 H2] F IH]; intros [|c ij]; cbn [combine]; constructor; [|apply IH].
  split; [split; [reflexivity|exact H1]|exact H2].
Qed.
Lemma thm_upsample_is C data o d t nempty : (d < t)%nat -> octree_upsample "linear" nempty C data o d (Some t) =
  (xyzb <- octree_xyzb o t nempty ;; _ <- check_rows data o d nempty ;; mat <- upsample_matrix o d t nempty ;; linear_apply C data (length xyzb) mat).
Proof.
  intros H. unfold octree_upsample. replace (Nat.eqb t d) with false by (symmetry; apply Nat.eqb_neq; lia).
  replace (Nat.leb d t) with true by (symmetry; apply Nat.leb_le; lia). cbn [assert_ bind]. rewrite andb_false_r. cbn [String.eqb Ascii.eqb Bool.eqb].
  unfold upsample_matrix. destruct (octree_xyzb o t nempty) as [rows|e]; [|reflexivity]. cbn [bind]. change (String.eqb "linear" "linear") with true. cbn iota.
  rewrite thm_linear_is, map_length. reflexivity.
Qed.

(** ** nearest neighbours *)
Lemma c_long d t x : (d < t <= 16)%nat -> small x -> flong (fcentre d t x) = Some (qtrunc ((qz x + half) * q2pow (Z.of_nat d - Z.of_nat t))%Qc).
Proof.
  intros Hdt Hx. destruct (c_float d t x Hdt Hx) as [V F]. pose proof (c_val d t x) as Ev.
  assert (Hb : 0 <= B2R (fcentre d t x) < bpow radix2 63).
  { rewrite V, Ev by assumption. unfold small in Hx. change (2 ^ 18)%Z with 262144%Z in Hx.
    assert (0 <= IZR (2 * x + 1)) by (apply (IZR_le 0); lia). assert (IZR (2 * x + 1) <= 1048576) by (apply (IZR_le _ 1048576); lia).
    assert (0 < bpow radix2 (- (Z.of_nat t - Z.of_nat d + 1)) <= 1) by (split; [apply bpow_gt_0|change 1 with (bpow radix2 0); apply bpow_le; lia]).
    assert (1048576 < bpow radix2 63) by (change 1048576 with (bpow radix2 20); apply bpow_lt; lia). nra. }
  destruct (flong_val _ F Hb) as (k & -> & ->). f_equal. symmetry. apply floor_qtrunc; [symmetry; exact V|lra].
Qed.
Lemma thm_upsample_nearest : forall nempty C data o d t, (d + 1 < t <= 16)%nat ->
  upsample_nearest32 C data o d t nempty = octree_upsample "nearest" nempty C data o d (Some t).
Proof.
  intros ne C data o d t H. unfold octree_upsample, upsample_nearest32. replace (Nat.eqb t d) with false by (symmetry; apply Nat.eqb_neq; lia).
  replace (Nat.leb d t) with true by (symmetry; apply Nat.leb_le; lia). replace (Nat.eqb t (S d)) with false by (symmetry; apply Nat.eqb_neq; lia).
  cbn [assert_ bind andb]. destruct (octree_xyzb o t ne) as [rows|e] eqn:Er; [|reflexivity]. cbn [bind].
  change (String.eqb "nearest" "linear") with false. cbn iota. pose proof (xyzb_small o t ne rows ltac:(lia) Er) as HS. rewrite Forall_forall in HS.
  unfold octree_nearest_pts32, octree_nearest_pts. destruct (check_rows data o d ne); [|reflexivity]. cbn [bind]. rewrite !map_length.
  match goal with |- bind ?a _ = bind ?b _ => assert (E : a = b) end.
  { unfold search_pts32, search_pts. rewrite mapM_map', map_map. erewrite mapM_Ok; [reflexivity|].
    intros [[[x y] z] b] Hin. destruct (HS _ Hin) as (Sx & Sy & Sz). cbn [v3map long_row32]. rewrite !c_long by (lia || assumption). reflexivity. }
  rewrite E. reflexivity.
Qed.
