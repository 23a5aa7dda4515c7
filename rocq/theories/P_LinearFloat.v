(** Property C128: linear interpolation in single precision. *)
From Coq Require Import List ZArith Bool Reals Lra Lia QArith Qcanon Qreals.
From Flocq Require Import Core.Core IEEE754.BinarySingleNaN.
From Verif Require Import Res Num Points Octree NnBasic NnInterp SpecGeo Float32 FloatMean SpecSingle FloatFacts BuildFloat SpecNudge LinearFloat SpecLinear32
  NudgeFacts LinearFloatFacts LinearOutFacts.
Import ListNotations.
Open Scope R_scope.

(** C128: computed in binary32, linear interpolation at depth 1 to 23 combines exactly the
    cells that exact arithmetic combines for the query moved by at most 2^-24 per
    coordinate, in the same order, with weights that differ from the exact ones by at most
    two relative rounding errors of 2^-24; the failures are the same.  The displacement is
    the one of C126: it depends on the coordinate only. *)
Theorem C128_same_cells : exists move : f32 -> Qc,
  (forall c, in_unit32 c -> Rabs (Q2R (move c) - B2R c) <= / 2 ^ 24 /\ -1 <= Q2R (move c) <= 1 /\
     (safe32 c -> Q2R (move c) < 1) /\ (B2R c < 1 -> on_grid c -> Q2R (move c) = B2R c)) /\
  (forall nempty bound_check o d pts, (1 <= d <= 23)%nat -> Forall (fun pb => point_in_unit32 (fst pb)) pts ->
     match linear_matrix o d (map (fun pb => (v3map (fun c => (move c + 1) * q2pow (Z.of_nat d - 1))%Qc (fst pb), snd pb)) pts) nempty bound_check with
     | Ok m => exists m32, interp_matrix32 nempty bound_check o d pts = Ok m32 /\ Forall2 near_entry m m32
     | Err e => interp_matrix32 nempty bound_check o d pts = Err e
     end).
Proof. exact (ex_intro _ nudge (conj thm_nudge thm_linear_near)). Qed.
Print Assumptions C128_same_cells.

(** C128: the exact matrix compared above is the one octree_linear_pts multiplies the data
    with. *)
Theorem C128_matrix : forall C data o d pts nempty bound_check, octree_linear_pts C data o d pts nempty bound_check =
  (_ <- check_rows data o d nempty ;; mat <- linear_matrix o d pts nempty bound_check ;; linear_apply C data (length pts) mat).
Proof. exact thm_linear_is. Qed.
Print Assumptions C128_matrix.

(** C128: weights as near as that change the interpolated values by at most M * 2^-21 when
    the data are bounded by M.  [m'] is the matrix [m32] with its weights as rational
    numbers; the sums and the quotient are exact on both sides. *)
Theorem C128_output : forall C data M n m m32 m', 0 <= M -> Forall (Forall (fun v : Qc => Rabs (Q2R v) <= M)) data ->
  Forall2 near_entry m m32 -> Forall2 (fun e32 e => fst e = fst e32 /\ same_number (snd e) (snd e32)) m32 m' ->
  match linear_apply C data n m with
  | Ok out => exists out', linear_apply C data n m' = Ok out' /\ Forall2 (Forall2 (fun a a' : Qc => Rabs (Q2R a' - Q2R a) <= M * / 2 ^ 21)) out out'
  | Err e => linear_apply C data n m' = Err e
  end.
Proof. exact thm_linear_output. Qed.
Print Assumptions C128_output.

(** One point between two cells with weights 1/3 and 2/3; the weights of [m32] are those
    numbers in binary32. *)
Example C128_output_case : let third : f32 := @B754_finite 24 128 false 11184811 (-25) eq_refl in
  let two_thirds : f32 := @B754_finite 24 128 false 11184811 (-24) eq_refl in
  let m := [(0%Z, 0%Z, Q2Qc (1 # 3)); (0%Z, 1%Z, Q2Qc (2 # 3))] in
  Forall2 near_entry m [(0%Z, 0%Z, third); (0%Z, 1%Z, two_thirds)] /\
  Forall2 (fun e32 e => fst e = fst e32 /\ same_number (snd e) (snd e32)) [(0%Z, 0%Z, third); (0%Z, 1%Z, two_thirds)]
    [(0%Z, 0%Z, Q2Qc (11184811 # 33554432)); (0%Z, 1%Z, Q2Qc (11184811 # 16777216))] /\
  match linear_apply 1 [[qz 3]; [qz 6]] 1 m with Ok [[v]] => qltb (Q2Qc (499 # 100)) v && qltb v (qz 5) | _ => false end = true.
Proof.
  cbn zeta. split; [|split].
  - repeat constructor; cbn [fst snd]; try reflexivity; rewrite Q2R_Q2Qc; unfold Q2R, B2R, F2R; cbn; lra.
  - repeat constructor; cbn [fst snd]; unfold same_number; rewrite Q2R_Q2Qc; unfold Q2R, B2R, F2R; cbn; lra.
  - vm_compute. reflexivity.
Qed.

(** A query of two points in a full octree of depth 2: one at the centre of the cube, with
    eight cells of weight 1/8; one at the corner, with a single cell of weight 1/8. *)
Example C128_case : let zero : f32 := B754_zero false in
  let minus_one : f32 := @B754_finite 24 128 true 8388608 (-23) eq_refl in
  let eighth (w : f32) := match w with B754_finite false 8388608 (-26) _ => true | _ => false end in
  let pts := [((zero, zero, zero), 0%Z); ((minus_one, minus_one, minus_one), 0%Z)] in
  Forall (fun pb => point_in_unit32 (fst pb)) pts /\
  match (o <- octree_grow_full (octree_new 2 2 1 0) 0 true ;; o <- octree_grow_full o 1 true ;; octree_grow_full o 2 true) with
  | Ok o => match interp_matrix32 false true o 2 pts with
            | Ok m => Nat.eqb (length m) 9 && forallb (fun e => eighth (snd e)) m
            | Err _ => false
            end
  | Err _ => false
  end = true.
Proof.
  cbn zeta. split.
  - repeat constructor; cbn; unfold F2R; cbn; lra.
  - vm_compute. reflexivity.
Qed.
