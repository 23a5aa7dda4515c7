(** Property C130: linear interpolation at positions given in cells, in single precision. *)
From Coq Require Import List ZArith Bool Reals Lra Lia QArith Qcanon Qreals.
From Flocq Require Import Core.Core IEEE754.BinarySingleNaN.
From Verif Require Import Res Num Points Octree NnBasic NnInterp Float32 SpecSingle FloatFacts BuildFloat LinearFloat SpecRaw32 LinearFloatFacts RawFloatFacts.
Import ListNotations.
Open Scope R_scope.

(** C130: for every query whose positions are binary32 numbers of [0, 2^22], with no
    rescaling, the matrix computed in binary32 has the entries of the exact one for the
    same positions, in the same order, with weights off by at most 2^-21; the failures are
    the same. *)
Theorem C130_same_cells : forall nempty bound_check o d pts qts, (d <= 62)%nat ->
  Forall2 (fun pb qb => raw_point (fst pb) (fst qb) /\ snd pb = snd qb) pts qts ->
  match linear_matrix o d qts nempty bound_check with
  | Ok m => exists m32, linear_matrix32 o d pts nempty bound_check = Ok m32 /\ Forall2 close_entry m m32
  | Err e => linear_matrix32 o d pts nempty bound_check = Err e
  end.
Proof. exact thm_raw32. Qed.
Print Assumptions C130_same_cells.

(** C130: the output of nearest-neighbour interpolation is exactly that of exact arithmetic. *)
Theorem C130_nearest : forall nempty bound_check C data o d pts qts, (d <= 62)%nat ->
  Forall2 (fun pb qb => raw_point (fst pb) (fst qb) /\ snd pb = snd qb) pts qts ->
  octree_nearest_pts32 C data o d pts nempty bound_check = octree_nearest_pts C data o d qts nempty bound_check.
Proof. exact thm_raw_nearest. Qed.
Print Assumptions C130_nearest.

(** The point (0.1, 1, 0.5) in a full octree of depth 1.  0.1 - 0.5 is not a binary32 number,
    and two of the four weights are not exact. *)
Example C130_case : let tenth : f32 := @B754_finite 24 128 false 13421773 (-27) eq_refl in
  let one : f32 := @B754_finite 24 128 false 8388608 (-23) eq_refl in
  let a_half : f32 := @B754_finite 24 128 false 8388608 (-24) eq_refl in
  let q := (Q2Qc (13421773 # 134217728), Q2Qc 1, Q2Qc (1 # 2)) in
  raw_point (tenth, one, a_half) q /\
  match (o <- octree_grow_full (octree_new 1 1 1 0) 0 true ;; octree_grow_full o 1 true) with
  | Ok o => match linear_matrix o 1 [(q, 0%Z)] false true, linear_matrix32 o 1 [((tenth, one, a_half), 0%Z)] false true with
            | Ok m, Ok m32 => Nat.eqb (length m) 4 && forallb (fun ab => Z.eqb (snd (fst (fst ab))) (snd (fst (snd ab)))) (combine m m32)
            | _, _ => false
            end
  | Err _ => false
  end = true.
Proof.
  cbn zeta. split.
  - assert (P22 : 1 <= 2 ^ 22) by (apply pow_R1_Rle; lra).
    repeat split; try reflexivity; unfold same_number; rewrite ?Q2R_Q2Qc; unfold Q2R, B2R, F2R; cbn -[pow]; lra.
  - vm_compute. reflexivity.
Qed.
