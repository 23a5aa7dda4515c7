(** Single-precision model of flip. *)
From Coq Require Import Ascii String List ZArith Bool QArith Qcanon.
From Flocq Require Import Core.Core IEEE754.BinarySingleNaN.
From Verif Require Import Res Num Points PointsOps Float32 FloatMean.
Import ListNotations.

(** -1.0 *)
Definition fmone : f32 := @B754_finite 24 128 true 8388608 (-23) eq_refl.
(** points.py:153-156, one row *)
Definition fnegate_at (idx : nat) (v : v3 f32) : v3 f32 :=
  let '(x, y, z) := v in
  match idx with O => (fmul x fmone, y, z) | S O => (x, fmul y fmone, z) | _ => (x, y, fmul z fmone) end.
(** points.py:144-156, flip *)
Fixpoint flip_loop32 (axes : list ascii) (p : pcloud f32) : pcloud f32 * option exn :=
  match axes with
  | [] => (p, None)
  | a :: axes =>
      match axis_of a with
      | Err e => (p, Some e)
      | Ok idx => flip_loop32 axes (set_pnormals (set_points p (fnegate_at idx)) (fnegate_at idx))
      end
  end.
Definition flip32 (axis : string) (p : pcloud f32) : pcloud f32 * option exn := flip_loop32 (list_ascii_of_string axis) p.
