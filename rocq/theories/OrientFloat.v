(** Single-precision model of orient_normal. *)
From Coq Require Import Ascii String List ZArith Bool QArith Qcanon.
From Flocq Require Import Core.Core IEEE754.BinarySingleNaN.
From Verif Require Import Res Num Points PointsOps Float32 FloatMean.
Import ListNotations.

(** points.py:88-90, one row; flags.float() * 2.0 - 1.0 *)
Definition ftwo : f32 := @B754_finite 24 128 false 8388608 (-22) eq_refl.
Definition orient_row32 (idx : nat) (n : v3 f32) : v3 f32 :=
  let '(x, y, z) := n in
  let c := match idx with O => x | S O => y | _ => z end in
  let flag := fsub (fmul (if Bltb fzero c then fone else fzero) ftwo) fone in
  (fmul x flag, fmul y flag, fmul z flag).
(** points.py:74-92 *)
Definition orient_normal32 (axis : string) (p : pcloud f32) : res (pcloud f32) :=
  match p_normals p with
  | None => Ok p
  | Some _ =>
      if String.eqb axis "x" then Ok (set_pnormals p (orient_row32 0))
      else if String.eqb axis "y" then Ok (set_pnormals p (orient_row32 1))
      else if String.eqb axis "z" then Ok (set_pnormals p (orient_row32 2))
      else if String.eqb axis "xyz" then Ok (set_pnormals p (v3map (@Babs 24 128)))
      else Err KeyError
  end.
