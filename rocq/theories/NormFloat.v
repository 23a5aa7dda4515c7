(** Single-precision model of normalize. *)
From Coq Require Import List ZArith Bool QArith Qcanon.
From Flocq Require Import Core.Core IEEE754.BinarySingleNaN.
From Verif Require Import Res Num Points Float32 FloatMean.
Import ListNotations.

(** 1.0e-6 in float32 *)
Definition feps6 : f32 := @B754_finite 24 128 false 8796093 (-43) eq_refl.
(** torch.max of two numbers that are not NaN *)
Definition fmax (a b : f32) : f32 := if Bltb a b then b else a.
(** points.py:220, (bbmin + bbmax) * 0.5, one coordinate *)
Definition fcenter (m M : f32) : f32 := fmul (fadd m M) fhalf.
(** points.py:221, (bbmax - bbmin).max() + 1.0e-6 *)
Definition fextent (bbmin bbmax : v3 f32) : f32 :=
  let '(x0, y0, z0) := bbmin in let '(x1, y1, z1) := bbmax in
  fmax (fmax (fsub x1 x0) (fsub y1 y0)) (fsub z1 z0).
Definition fbox (bbmin bbmax : v3 f32) : f32 := fadd (fextent bbmin bbmax) feps6.
(** points.py:222, one coordinate.  [s2] is 2.0 * scale; a Python number divided by a
    tensor is the product of the number and the reciprocal of the tensor. *)
Definition fnorm (box s2 m M c : f32) : f32 := fmul (fsub c (fcenter m M)) (fmul (fdiv fone box) s2).
(** points.py:210-222, the points *)
Definition normalize32 (bbmin bbmax : v3 f32) (s2 : f32) (pts : list (v3 f32)) : list (v3 f32) :=
  let '(x0, y0, z0) := bbmin in let '(x1, y1, z1) := bbmax in
  let f := fnorm (fbox bbmin bbmax) s2 in
  map (fun '(x, y, z) => (f x0 x1 x, f y0 y1 y, f z0 z1 z)) pts.
(** points.py:201-208, bbox of points without NaN; the minimum over no points raises *)
Definition fmin (a b : f32) : f32 := if Bltb b a then b else a.
Definition bbox32 (pts : list (v3 f32)) : res (v3 f32 * v3 f32) :=
  match pts with
  | [] => Err IndexError
  | p :: ps => Ok (fold_left (v3zip fmin) ps p, fold_left (v3zip fmax) ps p)
  end.
