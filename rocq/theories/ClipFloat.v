(** Single-precision model of clip. *)
From Coq Require Import List ZArith Bool QArith Qcanon.
From Flocq Require Import Core.Core IEEE754.BinarySingleNaN.
From Verif Require Import Res Tensor Points PointsOps Float32.
Import ListNotations.

(** points.py:158-170 and 190-199.  [lo] and [hi] are min + esp and max - esp, which Python
    computes in double precision and the comparison converts to float32. *)
Definition clip32 (lo hi : f32) (p : pcloud f32) : res (list bool * pcloud f32) :=
  let mask := inbox_mask (@Bltb 24 128) (lo, lo, lo) (hi, hi, hi) p in
  q <- points_getitem p mask ;; Ok (mask, q).
