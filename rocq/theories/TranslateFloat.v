(** Single-precision model of translate. *)
From Coq Require Import List ZArith QArith Qcanon.
From Flocq Require Import Core.Core IEEE754.BinarySingleNaN.
From Verif Require Import Num Points PointsOps Float32.

(** points.py:134-142; the transfer of [dis] to the device is not modelled *)
Definition translate32 (dis : v3 f32) (p : pcloud f32) : pcloud f32 := set_points p (fun v => v3zip fadd v dis).
