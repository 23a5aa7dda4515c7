(** Specification vocabulary for linear interpolation in single precision. *)
From Coq Require Import ZArith QArith Qcanon Reals Qreals.
From Flocq Require Import IEEE754.BinarySingleNaN.
From Verif Require Import Num Float32.
Open Scope R_scope.

(** A binary32 weight within two relative rounding errors of an exact one; in particular
    it is zero only if the exact one is. *)
Definition near_weight (w : Qc) (w32 : f32) : Prop := is_finite w32 = true /\
  (1 - / 2 ^ 24) ^ 2 * Q2R w <= B2R w32 <= (1 + / 2 ^ 24) ^ 2 * Q2R w.
(** The same row and column, and a near weight. *)
Definition near_entry (e : Z * Z * Qc) (e32 : Z * Z * f32) : Prop := fst e32 = fst e /\ near_weight (snd e) (snd e32).
