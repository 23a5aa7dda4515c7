(** Specification vocabulary for positions in single precision. *)
From Coq Require Import ZArith QArith Qcanon Reals Qreals.
From Flocq Require Import IEEE754.BinarySingleNaN.
From Verif Require Import Num Points Octree Float32 SpecSingle.
Open Scope R_scope.

(** A position of [0, 2^22] in binary32 and the same number as a rational. *)
Definition raw_coord (c : f32) (q : Qc) : Prop := is_finite c = true /\ 0 <= B2R c <= 2 ^ 22 /\ same_number q c.
Definition raw_point (p : v3 f32) (q : v3 Qc) : Prop :=
  let '(x, y, z) := p in let '(u, v, w) := q in raw_coord x u /\ raw_coord y v /\ raw_coord z w.
(** An entry (row, column, weight) of a sparse matrix, exact and in binary32: the same place, the value off by at most 2^-21. *)
Definition close_entry (e : Z * Z * Qc) (e32 : Z * Z * f32) : Prop :=
  fst e32 = fst e /\ is_finite (snd e32) = true /\ Rabs (B2R (snd e32) - Q2R (snd e)) <= / 2 ^ 21.
