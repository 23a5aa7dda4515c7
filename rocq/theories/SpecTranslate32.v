(** Specification vocabulary for translate in single precision. *)
From Coq Require Import List ZArith Reals.
From Flocq Require Import Core.Core IEEE754.BinarySingleNaN.
From Verif Require Import Num Points Float32 SpecNorm32.
Open Scope R_scope.

(** No binary32 number is nearer to [r] than [c]. *)
Definition nearest32 (r : R) (c : f32) : Prop :=
  is_finite c = true /\ forall f : f32, Rabs (B2R c - r) <= Rabs (B2R f - r).
(** Each coordinate of [q] is a nearest number to the sum of those of [p] and [d]. *)
Definition moved_by (d p q : v3 f32) : Prop :=
  let '(a, b, c) := d in let '(x, y, z) := p in let '(u, v, w) := q in
  nearest32 (B2R x + B2R a) u /\ nearest32 (B2R y + B2R b) v /\ nearest32 (B2R z + B2R c) w.
(** The comparisons of the coordinates, axis by axis. *)
Definition below (p q : v3 f32) : v3 Prop :=
  let '(x, y, z) := p in let '(u, v, w) := q in (B2R x <= B2R u, B2R y <= B2R v, B2R z <= B2R w).
(** Each comparison that holds in the first list holds in the second. *)
Definition implied (a b : v3 Prop) : Prop :=
  let '(x, y, z) := a in let '(u, v, w) := b in (x -> u) /\ (y -> v) /\ (z -> w).
