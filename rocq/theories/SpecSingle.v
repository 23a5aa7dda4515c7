(** Specification vocabulary for the single-precision properties: [B2R c] is the real
    number a binary32 value stands for. *)
From Coq Require Import ZArith QArith Qcanon Reals Qreals.
From Flocq Require Import IEEE754.BinarySingleNaN.
From Verif Require Import Num Float32.
Open Scope R_scope.

(** The coordinates handled correctly: -1 <= c < 1 - 2^-24. *)
Definition safe32 (c : f32) : Prop := is_finite c = true /\ -1 <= B2R c < 1 - / 2 ^ 24.
Definition safe_point32 (p : v3 f32) : Prop :=
  let '(x, y, z) := p in safe32 x /\ safe32 y /\ safe32 z.
(** The real number [c] lies in the x-th of 2^d slabs of [-1,1], enlarged by [eps] on
    both sides. *)
Definition near_slab (eps : R) (d : nat) (x : Z) (c : R) : Prop :=
  -1 + 2 * IZR x / 2 ^ d - eps <= c <= -1 + 2 * (IZR x + 1) / 2 ^ d + eps.
Definition near_cell (eps : R) (d : nat) (x y z : Z) (p : v3 f32) : Prop :=
  let '(px, py, pz) := p in
  near_slab eps d x (B2R px) /\ near_slab eps d y (B2R py) /\ near_slab eps d z (B2R pz).
(** A coordinate on the grid of step 2^-23. *)
Definition on_grid (c : f32) : Prop := exists k : Z, B2R c = IZR k / 2 ^ 23.
(** The exact number [q] and the binary32 value [c] are the same number. *)
Definition same_number (q : Qc) (c : f32) : Prop := Q2R q = B2R c.
Definition same_point (q : v3 Qc) (p : v3 f32) : Prop :=
  let '(qx, qy, qz) := q in let '(x, y, z) := p in
  same_number qx x /\ same_number qy y /\ same_number qz z.
(** The largest binary32 value below 1: 16777215 * 2^-24. *)
Definition ftop : f32 := @B754_finite 24 128 false 16777215 (-24) eq_refl.
