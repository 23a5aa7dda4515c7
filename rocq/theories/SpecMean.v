(** Specification vocabulary for the averaged points in single precision. *)
From Coq Require Import List ZArith Reals.
From Flocq Require Import IEEE754.BinarySingleNaN.
From Verif Require Import Num Float32.
Import ListNotations.
Open Scope R_scope.

(** The exact position of a coordinate in units of the finest cells. *)
Definition units (dep : nat) (c : f32) : R := (B2R c + 1) / 2 * 2 ^ dep.
(** The arithmetic mean of real numbers. *)
Definition mean (l : list R) : R := fold_right Rplus 0 l / INR (length l).
(** A finite number in the interval from [k] up to, but not including, [k + 1]. *)
Definition in_slab (k : Z) (a : f32) : Prop := is_finite a = true /\ IZR k <= B2R a < IZR k + 1.
(** A point in the half-open cell (x, y, z). *)
Definition in_unit_cell (x y z : Z) (p : v3 f32) : Prop :=
  let '(a, b, c) := p in in_slab x a /\ in_slab y b /\ in_slab z c.
(** Within [eps] of the exact mean, on each axis. *)
Definition near_mean (dep : nat) (eps : R) (rows : list (v3 f32)) (p : v3 f32) : Prop :=
  let '(a, b, c) := p in
  Rabs (B2R a - mean (map (fun '(x, _, _) => units dep x) rows)) <= eps /\
  Rabs (B2R b - mean (map (fun '(_, y, _) => units dep y) rows)) <= eps /\
  Rabs (B2R c - mean (map (fun '(_, _, z) => units dep z) rows)) <= eps.
(** The batch numbers that come with a cloud of [n] points; none if the batch has a
    single sample. *)
Definition good_ids (n : nat) (batch : option (list Z)) : Prop :=
  match batch with
  | None => True
  | Some ids => length ids = n /\ Forall (fun b => (0 <= b < 2 ^ 15)%Z) ids
  end.
