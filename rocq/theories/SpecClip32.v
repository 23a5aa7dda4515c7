(** Specification vocabulary for clipping in single precision. *)
From Coq Require Import List ZArith Reals.
From Flocq Require Import IEEE754.BinarySingleNaN.
From Verif Require Import Num Points Float32.
Open Scope R_scope.

(** A number, neither infinite nor a NaN, strictly between the bounds. *)
Definition inside32 (lo hi c : f32) : Prop := is_finite c = true /\ B2R lo < B2R c < B2R hi.
Definition point_inside32 (lo hi : f32) (p : v3 f32) : Prop :=
  let '(x, y, z) := p in inside32 lo hi x /\ inside32 lo hi y /\ inside32 lo hi z.
(** Every attribute has one row per point. *)
Definition aligned32 (pc : pcloud f32) : Prop :=
  (forall l, p_normals pc = Some l -> length l = length (p_points pc)) /\
  (forall l, p_features pc = Some l -> length l = length (p_points pc)) /\
  (forall l, p_labels pc = Some l -> length l = length (p_points pc)) /\
  (forall l, p_batch_id pc = Some l -> length l = length (p_points pc)).
