(** Specification vocabulary for flip in single precision. *)
From Coq Require Import Ascii String List ZArith.
From Flocq Require Import IEEE754.BinarySingleNaN.
From Verif Require Import Num Points Float32.
Import ListNotations.

(** The sign of a coordinate changes when its letter occurs an odd number of times. *)
Definition mirror1 (axes : list ascii) (a : ascii) (c : f32) : f32 := if Nat.odd (count_occ ascii_dec axes a) then Bopp c else c.
Definition mirror32 (axes : list ascii) (v : v3 f32) : v3 f32 :=
  let '(x, y, z) := v in (mirror1 axes "x" x, mirror1 axes "y" y, mirror1 axes "z" z).
(** The cloud with points and normals mirrored and nothing else changed. *)
Definition mirrored (axes : list ascii) (p : pcloud f32) : pcloud f32 :=
  mkPoints (map (mirror32 axes) (p_points p)) (option_map (map (mirror32 axes)) (p_normals p)) (p_features p) (p_labels p)
    (p_batch_id p) (p_batch_size p) (p_batch_npt p) (p_device p).
