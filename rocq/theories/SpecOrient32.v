(** Specification vocabulary for orient_normal in single precision. *)
From Coq Require Import String List ZArith.
From Flocq Require Import IEEE754.BinarySingleNaN.
From Verif Require Import Num Points Float32.
Import ListNotations.

Definition part (i : nat) (n : v3 f32) : f32 := nth i (let '(x, y, z) := n in [x; y; z]) B754_nan.
Definition positive32 (c : f32) : bool := Bltb (B754_zero false) c.
Definition negative32 (c : f32) : bool := Bltb c (B754_zero false).
Definition opposite (n : v3 f32) : v3 f32 := let '(x, y, z) := n in (Bopp x, Bopp y, Bopp z).
(** A normal is kept when its component is positive and reversed otherwise. *)
Definition turned (i : nat) (n : v3 f32) : v3 f32 := if positive32 (part i n) then n else opposite n.
(** The cloud with other normals and nothing else changed. *)
Definition with_normals (f : v3 f32 -> v3 f32) (p : pcloud f32) : pcloud f32 :=
  mkPoints (p_points p) (option_map (map f) (p_normals p)) (p_features p) (p_labels p) (p_batch_id p) (p_batch_size p) (p_batch_npt p) (p_device p).
Definition axis_index : list (string * nat) := [("x"%string, 0%nat); ("y"%string, 1%nat); ("z"%string, 2%nat)].
