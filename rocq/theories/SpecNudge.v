(** Specification vocabulary for octrees in single precision. *)
From Coq Require Import List ZArith QArith Qcanon Reals Qreals.
From Flocq Require Import IEEE754.BinarySingleNaN.
From Verif Require Import Num Points Octree Float32.
Import ListNotations.
Open Scope R_scope.

(** A number of [-1,1]. *)
Definition in_unit32 (c : f32) : Prop := is_finite c = true /\ -1 <= B2R c <= 1.
Definition point_in_unit32 (p : v3 f32) : Prop := let '(x, y, z) := p in in_unit32 x /\ in_unit32 y /\ in_unit32 z.
(** A cloud with the coordinates changed by [f] and nothing else; without normals and
    features. *)
Definition move_points {A B} (f : A -> B) (pc : pcloud A) : pcloud B :=
  mkPoints (map (v3map f) (p_points pc)) None None None (p_batch_id pc) (p_batch_size pc) (p_batch_npt pc) (p_device pc).
(** The octree without the averaged points, normals and features of its nodes. *)
Definition no_signals (o : octree) : octree :=
  mkOctree (depth o) (full_depth o) (batch_size o) (device o)
    (map (fun l => set_features (set_normals (set_points l None) None) None) (layers o)).
(** The points of a cloud with their batch index. *)
Definition located32 (pc : pcloud f32) : list (v3 f32 * Z) :=
  combine (p_points pc) (if Nat.eqb (p_batch_size pc) 1 then repeat 0%Z (length (p_points pc))
                         else match p_batch_id pc with Some b => b | None => [] end).
