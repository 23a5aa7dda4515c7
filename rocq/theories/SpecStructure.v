(** Specification vocabulary: octrees of the same structure, clouds that occupy the same cells. *)
From Coq Require Import List ZArith Bool QArith Qcanon.
From Verif Require Import Res Num Points Octree SpecGeo SpecBuild.
Import ListNotations.
Open Scope Z_scope.

(** Two layers have the same nodes with the same children. *)
Definition same_nodes (l l' : layer) : Prop :=
  keys l' = keys l /\ children l' = children l /\ nnum l' = nnum l /\ nnum_nempty l' = nnum_nempty l.
(** The layers up to [n] of two octrees have the same nodes. *)
Definition same_upto (n : nat) (o o' : octree) : Prop :=
  forall d, (d <= n)%nat -> exists l l', nth_error (layers o) d = Some l /\ nth_error (layers o') d = Some l' /\ same_nodes l l'.
(** The cell [k] layers above a cell. *)
Definition above (k : nat) (q : Z * Z * Z * Z) : Z * Z * Z * Z :=
  let '(x, y, z, b) := q in (x / 2 ^ Z.of_nat k, y / 2 ^ Z.of_nat k, z / 2 ^ Z.of_nat k, b).
(** The cell of layer [d] of a sample has a point of the cloud. *)
Definition has_point (pc : pcloud Qc) (d : nat) (q : Z * Z * Z * Z) : Prop :=
  let '(x, y, z, b) := q in exists p, In (p, b) (located pc) /\ in_cell d x y z p.
