(** Specification vocabulary: layers between two resolutions and query points of a moved shape. *)
From Coq Require Import List ZArith Bool QArith Qcanon.
From Verif Require Import Res Num Octree NnInterp SpecGeo SpecMove.
Import ListNotations.
Open Scope Z_scope.

(** The first child of a cell, and motions that take the first child of a cell to the first
    child of the moved cell. *)
Definition first_child (q : Z * Z * Z * Z) : Z * Z * Z * Z := let '(x, y, z, b) := q in (2 * x, 2 * y, 2 * z, b).
Definition keeps_first (e : nat) (s : nat -> Z * Z * Z * Z -> Z * Z * Z * Z) : Prop :=
  forall d q, (e <= d)%nat -> s (S d) (first_child q) = first_child (s d q).
(** Query points, each moved with its sample. *)
Definition moved_points (e : nat) (t : Z -> Z * Z * Z) (pts : list (v3 Qc * Z)) : list (v3 Qc * Z) :=
  map (fun '(p, b) => (move_point e (t b) p, b)) pts.
(** The same when sample [b] becomes sample [renum b]. *)
Definition moved_points_to (renum : Z -> Z) (e : nat) (t : Z -> Z * Z * Z) (pts : list (v3 Qc * Z)) : list (v3 Qc * Z) :=
  map (fun '(p, b) => (move_point e (t b) p, renum b)) pts.
(** Points that are at least half a cell of layer [d] away from the border of the box. *)
Definition off_border (d : nat) (p : v3 Qc) : Prop :=
  let '(x, y, z) := p in let m := (/ qz (2 ^ Z.of_nat d))%Qc in
  let ok c := (qz (-1) + m <= c)%Qc /\ (c <= qz 1 - m)%Qc in ok x /\ ok y /\ ok z.
(** Where a query point may lie: in the box, and off its border if the interpolation is linear. *)
Definition askable (lin : bool) (d : nat) (p : v3 Qc * Z) : Prop :=
  -32768 <= snd p < 32768 /\ if lin then off_border d (fst p) else in_box (fst p).
