(** Specification vocabulary: what a cell of an octree is and how cells are
    numbered, independently of the bit tricks and tables of the code. *)
From Coq Require Import List ZArith Bool.
Import ListNotations.
Open Scope Z_scope.

(** The Morton (z-order) number of the cell (x, y, z) of the 2^d grid: the
    coarsest digit is decided by the parent cell, the last base-8 digit by the
    parities of the coordinates. *)
Fixpoint morton (d : nat) (x y z : Z) : Z :=
  match d with
  | O => 0
  | S d' => 8 * morton d' (x / 2) (y / 2) (z / 2)
            + (4 * (x mod 2) + 2 * (y mod 2) + z mod 2)
  end.

(** Its inverse, one coordinate at a time. *)
Fixpoint unmorton_x (d : nat) (m : Z) : Z :=
  match d with O => 0 | S d' => 2 * unmorton_x d' (m / 8) + (m / 4) mod 2 end.
Fixpoint unmorton_y (d : nat) (m : Z) : Z :=
  match d with O => 0 | S d' => 2 * unmorton_y d' (m / 8) + (m / 2) mod 2 end.
Fixpoint unmorton_z (d : nat) (m : Z) : Z :=
  match d with O => 0 | S d' => 2 * unmorton_z d' (m / 8) + m mod 2 end.

(** Key of the cell (x, y, z) of the [b]-th octree of a batch. *)
Definition key_of (d : nat) (b x y z : Z) : Z := b * 2^48 + morton d x y z.

(** A coordinate inside the 2^d grid. *)
Definition in_grid (d : nat) (x : Z) : Prop := 0 <= x < 2 ^ Z.of_nat d.
Definition in_cube (d : nat) (x y z : Z) : Prop :=
  in_grid d x /\ in_grid d y /\ in_grid d z.

(** ** Well-formed octree layers *)
From Coq Require Import Sorting.Sorted.

(** Keys of the cells of the 2^d grid, for [B] batch elements. *)
Definition valid_key (B d : nat) (k : Z) : Prop :=
  exists b x y z, 0 <= b < Z.of_nat B /\ in_cube d x y z /\ k = key_of d b x y z.

(** The eight children of the cell with key [k]: same batch element, one more
    base-8 digit. *)
Definition kids (k : Z) : list Z :=
  map (fun j => (k / 2^48) * 2^48 + 8 * (k mod 2^48) + j) [0;1;2;3;4;5;6;7].
(** The cell one level up. *)
Definition parent (k : Z) : Z := (k / 2^48) * 2^48 + (k mod 2^48) / 8.

(** Consecutive numbers for the flagged entries, -1 for the others. *)
Fixpoint number_from (n : Z) (flags : list bool) : list Z :=
  match flags with
  | [] => []
  | true :: t => n :: number_from (n + 1) t
  | false :: t => -1 :: number_from n t
  end.

(** All cells of the 2^d grid for batch elements 0..B-1, in key order. *)
Definition full_grid (B d : nat) : list Z :=
  flat_map (fun b => map (fun m => Z.of_nat b * 2^48 + Z.of_nat m) (seq 0 (8 ^ d))) (seq 0 B).

(** Entries selected by flags. *)
Fixpoint pick {A} (flags : list bool) (l : list A) : list A :=
  match flags, l with
  | f :: fs, a :: t => if f : bool then a :: pick fs t else pick fs t
  | _, _ => []
  end.

(** ** Neighbours *)

(** The 27 offsets in row-major order: number 9*(dx+1)+3*(dy+1)+(dz+1). *)
Definition offset (k : nat) : Z * Z * Z :=
  (Z.of_nat k / 9 - 1, (Z.of_nat k / 3) mod 3 - 1, Z.of_nat k mod 3 - 1).

(** [table] is the correct neighbour table of a layer with the given keys: entry
    [o] of the row of node [i] is the row number of the node at offset [o] in
    the same batch element if there is one, and -1 otherwise. *)
Definition neigh_correct (d : nat) (ks : list Z) (table : list (list Z)) : Prop :=
  length table = length ks /\
  forall i row, nth_error table i = Some row ->
    length row = 27%nat /\
    forall b x y z, in_cube d x y z -> nth_error ks i = Some (key_of d b x y z) ->
    forall o e, nth_error row o = Some e ->
      let '(dx, dy, dz) := offset o in
      (0 <= e /\ in_cube d (x + dx) (y + dy) (z + dz) /\
       nth_error ks (Z.to_nat e) = Some (key_of d b (x + dx) (y + dy) (z + dz)))
      \/
      (e = -1 /\ ~ (in_cube d (x + dx) (y + dy) (z + dz) /\
                    In (key_of d b (x + dx) (y + dy) (z + dz)) ks)).
