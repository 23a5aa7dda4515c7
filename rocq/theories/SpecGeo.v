(** Specification vocabulary for point clouds: which cell contains a point, and
    what it means to group the rows of a tensor. *)
From Coq Require Import List ZArith Bool QArith Qcanon.
From Verif Require Import Num Points Spec.
Import ListNotations.
Open Scope Z_scope.

(** The x-th slab of [-1,1] cut in 2^d equal pieces:
    -1 + 2x/2^d <= c < -1 + 2(x+1)/2^d. *)
Definition in_slab (d : nat) (x : Z) (c : Qc) : Prop :=
  (qz (-1) + qz (2 * x) / qz (2 ^ Z.of_nat d) <= c)%Qc /\
  (c < qz (-1) + qz (2 * (x + 1)) / qz (2 ^ Z.of_nat d))%Qc.
(** The point lies in the cell (x, y, z) of the 2^d grid over [-1,1]^3. *)
Definition in_cell (d : nat) (x y z : Z) (p : v3 Qc) : Prop :=
  let '(px, py, pz) := p in in_slab d x px /\ in_slab d y py /\ in_slab d z pz.
(** The half-open cube the code handles: -1 <= c < 1 on each axis. *)
Definition in_unit (c : Qc) : Prop := (qz (-1) <= c)%Qc /\ (c < qz 1)%Qc.
Definition in_box (p : v3 Qc) : Prop :=
  let '(px, py, pz) := p in in_unit px /\ in_unit py /\ in_unit pz.

(** The batch index of every point: all zero for a single cloud. *)
Definition point_batches (pc : pcloud Qc) : list Z :=
  if Nat.eqb (p_batch_size pc) 1 then repeat 0 (length (p_points pc))
  else match p_batch_id pc with Some b => b | None => [] end.

(** An input the documentation of Points and build_octree accepts. *)
Record good_cloud (B : nat) (pc : pcloud Qc) : Prop := {
  gc_size : p_batch_size pc = B;
  gc_batch : B <> 1%nat -> exists ids, p_batch_id pc = Some ids /\
               length ids = length (p_points pc) /\
               Forall (fun b => 0 <= b < Z.of_nat B) ids;
  gc_pos : (0 < B)%nat;
  gc_normals : forall n, p_normals pc = Some n -> length n = length (p_points pc);
  gc_features : forall f, p_features pc = Some f -> length f = length (p_points pc) /\
                  exists c, Forall (fun r => length r = c) f
}.

(** Rows of [src] whose tag equals [k], in order. *)
Definition rows_at {A} (tags : list Z) (k : Z) (src : list A) : list A :=
  map snd (filter (fun tr => Z.eqb (fst tr) k) (combine tags src)).

(** Arithmetic means of rows. *)
Definition sum3 (rows : list (v3 Qc)) : v3 Qc := fold_right v3add v3zero rows.
Definition mean3 (rows : list (v3 Qc)) : v3 Qc :=
  v3map (fun s => s / qz (Z.of_nat (length rows)))%Qc (sum3 rows).
Definition sumv (c : nat) (rows : list vec) : vec := fold_right vadd (vzero c) rows.
Definition meanv (c : nat) (rows : list vec) : vec :=
  map (fun s => s / qz (Z.of_nat (length rows)))%Qc (sumv c rows).

(** Reordering of rows by a list of row numbers. *)
Definition reorder {A} (order : list nat) (l : list A) : list A :=
  flat_map (fun i => match nth_error l i with Some a => [a] | None => [] end) order.
Definition reorder_cloud (order : list nat) (pc : pcloud Qc) : pcloud Qc :=
  mkPoints (reorder order (p_points pc)) (option_map (reorder order) (p_normals pc))
    (option_map (reorder order) (p_features pc)) (option_map (reorder order) (p_labels pc))
    (option_map (reorder order) (p_batch_id pc)) (p_batch_size pc) (p_batch_npt pc) (p_device pc).
