(** Admissible inputs of build_octree, and strict order. *)
From Coq Require Import List ZArith Bool Sorting.Sorted Qcanon.
From Verif Require Import Num Points Octree Spec SpecGeo.
Open Scope Z_scope.

(** An octree object with room for layers 0..depth (as made by Octree(...), or
    one that was used before), within the documented limits, and a cloud for it. *)
Record build_input (o : octree) (pc : pcloud Qc) : Prop := {
  bi_full : (full_depth o <= depth o)%nat;
  bi_depth : (depth o <= 16)%nat;
  bi_batch : Z.of_nat (batch_size o) <= 32768;
  bi_layers : length (layers o) = S (depth o);
  bi_cloud : good_cloud (batch_size o) pc
}.

(** Strictly increasing. *)
Definition increasing (l : list Z) : Prop := StronglySorted Z.lt l.

(** The pairs (point, batch index) of a cloud. *)
Definition located (pc : pcloud Qc) : list (v3 Qc * Z) := combine (p_points pc) (point_batches pc).

(** A point of [-1,1]^3 in units of the cells of the 2^d grid: (c + 1)/2 * 2^d. *)
Definition in_cell_units (d : nat) (p : v3 Qc) : v3 Qc :=
  v3map (fun c => (c + qz 1) / qz 2 * qz (2 ^ Z.of_nat d))%Qc p.
