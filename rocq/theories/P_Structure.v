(** Property C111: the nodes of an octree depend on the occupied cells only. *)
From Coq Require Import String List ZArith Bool QArith Qcanon Lia.
From Verif Require Import Res Tensor Num Points Octree Spec SpecGeo SpecBuild SpecStructure Examples ExampleFacts StructureFacts StructureExamples.
Import ListNotations.
Open Scope Z_scope.

(** C111: an octree of smaller depth is the top of a deeper one, and the node of a point is
    the ancestor of its node in the deeper octree. *)
Theorem C111_resolution : forall normalize o o' pc, build_input o pc -> build_input o' pc -> Forall in_box (p_points pc) -> full_depth o' = full_depth o -> (depth o' <= depth o)%nat ->
  exists o1 idx o1' idx' cs cs', build_octree normalize o pc = Ok (o1, idx) /\ build_octree normalize o' pc = Ok (o1', idx') /\ same_upto (depth o') o1 o1' /\
    octree_xyzb o1 (depth o) true = Ok cs /\ octree_xyzb o1' (depth o') true = Ok cs' /\ List.length idx = List.length (p_points pc) /\ List.length idx' = List.length (p_points pc) /\
    forall i r r', nth_error idx i = Some r -> nth_error idx' i = Some r' ->
      exists q, nth_error cs (Z.to_nat r) = Some q /\ nth_error cs' (Z.to_nat r') = Some (above (depth o - depth o') q).
Proof. exact thm_resolution. Qed.
Print Assumptions C111_resolution.

(** C111: two clouds, of any number of points each, that occupy the same cells of a layer give
    the same nodes up to this layer... *)
Theorem C111_cells : forall normalize o o' pc pc', build_input o pc -> build_input o' pc' -> Forall in_box (p_points pc) -> Forall in_box (p_points pc') ->
  full_depth o' = full_depth o -> batch_size o' = batch_size o -> (depth o' <= depth o)%nat -> (forall q, has_point pc (depth o') q <-> has_point pc' (depth o') q) ->
  exists o1 idx o1' idx', build_octree normalize o pc = Ok (o1, idx) /\ build_octree normalize o' pc' = Ok (o1', idx') /\ same_upto (depth o') o1 o1'.
Proof. exact thm_structure. Qed.
Print Assumptions C111_cells.

(** ...and the same neighbour tables. *)
Theorem C111_neigh : forall normalize o o' pc pc', build_input o pc -> build_input o' pc' -> Forall in_box (p_points pc) -> Forall in_box (p_points pc') ->
  full_depth o' = full_depth o -> batch_size o' = batch_size o -> (depth o' <= depth o)%nat -> (1 <= full_depth o)%nat -> (forall q, has_point pc (depth o') q <-> has_point pc' (depth o') q) ->
  exists o1 idx o1' idx' o2 o2', build_octree normalize o pc = Ok (o1, idx) /\ build_octree normalize o' pc' = Ok (o1', idx') /\
    construct_all_neigh o1 = Ok o2 /\ construct_all_neigh o1' = Ok o2' /\
    forall d, (1 <= d <= depth o')%nat -> exists l l', nth_error (layers o2) d = Some l /\ nth_error (layers o2') d = Some l' /\ neighs l <> None /\ neighs l' = neighs l.
Proof. exact thm_structure_neigh. Qed.
Print Assumptions C111_neigh.

(** C111: more points never remove a node. *)
Theorem C111_more_points : forall normalize o pc pc', build_input o pc -> build_input o pc' -> Forall in_box (p_points pc) -> Forall in_box (p_points pc') ->
  (forall q, has_point pc (depth o) q -> has_point pc' (depth o) q) ->
  exists o1 idx o1' idx', build_octree normalize o pc = Ok (o1, idx) /\ build_octree normalize o pc' = Ok (o1', idx') /\
    forall d ne cs cs' q, (d <= depth o)%nat -> octree_xyzb o1 d ne = Ok cs -> octree_xyzb o1' d ne = Ok cs' -> In q cs -> In q cs'.
Proof. exact thm_more_points. Qed.
Print Assumptions C111_more_points.

(** Depths 5 and 3; a second cloud with other points in the same cells of layer 3; one more
    point in a new cell. *)
Example C111_case : build_input ex_octree ex_cloud /\ build_input ex_octree3 ex_near /\ Forall in_box (p_points ex_cloud) /\ Forall in_box (p_points ex_near) /\
  full_depth ex_octree3 = full_depth ex_octree /\ batch_size ex_octree3 = batch_size ex_octree /\ (depth ex_octree3 < depth ex_octree)%nat /\ (1 <= full_depth ex_octree)%nat /\
  (forall q, has_point ex_cloud (depth ex_octree3) q <-> has_point ex_near (depth ex_octree3) q) /\ build_input ex_octree3 ex_cloud.
Proof. exact ex_structure. Qed.
Example C111_more_case : build_input ex_octree3 ex_near /\ build_input ex_octree3 ex_more /\ Forall in_box (p_points ex_more) /\
  (forall q, has_point ex_near (depth ex_octree3) q -> has_point ex_more (depth ex_octree3) q) /\ has_point ex_more 3 (6, 6, 6, 0) /\ ~ has_point ex_near 3 (6, 6, 6, 0).
Proof. exact ex_more_cells. Qed.
