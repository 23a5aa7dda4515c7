(** Properties C09-C17: building an octree from points. *)
From Coq Require Import List ZArith Bool Sorting.Permutation QArith Qcanon Lia.
From Verif Require Import Res Tensor Key Num Points Octree Spec SpecGeo SpecBuild WF BuildThms OrderFacts
  Examples ExampleFacts.
Import ListNotations.
Open Scope Z_scope.

(** C09: the non-empty nodes of the finest layer are the occupied cells. *)
Theorem C09_finest_nodes_are_occupied_cells : forall normalize o pc,
  build_input o pc -> Forall in_box (p_points pc) ->
  exists o' idx ks cs, build_octree normalize o pc = Ok (o', idx) /\
    octree_key o' (Z.of_nat (depth o)) true = Ok ks /\ increasing ks /\
    octree_xyzb o' (depth o) true = Ok cs /\ length cs = length ks /\ NoDup cs /\
    forall x y z b, In (x, y, z, b) cs <-> exists p, In (p, b) (located pc) /\ in_cell (depth o) x y z p.
Proof. exact thm_finest. Qed.
Print Assumptions C09_finest_nodes_are_occupied_cells.

Example C09_case : build_input ex_octree2 ex_batch /\ Forall in_box (p_points ex_batch) /\
  octree_xyzb ex_built2 3 true = Ok [(0, 4, 7, 0); (5, 2, 7, 0); (5, 2, 7, 1)].
Proof. split; [exact ex_input2|]. split; [exact ex_box2|]. vm_compute; reflexivity. Qed.

(** C10: the returned map sends every point to the node that contains it. *)
Theorem C10_point_to_node_map : forall normalize o pc,
  build_input o pc -> Forall in_box (p_points pc) ->
  exists o' idx cs, build_octree normalize o pc = Ok (o', idx) /\
    octree_xyzb o' (depth o) true = Ok cs /\ length idx = length (p_points pc) /\
    forall i p b e, nth_error (p_points pc) i = Some p -> nth_error (point_batches pc) i = Some b ->
      nth_error idx i = Some e ->
      exists x y z, 0 <= e /\ nth_error cs (Z.to_nat e) = Some (x, y, z, b) /\ in_cell (depth o) x y z p.
Proof. exact thm_point_map. Qed.
Print Assumptions C10_point_to_node_map.

Example C10_case : match build_octree ex_norm ex_octree2 ex_batch with Ok (_, idx) => idx | Err _ => [] end = [2; 1; 2; 0].
Proof. vm_compute; reflexivity. Qed.

(** C11: building never raises and yields a well-formed octree (WF.v), also when
    the octree object was used before. *)
Theorem C11_build_well_formed : forall normalize o pc, build_input o pc ->
  exists o' idx, build_octree normalize o pc = Ok (o', idx) /\ wf_octree o' /\
    depth o' = depth o /\ full_depth o' = full_depth o /\ batch_size o' = batch_size o /\ device o' = p_device pc.
Proof. exact thm_build_wf. Qed.
Print Assumptions C11_build_well_formed.

(** C11: what well-formedness gives for each layer. *)
Theorem C11_layer_invariants : forall o L d, wf_upto o L -> (d <= L)%nat ->
  exists l ks flags, get_layer o (Z.of_nat d) = Ok l /\ keys l = Some ks /\
    increasing ks /\ Forall (valid_key (batch_size o) d) ks /\ length flags = length ks /\
    children l = Some (number_from 0 flags) /\
    octree_key o (Z.of_nat d) true = Ok (pick flags ks) /\
    ((d < L)%nat -> exists l', get_layer o (Z.of_nat (S d)) = Ok l' /\ keys l' = Some (flat_map kids (pick flags ks))).
Proof. exact thm_layer. Qed.
Print Assumptions C11_layer_invariants.

Example C11_case : build_input ex_octree ex_cloud /\ wf_octree ex_built /\
  (* building a second time into the used octree object *)
  build_input (mkOctree 5 1 1 0 (layers ex_built)) ex_cloud /\
  map nnum (layers ex_built) = [1; 8; 16; 16; 16; 16] /\
  map nnum_nempty (layers ex_built) = [1; 2; 2; 2; 2; 3].
Proof.
  split; [exact ex_input|]. split; [exact ex_wf|].
  split; [destruct ex_input as [a b c d e]; constructor; try assumption; vm_compute; reflexivity|].
  vm_compute; auto.
Qed.

(** C12: occupancy of the layers from full_depth to depth. *)
Theorem C12_layer_occupancy : forall normalize o pc d,
  build_input o pc -> Forall in_box (p_points pc) -> (full_depth o <= d <= depth o)%nat ->
  exists o' idx ks cs, build_octree normalize o pc = Ok (o', idx) /\
    octree_key o' (Z.of_nat d) true = Ok ks /\ increasing ks /\
    octree_xyzb o' d true = Ok cs /\ length cs = length ks /\ NoDup cs /\
    forall x y z b, In (x, y, z, b) cs <-> exists p, In (p, b) (located pc) /\ in_cell d x y z p.
Proof. exact thm_occupied. Qed.
Print Assumptions C12_layer_occupancy.

(** C12: layers up to full_depth are complete, and all their nodes count as
    non-empty above full_depth. *)
Theorem C12_full_layers_complete : forall normalize o pc d,
  build_input o pc -> (d <= full_depth o)%nat ->
  exists o' idx cs, build_octree normalize o pc = Ok (o', idx) /\
    octree_xyzb o' d false = Ok cs /\ length cs = (8 ^ d * batch_size o)%nat /\
    (forall x y z b, In (x, y, z, b) cs <-> in_cube d x y z /\ 0 <= b < Z.of_nat (batch_size o)) /\
    ((d < full_depth o)%nat -> octree_xyzb o' d true = Ok cs).
Proof. exact thm_complete. Qed.
Print Assumptions C12_full_layers_complete.

Example C12_case : octree_xyzb ex_built2 2 true = Ok [(0, 2, 3, 0); (2, 1, 3, 0); (2, 1, 3, 1)] /\
  (c <- octree_xyzb ex_built2 2 false ;; Ok (length c)) = Ok 128%nat.
Proof. vm_compute; auto. Qed.

(** C13: the counters of every well-formed octree are truthful. *)
Theorem C13_counters_truthful : forall o L d, wf_upto o L -> (d <= L)%nat ->
  exists l ks cs, get_layer o (Z.of_nat d) = Ok l /\ keys l = Some ks /\ children l = Some cs /\
    nnum l = Z.of_nat (length ks) /\ length cs = length ks /\
    nnum_nempty l = Z.of_nat (length (filter (fun c => 0 <=? c) cs)) /\
    ((d < L)%nat -> exists l', get_layer o (Z.of_nat (S d)) = Ok l' /\ nnum l' = 8 * nnum_nempty l).
Proof. exact thm_counters. Qed.
Print Assumptions C13_counters_truthful.

Example C13_case : wf_upto ex_built2 3 /\ map nnum (layers ex_built2) = [2; 16; 128; 24].
Proof. split; [exact ex_wf2|vm_compute; reflexivity]. Qed.

(** C14: signals of the finest layer are averages over the points of each node. *)
Theorem C14_signals_are_averages : forall normalize o pc, build_input o pc ->
  exists o' idx l, build_octree normalize o pc = Ok (o', idx) /\
    get_layer o' (Z.of_nat (depth o)) = Ok l /\
    (exists pts, l_points l = Some pts /\ Z.of_nat (length pts) = nnum_nempty l /\
       forall e q, nth_error pts e = Some q ->
         q = mean3 (rows_at idx (Z.of_nat e) (map (in_cell_units (depth o)) (p_points pc))) /\
         (0 < length (rows_at idx (Z.of_nat e) (p_points pc)))%nat) /\
    (forall n, p_normals pc = Some n -> exists ns, l_normals l = Some ns /\ Z.of_nat (length ns) = nnum_nempty l /\
       forall e q, nth_error ns e = Some q -> q = normalize (sum3 (rows_at idx (Z.of_nat e) n))) /\
    (forall f, p_features pc = Some f -> exists fs, l_features l = Some fs /\ Z.of_nat (length fs) = nnum_nempty l /\
       forall e q, nth_error fs e = Some q -> q = meanv (width f) (rows_at idx (Z.of_nat e) f)).
Proof. exact thm_signals. Qed.
Print Assumptions C14_signals_are_averages.

Example C14_case : (l <- get_layer ex_built2 3 ;; Ok (l_features l)) = Ok (Some [[qf 7 3]; [qf 5 1]; [qf 3 2]]).
Proof. vm_compute. repeat f_equal; apply Qc_is_canon; reflexivity. Qed.

(** C15: the averaged point lies in the node's own cell. *)
Theorem C15_average_stays_in_cell : forall normalize o pc,
  build_input o pc -> Forall in_box (p_points pc) ->
  exists o' idx l pts cs, build_octree normalize o pc = Ok (o', idx) /\
    get_layer o' (Z.of_nat (depth o)) = Ok l /\ l_points l = Some pts /\
    octree_xyzb o' (depth o) true = Ok cs /\ length pts = length cs /\
    forall e qx qy qw x y z b, nth_error pts e = Some (qx, qy, qw) -> nth_error cs e = Some (x, y, z, b) ->
      qfloor qx = x /\ qfloor qy = y /\ qfloor qw = z /\ in_cube (depth o) x y z.
Proof. exact thm_mean_cell. Qed.
Print Assumptions C15_average_stays_in_cell.

Example C15_case : (l <- get_layer ex_built2 3 ;; Ok (option_map (map (v3map qfloor)) (l_points l)))
  = Ok (Some [(0, 4, 7); (5, 2, 7); (5, 2, 7)]).
Proof. vm_compute; reflexivity. Qed.

(** C16: permuting the points gives the same octree and a permuted map. *)
Theorem C16_point_order_irrelevant : forall normalize o pc order, build_input o pc ->
  Permutation order (seq 0 (length (p_points pc))) ->
  exists o' idx, build_octree normalize o pc = Ok (o', idx) /\
    build_octree normalize o (reorder_cloud order pc) = Ok (o', reorder order idx).
Proof. exact thm_order. Qed.
Print Assumptions C16_point_order_irrelevant.

Example C16_case : Permutation [2; 0; 3; 1]%nat (seq 0 (length (p_points ex_batch))) /\
  match build_octree ex_norm ex_octree2 (reorder_cloud [2; 0; 3; 1]%nat ex_batch) with Ok (_, idx) => idx | Err _ => [] end
  = [2; 2; 0; 1].
Proof.
  split; [|vm_compute; reflexivity]. cbn.
  apply NoDup_Permutation.
  - repeat constructor; cbn; intuition discriminate.
  - repeat constructor; cbn; intuition discriminate.
  - cbn. intuition.
Qed.

(** C17: in the half-open range a point has exactly one cell and gets its key. *)
Theorem C17_half_open_range : forall dep p b, (dep <= 16)%nat -> -32768 <= b < 32768 -> in_box p ->
  exists x y z k, in_cube dep x y z /\ in_cell dep x y z p /\
    point_key dep p (Some b) = Ok k /\ xyz2key x y z (Some b) dep = Ok k /\
    forall x' y' z', in_cell dep x' y' z' p -> (x', y', z') = (x, y, z).
Proof. exact point_cell. Qed.
Print Assumptions C17_half_open_range.

(** C17: a point with x = +1, allowed by the documentation, is stored in the
    cell at the opposite face, for every depth and every octree object. *)
Theorem C17_closed_range_refuted : forall normalize o dev py pz pc,
  pc = mkPoints [(qz 1, py, pz)] None None None None 1 None dev ->
  build_input o pc -> (1 <= depth o)%nat -> in_unit py -> in_unit pz ->
  exists o' idx y z, build_octree normalize o pc = Ok (o', idx) /\
    octree_xyzb o' (depth o) true = Ok [(0, y, z, 0)] /\
    in_slab (depth o) y py /\ in_slab (depth o) z pz /\ ~ in_slab (depth o) 0 (qz 1).
Proof. exact thm_upper_face. Qed.
Print Assumptions C17_closed_range_refuted.

Example C17_case : build_input ex_octree (mkPoints [(qz 1, qf 1 2, qf (-1) 3)] None None None None 1 None 0%nat)
  /\ in_unit (qf 1 2) /\ in_unit (qf (-1) 3).
Proof.
  split.
  - apply in_new; cbn; try lia. constructor; cbn; try lia; try congruence.
  - split; split; vm_compute; (reflexivity || discriminate).
Qed.
