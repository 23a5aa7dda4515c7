(** Property C115: recorded children, upsampling, HRNet and SegNet of a moved shape. *)
From Coq Require Import Ascii String List ZArith Bool QArith Qcanon Lia.
From Verif Require Import Res Tensor Key Num Points Octree NnBasic NnConv NnInterp Features Net Spec SpecGeo SpecBuild WF SpecNeigh SpecNN SpecNet SpecFeature
  SpecBatch SpecSolver SpecMove SpecMoveSeg BatchExamples Examples ExampleFacts NetExamples MoveExamples MoveSegExamples MoveHrThms MoveHrExamples.
Import ListNotations.
Open Scope Z_scope.

(** C115: a cell moved by whole cells of a coarser layer keeps its number among the children
    of its parent. *)
Theorem C115_child : forall e t d q, (e <= d)%nat -> child_no (shift e t (S d) q) = child_no q.
Proof. exact thm_keeps_child. Qed.
Print Assumptions C115_child.

(** C115: max pooling of the moved shape gives the moved values and records the same children. *)
Theorem C115_pool_indices : forall e t o o' ne d C x x', moved e (shift e t) o o' -> wf_octree o -> wf_octree o' ->
  (lowest ne e <= d)%nat -> (S d <= depth o)%nat -> (ne = true -> branching o d) ->
  shape (node_count o (S d) ne) C x -> shape (node_count o' (S d) ne) C x' -> carried ne (shift e t) o o' (S d) x x' ->
  exists y y' idx idx', max_pool_ind C ne x o (Z.of_nat (S d)) = Ok (y, idx) /\ max_pool_ind C ne x' o' (Z.of_nat (S d)) = Ok (y', idx') /\
    carried ne (shift e t) o o' d y y' /\ carried true (shift e t) o o' d idx idx' /\
    shape (node_count o d true) C idx /\ shape (node_count o' d true) C idx' /\ Forall (Forall (fun k => 0 <= k < 8)) idx /\ Forall (Forall (fun k => 0 <= k < 8)) idx'.
Proof. exact thm_moved_pool_ind. Qed.
Print Assumptions C115_pool_indices.

(** C115: unpooling, with the children recorded for the two shapes, gives the moved result. *)
Theorem C115_unpool : forall e t o o' ne d C x x' idx idx', moved e (shift e t) o o' -> wf_octree o -> wf_octree o' ->
  (lowest ne e <= d)%nat -> (S d <= depth o)%nat ->
  shape (node_count o d ne) C x -> shape (node_count o' d ne) C x' -> carried ne (shift e t) o o' d x x' ->
  shape (node_count o d true) C idx -> shape (node_count o' d true) C idx' -> Forall (Forall (fun k => 0 <= k < 8)) idx -> Forall (Forall (fun k => 0 <= k < 8)) idx' ->
  carried true (shift e t) o o' d idx idx' ->
  exists y y', octree_max_unpool x idx o d ne = Ok y /\ octree_max_unpool x' idx' o' d ne = Ok y' /\
    shape (node_count o (S d) ne) C y /\ shape (node_count o' (S d) ne) C y' /\ carried ne (shift e t) o o' (S d) y y'.
Proof. exact thm_moved_unpool. Qed.
Print Assumptions C115_unpool.

(** C115: so does the upsampling to the next layer. *)
Theorem C115_upsample : forall e t o o' ne d C x x', moved e (shift e t) o o' -> wf_octree o -> wf_octree o' ->
  (lowest ne e <= d)%nat -> (S d <= depth o)%nat ->
  shape (node_count o d ne) C x -> shape (node_count o' d ne) C x' -> carried ne (shift e t) o o' d x x' ->
  exists y y', octree_upsample "nearest" ne C x o d None = Ok y /\ octree_upsample "nearest" ne C x' o' d None = Ok y' /\
    shape (node_count o (S d) ne) C y /\ shape (node_count o' (S d) ne) C y' /\ carried ne (shift e t) o o' (S d) y y'.
Proof. exact thm_moved_upsample. Qed.
Print Assumptions C115_upsample.

(** C115: HRNet, which pools to layer 2, gives the shape moved by cells of layer 2 or a coarser
    layer the same scores. *)
Theorem C115_hrnet : forall e t o o' ne P cin cout num stages dep x x', moved e (shift e t) o o' -> wf_octree o -> wf_octree o' -> eval_mode P ->
  (stages + 2 <= dep <= depth o)%nat -> (1 <= stages <= 4)%nat -> (lowest ne e <= 2)%nat -> channel_ok cin ->
  layers_ready o ne 0 2 dep -> layers_ready o' ne 0 2 dep -> poolable o ne 2 dep ->
  shape (node_count o dep ne) cin x -> shape (node_count o' dep ne) cin x' -> carried ne (shift e t) o o' dep x x' ->
  exists y, HRNet P cin cout stages num ne x o (Z.of_nat dep) = Ok y /\ HRNet P cin cout stages num ne x' o' (Z.of_nat dep) = Ok y.
Proof. exact thm_moved_hrnet. Qed.
Print Assumptions C115_hrnet.

Theorem C115_hrnet_cloud : forall normalize o pc e t ne CF s P cin cout num stages, build_input o pc -> (1 <= full_depth o)%nat ->
  Forall in_box (p_points pc) -> Forall in_box (p_points (moved_cloud e t pc)) -> provides CF s pc -> asks_any s = true -> asks s "P" "p" = false ->
  channels s CF = cin -> channel_ok cin -> eval_mode P -> (1 <= stages <= 4)%nat -> (stages + 2 <= depth o)%nat -> (full_depth o <= e)%nat -> (lowest ne e <= 2)%nat ->
  let run pc := '(o1, _) <- build_octree normalize o pc ;; o2 <- construct_all_neigh o1 ;; x <- get_input_feature CF o2 s ne ;;
    HRNet P cin cout stages num ne x o2 (Z.of_nat (depth o)) in
  exists y, run pc = Ok y /\ run (moved_cloud e t pc) = Ok y.
Proof. exact thm_moved_hr_cloud. Qed.
Print Assumptions C115_hrnet_cloud.

(** C115: SegNet, with features of all nodes, gives the moved points of the moved shape the same
    scores.  (With features of the non-empty nodes it raises, see C68.) *)
Theorem C115_segnet : forall e t o o' P cin cout stages lin dep x x' pts, moved e (shift e t) o o' -> wf_octree o -> wf_octree o' -> eval_mode P ->
  (stages < dep <= depth o)%nat -> (1 <= stages)%nat -> (S e <= dep - stages)%nat -> channel_ok cin ->
  layers_ready o false 0 (dep - stages) dep -> layers_ready o' false 0 (dep - stages) dep ->
  shape (node_count o dep false) cin x -> shape (node_count o' dep false) cin x' -> carried false (shift e t) o o' dep x x' ->
  Forall (askable lin dep) pts -> Forall (askable lin dep) (moved_points e t pts) ->
  exists y q q', SegNet P cin cout stages lin false x o (Z.of_nat dep) pts = Ok (y, q) /\
    SegNet P cin cout stages lin false x' o' (Z.of_nat dep) (moved_points e t pts) = Ok (y, q') /\ shape (List.length pts) cout y.
Proof. exact thm_moved_segnet. Qed.
Print Assumptions C115_segnet.

Theorem C115_segnet_cloud : forall normalize o pc e t CF s P cin cout stages lin pts, build_input o pc -> (1 <= full_depth o)%nat ->
  Forall in_box (p_points pc) -> Forall in_box (p_points (moved_cloud e t pc)) -> provides CF s pc -> asks_any s = true -> asks s "P" "p" = false ->
  channels s CF = cin -> channel_ok cin -> eval_mode P -> (1 <= stages)%nat -> (full_depth o <= e)%nat -> (S e + stages <= depth o)%nat ->
  Forall (askable lin (depth o)) pts -> Forall (askable lin (depth o)) (moved_points e t pts) ->
  let run pc pts := '(o1, _) <- build_octree normalize o pc ;; o2 <- construct_all_neigh o1 ;; x <- get_input_feature CF o2 s false ;;
    '(y, _) <- SegNet P cin cout stages lin false x o2 (Z.of_nat (depth o)) pts ;; Ok y in
  exists y, run pc pts = Ok y /\ run (moved_cloud e t pc) (moved_points e t pts) = Ok y /\ shape (List.length pts) cout y.
Proof. exact thm_moved_seg_cloud. Qed.
Print Assumptions C115_segnet_cloud.

(** The cloud of C110 moved by (1, 0, 2) cells of layer 2. *)
Example C115_case : build_input ex_octree ex_cloud /\ Forall in_box (p_points ex_cloud) /\ Forall in_box (p_points ex_far) /\ provides 2 "NdF" ex_cloud /\
  channels "NdF" 2 = 6%nat /\ eval_mode ex_params /\ (1 <= 3 <= 4)%nat /\ (3 + 2 <= depth ex_octree)%nat /\ (full_depth ex_octree <= 2)%nat /\ (lowest true 2 <= 2)%nat.
Proof. exact ex_hr. Qed.
Example C115_segnet_case : (full_depth ex_octree <= 2)%nat /\ (3 + 2 <= depth ex_octree)%nat /\
  Forall (askable false (depth ex_octree)) ex_asked /\ Forall (askable false (depth ex_octree)) (moved_points 2 (fun _ => (1, 0, 2)) ex_asked).
Proof. exact ex_seg_ask. Qed.
(** Cells, maxima, recorded children and unpooled values before and after. *)
Example C115_record_case :
  ex_record ex_cloud ex_three = Ok ([(0, 0, 0, 0); (16, 16, 0, 0); (17, 17, 0, 0)], [[1; 2]; [5; 9]]%Q, [[0; 0]; [0; 6]], [[1; 2]; [5; 0]; [0; 9]]%Q) /\
  ex_record ex_far ex_three = Ok ([(8, 0, 16, 0); (24, 16, 16, 0); (25, 17, 16, 0)], [[1; 2]; [5; 9]]%Q, [[0; 0]; [0; 6]], [[1; 2]; [5; 0]; [0; 9]]%Q).
Proof. exact ex_recorded. Qed.
(** A mirror image changes the numbers of the children. *)
Example C115_mirror_case : child_no (mirror_x 3 (1, 1, 2, 0)) <> child_no (1, 1, 2, 0).
Proof. exact ex_child_not. Qed.
