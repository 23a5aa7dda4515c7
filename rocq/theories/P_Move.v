(** Property C110: the convolutional layers see a shape, not its place in the grid. *)
From Coq Require Import Ascii String List ZArith Bool QArith Qcanon Lia.
From Verif Require Import Res Tensor Key Num Points Octree NnBasic NnConv Features Net Spec SpecGeo SpecBuild WF SpecNeigh SpecNN SpecNet SpecFeature
  SpecBatch SpecSolver SpecMove BatchExamples Examples ExampleFacts NetExamples MoveBuild MoveThms MoveExamples.
Import ListNotations.
Open Scope Z_scope.

(** C110: moving every sample by whole cells of layer [e], each sample by its own vector, is
    a motion of the layers from [e] on.  So are the mirror image, the exchange of axes, and
    one motion after the other; together they give every symmetry of the cube. *)
Theorem C110_motions : (forall e t, motion e (shift e t) (fun v => v)) /\ motion 0 mirror_x turn_x /\ motion 0 swap_xy turn_xy /\
  motion 0 swap_yz turn_yz /\
  (forall e e' s s' turn turn', motion e s turn -> motion e' s' turn' ->
     motion (Nat.max e e') (fun d q => s' d (s d q)) (fun v => turn' (turn v))).
Proof. exact thm_motions. Qed.
Print Assumptions C110_motions.

(** C110: a convolution of stride 1, with the turned weights, of the moved shape is the moved
    result, whether the features belong to the non-empty nodes or to all nodes. *)
Theorem C110_conv : forall e s turn o o' ne d ks kernel ci co mb x x' W W' bias, motion e s turn -> moved e s o o' -> wf_octree o' ->
  (lowest ne e <= d)%nat -> conv_ready o d kernel 1 -> conv_ready o' d kernel 1 -> In (ks, kernel) kernel_sizes ->
  shape (node_count o d ne) ci x -> shape (node_count o' d ne) ci x' -> carried ne s o o' d x x' ->
  shape3 (List.length (box kernel)) ci co W -> shape3 (List.length (box kernel)) ci co W' -> turned turn kernel W W' -> bias_ok co bias ->
  Z.of_nat (List.length (box kernel)) * Z.of_nat ci <= mb ->
  exists y y', OctreeConv (mkCfg ci co ks 1 ne mb true) false W bias x o d = Ok y /\
    OctreeConv (mkCfg ci co ks 1 ne mb true) false W' bias x' o' d = Ok y' /\
    shape (node_count o d ne) co y /\ shape (node_count o' d ne) co y' /\ carried ne s o o' d y y'.
Proof. exact thm_moved_conv. Qed.
Print Assumptions C110_conv.

(** C110: max pooling of the moved shape gives the moved result; global average pooling gives
    the same result. *)
Theorem C110_pool : forall e s turn o o' ne d C x x', motion e s turn -> moved e s o o' -> wf_octree o -> wf_octree o' ->
  (lowest ne e <= d)%nat -> (S d <= depth o)%nat -> (ne = true -> branching o d) ->
  shape (node_count o (S d) ne) C x -> shape (node_count o' (S d) ne) C x' -> carried ne s o o' (S d) x x' ->
  exists y y', max_pool C ne x o (Z.of_nat (S d)) = Ok y /\ max_pool C ne x' o' (Z.of_nat (S d)) = Ok y' /\
    shape (node_count o d ne) C y /\ shape (node_count o' d ne) C y' /\ carried ne s o o' d y y'.
Proof. exact thm_moved_pool. Qed.
Print Assumptions C110_pool.

Theorem C110_global_pool : forall e s turn o o' ne d C x x', motion e s turn -> moved e s o o' -> wf_octree o -> wf_octree o' ->
  (lowest ne e <= d <= depth o)%nat -> shape (node_count o d ne) C x -> shape (node_count o' d ne) C x' -> carried ne s o o' d x x' ->
  exists y, octree_global_pool C x o d ne = Ok y /\ octree_global_pool C x' o' d ne = Ok y.
Proof. exact thm_moved_global. Qed.
Print Assumptions C110_global_pool.

(** C110: ResNet gives the moved shape the same scores, if it pools no further than layer [e],
    or one layer deeper if the empty nodes have features too. *)
Theorem C110_resnet : forall e s turn o o' ne P P' cin cout num stages dep x x', motion e s turn -> moved e s o o' -> wf_octree o -> wf_octree o' ->
  eval_mode P -> params_turned turn P P' -> (stages <= dep <= depth o)%nat -> (lowest ne e <= dep - stages)%nat -> (1 <= stages)%nat -> (1 <= num)%nat -> channel_ok cin ->
  layers_ready o ne 0 (dep - stages + 1) dep -> layers_ready o' ne 0 (dep - stages + 1) dep -> poolable o ne (dep - stages) dep ->
  shape (node_count o dep ne) cin x -> shape (node_count o' dep ne) cin x' -> carried ne s o o' dep x x' ->
  exists y, ResNet P cin cout num stages ne x o (Z.of_nat dep) = Ok y /\ ResNet P' cin cout num stages ne x' o' (Z.of_nat dep) = Ok y.
Proof. exact thm_moved_resnet. Qed.
Print Assumptions C110_resnet.

(** C110: the octree of a moved cloud is the moved octree, and its input features are the
    moved ones unless the absolute position ("P") is asked for. *)
Theorem C110_input : forall normalize o pc e t, build_input o pc ->
  Forall in_box (p_points pc) -> Forall in_box (p_points (moved_cloud e t pc)) -> (full_depth o <= e <= depth o)%nat ->
  forall CF s ne, (ne = false -> (e < depth o)%nat) -> provides CF s pc -> asks_any s = true -> asks s "P" "p" = false ->
  exists o1 idx o1' idx' x x', build_octree normalize o pc = Ok (o1, idx) /\ build_octree normalize o (moved_cloud e t pc) = Ok (o1', idx') /\
    moved e (shift e t) o1 o1' /\ get_input_feature CF o1 s ne = Ok x /\ get_input_feature CF o1' s ne = Ok x' /\
    shape (node_count o1 (depth o) ne) (channels s CF) x /\ shape (node_count o1' (depth o) ne) (channels s CF) x' /\
    carried ne (shift e t) o1 o1' (depth o) x x'.
Proof. exact thm_moved_input. Qed.
Print Assumptions C110_input.

(** C110: from the cloud to the scores. *)
Theorem C110_cloud : forall normalize o pc e t ne CF s P cin cout num stages, build_input o pc -> (1 <= full_depth o)%nat ->
  Forall in_box (p_points pc) -> Forall in_box (p_points (moved_cloud e t pc)) -> provides CF s pc -> asks_any s = true -> asks s "P" "p" = false ->
  channels s CF = cin -> channel_ok cin -> eval_mode P -> (1 <= stages)%nat -> (1 <= num)%nat -> (full_depth o <= e)%nat -> (lowest ne e + stages <= depth o)%nat ->
  let run pc := '(o1, _) <- build_octree normalize o pc ;; o2 <- construct_all_neigh o1 ;; x <- get_input_feature CF o2 s ne ;;
    ResNet P cin cout num stages ne x o2 (Z.of_nat (depth o)) in
  exists y, run pc = Ok y /\ run (moved_cloud e t pc) = Ok y.
Proof. exact thm_moved_classes. Qed.
Print Assumptions C110_cloud.

(** One cloud moved by (1, 2, 3) cells of layer 3, and a batch whose samples move apart. *)
Example C110_case : build_input ex_octree ex_cloud /\ Forall in_box (p_points ex_cloud) /\ Forall in_box (p_points (moved_cloud 3 (fun _ => (1, 2, 3)) ex_cloud)) /\
  provides 2 "NdF" ex_cloud /\ asks_any "NdF" = true /\ asks "NdF" "P" "p" = false /\ channels "NdF" 2 = 6%nat /\ eval_mode ex_params /\
  (full_depth ex_octree <= 3)%nat /\ (3 + 2 <= depth ex_octree)%nat.
Proof. exact ex_move. Qed.
Example C110_batch_case : build_input ex_octree2 ex_batch /\ Forall in_box (p_points ex_batch) /\
  Forall in_box (p_points (moved_cloud 2 (fun b => if b =? 0 then (0, 1, -1) else (-2, 0, -3)) ex_batch)) /\ provides 1 "Lf" ex_batch /\
  (c <- (r <- build_octree ex_norm ex_octree2 ex_batch ;; octree_xyzb (fst r) 3 true) ;; Ok c) = Ok [(0, 4, 7, 0); (5, 2, 7, 0); (5, 2, 7, 1)] /\
  (c <- (r <- build_octree ex_norm ex_octree2 (moved_cloud 2 (fun b => if b =? 0 then (0, 1, -1) else (-2, 0, -3)) ex_batch) ;; octree_xyzb (fst r) 3 true) ;; Ok c)
    = Ok [(0, 6, 5, 0); (5, 4, 5, 0); (1, 2, 1, 1)].
Proof. exact ex_move_batch. Qed.
(** The mirrored octree and the turned weights exist: a mirrored cloud, whose points lie inside
    the cells, has the mirrored cells; reversing the first axis of a kernel turns it. *)
Example C110_mirror_case : moved 0 mirror_x ex_side ex_side' /\ wf_octree ex_side /\ wf_octree ex_side' /\
  octree_xyzb ex_side 3 true = Ok [(1, 1, 2, 0); (6, 2, 5, 0)] /\ octree_xyzb ex_side' 3 true = Ok [(1, 2, 5, 0); (6, 1, 2, 0)] /\
  turned turn_x "333" ex_kernel (skipn 18 ex_kernel ++ firstn 9 (skipn 9 ex_kernel) ++ firstn 9 ex_kernel) /\
  ex_kernel <> skipn 18 ex_kernel ++ firstn 9 (skipn 9 ex_kernel) ++ firstn 9 ex_kernel.
Proof. exact ex_mirror. Qed.
(** A motion by one cell of the finest layer is not a motion of the layers above: their nodes
    need not correspond. *)
Example C110_finer_case : (o1 <- build_octree ex_norm ex_octree ex_cloud ;; Ok (map nnum_nempty (layers (fst o1)))) = Ok [1; 2; 2; 2; 2; 3] /\
  (o1 <- build_octree ex_norm ex_octree (moved_cloud 5 (fun _ => (1, 1, 0)) ex_cloud) ;; Ok (map nnum_nempty (layers (fst o1)))) = Ok [1; 2; 2; 2; 3; 3].
Proof. exact ex_finer. Qed.
