(** Property C112: segmentation of a moved shape. *)
From Coq Require Import Ascii String List ZArith Bool QArith Qcanon Lia.
From Verif Require Import Res Tensor Key Num Points Octree NnBasic NnConv NnInterp Features Net Spec SpecGeo SpecBuild WF SpecNeigh SpecNN SpecNet SpecFeature
  SpecBatch SpecSolver SpecMove SpecMoveSeg BatchExamples Examples ExampleFacts NetExamples MoveExamples MoveSegThms MoveSegExamples.
Import ListNotations.
Open Scope Z_scope.

(** C112: moving samples by whole cells keeps the first child of a cell first; so does the
    exchange of axes, but not the mirror image. *)
Theorem C112_firsts : (forall e t, keeps_first e (shift e t)) /\ keeps_first 0 swap_xy /\ keeps_first 0 swap_yz /\
  (forall e e' s s', keeps_first e s -> keeps_first e' s' -> keeps_first (Nat.max e e') (fun d q => s' d (s d q))).
Proof. exact thm_firsts. Qed.
Print Assumptions C112_firsts.

(** C112: a convolution of stride 1 or 2, with the turned weights, of the moved shape is the
    moved result; [up d 2] is the layer below [d]. *)
Theorem C112_conv : forall e s turn o o' ne st d ks kernel ci co mb x x' W W' bias, motion e s turn -> keeps_first e s -> moved e s o o' ->
  (st = 1 \/ st = 2) -> (lowest ne e <= d)%nat -> conv_ready o (up d st) kernel st -> conv_ready o' (up d st) kernel st -> In (ks, kernel) kernel_sizes ->
  shape (node_count o (up d st) ne) ci x -> shape (node_count o' (up d st) ne) ci x' -> carried ne s o o' (up d st) x x' ->
  shape3 (List.length (box kernel)) ci co W -> shape3 (List.length (box kernel)) ci co W' -> turned turn kernel W W' -> bias_ok co bias ->
  Z.of_nat (List.length (box kernel)) * Z.of_nat ci <= mb ->
  exists y y', OctreeConv (mkCfg ci co ks st ne mb true) false W bias x o (up d st) = Ok y /\
    OctreeConv (mkCfg ci co ks st ne mb true) false W' bias x' o' (up d st) = Ok y' /\
    shape (node_count o d ne) co y /\ shape (node_count o' d ne) co y' /\ carried ne s o o' d y y'.
Proof. exact thm_moved_conv_any. Qed.
Print Assumptions C112_conv.

(** C112: the same for the transposed convolutions, which go from layer [d] to the layer below. *)
Theorem C112_deconv : forall e s turn o o' ne st d ks kernel ci co mb y y' W W', motion e s turn -> keeps_first e s -> moved e s o o' ->
  (st = 1 \/ st = 2) -> (lowest ne e <= d)%nat -> conv_ready o (up d st) kernel st -> conv_ready o' (up d st) kernel st -> In (ks, kernel) kernel_sizes ->
  shape (node_count o d ne) ci y -> shape (node_count o' d ne) ci y' -> carried ne s o o' d y y' ->
  shape3 (List.length (box kernel)) co ci W -> shape3 (List.length (box kernel)) co ci W' -> turned turn kernel W W' ->
  Z.of_nat (List.length (box kernel)) * Z.of_nat co <= mb ->
  exists z z', OctreeDeconv (mkCfg ci co ks st ne mb false) false W None y o d = Ok z /\
    OctreeDeconv (mkCfg ci co ks st ne mb false) false W' None y' o' d = Ok z' /\
    shape (node_count o (up d st) ne) co z /\ shape (node_count o' (up d st) ne) co z' /\ carried ne s o o' (up d st) z z'.
Proof. exact thm_moved_deconv. Qed.
Print Assumptions C112_deconv.

(** C112: interpolating the moved features at the moved points gives the same values, for the
    nearest node and for the linear interpolation. *)
Theorem C112_interp : forall e t o o' ne lin C d x x' pts, moved e (shift e t) o o' -> wf_octree o -> wf_octree o' -> (lowest ne e <= d <= depth o)%nat ->
  shape (node_count o d ne) C x -> shape (node_count o' d ne) C x' -> carried ne (shift e t) o o' d x x' ->
  Forall (askable lin d) pts -> Forall (askable lin d) (moved_points e t pts) ->
  exists y q q', interp lin ne C x o (Z.of_nat d) pts = Ok (y, q) /\ interp lin ne C x' o' (Z.of_nat d) (moved_points e t pts) = Ok (y, q') /\
    shape (List.length pts) C y.
Proof. exact thm_moved_interp. Qed.
Print Assumptions C112_interp.

(** C112: UNet gives the moved points of the moved shape the same scores, if its coarsest layer
    is not above layer [e], or above layer [e]+1 if the empty nodes have features too. *)
Theorem C112_unet : forall e t o o' ne g P cin cout lin dep x x' pts, moved e (shift e t) o o' -> wf_octree o -> wf_octree o' -> unet_config g -> eval_mode P ->
  (List.length (u_enc_blk g) < dep <= depth o)%nat -> (lowest ne e <= dep - List.length (u_enc_blk g))%nat -> channel_ok cin ->
  layers_ready o ne 0 (dep - List.length (u_enc_blk g)) dep -> layers_ready o' ne 0 (dep - List.length (u_enc_blk g)) dep ->
  shape (node_count o dep ne) cin x -> shape (node_count o' dep ne) cin x' -> carried ne (shift e t) o o' dep x x' ->
  Forall (askable lin (dep - List.length (u_enc_blk g) + List.length (u_dec_blk g))) pts ->
  Forall (askable lin (dep - List.length (u_enc_blk g) + List.length (u_dec_blk g))) (moved_points e t pts) ->
  exists y q q', UNet g P cin cout lin ne x o (Z.of_nat dep) pts = Ok (y, q) /\
    UNet g P cin cout lin ne x' o' (Z.of_nat dep) (moved_points e t pts) = Ok (y, q') /\ shape (List.length pts) cout y.
Proof. exact thm_moved_unet. Qed.
Print Assumptions C112_unet.

(** C112: from the cloud to the scores of the query points; the points of a moved cloud are
    the moved points. *)
Theorem C112_cloud : forall normalize o pc e t ne CF s g P cin cout lin pts, build_input o pc -> (1 <= full_depth o)%nat ->
  Forall in_box (p_points pc) -> Forall in_box (p_points (moved_cloud e t pc)) -> provides CF s pc -> asks_any s = true -> asks s "P" "p" = false ->
  channels s CF = cin -> channel_ok cin -> eval_mode P -> unet_config g -> (full_depth o <= e)%nat -> (lowest ne e + List.length (u_enc_blk g) <= depth o)%nat ->
  Forall (askable lin (depth o - List.length (u_enc_blk g) + List.length (u_dec_blk g))) pts ->
  Forall (askable lin (depth o - List.length (u_enc_blk g) + List.length (u_dec_blk g))) (moved_points e t pts) ->
  let run pc pts := '(o1, _) <- build_octree normalize o pc ;; o2 <- construct_all_neigh o1 ;; x <- get_input_feature CF o2 s ne ;;
    '(y, _) <- UNet g P cin cout lin ne x o2 (Z.of_nat (depth o)) pts ;; Ok y in
  exists y, run pc pts = Ok y /\ run (moved_cloud e t pc) (moved_points e t pts) = Ok y /\ shape (List.length pts) cout y.
Proof. exact thm_moved_labels. Qed.
Print Assumptions C112_cloud.

Theorem C112_own_points : forall o pc e t, build_input o pc -> located (moved_cloud e t pc) = moved_points e t (located pc).
Proof. exact thm_located_moved. Qed.
Print Assumptions C112_own_points.

(** The cloud of C110 and two query points, moved by (1, 2, 3) cells of layer 3. *)
Example C112_case : unet_config ex_unet /\ (lowest true 3 + List.length (u_enc_blk ex_unet) <= depth ex_octree)%nat /\
  Forall (askable true 5) ex_asked /\ Forall (askable true 5) (moved_points 3 (fun _ => (1, 2, 3)) ex_asked).
Proof. exact ex_ask. Qed.
(** The scores of these points, computed; they do depend on the points. *)
Example C112_scores_case : ex_scores ex_cloud ex_asked = ex_scores (moved_cloud 3 (fun _ => (1, 2, 3)) ex_cloud) (moved_points 3 (fun _ => (1, 2, 3)) ex_asked) /\
  ex_scores ex_cloud ex_asked <> ex_scores (moved_cloud 3 (fun _ => (1, 2, 3)) ex_cloud) ex_asked /\ List.length (ex_scores ex_cloud ex_asked) = 2%nat.
Proof. exact ex_same_scores. Qed.
Example C112_mirror_case : ~ keeps_first 0 mirror_x.
Proof. exact ex_first_not. Qed.
