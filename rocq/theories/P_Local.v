(** Property C121: how far results depend on the scene. *)
From Coq Require Import Ascii String List ZArith Bool QArith Qcanon Lia.
From Verif Require Import Res Tensor Key Num Points Octree NnBasic NnConv NnInterp Features Net Spec SpecGeo SpecBuild WF SpecNeigh SpecNN SpecNet SpecFeature
  SpecBatch SpecSolver SpecMove SpecMoveSeg SpecStructure SpecLocal BatchExamples Examples ExampleFacts NetExamples MoveSegExamples LocalThms LocalScene LocalExamples.
Import ListNotations.
Open Scope Z_scope.

(** C121: a convolution gives the nodes [zo] of two octrees the same rows if the octrees and the
    features agree at the cells [zi] it reads for them; [up d 2] is the layer below [d]. *)
Theorem C121_conv : forall o o' ne st d ks kernel ci co mb x x' W bias (zi zo : Z * Z * Z * Z -> Prop), wf_octree o -> wf_octree o' -> (st = 1 \/ st = 2) ->
  conv_ready o (up d st) kernel st -> conv_ready o' (up d st) kernel st -> In (ks, kernel) kernel_sizes ->
  (forall q p, zo q -> reads st kernel q p -> zi p) -> nodes_agree o o' ne (up d st) zi -> (ne = false -> st = 2 -> nodes_agree o o' true d zo) ->
  shape (node_count o (up d st) ne) ci x -> shape (node_count o' (up d st) ne) ci x' -> features_agree o o' ne (up d st) zi x x' ->
  shape3 (List.length (box kernel)) ci co W -> bias_ok co bias -> Z.of_nat (List.length (box kernel)) * Z.of_nat ci <= mb ->
  exists y y', OctreeConv (mkCfg ci co ks st ne mb true) false W bias x o (up d st) = Ok y /\ OctreeConv (mkCfg ci co ks st ne mb true) false W bias x' o' (up d st) = Ok y' /\
    shape (node_count o d ne) co y /\ shape (node_count o' d ne) co y' /\ features_agree o o' ne d zo y y'.
Proof. exact thm_local_conv. Qed.
Print Assumptions C121_conv.

(** C121: the same for transposed convolutions, which give a cell [q] something of the cells [p]
    whose convolution reads [q]. *)
Theorem C121_deconv : forall o o' ne st d ks kernel ci co mb y y' W (zi zo : Z * Z * Z * Z -> Prop), wf_octree o -> wf_octree o' -> (st = 1 \/ st = 2) ->
  conv_ready o (up d st) kernel st -> conv_ready o' (up d st) kernel st -> In (ks, kernel) kernel_sizes ->
  (forall q p, zo q -> reads st kernel p q -> zi p) -> nodes_agree o o' ne d zi -> (ne = false -> st = 2 -> nodes_agree o o' true d zi) ->
  shape (node_count o d ne) ci y -> shape (node_count o' d ne) ci y' -> features_agree o o' ne d zi y y' ->
  shape3 (List.length (box kernel)) co ci W -> Z.of_nat (List.length (box kernel)) * Z.of_nat co <= mb ->
  exists z z', OctreeDeconv (mkCfg ci co ks st ne mb false) false W None y o d = Ok z /\ OctreeDeconv (mkCfg ci co ks st ne mb false) false W None y' o' d = Ok z' /\
    shape (node_count o (up d st) ne) co z /\ shape (node_count o' (up d st) ne) co z' /\ features_agree o o' ne (up d st) zo z z'.
Proof. exact thm_local_deconv. Qed.
Print Assumptions C121_deconv.

(** C121: interpolation at a point looks at the node of the point's cell, and if it is linear at
    the nodes of the cells around it. *)
Theorem C121_interp : forall o o' ne lin C d x x' (pts pts' : list (v3 Qc * Z)) i j p b, wf_octree o -> wf_octree o' -> (d <= depth o)%nat -> (d <= depth o')%nat ->
  shape (node_count o d ne) C x -> shape (node_count o' d ne) C x' -> nth_error pts i = Some (p, b) -> nth_error pts' j = Some (p, b) -> in_box p ->
  Forall (askable lin d) pts -> Forall (askable lin d) pts' ->
  (forall cx cy cz, in_cell d cx cy cz p -> nodes_agree o o' ne d (within d (cx, cy, cz, b) (if lin then 1 else 0) d) /\
     features_agree o o' ne d (within d (cx, cy, cz, b) (if lin then 1 else 0) d) x x') ->
  exists y q y' q', interp lin ne C x o (Z.of_nat d) pts = Ok (y, q) /\ interp lin ne C x' o' (Z.of_nat d) pts' = Ok (y', q') /\
    shape (List.length pts) C y /\ shape (List.length pts') C y' /\ nth_error y i = nth_error y' j.
Proof. exact thm_local_interp. Qed.
Print Assumptions C121_interp.

(** C121: the scores UNet gives a query point depend only on the nodes and features of cells that
    lie within [unet_reach g + query_reach lin g] finest cells of the point's own cell. *)
Theorem C121_unet : forall o o' ne g P cin cout lin dep x x' pts pts' i j p cx cy cz b, wf_octree o -> wf_octree o' -> unet_config g -> eval_mode P ->
  (List.length (u_enc_blk g) < dep)%nat -> (dep <= depth o)%nat -> (dep <= depth o')%nat -> channel_ok cin ->
  layers_ready o ne 0 (dep - List.length (u_enc_blk g)) dep -> layers_ready o' ne 0 (dep - List.length (u_enc_blk g)) dep ->
  shape (node_count o dep ne) cin x -> shape (node_count o' dep ne) cin x' ->
  nth_error pts i = Some (p, b) -> nth_error pts' j = Some (p, b) -> in_box p -> in_cell dep cx cy cz p ->
  Forall (askable lin (dep - List.length (u_enc_blk g) + List.length (u_dec_blk g))) pts -> Forall (askable lin (dep - List.length (u_enc_blk g) + List.length (u_dec_blk g))) pts' ->
  let near := within dep (cx, cy, cz, b) (unet_reach g + query_reach lin g) in
  (forall d, (dep - List.length (u_enc_blk g) <= d <= dep)%nat -> nodes_agree o o' ne d (near d) /\ (ne = false -> nodes_agree o o' true d (near d))) ->
  features_agree o o' ne dep (near dep) x x' ->
  exists y q y' q', UNet g P cin cout lin ne x o (Z.of_nat dep) pts = Ok (y, q) /\ UNet g P cin cout lin ne x' o' (Z.of_nat dep) pts' = Ok (y', q') /\
    shape (List.length pts) cout y /\ shape (List.length pts') cout y' /\ nth_error y i = nth_error y' j.
Proof. exact thm_local_unet. Qed.
Print Assumptions C121_unet.

(** C121: clouds that occupy the same finest cells within [r] cells of [c] have octrees with the
    same non-empty nodes there in every layer, and the same nodes there but for one cell of the
    layer at the rim. *)
Theorem C121_nodes : forall normalize o pc pc' c r, build_input o pc -> build_input o pc' -> Forall in_box (p_points pc) -> Forall in_box (p_points pc') ->
  (forall q, within (depth o) c r (depth o) q -> (has_point pc (depth o) q <-> has_point pc' (depth o) q)) ->
  exists o1 idx o1' idx', build_octree normalize o pc = Ok (o1, idx) /\ build_octree normalize o pc' = Ok (o1', idx') /\
    forall d, (d <= depth o)%nat -> nodes_agree o1 o1' true d (within (depth o) c r d) /\ nodes_agree o1 o1' false d (within (depth o) c (r - 2 ^ Z.of_nat (depth o - d)) d).
Proof. exact thm_local_nodes. Qed.
Print Assumptions C121_nodes.

(** C121: two scenes with the same points within the reach of the network around a query point
    give this point the same scores, whatever else they contain and wherever the point stands
    among the query points. *)
Theorem C121_scene : forall normalize o pc pc' (ne : bool) CF s g P cin cout lin pts pts' i j p b cx cy cz, build_input o pc -> build_input o pc' -> (1 <= full_depth o)%nat ->
  Forall in_box (p_points pc) -> Forall in_box (p_points pc') -> provides CF s pc -> provides CF s pc' -> asks_any s = true ->
  channels s CF = cin -> channel_ok cin -> eval_mode P -> unet_config g -> (List.length (u_enc_blk g) < depth o)%nat ->
  Forall (askable lin (depth o - List.length (u_enc_blk g) + List.length (u_dec_blk g))) pts ->
  Forall (askable lin (depth o - List.length (u_enc_blk g) + List.length (u_dec_blk g))) pts' ->
  nth_error pts i = Some (p, b) -> nth_error pts' j = Some (p, b) -> in_box p -> in_cell (depth o) cx cy cz p ->
  same_part (near_point (depth o) (cx, cy, cz, b) (unet_reach g + query_reach lin g + (if ne then 0 else 2 ^ Z.of_nat (List.length (u_enc_blk g))))) pc pc' ->
  let run pc pts := '(o1, _) <- build_octree normalize o pc ;; o2 <- construct_all_neigh o1 ;; x <- get_input_feature CF o2 s ne ;;
    '(y, _) <- UNet g P cin cout lin ne x o2 (Z.of_nat (depth o)) pts ;; Ok y in
  exists y y', run pc pts = Ok y /\ run pc' pts' = Ok y' /\ shape (List.length pts) cout y /\ shape (List.length pts') cout y' /\ nth_error y i = nth_error y' j.
Proof. exact thm_local_scene. Qed.
Print Assumptions C121_scene.

(** The hypotheses are met by two scenes that differ from 15 cells off the point on; the default
    configuration reaches 364 finest cells far. *)
Example C121_case : (build_input ex_octree ex_left /\ build_input ex_octree ex_right /\ Forall in_box (p_points ex_left) /\ Forall in_box (p_points ex_right) /\
    provides 2 "NdF" ex_left /\ provides 2 "NdF" ex_right) /\ unet_config ex_unet /\
  (unet_reach ex_unet = 13 /\ query_reach true ex_unet = 1 /\ unet_reach unet_default = 364) /\
  (in_cell 5 1 1 1 ex_here /\ same_part (near_point 5 (1, 1, 1, 0) 14) ex_left ex_right) /\
  (Forall (askable true 5) [(ex_here, 0)] /\ Forall (askable true 5) [(ex_there, 0); (ex_here, 0)]).
Proof. exact (conj ex_scenes (conj ex_unet_ok (conj ex_reach (conj ex_part ex_asks)))). Qed.
Example C121_scores : nth_error (ex_scores ex_left [(ex_here, 0); (ex_there, 0)]) 0 = nth_error (ex_scores ex_right [(ex_there, 0); (ex_here, 0)]) 1 /\
  nth_error (ex_scores ex_left [(ex_here, 0); (ex_there, 0)]) 0 <> nth_error (ex_scores ex_cloud [(ex_here, 0); (ex_there, 0)]) 0 /\
  List.length (ex_scores ex_left [(ex_here, 0); (ex_there, 0)]) = 2%nat /\ List.length (ex_scores ex_right [(ex_there, 0); (ex_here, 0)]) = 2%nat.
Proof. exact ex_agree. Qed.
