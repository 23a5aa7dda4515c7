(** Property C116: moved shapes in training mode. *)
From Coq Require Import Ascii String List ZArith Bool QArith Qcanon Lia.
From Verif Require Import Res Tensor Key Num Points Octree NnBasic NnConv NnInterp Features Net Spec SpecGeo SpecBuild WF SpecNeigh SpecNN SpecNet SpecFeature
  SpecBatch SpecSolver SpecMove SpecMoveSeg SpecTrain BatchExamples Examples ExampleFacts NetExamples MoveBuild MoveExamples MoveSegThms MoveSegExamples MoveHrThms MoveHrExamples TrainFacts TrainExamples.
Import ListNotations.
Open Scope Z_scope.

(** C116: batch normalisation in training mode, with the mean and the variance of the rows of
    the tensor, does not depend on the order of the rows and succeeds from two rows on. *)
Theorem C116_training : forall P, training P -> fair_norms 2 P.
Proof. exact thm_training. Qed.
Print Assumptions C116_training.

(** C116: hence in training mode, too, the classifier gives a moved cloud the same scores, if every
    layer it normalises has two nodes and the batch has two samples ([k] = 2).  Dropout may be on. *)
Theorem C116_classes : forall normalize o pc e t ne k CF s P cin cout num stages, build_input o pc -> (1 <= full_depth o)%nat ->
  Forall in_box (p_points pc) -> Forall in_box (p_points (moved_cloud e t pc)) -> provides CF s pc -> asks_any s = true -> asks s "P" "p" = false ->
  channels s CF = cin -> channel_ok cin -> fair_norms k P -> (1 <= stages)%nat -> (1 <= num)%nat -> (full_depth o <= e)%nat -> (lowest ne e + stages <= depth o)%nat ->
  (forall o1 idx o2, build_octree normalize o pc = Ok (o1, idx) -> construct_all_neigh o1 = Ok o2 ->
     (k <= batch_size o2)%nat /\ forall d, (depth o - stages < d <= depth o)%nat -> (k <= node_count o2 d ne)%nat) ->
  let run pc := '(o1, _) <- build_octree normalize o pc ;; o2 <- construct_all_neigh o1 ;; x <- get_input_feature CF o2 s ne ;;
    ResNet P cin cout num stages ne x o2 (Z.of_nat (depth o)) in
  exists y, run pc = Ok y /\ run (moved_cloud e t pc) = Ok y.
Proof. exact thm_fair_classes. Qed.
Print Assumptions C116_classes.

(** C116: UNet gives the moved query points of the moved cloud the same scores. *)
Theorem C116_labels : forall normalize o pc e t ne k CF s g P cin cout lin pts, build_input o pc -> (1 <= full_depth o)%nat ->
  Forall in_box (p_points pc) -> Forall in_box (p_points (moved_cloud e t pc)) -> provides CF s pc -> asks_any s = true -> asks s "P" "p" = false ->
  channels s CF = cin -> channel_ok cin -> fair_norms k P -> unet_config g -> (full_depth o <= e)%nat -> (lowest ne e + List.length (u_enc_blk g) <= depth o)%nat ->
  Forall (askable lin (depth o - List.length (u_enc_blk g) + List.length (u_dec_blk g))) pts ->
  Forall (askable lin (depth o - List.length (u_enc_blk g) + List.length (u_dec_blk g))) (moved_points e t pts) ->
  (k <= List.length pts)%nat -> (forall o1 idx o2, build_octree normalize o pc = Ok (o1, idx) -> construct_all_neigh o1 = Ok o2 ->
     forall d, (depth o - List.length (u_enc_blk g) <= d <= depth o)%nat -> (k <= node_count o2 d ne)%nat) ->
  let run pc pts := '(o1, _) <- build_octree normalize o pc ;; o2 <- construct_all_neigh o1 ;; x <- get_input_feature CF o2 s ne ;;
    '(y, _) <- UNet g P cin cout lin ne x o2 (Z.of_nat (depth o)) pts ;; Ok y in
  exists y, run pc pts = Ok y /\ run (moved_cloud e t pc) (moved_points e t pts) = Ok y /\ shape (List.length pts) cout y.
Proof. exact thm_fair_labels. Qed.
Print Assumptions C116_labels.

(** C116: HRNet gives the moved cloud the same scores. *)
Theorem C116_hrnet : forall normalize o pc e t ne k CF s P cin cout num stages, build_input o pc -> (1 <= full_depth o)%nat ->
  Forall in_box (p_points pc) -> Forall in_box (p_points (moved_cloud e t pc)) -> provides CF s pc -> asks_any s = true -> asks s "P" "p" = false ->
  channels s CF = cin -> channel_ok cin -> fair_norms k P -> (1 <= stages <= 4)%nat -> (stages + 2 <= depth o)%nat -> (full_depth o <= e)%nat -> (lowest ne e <= 2)%nat ->
  (forall o1 idx o2, build_octree normalize o pc = Ok (o1, idx) -> construct_all_neigh o1 = Ok o2 ->
     forall d, (2 <= d <= depth o)%nat -> (k <= node_count o2 d ne)%nat) ->
  let run pc := '(o1, _) <- build_octree normalize o pc ;; o2 <- construct_all_neigh o1 ;; x <- get_input_feature CF o2 s ne ;;
    HRNet P cin cout stages num ne x o2 (Z.of_nat (depth o)) in
  exists y, run pc = Ok y /\ run (moved_cloud e t pc) = Ok y.
Proof. exact thm_fair_hr_cloud. Qed.
Print Assumptions C116_hrnet.

(** C116: SegNet, with features of all nodes, gives the moved query points the same scores. *)
Theorem C116_segnet : forall normalize o pc e t k CF s P cin cout stages lin pts, build_input o pc -> (1 <= full_depth o)%nat ->
  Forall in_box (p_points pc) -> Forall in_box (p_points (moved_cloud e t pc)) -> provides CF s pc -> asks_any s = true -> asks s "P" "p" = false ->
  channels s CF = cin -> channel_ok cin -> fair_norms k P -> (1 <= stages)%nat -> (full_depth o <= e)%nat -> (S e + stages <= depth o)%nat ->
  Forall (askable lin (depth o)) pts -> Forall (askable lin (depth o)) (moved_points e t pts) ->
  (k <= List.length pts)%nat -> (forall o1 idx o2, build_octree normalize o pc = Ok (o1, idx) -> construct_all_neigh o1 = Ok o2 ->
     forall d, (depth o - stages <= d <= depth o)%nat -> (k <= node_count o2 d false)%nat) ->
  let run pc pts := '(o1, _) <- build_octree normalize o pc ;; o2 <- construct_all_neigh o1 ;; x <- get_input_feature CF o2 s false ;;
    '(y, _) <- SegNet P cin cout stages lin false x o2 (Z.of_nat (depth o)) pts ;; Ok y in
  exists y, run pc pts = Ok y /\ run (moved_cloud e t pc) (moved_points e t pts) = Ok y /\ shape (List.length pts) cout y.
Proof. exact thm_fair_seg_cloud. Qed.
Print Assumptions C116_segnet.

(** C116: the classifier commutes with every motion of the grid, with turned kernels. *)
Theorem C116_motion : forall e s turn o o' ne k P P' cin cout num stages dep x x', motion e s turn -> moved e s o o' -> wf_octree o -> wf_octree o' ->
  fair_norms k P -> params_turned turn P P' -> (stages <= dep <= depth o)%nat -> (lowest ne e <= dep - stages)%nat -> (1 <= stages)%nat -> (1 <= num)%nat -> channel_ok cin ->
  (k <= batch_size o)%nat -> layers_ready o ne k (dep - stages + 1) dep -> layers_ready o' ne 0 (dep - stages + 1) dep -> poolable o ne (dep - stages) dep ->
  shape (node_count o dep ne) cin x -> shape (node_count o' dep ne) cin x' -> carried ne s o o' dep x x' ->
  exists y, ResNet P cin cout num stages ne x o (Z.of_nat dep) = Ok y /\ ResNet P' cin cout num stages ne x' o' (Z.of_nat dep) = Ok y.
Proof. exact thm_fair_resnet. Qed.
Print Assumptions C116_motion.

(** Parameters in training mode, with dropout. *)
Example C116_case : training ex_train /\ ~ eval_mode ex_train.
Proof. exact ex_train_ok. Qed.
(** The clouds of C110 (see C110_batch_case), C112 and C115 have enough nodes. *)
Example C116_classes_case : (1 <= full_depth ex_octree2)%nat /\ (full_depth ex_octree2 <= 2)%nat /\ (lowest true 2 + 1 <= depth ex_octree2)%nat /\
  forall o1 idx o2, build_octree ex_norm ex_octree2 ex_batch = Ok (o1, idx) -> construct_all_neigh o1 = Ok o2 ->
    (2 <= batch_size o2)%nat /\ forall d, (depth ex_octree2 - 1 < d <= depth ex_octree2)%nat -> (2 <= node_count o2 d true)%nat.
Proof. exact ex_train_batch. Qed.
Example C116_labels_case : forall o1 idx o2, build_octree ex_norm ex_octree ex_cloud = Ok (o1, idx) -> construct_all_neigh o1 = Ok o2 ->
  forall d, (5 - 2 <= d <= 5)%nat -> (2 <= node_count o2 d true)%nat.
Proof. exact ex_train_nodes. Qed.
(** One convolution with batch normalisation, before and after the move, and in evaluation mode. *)
Example C116_layer_case : ex_layer ex_train ex_cloud = [[23 # 22; 23 # 214]; [-1 # 22; 23 # 214]; [1 # 2; 275 # 214]]%Q /\ ex_layer ex_train ex_far = ex_layer ex_train ex_cloud /\
  ex_layer ex_params ex_cloud = [[1; -1]; [-3; -1]; [-1; 6]]%Q.
Proof. exact ex_layers. Qed.
