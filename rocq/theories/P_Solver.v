(** C103, C104, C105: the training steps of the segmentation and classification projects. *)
From Coq Require Import String List ZArith Bool QArith Qcanon Lia.
From Verif Require Import Res Tensor Key Num Points Octree PointsOps NnBasic NnConv NnInterp Features Net Dataset Project Shape Solver
  SpecGeo SpecMerge SpecNN SpecNet SpecFeature SpecBatch SpecSolver Examples MergeExamples NetExamples SolverFacts SolverBatch SolverCls.
Import ListNotations.
Open Scope Z_scope.

(** C103: it does not matter whether the octrees are built by the data loader and merged
    when the batch is collated, or built, on the other device, by the training step. *)
Theorem C103_two_ways : forall nrm dep full d0 dev ps, (1 <= full <= dep)%nat -> (dep <= 16)%nat -> Z.of_nat (length ps) <= 32768 -> clouds_ok d0 ps ->
  exists os b1 b2 out1 out2 o q1 q2, mapM (fun p => r <- build_octree nrm (octree_new dep full 1 d0) p ;; Ok (fst r)) ps = Ok os /\
    collate false (map cloud_sample ps) = Ok b1 /\ collate true (map (fun po => octree_sample (fst po) (snd po)) (combine ps os)) = Ok b2 /\
    process_batch nrm dep full dev b1 = Ok out1 /\ process_batch nrm dep full dev b2 = Ok out2 /\
    dlookup out1 "octree" = Some (OOne (VOct o)) /\ dlookup out2 "octree" = Some (OOne (VOct o)) /\ device o = dev /\ batch_size o = length ps /\
    dlookup out1 "points" = Some (OOne (VPts q1)) /\ dlookup out2 "points" = Some (OOne (VPts q2)) /\ same_cloud q1 q2 /\
    forall model CF s ne m, model_forward model CF s ne m out1 = model_forward model CF s ne m out2.
Proof. exact thm_two_ways. Qed.
Print Assumptions C103_two_ways.

(** C103: the same for batches with further entries; these are kept. *)
Theorem C103_process : forall nrm dep full d0 dev ps, (1 <= full <= dep)%nat -> (dep <= 16)%nat -> Z.of_nat (length ps) <= 32768 -> clouds_ok d0 ps ->
  exists os om o q, 
    mapM (fun p => r <- build_octree nrm (octree_new dep full 1 d0) p ;; Ok (fst r)) ps = Ok os /\
    merge_octrees os = Ok om /\ construct_all_neigh om = Ok o /\ merge_points ps true = Ok q /\
    forall b1 b2, dlookup b1 "octree" = None -> dlookup b1 "points" = Some (OList (map VPts ps)) ->
      dlookup b2 "octree" = Some (OOne (VOct o)) -> dlookup b2 "points" = Some (OOne (VPts q)) ->
      exists out1 out2 q1 q2, process_batch nrm dep full dev b1 = Ok out1 /\ process_batch nrm dep full dev b2 = Ok out2 /\
        dlookup out1 "octree" = Some (OOne (VOct (octree_to o dev))) /\ dlookup out2 "octree" = Some (OOne (VOct (octree_to o dev))) /\
        dlookup out1 "points" = Some (OOne (VPts q1)) /\ dlookup out2 "points" = Some (OOne (VPts q2)) /\ same_cloud q1 q2 /\ p_batch_size q1 = length ps /\
        (forall k, k <> "octree"%string -> k <> "points"%string -> dlookup out1 k = dlookup b1 k /\ dlookup out2 k = dlookup b2 k) /\
        forall model CF s ne m, model_forward model CF s ne m out1 = model_forward model CF s ne m out2.
Proof. exact thm_process. Qed.
Print Assumptions C103_process.

Example C103_case : clouds_ok 0 ex_clouds /\ map (fun p => length (p_points p)) ex_clouds = [3; 0; 2]%nat /\ (1 <= 1 <= 4)%nat /\ (4 <= 16)%nat /\ Z.of_nat (length ex_clouds) <= 32768.
Proof. split; [exact ex_clouds_ok|]. split; [reflexivity|]. split; [lia|]. split; [lia|cbn; lia]. Qed.

(** C104: what a segmentation step in evaluation mode computes for several clouds - the
    logits and the labels of the points whose label is kept - is what it computes for
    each of them alone, in order. *)
Theorem C104_unet : forall nrm dep full d0 dev CF cin cout lin s ne m g P ps, (1 <= full <= dep)%nat -> (dep <= 16)%nat ->
  asks_any s = true -> channels s CF = cin -> channel_ok cin -> unet_config g -> eval_mode P -> (length (u_enc_blk g) < dep)%nat ->
  Z.of_nat (length ps) <= 32768 -> clouds_ok d0 ps -> Forall labelled ps -> Forall (provides CF s) ps ->
  let net := predict nrm dep full dev (UNet g P cin cout lin ne) CF s ne m in
  exists rs, mapM (fun p => net [p]) ps = Ok rs /\ net ps = Ok (concat (map fst rs), concat (map snd rs)).
Proof. exact thm_predict_unet. Qed.
Print Assumptions C104_unet.

Theorem C104_segnet : forall nrm dep full d0 dev CF cin cout stages lin s m P ps, (1 <= full <= dep)%nat -> (dep <= 16)%nat ->
  asks_any s = true -> channels s CF = cin -> channel_ok cin -> eval_mode P -> (1 <= stages < dep)%nat ->
  Z.of_nat (length ps) <= 32768 -> clouds_ok d0 ps -> Forall labelled ps -> Forall (provides CF s) ps ->
  let net := predict nrm dep full dev (SegNet P cin cout stages lin false) CF s false m in
  exists rs, mapM (fun p => net [p]) ps = Ok rs /\ net ps = Ok (concat (map fst rs), concat (map snd rs)).
Proof. exact thm_predict_segnet. Qed.
Print Assumptions C104_segnet.

Example C104_case : clouds_ok 0 ex_clouds /\ Forall labelled ex_clouds /\ Forall (provides 2 "NdF") ex_clouds /\ asks_any "NdF" = true /\ channels "NdF" 2 = 6%nat /\
  channel_ok 6 /\ unet_config ex_unet /\ eval_mode ex_params /\ (length (u_enc_blk ex_unet) < 4)%nat.
Proof.
  split; [exact ex_clouds_ok|]. split; [repeat constructor; eexists; (split; [reflexivity|split; [reflexivity|repeat constructor]])|].
  split; [repeat constructor; try discriminate; intros _; eexists; (split; [reflexivity|repeat constructor])|].
  split; [reflexivity|]. split; [reflexivity|]. split; [vm_compute; discriminate|]. split; [exact ex_unet_ok|]. split; [|cbn; lia]. 
  split; [|reflexivity]. intros p C. exists (fun v => v). intros x Hx. rewrite map_id. auto.
Qed.

(** C105: loss and accuracy of a classification step in evaluation mode are the means of
    the losses and accuracies of the samples alone. *)
Theorem C105_lenet : forall nrm dep full d0 dev ce CF cin cout stages s ne P pls, (1 <= full <= 2)%nat -> (dep <= 16)%nat ->
  asks_any s = true -> channels s CF = cin -> channel_ok cin -> eval_mode P -> (dep - stages = 2)%nat -> (1 <= stages)%nat ->
  Z.of_nat (length pls) <= 32768 -> clouds_ok d0 (map fst pls) -> Forall (provides CF s) (map fst pls) ->
  let net := classify nrm dep full dev ce (LeNet P cin cout stages ne) CF s ne in
  exists las, mapM (fun pl => net [pl]) pls = Ok (map (fun la => (Some (fst la), Some (snd la))) las) /\ net pls = Ok (Some (mean (map fst las)), Some (mean (map snd las))).
Proof. exact thm_classify_lenet. Qed.
Print Assumptions C105_lenet.

Theorem C105_resnet : forall nrm dep full d0 dev ce CF cin cout num stages s ne P pls, (1 <= full <= dep - stages)%nat -> (dep <= 16)%nat ->
  asks_any s = true -> channels s CF = cin -> channel_ok cin -> eval_mode P -> (1 <= stages)%nat -> (1 <= num)%nat ->
  Z.of_nat (length pls) <= 32768 -> clouds_ok d0 (map fst pls) -> Forall (provides CF s) (map fst pls) ->
  let net := classify nrm dep full dev ce (ResNet P cin cout num stages ne) CF s ne in
  exists las, mapM (fun pl => net [pl]) pls = Ok (map (fun la => (Some (fst la), Some (snd la))) las) /\ net pls = Ok (Some (mean (map fst las)), Some (mean (map snd las))).
Proof. exact thm_classify_resnet. Qed.
Print Assumptions C105_resnet.

Theorem C105_hrnet : forall nrm dep full d0 dev ce CF cin cout num stages s ne P pls, (1 <= full <= 2)%nat -> (stages + 2 <= dep <= 16)%nat -> (1 <= stages <= 4)%nat ->
  asks_any s = true -> channels s CF = cin -> channel_ok cin -> eval_mode P ->
  Z.of_nat (length pls) <= 32768 -> clouds_ok d0 (map fst pls) -> Forall (provides CF s) (map fst pls) ->
  let net := classify nrm dep full dev ce (HRNet P cin cout stages num ne) CF s ne in
  exists las, mapM (fun pl => net [pl]) pls = Ok (map (fun la => (Some (fst la), Some (snd la))) las) /\ net pls = Ok (Some (mean (map fst las)), Some (mean (map snd las))).
Proof. exact thm_classify_hrnet. Qed.
Print Assumptions C105_hrnet.

Example C105_case : let pls := combine ex_clouds [4; 0; 9] in clouds_ok 0 (map fst pls) /\ Forall (provides 2 "NdF") (map fst pls) /\ length pls = 3%nat /\
  eval_mode ex_params /\ (1 <= 1 <= 2)%nat /\ (4 - 2 = 2)%nat /\ (2 + 2 <= 4 <= 16)%nat.
Proof.
  cbv zeta. split; [exact ex_clouds_ok|]. split; [repeat constructor; try discriminate; intros _; eexists; (split; [reflexivity|repeat constructor])|].
  split; [reflexivity|]. split; [|lia]. split; [|reflexivity]. intros p C. exists (fun v => v). intros x Hx. rewrite map_id. auto.
Qed.
