(** C79, C80: a sample gives the same result alone and in a batch. *)
From Coq Require Import String List ZArith Bool QArith Qcanon Lia.
From Verif Require Import Res Tensor Num Octree NnBasic NnConv NnInterp Features Net WF SpecMerge SpecNN SpecFeature SpecNet SpecBatch
  Examples MergeExamples NetExamples BatchThms FeatBatch BatchExamples.
Import ListNotations.
Open Scope Z_scope.

(** Octrees that can be merged form a batch: merging and computing the neighbourhoods of
    the merged octree and of every member succeed. *)
Theorem C79_batched : forall o0 os, mergeable o0 os -> (1 <= full_depth o0)%nat -> exists o' os', batched os o' os' /\ length os' = length os.
Proof. exact thm_batched. Qed.
Print Assumptions C79_batched.

Example C79_batched_case : mergeable ex_m0 ex_ms /\ (1 <= full_depth ex_m0)%nat /\ length ex_ms = 3%nat.
Proof. split; [exact ex_mergeable|]. split; vm_compute; auto. Qed.

(** Input features of the merged octree: those of the members, one after the other. *)
Theorem C79_feature : forall o0 o' os os', mergeable o0 os -> (1 <= full_depth o0)%nat -> batched os o' os' ->
  forall CF s ne, asks_any s = true -> Forall (carries CF s) os' ->
  exists xs, mapM (fun oi => get_input_feature CF oi s ne) os' = Ok xs /\ get_input_feature CF o' s ne = Ok (concat xs) /\
    Forall2 (fun oi x => shape (node_count oi (depth o0) ne) (channels s CF) x) os' xs.
Proof. exact thm_batch_feature. Qed.
Print Assumptions C79_feature.

Example C79_feature_case : mergeable ex_m0 ex_ms /\ (exists o', batched ex_ms o' ex_bos) /\ Forall (carries 2 "NdF") ex_bos /\ length ex_bos = 3%nat /\
  asks_any "NdF" = true /\ channels "NdF" 2 = 6%nat.
Proof. split; [exact ex_mergeable|]. split; [exact ex_bos_batched|exact ex_carries]. Qed.

(** Segmentation networks: the rows of the merged result are the rows of the members'
    results, and so are the query points the call leaves behind. *)
Theorem C79_unet : forall o0 o' os os', mergeable o0 os -> (1 <= full_depth o0)%nat -> batched os o' os' ->
  forall g P cin cout lin ne dep xs ptss, unet_config g -> eval_mode P -> (length (u_enc_blk g) < dep <= depth o0)%nat -> channel_ok cin ->
  Forall2 (fun oi x => shape (node_count oi dep ne) cin x) os' xs -> length ptss = length os' -> Forall (Forall (fun p => snd p = 0)) ptss ->
  exists yqs, mapM (fun oxp => UNet g P cin cout lin ne (snd (fst oxp)) (fst (fst oxp)) (Z.of_nat dep) (snd oxp)) (combine (combine os' xs) ptss) = Ok yqs /\
    UNet g P cin cout lin ne (concat xs) o' (Z.of_nat dep) (join_points ptss) = Ok (concat (map fst yqs), join_points (map snd yqs)).
Proof. exact thm_batch_unet. Qed.
Print Assumptions C79_unet.

Example C79_unet_case : exists o' os', batched ex_ms o' os' /\ length os' = 3%nat /\ unet_config ex_unet /\ eval_mode ex_params /\
  (length (u_enc_blk ex_unet) < 4 <= depth ex_m0)%nat /\ channel_ok 3 /\
  Forall2 (fun oi x => shape (node_count oi 4 true) 3 x) os' (map (fun oi => ex_x (node_count oi 4 true) 3) os') /\
  length (map (fun _ => ex_ask) os') = length os' /\ Forall (Forall (fun p : qpoint => snd p = 0)) (map (fun _ => ex_ask) os').
Proof.
  destruct ex_batch as (o' & os' & B & Hl). exists o', os'. split; [exact B|]. split; [exact Hl|]. split; [exact ex_unet_ok|]. split; [exact ex_eval|].
  split; [vm_compute; auto|]. split; [vm_compute; discriminate|]. split; [apply ex_inputs|apply ex_asks].
Qed.

Theorem C79_segnet : forall o0 o' os os', mergeable o0 os -> (1 <= full_depth o0)%nat -> batched os o' os' ->
  forall P cin cout stages lin ne dep xs ptss, eval_mode P -> (stages < dep <= depth o0)%nat -> (1 <= stages)%nat -> channel_ok cin ->
  Forall (fun oi => poolable oi ne (dep - stages) dep) os' ->
  (ne = true -> Forall (fun oi => node_count oi (dep - stages) true = node_count oi (dep - stages) false) os') ->
  Forall2 (fun oi x => shape (node_count oi dep ne) cin x) os' xs -> length ptss = length os' -> Forall (Forall (fun p => snd p = 0)) ptss ->
  exists yqs, mapM (fun oxp => SegNet P cin cout stages lin ne (snd (fst oxp)) (fst (fst oxp)) (Z.of_nat dep) (snd oxp)) (combine (combine os' xs) ptss) = Ok yqs /\
    SegNet P cin cout stages lin ne (concat xs) o' (Z.of_nat dep) (join_points ptss) = Ok (concat (map fst yqs), join_points (map snd yqs)).
Proof. exact thm_batch_segnet. Qed.
Print Assumptions C79_segnet.

Example C79_segnet_case : exists o' os', batched ex_ms o' os' /\ length os' = 3%nat /\ eval_mode ex_params /\ (2 < 4 <= depth ex_m0)%nat /\
  Forall (fun oi => poolable oi false (4 - 2) 4) os' /\ Forall2 (fun oi x => shape (node_count oi 4 false) 3 x) os' (map (fun oi => ex_x (node_count oi 4 false) 3) os').
Proof.
  destruct ex_batch as (o' & os' & B & Hl). exists o', os'. split; [exact B|]. split; [exact Hl|]. split; [exact ex_eval|]. split; [vm_compute; auto|]. split; [apply ex_batch_poolable|apply ex_inputs].
Qed.

(** Classification networks: one row per sample. *)
Theorem C79_lenet : forall o0 o' os os', mergeable o0 os -> (1 <= full_depth o0)%nat -> batched os o' os' ->
  forall P cin cout stages dep ne xs, eval_mode P -> (dep <= depth o0)%nat -> (dep - stages = 2)%nat -> (1 <= stages)%nat -> channel_ok cin ->
  Forall (fun oi => poolable oi ne 2 dep) os' -> Forall2 (fun oi x => shape (node_count oi dep ne) cin x) os' xs ->
  exists ys, mapM (fun ox => LeNet P cin cout stages ne (snd ox) (fst ox) (Z.of_nat dep)) (combine os' xs) = Ok ys /\
    LeNet P cin cout stages ne (concat xs) o' (Z.of_nat dep) = Ok (concat ys).
Proof. exact thm_batch_lenet. Qed.
Print Assumptions C79_lenet.

Example C79_lenet_case : exists o' os', batched ex_ms o' os' /\ length os' = 3%nat /\ eval_mode ex_params /\ (4 <= depth ex_m0)%nat /\ (4 - 2 = 2)%nat /\
  Forall (fun oi => poolable oi false 2 4) os' /\ Forall2 (fun oi x => shape (node_count oi 4 false) 3 x) os' (map (fun oi => ex_x (node_count oi 4 false) 3) os').
Proof.
  destruct ex_batch as (o' & os' & B & Hl). exists o', os'. split; [exact B|]. split; [exact Hl|]. split; [exact ex_eval|]. split; [vm_compute; auto|]. split; [reflexivity|]. split; [apply ex_batch_poolable|apply ex_inputs].
Qed.

Theorem C79_resnet : forall o0 o' os os', mergeable o0 os -> (1 <= full_depth o0)%nat -> batched os o' os' ->
  forall P cin cout num stages dep ne xs, eval_mode P -> (stages <= dep <= depth o0)%nat -> (1 <= stages)%nat -> (1 <= num)%nat -> channel_ok cin ->
  Forall (fun oi => poolable oi ne (dep - stages) dep) os' -> Forall2 (fun oi x => shape (node_count oi dep ne) cin x) os' xs ->
  exists ys, mapM (fun ox => ResNet P cin cout num stages ne (snd ox) (fst ox) (Z.of_nat dep)) (combine os' xs) = Ok ys /\
    ResNet P cin cout num stages ne (concat xs) o' (Z.of_nat dep) = Ok (concat ys).
Proof. exact thm_batch_resnet. Qed.
Print Assumptions C79_resnet.

Example C79_resnet_case : exists o' os', batched ex_ms o' os' /\ length os' = 3%nat /\ eval_mode ex_params /\ (2 <= 4 <= depth ex_m0)%nat /\
  Forall (fun oi => poolable oi false (4 - 2) 4) os' /\ Forall2 (fun oi x => shape (node_count oi 4 false) 3 x) os' (map (fun oi => ex_x (node_count oi 4 false) 3) os').
Proof.
  destruct ex_batch as (o' & os' & B & Hl). exists o', os'. split; [exact B|]. split; [exact Hl|]. split; [exact ex_eval|]. split; [vm_compute; auto|]. split; [apply ex_batch_poolable|apply ex_inputs].
Qed.

Theorem C79_hrnet : forall o0 o' os os', mergeable o0 os -> (1 <= full_depth o0)%nat -> batched os o' os' ->
  forall P cin cout num stages dep ne xs, eval_mode P -> (stages + 2 <= dep <= depth o0)%nat -> (1 <= stages <= 4)%nat -> channel_ok cin ->
  Forall (fun oi => poolable oi ne 2 dep) os' -> Forall2 (fun oi x => shape (node_count oi dep ne) cin x) os' xs ->
  exists ys, mapM (fun ox => HRNet P cin cout stages num ne (snd ox) (fst ox) (Z.of_nat dep)) (combine os' xs) = Ok ys /\
    HRNet P cin cout stages num ne (concat xs) o' (Z.of_nat dep) = Ok (concat ys).
Proof. exact thm_batch_hrnet. Qed.
Print Assumptions C79_hrnet.

Example C79_hrnet_case : exists o' os', batched ex_ms o' os' /\ length os' = 3%nat /\ eval_mode ex_params /\ (2 + 2 <= 4 <= depth ex_m0)%nat /\
  Forall (fun oi => poolable oi false 2 4) os' /\ Forall2 (fun oi x => shape (node_count oi 4 false) 3 x) os' (map (fun oi => ex_x (node_count oi 4 false) 3) os').
Proof.
  destruct ex_batch as (o' & os' & B & Hl). exists o', os'. split; [exact B|]. split; [exact Hl|]. split; [exact ex_eval|]. split; [vm_compute; auto|]. split; [apply ex_batch_poolable|apply ex_inputs].
Qed.

(** Auto-encoder on given octrees: reconstruction and logits of every depth. *)
Theorem C79_autoencoder : forall o0 o' os os', mergeable o0 os -> (1 <= full_depth o0)%nat -> batched os o' os' ->
  forall g P cin cout CF dev s, ae_config g -> eval_mode P -> (1 <= a_full g)%nat -> a_depth g = depth o0 -> channel_ok cin ->
  asks_any s = true -> channels s CF = cin -> Forall (carries CF s) os' ->
  exists ys lg, mapM (fun oi => AutoEncoder g P cin cout CF dev s oi false) os' = Ok ys /\
    AutoEncoder g P cin cout CF dev s o' false = Ok (lg, concat (map (fun y => snd (fst y)) ys), o') /\ map snd ys = os' /\
    forall d, (a_full g <= d <= a_depth g)%nat -> exists lgs, mapM (fun y => dfind (fst (fst y)) (Z.of_nat d)) ys = Ok lgs /\ dfind lg (Z.of_nat d) = Ok (concat lgs).
Proof. exact thm_batch_ae. Qed.
Print Assumptions C79_autoencoder.

Example C79_autoencoder_case : mergeable ex_m0 ex_ms /\ (exists o', batched ex_ms o' ex_bos) /\ ae_config (mkAe [2; 2; 2; 2; 2]%nat 2 4 1 1) /\
  eval_mode ex_params /\ (4 = depth ex_m0)%nat /\ Forall (carries 2 "NdF") ex_bos /\ channels "NdF" 2 = 6%nat.
Proof.
  split; [exact ex_mergeable|]. split; [exact ex_bos_batched|]. split; [constructor; cbn; try lia; repeat apply Forall_cons; try apply Forall_nil; vm_compute; discriminate|].
  split; [exact ex_eval|]. split; [vm_compute; reflexivity|]. destruct ex_carries as (H1 & _ & _ & H4). split; [exact H1|exact H4].
Qed.

(** C80: decoding codes into octrees is not batch invariant: a sample none of whose nodes
    asks for children gets one anyway when decoded alone, and none in a batch where
    another sample splits. *)
Theorem C80_decode_refuted : exists g P cout dev c1 c2 l1 s1 o1 l2 s2 o2 l s o, ae_config g /\ (1 <= a_full g)%nat /\ eval_mode P /\
  shape (2 ^ (3 * a_full g)) (a_code g) c1 /\ shape (2 ^ (3 * a_full g)) (a_code g) c2 /\
  ae_decode_code g P cout dev c1 = Ok (l1, s1, o1) /\ ae_decode_code g P cout dev c2 = Ok (l2, s2, o2) /\
  ae_decode_code g P cout dev (c1 ++ c2) = Ok (l, s, o) /\
  (node_count o (a_depth g) true <> node_count o1 (a_depth g) true + node_count o2 (a_depth g) true)%nat /\ s <> s1 ++ s2.
Proof. exact ex_decode_refuted. Qed.
Print Assumptions C80_decode_refuted.
