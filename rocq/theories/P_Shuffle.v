(** Property C117: the samples of a batch in another order. *)
From Coq Require Import Ascii String List ZArith Bool QArith Qcanon Lia.
From Verif Require Import Res Tensor Key Num Points Octree NnBasic NnConv NnInterp Features Net Spec SpecGeo SpecBuild WF SpecNeigh SpecMerge SpecNN SpecNet SpecFeature
  SpecBatch SpecSolver SpecMove SpecMoveSeg SpecTrain SpecShuffle MergeExamples BatchExamples Examples ExampleFacts NetExamples TrainFacts TrainExamples ShuffleThms ShuffleExamples.
Import ListNotations.
Open Scope Z_scope.

(** C117: the classifier, in training mode ([k] = 2) and in evaluation mode ([k] = 0): if the
    samples are merged in another order, sample [i] coming to place [sigma i], then row [sigma i] of
    the new scores is row [i] of the old ones, exactly.  The dropout masks follow the samples. *)
Theorem C117_resnet : forall sigma o0 o0' os os' om om' ms ms', mergeable o0 os -> mergeable o0' os' -> (1 <= full_depth o0)%nat ->
  permutes sigma (List.length os) -> reordered sigma os os' -> batched os om ms -> batched os' om' ms' ->
  forall P P' cin cout num stages dep ne k xs xs', fair_norms k P -> same_but_order sigma (List.length os) P P' ->
  (stages <= dep <= depth o0)%nat -> (lowest ne 0 <= dep - stages)%nat -> (1 <= stages)%nat -> (1 <= num)%nat -> channel_ok cin ->
  (k <= List.length os)%nat -> (forall d, (dep - stages < d <= dep)%nat -> (k <= node_count om d ne)%nat) ->
  Forall (fun oi => poolable oi ne (dep - stages) dep) ms -> Forall2 (fun oi x => shape (node_count oi dep ne) cin x) ms xs -> reordered sigma xs xs' ->
  exists y y', ResNet P cin cout num stages ne (concat xs) om (Z.of_nat dep) = Ok y /\ ResNet P' cin cout num stages ne (concat xs') om' (Z.of_nat dep) = Ok y' /\
    reordered sigma y y'.
Proof. exact (fun sigma o0 o0' os os' om om' ms ms' => thm_shuffle_resnet sigma o0 o0' os os' om om' ms ms'). Qed.
Print Assumptions C117_resnet.

(** C117: HRNet. *)
Theorem C117_hrnet : forall sigma o0 o0' os os' om om' ms ms', mergeable o0 os -> mergeable o0' os' -> (1 <= full_depth o0)%nat ->
  permutes sigma (List.length os) -> reordered sigma os os' -> batched os om ms -> batched os' om' ms' ->
  forall P cin cout num stages dep ne k xs xs', fair_norms k P ->
  (stages + 2 <= dep <= depth o0)%nat -> (1 <= stages <= 4)%nat -> channel_ok cin ->
  (forall d, (2 <= d <= dep)%nat -> (k <= node_count om d ne)%nat) ->
  Forall (fun oi => poolable oi ne 2 dep) ms -> Forall2 (fun oi x => shape (node_count oi dep ne) cin x) ms xs -> reordered sigma xs xs' ->
  exists y y', HRNet P cin cout stages num ne (concat xs) om (Z.of_nat dep) = Ok y /\ HRNet P cin cout stages num ne (concat xs') om' (Z.of_nat dep) = Ok y' /\
    reordered sigma y y'.
Proof. exact (fun sigma o0 o0' os os' om om' ms ms' => thm_shuffle_hrnet sigma o0 o0' os os' om om' ms ms'). Qed.
Print Assumptions C117_hrnet.

(** C117: UNet: the scores of the query points of every sample stay the same and are reordered by sample. *)
Theorem C117_unet : forall sigma o0 o0' os os' om om' ms ms', mergeable o0 os -> mergeable o0' os' -> (1 <= full_depth o0)%nat ->
  permutes sigma (List.length os) -> reordered sigma os os' -> batched os om ms -> batched os' om' ms' ->
  forall g P cin cout lin dep ne k xs xs' ptss ptss', unet_config g -> fair_norms k P ->
  (List.length (u_enc_blk g) < dep <= depth o0)%nat -> (lowest ne 0 <= dep - List.length (u_enc_blk g))%nat -> channel_ok cin ->
  (k <= List.length (concat ptss))%nat -> (forall d, (dep - List.length (u_enc_blk g) <= d <= dep)%nat -> (k <= node_count om d ne)%nat) ->
  Forall2 (fun oi x => shape (node_count oi dep ne) cin x) ms xs -> reordered sigma xs xs' ->
  List.length ptss = List.length os -> reordered sigma ptss ptss' -> Forall (Forall (askable lin (dep - List.length (u_enc_blk g) + List.length (u_dec_blk g)))) ptss ->
  exists ys q ys' q', UNet g P cin cout lin ne (concat xs) om (Z.of_nat dep) (join_points ptss) = Ok (concat ys, q) /\
    UNet g P cin cout lin ne (concat xs') om' (Z.of_nat dep) (join_points ptss') = Ok (concat ys', q') /\
    Forall2 (fun pts z => shape (List.length pts) cout z) ptss ys /\ reordered sigma ys ys'.
Proof. exact (fun sigma o0 o0' os os' om om' ms ms' => thm_shuffle_unet sigma o0 o0' os os' om om' ms ms'). Qed.
Print Assumptions C117_unet.

(** C117: SegNet. *)
Theorem C117_segnet : forall sigma o0 o0' os os' om om' ms ms', mergeable o0 os -> mergeable o0' os' -> (1 <= full_depth o0)%nat ->
  permutes sigma (List.length os) -> reordered sigma os os' -> batched os om ms -> batched os' om' ms' ->
  forall P cin cout stages lin dep k xs xs' ptss ptss', fair_norms k P ->
  (stages < dep <= depth o0)%nat -> (1 <= stages)%nat -> channel_ok cin ->
  (k <= List.length (concat ptss))%nat -> (forall d, (dep - stages <= d <= dep)%nat -> (k <= node_count om d false)%nat) ->
  Forall2 (fun oi x => shape (node_count oi dep false) cin x) ms xs -> reordered sigma xs xs' ->
  List.length ptss = List.length os -> reordered sigma ptss ptss' -> Forall (Forall (askable lin dep)) ptss ->
  exists ys q ys' q', SegNet P cin cout stages lin false (concat xs) om (Z.of_nat dep) (join_points ptss) = Ok (concat ys, q) /\
    SegNet P cin cout stages lin false (concat xs') om' (Z.of_nat dep) (join_points ptss') = Ok (concat ys', q') /\
    Forall2 (fun pts z => shape (List.length pts) cout z) ptss ys /\ reordered sigma ys ys'.
Proof. exact (fun sigma o0 o0' os os' om om' ms ms' => thm_shuffle_segnet sigma o0 o0' os os' om om' ms ms'). Qed.
Print Assumptions C117_segnet.

(** three samples, one of them an empty cloud, in two orders, with training parameters *)
Example C117_case : mergeable ex_m0 ex_ms /\ mergeable ex_m0' ex_ms' /\ (1 <= full_depth ex_m0)%nat /\ (2 + 2 <= 4 <= depth ex_m0)%nat /\
  permutes ex_turn (List.length ex_ms) /\ reordered ex_turn ex_ms ex_ms' /\ batched ex_ms ex_om ex_bos /\ batched ex_ms' ex_om' ex_bos' /\
  fair_norms 2 ex_train /\ same_but_order ex_turn (List.length ex_ms) ex_train ex_train' /\
  (forall d, (2 <= d <= 4)%nat -> (2 <= node_count ex_om d true)%nat /\ (2 <= node_count ex_om d false)%nat) /\
  Forall (fun oi => poolable oi false 2 4) ex_bos /\
  (forall ne, Forall2 (fun oi x => shape (node_count oi 4 ne) 3 x) ex_bos (ex_xs ne) /\ reordered ex_turn (ex_xs ne) (ex_xs' ne)) /\
  List.length [ex_q1; []; ex_q3] = List.length ex_ms /\ reordered ex_turn [ex_q1; []; ex_q3] [ex_q3; ex_q1; []] /\ Forall (Forall (askable true 4)) [ex_q1; []; ex_q3] /\
  List.length (concat [ex_q1; []; ex_q3]) = 3%nat.
Proof.
  split; [exact ex_mergeable|]. split; [exact ex_mergeable'|]. split; [vm_compute; auto|]. split; [vm_compute; auto|]. destruct ex_turn_ok as (T1 & T2). split; [exact T1|]. split; [exact T2|].
  split; [exact ex_om_batched|]. split; [exact ex_om_batched'|]. split; [apply thm_training, ex_train_ok|]. split; [apply ex_train_turned|]. split; [exact ex_om_nodes|]. split; [apply ex_batch_poolable|].
  split; [exact ex_xs_ok|exact ex_queries].
Qed.
(** batch normalisation mixes the samples, and yet the rows only change places *)
Example C117_rows : ex_conv [[qz 1]; [qz 5]; [qz 4]; [qz 2]] ex_om = [[-1 # 14; 23 # 14]; [15 # 14; -9 # 14]; [11 # 14; -1 # 14]; [3 # 14; 15 # 14]]%Q /\
  ex_conv [[qz 4]; [qz 2]; [qz 1]; [qz 5]] ex_om' = [[11 # 14; -1 # 14]; [3 # 14; 15 # 14]; [-1 # 14; 23 # 14]; [15 # 14; -9 # 14]]%Q.
Proof. exact ex_convs. Qed.
