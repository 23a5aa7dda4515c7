(** Examples for C116. *)
From Coq Require Import Ascii String List ZArith Bool QArith Qcanon Lia.
From Verif Require Import Res Tensor Key Num Points Octree NnBasic NnConv NnInterp Features Net Spec SpecGeo SpecBuild WF SpecNeigh SpecNN SpecNet SpecFeature
  SpecBatch SpecSolver SpecMove SpecMoveSeg SpecTrain BatchExamples Examples ExampleFacts NetExamples BuildThms MoveFacts MoveBuild MoveThms MoveExamples MoveSegExamples MoveHrExamples.
Import ListNotations.
Open Scope Z_scope.

(** Training: 1 / (1 + v) in place of 1 / sqrt(v + eps), and dropout of every second channel
    of the first sample. *)
Definition ex_train : params :=
  mkParams (p_weight ex_params) (p_bias ex_params) (fun p C x => batch_norm (fun v => (1 / (1 + v))%Qc) (fun c => qz (Z.of_nat c + 1)) (fun _ => qf 1 2) C x)
    (fun _ i c => if Nat.even (i + c) then qz 2 else 0%Qc) (p_tanh ex_params).
Lemma ex_train_ok : training ex_train /\ ~ eval_mode ex_train.
Proof.
  split; [exists (fun v => (1 / (1 + v))%Qc), (fun _ c => qz (Z.of_nat c + 1)), (fun _ _ => qf 1 2); reflexivity|].
  intros [_ H]. specialize (H [] O 1%nat). apply (f_equal this) in H. vm_compute in H. discriminate.
Qed.
(** a cloud, its octree and the numbers of nodes of the layers 3 to 5 *)
Lemma ex_train_nodes : forall o1 idx o2, build_octree ex_norm ex_octree ex_cloud = Ok (o1, idx) -> construct_all_neigh o1 = Ok o2 ->
  forall d, (5 - 2 <= d <= 5)%nat -> (2 <= node_count o2 d true)%nat.
Proof.
  assert (G : match ('(o1, _) <- build_octree ex_norm ex_octree ex_cloud ;; construct_all_neigh o1) with Ok o2 => forallb (fun d => Nat.leb 2 (node_count o2 d true)) (seq 3 3) = true | Err _ => False end) by (vm_compute; reflexivity).
  intros o1 idx o2 E1 E2 d Hd. rewrite E1 in G. cbn [bind] in G. rewrite E2 in G. rewrite forallb_forall in G. apply Nat.leb_le. apply G. apply in_seq. lia.
Qed.
(** one convolution with batch normalisation on a cloud and on the moved cloud *)
Definition ex_layer (P : params) (pc : pcloud Qc) : list (list Q) :=
  match ('(o1, _) <- build_octree ex_norm ex_octree pc ;; o2 <- construct_all_neigh o1 ;;
    conv_bn P [("conv1"%string, 0)] 1 2 [3%nat] 1 true [[qz 1]; [qz 5]; [qz 4]] o2 5) with Ok y => map (map this) y | Err _ => [] end.
Lemma ex_layers : ex_layer ex_train ex_cloud = [[23 # 22; 23 # 214]; [-1 # 22; 23 # 214]; [1 # 2; 275 # 214]]%Q /\ ex_layer ex_train ex_far = ex_layer ex_train ex_cloud /\
  ex_layer ex_params ex_cloud = [[1; -1]; [-3; -1]; [-1; 6]]%Q.
Proof. split; [vm_compute; reflexivity|]. split; vm_compute; reflexivity. Qed.
(** two clouds in a batch: enough nodes for the classifier with one stage *)
Lemma ex_train_batch : (1 <= full_depth ex_octree2)%nat /\ (full_depth ex_octree2 <= 2)%nat /\ (lowest true 2 + 1 <= depth ex_octree2)%nat /\ forall o1 idx o2, build_octree ex_norm ex_octree2 ex_batch = Ok (o1, idx) -> construct_all_neigh o1 = Ok o2 ->
    (2 <= batch_size o2)%nat /\ forall d, (depth ex_octree2 - 1 < d <= depth ex_octree2)%nat -> (2 <= node_count o2 d true)%nat.
Proof.
  split; [cbn; lia|]. split; [cbn; lia|]. split; [cbn; lia|].
  assert (G : match ('(o1, _) <- build_octree ex_norm ex_octree2 ex_batch ;; construct_all_neigh o1) with Ok o2 => Nat.leb 2 (batch_size o2) && Nat.leb 2 (node_count o2 3 true) = true | Err _ => False end) by (vm_compute; reflexivity).
  intros o1 idx o2 E1 E2. rewrite E1 in G. cbn [bind] in G. rewrite E2 in G. apply andb_true_iff in G as (G1 & G2). apply Nat.leb_le in G1, G2. split; [exact G1|].
  intros d Hd. replace d with 3%nat by (change (depth ex_octree2) with 3%nat in Hd; lia). exact G2.
Qed.
