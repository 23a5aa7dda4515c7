(** Examples for C117. *)
From Coq Require Import Ascii String List ZArith Bool QArith Qcanon Lia.
From Verif Require Import Res Tensor Key Num Points Octree NnBasic NnConv NnInterp Features Net Spec SpecGeo SpecBuild WF SpecNeigh SpecMerge SpecNN SpecNet SpecFeature
  SpecBatch SpecSolver SpecMove SpecMoveSeg SpecTrain SpecShuffle BuildMerge MergeFacts MergeExamples BatchThms BatchExamples Examples ExampleFacts NetExamples TrainFacts TrainExamples.
Import ListNotations.
Open Scope Z_scope.

(** the third sample comes first, the first second, the second (an empty cloud) third *)
Definition ex_turn (i : nat) : nat := match i with O => 1%nat | 1%nat => 2%nat | _ => O end.
Definition ex_ms' : list octree := match ex_ms with [a; b; c] => [c; a; b] | _ => [] end.
Lemma both_cons {A B} (R : A -> B -> Prop) a b l m : Forall2 R (a :: l) (b :: m) -> R a b /\ Forall2 R l m.
Proof. intros H. inversion H; auto. Qed.
Definition ex_m0' : octree := match ex_ms' with o :: _ => o | [] => ex_octree end.
Lemma ex_clouds_ok' : clouds_ok 0 [ex_cloud3; ex_cloud; ex_empty].
Proof.
  split; [discriminate|]. split; [apply Forall_forall; intros p Hp; apply ex_good; cbn in *; tauto|]. split; [repeat constructor|].
  split; [intros _; repeat (constructor; [discriminate|]); constructor|].
  split; [intros _; repeat (constructor; [discriminate|]); constructor|].
  split; [intros _; repeat (constructor; [discriminate|]); constructor|].
  exists 2%nat. intros p f [<-|[<-|[<-|[]]]] E; cbn in E; injection E as <-; repeat constructor.
Qed.
Lemma ex_mergeable' : mergeable ex_m0' ex_ms'.
Proof.
  destruct (builds ex_norm 4 1 0 ex_cloud [ex_empty; ex_cloud3]) as (os & E & H); [lia|lia|exact ex_clouds_ok|].
  assert (Eo : ex_ms = os) by (unfold ex_ms, ex_clouds; unfold o1 in E; rewrite E; reflexivity).
  assert (G : exists b1 b2 b3, os = [b1; b2; b3]) by (clear -H; inversion H as [|c1 b1 l1 l2 K1 Ha]; inversion Ha as [|c2 b2 l3 l4 K2 Hb]; inversion Hb as [|c3 b3 l5 l6 K3 Hc]; inversion Hc; eauto).
  destruct G as (b1 & b2 & b3 & G). rewrite G in H, Eo. clear E G. apply both_cons in H as (K1 & H). apply both_cons in H as (K2 & H). apply both_cons in H as (K3 & _).
  unfold ex_m0'. assert (E' : ex_ms' = [b3; b1; b2]) by (unfold ex_ms'; rewrite Eo; reflexivity). rewrite E'.
  apply (built_mem ex_norm 4 1 0 ex_cloud3 [ex_cloud; ex_empty]); [cbn; lia|exact ex_clouds_ok'| |reflexivity]. repeat apply Forall2_cons; try assumption. apply Forall2_nil.
Qed.
Lemma ex_ms_three : exists a b c, ex_ms = [a; b; c].
Proof.
  destruct ex_ms as [|a [|b [|c [|e l]]]] eqn:E; eauto; apply (f_equal (@length _)) in E; vm_compute in E; discriminate.
Qed.
Lemma ex_turned {A} (a b c : A) : reordered ex_turn [a; b; c] [c; a; b].
Proof. split; [reflexivity|]. intros [|[|[|i]]] Hi; try reflexivity. cbn in Hi. lia. Qed.
Lemma ex_turn_ok : permutes ex_turn (length ex_ms) /\ reordered ex_turn ex_ms ex_ms'.
Proof.
  destruct ex_ms_three as (a & b & c & E). unfold ex_ms'. rewrite E. split; [|apply ex_turned]. cbn [length]. split.
  - intros [|[|[|i]]] Hi; cbn; lia.
  - intros [|[|[|i]]] [|[|[|j]]] Hi Hj H; cbn in H; try lia.
Qed.
(** training: the dropout masks follow the samples *)
Definition ex_train' : params :=
  mkParams (p_weight ex_train) (p_bias ex_train) (p_norm ex_train) (fun p i c => p_mask ex_train p (match i with O => 2%nat | 1%nat => O | _ => 1%nat end) c) (p_tanh ex_train).
Lemma ex_train_turned : same_but_order ex_turn (length ex_ms) ex_train ex_train' /\ p_mask ex_train' [] 1 0 <> p_mask ex_train [] 1 0.
Proof.
  split; [|intros H; apply (f_equal this) in H; vm_compute in H; discriminate]. split; [reflexivity|]. split; [reflexivity|]. split; [reflexivity|]. destruct ex_ms_three as (a & b & c & E). rewrite E.
  intros p [|[|[|i]]] ch Hi; try reflexivity. cbn in Hi. lia.
Qed.
Definition ex_om : octree := match (o <- merge_octrees ex_ms ;; construct_all_neigh o) with Ok o => o | Err _ => ex_octree end.
Definition ex_om' : octree := match (o <- merge_octrees ex_ms' ;; construct_all_neigh o) with Ok o => o | Err _ => ex_octree end.
Definition ex_bos' : list octree := match mapM construct_all_neigh ex_ms' with Ok os => os | Err _ => [] end.
Lemma ex_om_batched : batched ex_ms ex_om ex_bos.
Proof.
  destruct (thm_batched ex_m0 ex_ms ex_mergeable) as (o' & os' & (o & E1 & E2 & E3) & _); [vm_compute; auto|]. exists o.
  split; [exact E1|]. split; [unfold ex_om; rewrite E1; cbn [bind]; rewrite E2; reflexivity|unfold ex_bos; rewrite E3; reflexivity].
Qed.
Lemma ex_om_batched' : batched ex_ms' ex_om' ex_bos'.
Proof.
  destruct (thm_batched ex_m0' ex_ms' ex_mergeable') as (o' & os' & (o & E1 & E2 & E3) & _); [vm_compute; auto|]. exists o.
  split; [exact E1|]. split; [unfold ex_om'; rewrite E1; cbn [bind]; rewrite E2; reflexivity|unfold ex_bos'; rewrite E3; reflexivity].
Qed.
Lemma ex_om_nodes : forall d, (2 <= d <= 4)%nat -> (2 <= node_count ex_om d true)%nat /\ (2 <= node_count ex_om d false)%nat.
Proof.
  assert (G : forallb (fun d => Nat.leb 2 (node_count ex_om d true) && Nat.leb 2 (node_count ex_om d false)) (seq 2 3) = true) by (vm_compute; reflexivity).
  intros d Hd. rewrite forallb_forall in G. specialize (G d). rewrite andb_true_iff, !Nat.leb_le in G. apply G. apply in_seq. lia.
Qed.
(** inputs of the samples, in both orders *)
Definition ex_xs (ne : bool) : list (list (list Qc)) := map (fun oi => ex_x (node_count oi 4 ne) 3) ex_bos.
Definition ex_xs' (ne : bool) : list (list (list Qc)) := match ex_xs ne with [a; b; c] => [c; a; b] | l => l end.
Lemma ex_xs_ok ne : Forall2 (fun oi x => shape (node_count oi 4 ne) 3 x) ex_bos (ex_xs ne) /\ reordered ex_turn (ex_xs ne) (ex_xs' ne).
Proof.
  split; [apply ex_inputs|]. unfold ex_xs', ex_xs. destruct ex_bos as [|a [|b [|c [|e l]]]] eqn:E; try (apply (f_equal (@length _)) in E; vm_compute in E; discriminate). apply ex_turned.
Qed.
(** queries of the samples *)
Definition ex_q1 : list qpoint := [((qf 1 32, qf 1 64, qf (-31) 64), 0); ((qf 1 10, qf 1 16, qf (-1) 16), 0)].
Definition ex_q3 : list qpoint := [((qf (-3) 16, qf (-5) 16, qf (-7) 16), 0)].
Lemma ex_queries : length [ex_q1; []; ex_q3] = length ex_ms /\ reordered ex_turn [ex_q1; []; ex_q3] [ex_q3; ex_q1; []] /\ Forall (Forall (askable true 4)) [ex_q1; []; ex_q3] /\
  length (concat [ex_q1; []; ex_q3]) = 3%nat.
Proof.
  split; [destruct ex_ms_three as (a & b & c & ->); reflexivity|]. split; [apply ex_turned|]. split; [|reflexivity]. repeat constructor; vm_compute; try discriminate; reflexivity.
Qed.
(** one convolution with batch normalisation on both batches, and on the first sample alone *)
Definition ex_conv (x : list (list Qc)) (o : octree) : list (list Q) :=
  match conv_bn ex_train [("conv1"%string, 0)] 1 2 [3%nat] 1 true x o 4 with Ok y => map (map this) y | Err _ => [] end.
Lemma ex_convs : ex_conv [[qz 1]; [qz 5]; [qz 4]; [qz 2]] ex_om = [[-1 # 14; 23 # 14]; [15 # 14; -9 # 14]; [11 # 14; -1 # 14]; [3 # 14; 15 # 14]]%Q /\
  ex_conv [[qz 4]; [qz 2]; [qz 1]; [qz 5]] ex_om' = [[11 # 14; -1 # 14]; [3 # 14; 15 # 14]; [-1 # 14; 23 # 14]; [15 # 14; -9 # 14]]%Q.
Proof. split; vm_compute; reflexivity. Qed.
