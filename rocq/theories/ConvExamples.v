(** Hypotheses of the convolution theorems for the example octrees. *)
From Coq Require Import String List ZArith Bool QArith Qcanon Lia.
From Verif Require Import Res Tensor Num Points Octree NnBasic SpecNeigh SpecNN WF SumFacts Examples ExampleFacts.
Import ListNotations.
Open Scope Z_scope.

Lemma ramp_shape n C : shape n C (ramp n C).
Proof. split; [unfold ramp; rewrite map_length, seq_length; reflexivity|]. unfold ramp. apply Forall_map, Forall_forall. intros i _. rewrite map_length, seq_length. reflexivity. Qed.
Lemma ramps_shape k n C : shape3 k n C (ramps k n C).
Proof.
  split; [unfold ramps; rewrite map_length, seq_length; reflexivity|]. unfold ramps. apply Forall_map, Forall_forall. intros i _.
  destruct (ramp_shape n C) as [H1 H2]. split; [rewrite map_length; exact H1|]. apply Forall_map. eapply Forall_impl; [|exact H2].
  intros r Hr. rewrite map_length. exact Hr.
Qed.
Lemma ex_depth : depth ex_neigh = 5%nat.
Proof. vm_compute. reflexivity. Qed.
Lemma ex_depth2 : depth ex_neigh2 = 3%nat.
Proof. vm_compute. reflexivity. Qed.
Lemma ex_conv_ready d kernel stride : (1 <= d <= 5)%nat -> In kernel kernels -> stride = 1 \/ stride = 2 -> conv_ready ex_neigh d kernel stride.
Proof.
  intros Hd Hk Hs. destruct ex_neigh_ok as (_ & W & N). split; [exact W|]. split; [rewrite ex_depth; lia|]. split; [apply N; exact Hd|].
  split; [exact Hk|]. destruct Hs as [->| ->]; [left|right]; auto. split; [reflexivity|lia].
Qed.
Lemma ex_conv_ready2 d kernel stride : (1 <= d <= 3)%nat -> In kernel kernels -> stride = 1 \/ stride = 2 -> conv_ready ex_neigh2 d kernel stride.
Proof.
  intros Hd Hk Hs. destruct ex_neigh2_ok as (_ & W & N). split; [exact W|]. split; [rewrite ex_depth2; lia|]. split; [apply N; exact Hd|].
  split; [exact Hk|]. destruct Hs as [->| ->]; [left|right]; auto. split; [reflexivity|lia].
Qed.
From Verif Require Import NeighThms SpecMerge MergeExamples.
(** an octree without points *)
Definition ex_void : octree := nth 1 ex_ms ex_octree.
Definition ex_neigh_void : octree := match construct_all_neigh ex_void with Ok o => o | Err _ => ex_octree end.
Lemma ex_void_ready d kernel stride : (1 <= d <= 4)%nat -> In kernel kernels -> stride = 1 \/ stride = 2 -> conv_ready ex_neigh_void d kernel stride.
Proof.
  intros Hd Hk Hs. pose proof ex_mergeable as (_ & _ & F & _). rewrite Forall_forall in F. destruct (F ex_void) as (W & _); [vm_compute; auto|].
  destruct (thm_all_neigh ex_void W) as (o' & E & _ & W' & N); [vm_compute; auto|].
  assert (ex_neigh_void = o') as -> by (unfold ex_neigh_void; rewrite E; reflexivity).
  assert (depth ex_void = 4%nat) by (vm_compute; reflexivity). assert (depth o' = 4%nat).
  { assert (ex_neigh_void = o') as <- by (unfold ex_neigh_void; rewrite E; reflexivity). vm_compute. reflexivity. }
  split; [exact W'|]. split; [lia|]. split; [apply N; lia|]. split; [exact Hk|]. destruct Hs as [->| ->]; [left|right]; auto. split; [reflexivity|lia].
Qed.
