(** C81: moving an octree to another device. *)
From Coq Require Import String List ZArith Bool Lia.
From Verif Require Import Res Tensor Octree Heap Device SpecHeap SpecDevice WF SpecMerge Examples ExampleFacts MergeExamples MergeFacts DeviceFacts P_Heap.
Import ListNotations.
Open Scope Z_scope.

(** Everything but the device is kept; well-formedness is kept; moving back restores the octree. *)
Theorem C81_values : forall o dev,
  depth (octree_to o dev) = depth o /\ full_depth (octree_to o dev) = full_depth o /\ batch_size (octree_to o dev) = batch_size o /\
  layers (octree_to o dev) = layers o /\ device (octree_to o dev) = dev.
Proof. exact thm_to_fields. Qed.
Print Assumptions C81_values.
Theorem C81_wf : forall o dev, wf_octree o <-> wf_octree (octree_to o dev).
Proof. exact thm_to_wf. Qed.
Print Assumptions C81_wf.
Theorem C81_back : forall o dev, octree_to (octree_to o dev) (device o) = o.
Proof. exact thm_to_back. Qed.
Print Assumptions C81_back.

(** It does not matter whether neighbourhoods are computed, or octrees merged, before or
    after the move. *)
Theorem C81_neigh : forall o dev o', construct_all_neigh o = Ok o' -> construct_all_neigh (octree_to o dev) = Ok (octree_to o' dev).
Proof. exact thm_to_neigh. Qed.
Print Assumptions C81_neigh.
Theorem C81_merge : forall os dev o, merge_octrees os = Ok o -> merge_octrees (map (fun o => octree_to o dev) os) = Ok (octree_to o dev).
Proof. exact thm_to_merge. Qed.
Print Assumptions C81_merge.

Example C81_values_case : wf_octree ex_m0 /\ device ex_m0 <> 1%nat /\ octree_to ex_m0 1 <> ex_m0 /\ (exists o, merge_octrees ex_ms = Ok o) /\ length ex_ms = 3%nat /\
  exists o, construct_all_neigh ex_m0 = Ok o.
Proof.
  destruct ex_mergeable as (Hh & _ & HF & _). rewrite Forall_forall in HF.
  assert (Hin : In ex_m0 ex_ms) by (destruct ex_ms; [discriminate|]; left; cbn in Hh; congruence).
  split; [apply (HF ex_m0 Hin)|]. split; [vm_compute; discriminate|]. split; [intros E; apply (f_equal device) in E; vm_compute in E; discriminate|].
  split; [destruct (thm_merge ex_m0 ex_ms ex_mergeable) as (o & E & _); exists o; exact E|]. split; [vm_compute; reflexivity|].
  destruct (construct_all_neigh ex_m0) as [o|e] eqn:E; [exists o; reflexivity|vm_compute in E; discriminate].
Qed.

(** A move to another device copies: both octrees are there, share no storage, and a write
    to a tensor of one is not seen through the other. *)
Theorem C81_copy : forall h ho o dev, denotes h ho o -> dev <> device o ->
  exists ho' t, h_to o ho dev h = (Ok ho', h ++ t) /\ denotes (h ++ t) ho' (octree_to o dev) /\ denotes (h ++ t) ho o /\ share_nothing ho ho' /\
    (forall i ps vs, (length h <= i)%nat -> denotes (snd (write i ps vs (h ++ t))) ho o) /\
    (forall i ps vs, (i < length h)%nat -> denotes (snd (write i ps vs (h ++ t))) ho' (octree_to o dev)).
Proof. exact thm_to_copy. Qed.
Print Assumptions C81_copy.

Example C81_copy_case : denotes ex_heap ex_handles ex_obj /\ 1%nat <> device ex_obj /\ length ex_handles = 1%nat.
Proof.
  split; [|split; [vm_compute; discriminate|reflexivity]]. constructor; [|constructor]. vm_compute. repeat split; repeat constructor.
Qed.

(** A move to the same device gives the octree itself, not a copy. *)
Theorem C81_same : forall h ho o, h_to o ho (device o) h = (Ok ho, h) /\ octree_to o (device o) = o.
Proof. exact thm_to_same. Qed.
Print Assumptions C81_same.
