(** The example clouds meet the hypotheses of the theorems. *)
From Coq Require Import List ZArith Bool QArith Qcanon Lia.
From Verif Require Import Res Tensor Key Num Points Octree Spec SpecGeo SpecBuild WF Examples SpecNeigh BuildThms NeighThms.
Import ListNotations.
Open Scope Z_scope.

Ltac box := repeat constructor; vm_compute; (reflexivity || discriminate || (intros; discriminate)).

Lemma ex_input : build_input ex_octree ex_cloud.
Proof.
  constructor; cbn; try lia. constructor; cbn; try lia; try congruence.
  - intros n [= <-]. reflexivity.
  - intros f [= <-]. split; [reflexivity|]. exists 2%nat. repeat constructor.
Qed.
Lemma ex_box : Forall in_box (p_points ex_cloud).
Proof. box. Qed.
Lemma ex_input2 : build_input ex_octree2 ex_batch.
Proof.
  constructor; cbn; try lia. constructor; cbn; try lia; try congruence.
  - intros _. eexists. split; [reflexivity|]. split; [reflexivity|]. repeat constructor; lia.
  - intros f [= <-]. split; [reflexivity|]. exists 1%nat. repeat constructor.
Qed.
Lemma ex_box2 : Forall in_box (p_points ex_batch).
Proof. box. Qed.

Lemma ex_wf : wf_octree ex_built.
Proof.
  destruct (thm_build_wf ex_norm _ _ ex_input) as (o' & idx & E & W & _). unfold ex_built. rewrite E. exact W.
Qed.
Lemma ex_wf2 : wf_octree ex_built2.
Proof.
  destruct (thm_build_wf ex_norm _ _ ex_input2) as (o' & idx & E & W & _). unfold ex_built2. rewrite E. exact W.
Qed.

Lemma ex_input0 : build_input ex_octree0 ex_cloud.
Proof.
  constructor; cbn; try lia. constructor; cbn; try lia; try congruence.
  - intros n [= <-]. reflexivity.
  - intros f [= <-]. split; [reflexivity|]. exists 2%nat. repeat constructor.
Qed.
Lemma ex_wf0 : wf_octree ex_built0.
Proof.
  destruct (thm_build_wf ex_norm _ _ ex_input0) as (o' & idx & E & W & _). unfold ex_built0. rewrite E. exact W.
Qed.

Lemma ex_neigh_ok : construct_all_neigh ex_built = Ok ex_neigh /\ wf_octree ex_neigh /\ forall d, (1 <= d <= 5)%nat -> has_neigh ex_neigh d.
Proof.
  assert (Hf : (1 <= full_depth ex_built)%nat) by (vm_compute; auto).
  destruct (thm_all_neigh _ ex_wf Hf) as (o' & E & _ & W & N). unfold ex_neigh. rewrite E.
  split; [reflexivity|]. split; [exact W|]. exact N.
Qed.
Lemma ex_neigh2_ok : construct_all_neigh ex_built2 = Ok ex_neigh2 /\ wf_octree ex_neigh2 /\ forall d, (1 <= d <= 3)%nat -> has_neigh ex_neigh2 d.
Proof.
  assert (Hf : (1 <= full_depth ex_built2)%nat) by (vm_compute; auto).
  destruct (thm_all_neigh _ ex_wf2 Hf) as (o' & E & _ & W & N). unfold ex_neigh2. rewrite E.
  split; [reflexivity|]. split; [exact W|]. exact N.
Qed.
