(** Concrete networks for the theorems of P_Net.v. *)
From Coq Require Import String List ZArith Bool QArith Qcanon Lia.
From Verif Require Import Res Tensor Key Num Points Octree NnBasic NnConv Features Net Spec SpecGeo SpecBuild WF SpecNeigh SpecNN SpecNet
  Examples ExampleFacts NetFacts NetSeg NetBuilt.
Import ListNotations.
Open Scope Z_scope.

(** Weights that depend on the position, no normalisation (evaluation mode with zero
    mean and unit variance), everything kept by dropout, a clamp for tanh. *)
Definition ex_params : params :=
  mkParams (fun _ i j k => qz (Z.of_nat (i + 2 * j + 3 * k) mod 5 - 2)) (fun _ i => qz (Z.of_nat i))
    (fun _ _ x => Ok x) (fun _ _ _ => 1%Qc) (fun v => if qltb v (qz (-1)) then qz (-1) else if qltb (qz 1) v then qz 1 else v).
(** Training mode: torch rejects a batch of one row. *)
Definition ex_training : params :=
  mkParams (fun _ i j k => qz (Z.of_nat (i + 2 * j + 3 * k) mod 5 - 2)) (fun _ i => qz (Z.of_nat i))
    (fun _ _ x => match x with [_] => Err ValueError | _ => Ok x end) (fun _ _ _ => 1%Qc) (fun v => v).
Lemma ex_norms : norms_keep 0 ex_params.
Proof. intros p C n x _ H. exists x. auto. Qed.
Lemma ex_norms_training : norms_keep 2 ex_training.
Proof.
  intros p C n x Hn H. exists x. split; [|exact H]. destruct H as [H _]. destruct x as [|a [|b x]]; cbn in *; try reflexivity; lia.
Qed.
Definition ex_unet : unet_cfg := mkUnet [2; 2; 4]%nat [4; 3; 2]%nat [1; 1]%nat [1; 1]%nat 4 2 false.
Lemma ex_unet_ok : unet_config ex_unet.
Proof. constructor; cbn; try reflexivity; try lia; repeat apply Forall_cons; try apply Forall_nil; try lia; vm_compute; discriminate. Qed.
Lemma unet_default_ok : unet_config unet_default.
Proof. constructor; cbn; try reflexivity; try lia; repeat apply Forall_cons; try apply Forall_nil; try lia; vm_compute; discriminate. Qed.
Definition ex_ae : ae_cfg := mkAe [2; 2; 2; 2]%nat 2 3 1 1.
Lemma ex_ae_ok : ae_config ex_ae.
Proof. constructor; cbn; try lia; repeat apply Forall_cons; try apply Forall_nil; vm_compute; discriminate. Qed.
Lemma ae_default_ok dep full : (full <= dep <= 9)%nat -> ae_config (ae_default dep full).
Proof. intros H. constructor; cbn; try lia; repeat apply Forall_cons; try apply Forall_nil; vm_compute; discriminate. Qed.
Lemma ex_segnet_refuted : exists P cin cout stages o dep x pts, wf_octree o /\ norms_keep 0 P /\
  (1 <= stages <= dep)%nat /\ (dep <= depth o)%nat /\ layers_ready o true 0 (dep - stages) dep /\ poolable o true (dep - stages) dep /\
  shape (node_count o dep true) cin x /\ SegNet P cin cout stages true true x o (Z.of_nat dep) pts = Err AssertionError.
Proof.
  destruct (thm_built_ready ex_norm ex_octree ex_cloud ex_input) as (o1 & idx & o2 & E1 & E2 & W & D1 & D2 & D3 & H); [vm_compute; auto|].
  assert (Eo : o2 = ex_neigh) by (unfold ex_neigh, ex_built; rewrite E1, E2; reflexivity). subst o2. destruct (H true) as [HL HB].
  exists ex_params, 1%nat, 1%nat, 2%nat, ex_neigh, 5%nat, (tensor2 (node_count ex_neigh 5 true) 1 (fun i _ => qz (Z.of_nat i))), [].
  split; [exact W|]. split; [exact ex_norms|]. split; [lia|]. split; [rewrite D1; vm_compute; auto|].
  assert (HL' : layers_ready ex_neigh true 0 (5 - 2) 5) by (intros d Hd; apply HL; cbn; lia).
  assert (HB' : poolable ex_neigh true (5 - 2) 5) by (intros E d Hd; apply (HB E); cbn; lia).
  split; [exact HL'|]. split; [exact HB'|]. split; [apply tensor2_shape|].
  apply (thm_segnet_fails ex_params 1 1 2 true ex_neigh 5 0 W ex_norms); try assumption; try reflexivity; try lia.
  - rewrite D1. cbn. lia.
  - unfold channel_ok. lia.
  - vm_compute. discriminate.
  - apply tensor2_shape.
Qed.
Definition ex_x (n C : nat) : list (list Qc) := tensor2 n C (fun i j => qz (Z.of_nat (i + 3 * j) mod 7 - 3)).
