(** Cases for the pooling theorems. *)
From Coq Require Import String List ZArith Bool QArith Qcanon Lia.
From Verif Require Import Res Tensor Num Points Octree NnBasic SpecBuild SpecGrow SpecNN WF BuildThms PoolFacts SumFacts Examples ExampleFacts ConvExamples AvgPool.
Import ListNotations.
Open Scope Z_scope.

Definition finiteb {A} (x : list (list (option A))) : bool := forallb (forallb (fun v => match v with Some _ => true | None => false end)) x.
Lemma finite_b {A} (x : list (list (option A))) : finite x <-> finiteb x = true.
Proof.
  unfold finite, finiteb. rewrite forallb_forall, Forall_forall. split; intros H r Hr; specialize (H r Hr).
  - apply forallb_forall. rewrite Forall_forall in H. intros [v|] Hv; [reflexivity|]. exfalso. apply (H None Hv). reflexivity.
  - rewrite forallb_forall in H. apply Forall_forall. intros v Hv E. subst v. discriminate (H None Hv).
Qed.
(** A history in which layer 2 gets non-empty nodes below the first non-empty node
    of layer 1 only. *)
Definition ex_g3 : octree := match octree_split ex_g2 [1; 1; 0; 0; 0; 0; 0; 0; 0; 0; 0; 0; 0; 0; 0; 0] 2 with Ok o => o | Err _ => ex_octree0 end.
Lemma ex_g3_history : history 3 1 1 0 ex_g3 2.
Proof.
  assert (H0 : history 3 1 1 0 ex_g0 1) by (apply h_init; vm_compute; reflexivity).
  assert (H1 : history 3 1 1 0 ex_g1 1).
  { eapply (h_split 3 1 1 0 ex_g0 1 _ [1; 0; 0; 0; 0; 1; 0; 0] 1); [exact H0|lia|vm_compute; reflexivity|vm_compute; reflexivity| |vm_compute; reflexivity].
    unfold zero_one. repeat (constructor; [auto|]); constructor. }
  assert (H2 : history 3 1 1 0 ex_g2 2) by (eapply (h_grow 3 1 1 0 ex_g1 1 2); [exact H1|lia|lia|vm_compute; reflexivity]).
  eapply (h_split 3 1 1 0 ex_g2 2 _ [1; 1; 0; 0; 0; 0; 0; 0; 0; 0; 0; 0; 0; 0; 0; 0] 2); [exact H2|lia|vm_compute; reflexivity|vm_compute; reflexivity| |vm_compute; reflexivity].
  unfold zero_one. repeat (constructor; [auto|]); constructor.
Qed.
Lemma ex_refuted_built : exists normalize o pc o' idx d C x out arg, build_input o pc /\ build_octree normalize o pc = Ok (o', idx) /\
  (S d <= depth o)%nat /\ shape (node_count o' (S d) true) C x /\ octree_max_pool C x o' (S d) true = Ok (out, arg) /\ ~ finite out.
Proof.
  exists ex_norm, ex_octree2, ex_batch, ex_built2. destruct (thm_build_wf ex_norm _ _ ex_input2) as (o' & idx & E & _).
  assert (o' = ex_built2) by (unfold ex_built2; rewrite E; reflexivity). subst o'. exists idx, 1%nat, 1%nat, (ramp 3 1).
  destruct (octree_max_pool 1 (ramp 3 1) ex_built2 2 true) as [[out arg]|] eqn:Ep; [|vm_compute in Ep; discriminate Ep].
  exists out, arg. split; [exact ex_input2|]. split; [exact E|]. split; [vm_compute; lia|]. split; [exact (ramp_shape 3 1)|]. split; [reflexivity|].
  rewrite finite_b. assert (X : match octree_max_pool 1 (ramp 3 1) ex_built2 2 true with Ok (out, _) => finiteb out = false | _ => False end) by (vm_compute; reflexivity).
  rewrite Ep in X. rewrite X. discriminate.
Qed.
Lemma ex_refuted_grown : exists dep full bs dev o L d C x out arg, history dep full bs dev o L /\ (S d <= L)%nat /\ (S d <= dep)%nat /\
  shape (node_count o (S d) true) C x /\ octree_max_pool C x o (S d) true = Ok (out, arg) /\ ~ finite out.
Proof.
  exists 3%nat, 1%nat, 1%nat, 0%nat, ex_g3, 2%nat, 1%nat, 1%nat, (ramp 2 1).
  destruct (octree_max_pool 1 (ramp 2 1) ex_g3 2 true) as [[out arg]|] eqn:Ep; [|vm_compute in Ep; discriminate Ep].
  exists out, arg. split; [exact ex_g3_history|]. split; [lia|]. split; [lia|]. split; [exact (ramp_shape 2 1)|]. split; [reflexivity|].
  rewrite finite_b. assert (X : match octree_max_pool 1 (ramp 2 1) ex_g3 2 true with Ok (out, _) => finiteb out = false | _ => False end) by (vm_compute; reflexivity).
  rewrite Ep in X. rewrite X. discriminate.
Qed.
Lemma ex_height : node_count ex_neigh2 3 false = 24%nat /\ node_count ex_neigh2 2 true = 3%nat /\ node_count ex_neigh2 2 false = 128%nat.
Proof. vm_compute. auto. Qed.
Lemma ex_refuted_height : exists o d kernel C x y, conv_ready o (S d) kernel 2 /\ shape (node_count o (S d) false) C x /\
  octree_avg_pool C x o (S d) kernel 2 false = Ok y /\ length y <> node_count o d false.
Proof.
  destruct ex_height as (H1 & H2 & H3).
  assert (Hr : conv_ready ex_neigh2 3 "222" 2) by (apply ex_conv_ready2; [lia|right; left; reflexivity|right; reflexivity]).
  assert (Hs : shape (node_count ex_neigh2 3 false) 1 (ramp 24 1)) by (rewrite H1; apply ramp_shape).
  destruct (thm_avg_height ex_neigh2 2 "222" 1 (ramp 24 1) Hr Hs) as (y & E & H & _).
  exists ex_neigh2, 2%nat, "222"%string, 1%nat, (ramp 24 1), y. split; [exact Hr|]. split; [exact Hs|]. split; [exact E|]. rewrite H, H2, H3. lia.
Qed.
