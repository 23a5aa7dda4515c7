(** Concrete batches. *)
From Coq Require Import String List ZArith Bool QArith Qcanon Lia.
From Verif Require Import Res Tensor Key Num Points Octree NnBasic NnConv NnInterp Features Net Spec WF SpecMerge SpecNN SpecFeature SpecNet SpecBatch
  Examples ExampleFacts MergeExamples ConvExamples NetFacts NetExamples MergeFacts NnFacts SumFacts ConvFacts BatchThms FeatBatch.
Import ListNotations.
Open Scope Z_scope.

Lemma ex_eval : eval_mode ex_params.
Proof.
  split; [|reflexivity]. intros p C. exists (fun r => r). intros x H. rewrite map_id. split; [reflexivity|exact H].
Qed.
(** Weights for which the second logit wins exactly on positive rows. *)
Definition ex_judge : params :=
  mkParams (fun _ i j k => qz (Z.of_nat (i + j + k))) (fun _ i => qz (1 - Z.of_nat i))
    (fun _ _ x => Ok x) (fun _ _ _ => 1%Qc) (fun v => if qltb v (qz (-1)) then qz (-1) else if qltb (qz 1) v then qz 1 else v).
Lemma ex_judge_eval : eval_mode ex_judge.
Proof.
  split; [|reflexivity]. intros p C. exists (fun r => r). intros x H. rewrite map_id. split; [reflexivity|exact H].
Qed.
Definition ex_ae1 : ae_cfg := mkAe [1; 1]%nat 1 1 1 1.
Definition ex_code (v : Z) : list (list Qc) := repeat [qz v] 8.
Lemma ex_ae1_ok : ae_config ex_ae1.
Proof. constructor; cbn; try lia; repeat apply Forall_cons; try apply Forall_nil; vm_compute; discriminate. Qed.
Lemma ex_decode_refuted : exists g P cout dev c1 c2 l1 s1 o1 l2 s2 o2 l s o, ae_config g /\ (1 <= a_full g)%nat /\ eval_mode P /\
  shape (2 ^ (3 * a_full g)) (a_code g) c1 /\ shape (2 ^ (3 * a_full g)) (a_code g) c2 /\
  ae_decode_code g P cout dev c1 = Ok (l1, s1, o1) /\ ae_decode_code g P cout dev c2 = Ok (l2, s2, o2) /\
  ae_decode_code g P cout dev (c1 ++ c2) = Ok (l, s, o) /\
  (node_count o (a_depth g) true <> node_count o1 (a_depth g) true + node_count o2 (a_depth g) true)%nat /\ s <> s1 ++ s2.
Proof.
  exists ex_ae1, ex_judge, 1%nat, 0%nat, (ex_code 0), (ex_code 1).
  destruct (ae_decode_code ex_ae1 ex_judge 1 0 (ex_code 0)) as [[[l1 s1] o1]|] eqn:E1; [|vm_compute in E1; discriminate].
  destruct (ae_decode_code ex_ae1 ex_judge 1 0 (ex_code 1)) as [[[l2 s2] o2]|] eqn:E2; [|vm_compute in E2; discriminate].
  destruct (ae_decode_code ex_ae1 ex_judge 1 0 (ex_code 0 ++ ex_code 1)) as [[[l s] o]|] eqn:E; [|vm_compute in E; discriminate].
  exists l1, s1, o1, l2, s2, o2, l, s, o. split; [exact ex_ae1_ok|]. split; [cbn; lia|]. split; [exact ex_judge_eval|].
  split; [split; [reflexivity|repeat apply Forall_cons; try apply Forall_nil; reflexivity]|]. split; [split; [reflexivity|repeat apply Forall_cons; try apply Forall_nil; reflexivity]|].
  do 3 (split; [reflexivity|]).
  assert (A : forall T (r : res (T * feat * octree)) a b c, r = Ok (a, b, c) -> (length b, node_count c 1 true) = match r with Ok (_, b, c) => (length b, node_count c 1 true) | Err _ => (0, 0)%nat end) by (intros T r a b c ->; reflexivity).
  apply A in E1. apply A in E2. apply A in E.
  match type of E1 with _ = ?t => assert (V1 : t = (1, 1)%nat) by (vm_compute; reflexivity); rewrite V1 in E1 end.
  match type of E2 with _ = ?t => assert (V2 : t = (8, 8)%nat) by (vm_compute; reflexivity); rewrite V2 in E2 end.
  match type of E with _ = ?t => assert (V : t = (8, 8)%nat) by (vm_compute; reflexivity); rewrite V in E end.
  assert (P1 : forall (a b c d : nat), (a, b) = (c, d) -> a = c /\ b = d) by (intros; split; congruence).
  apply P1 in E1. apply P1 in E2. apply P1 in E. change (a_depth ex_ae1) with 1%nat. destruct E1, E2, E. split; [lia|]. intros Es. apply (f_equal (@length _)) in Es. rewrite app_length in Es. lia.
Qed.

Lemma ex_inputs d ne C os : Forall2 (fun oi x => shape (node_count oi d ne) C x) os (map (fun oi => ex_x (node_count oi d ne) C) os).
Proof. induction os as [|o os IH]; [constructor|]. cbn [map]. constructor; [apply tensor2_shape|exact IH]. Qed.
(** The query points of the members: the same three points for each. *)
Definition ex_ask : list qpoint := [((qf 1 2, qf 1 3, qf 5 2), 0); ((qf 0 1, qf 15 2, qf 3 1), 0); ((qf 12 1, qf 1 7, qf 9 8), 0)].
Lemma ex_asks (os : list octree) : length (map (fun _ => ex_ask) os) = length os /\ Forall (Forall (fun p : qpoint => snd p = 0)) (map (fun _ => ex_ask) os).
Proof. split; [apply map_length|]. apply Forall_map. apply Forall_forall. intros o _. repeat apply Forall_cons; try apply Forall_nil; reflexivity. Qed.
Lemma ex_batch : exists o' os', batched ex_ms o' os' /\ length os' = 3%nat.
Proof. destruct (thm_batched ex_m0 ex_ms ex_mergeable) as (o' & os' & B & Hl); [vm_compute; auto|]. exists o', os'. split; [exact B|]. rewrite Hl. vm_compute. reflexivity. Qed.
Lemma ex_batch_poolable os' : Forall (fun oi => poolable oi false 2 4) os'.
Proof. apply Forall_forall. intros oi _ E. discriminate. Qed.
Definition ex_bos : list octree := match mapM construct_all_neigh ex_ms with Ok os => os | Err _ => [] end.
Lemma ex_carries : Forall (carries 2 "NdF") ex_bos /\ length ex_bos = 3%nat /\ asks_any "NdF" = true /\ channels "NdF" 2 = 6%nat.
Proof.
  assert (E : exists a b c, ex_bos = [a; b; c] /\ carries 2 "NdF" a /\ carries 2 "NdF" b /\ carries 2 "NdF" c).
  { do 3 eexists. split; [vm_compute; reflexivity|].
    assert (G : forall o l, nth_error (layers o) (depth o) = Some l ->
      (exists ns, l_normals l = Some ns /\ Nat.eqb (length ns) (node_count o (depth o) true) = true) -> (exists ps, l_points l = Some ps /\ Nat.eqb (length ps) (node_count o (depth o) true) = true) ->
      (exists fs, l_features l = Some fs /\ Nat.eqb (length fs) (node_count o (depth o) true) = true /\ forallb (fun r => Nat.eqb (length r) 2) fs = true) -> carries 2 "NdF" o).
    { intros o l El (ns & E1 & E2) (ps & E3 & E4) (fs & E5 & E6 & E7). exists l. apply Nat.eqb_eq in E2, E4, E6. split; [exact El|]. split; [eauto|]. split; [eauto|]. intros _. exists fs. split; [exact E5|]. split; [exact E6|].
      apply Forall_forall. intros r Hr. rewrite forallb_forall in E7. apply Nat.eqb_eq. apply E7. exact Hr. }
    repeat split; (eapply G; [reflexivity|eexists; split; [reflexivity|vm_compute; reflexivity]|eexists; split; [reflexivity|vm_compute; reflexivity]|eexists; split; [reflexivity|split; vm_compute; reflexivity]]). }
  destruct E as (a & b & c & E & H1 & H2 & H3). rewrite E. split; [repeat apply Forall_cons; try apply Forall_nil; assumption|]. split; [reflexivity|]. split; reflexivity.
Qed.
Lemma ex_bos_batched : exists o', batched ex_ms o' ex_bos.
Proof.
  destruct (thm_batched ex_m0 ex_ms ex_mergeable) as (o' & os' & B & Hl); [vm_compute; auto|]. exists o'. destruct B as (o & E1 & E2 & E3). assert (E : ex_bos = os') by (unfold ex_bos; rewrite E3; reflexivity).
  rewrite E. exists o. auto.
Qed.
