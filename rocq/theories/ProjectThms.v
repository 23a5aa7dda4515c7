(** The theorems of the projects in the words of SpecProject. *)
From Coq Require Import String List ZArith Bool QArith Qcanon Lia Permutation.
From Verif Require Import Res Tensor Num Octree NnBasic Utils Dataset Net Project SpecNN SpecDataset SpecProject SpecEval NumFacts ListFacts MetricFacts EvalFacts ChunkFacts LabelFacts.
Import ListNotations.
Open Scope Z_scope.

Lemma predicts_len logit pred : predicts logit pred -> List.length logit = List.length pred.
Proof. induction 1; cbn; congruence. Qed.

Theorem thm_iou_spec logit pred label K : predicts logit pred -> List.length pred = List.length label ->
  exists iou intsc union, IoU_per_shape logit label K = Ok (iou, intsc, union) /\
    List.length intsc = K /\ List.length union = K /\
    (forall k, (k < K)%nat -> nth_error intsc k = Some (qn (both (Z.of_nat k) pred label)) /\
       nth_error union k = Some (qn (either (Z.of_nat k) pred label))) /\
    iou = (sum_n K (class_iou pred label) / (qn (List.length (filter (fun k => present (Z.of_nat k) label) (seq 0 K))) + guard))%Qc /\
    (0 <= iou)%Qc /\ (iou < 1)%Qc /\
    (pred = label -> (exists l, In l label /\ 0 <= l < Z.of_nat K) -> (1 / ((1 + guard) * (1 + guard)) <= iou)%Qc).
Proof. intros HP HL. rewrite <- (predicts_argmax _ _ HP). apply thm_iou. rewrite (predicts_len _ _ HP). exact HL. Qed.

Theorem thm_accuracy_spec logit pred label : predicts logit pred -> List.length pred = List.length label -> label <> [] ->
  exists a, accuracy logit label = Ok (Some a) /\
    (a * qn (List.length label) = qn (List.length (filter (fun pl => fst pl =? snd pl) (combine pred label))))%Qc /\
    (0 <= a)%Qc /\ (a <= 1)%Qc /\ (a = 1%Qc <-> pred = label) /\
    forall K, (forall l, In l label -> 0 <= l < Z.of_nat K) ->
      (sum_n K (fun k => qn (both (Z.of_nat k) pred label)) = a * qn (List.length label))%Qc.
Proof. intros HP HL. rewrite <- (predicts_argmax _ _ HP). apply thm_accuracy. rewrite (predicts_len _ _ HP). exact HL. Qed.

Lemma reported_eq K bs outs : reported K bs outs -> outs = map (test_out K) bs.
Proof.
  induction 1 as [|b out bs outs (iou & E) _ IH]; [reflexivity|]. cbn [map]. rewrite <- IH. f_equal. unfold test_out. rewrite E. destruct out; reflexivity.
Qed.
Theorem thm_callback_spec m K bs preds outs : -1 <= m < Z.of_nat K - 1 -> bs <> [] ->
  Forall2 (fun b pred => predicts (fst b) pred /\ List.length pred = List.length (snd b)) bs preds -> reported K bs outs ->
  exists r, result_callback m K outs = Ok r /\ (0 <= r)%Qc /\ (r < 1)%Qc /\
    r = (sum_n (Z.to_nat (Z.of_nat K - m - 1)) (fun i => let k := (m + 1 + Z.of_nat i)%Z in
           qn (both k (concat preds) (concat (map snd bs))) / (qn (either k (concat preds) (concat (map snd bs))) + qn (List.length bs) * guard)) / qz (Z.of_nat K - m - 1))%Qc.
Proof.
  intros Hm Hb HP HR. rewrite (reported_eq _ _ _ HR). assert (E : concat preds = all_pred bs).
  { clear - HP. unfold all_pred. induction HP as [|b p bs preds (H & _) _ IH]; [reflexivity|]. cbn [map concat]. rewrite IH, (predicts_argmax _ _ H). reflexivity. }
  rewrite E. apply thm_callback; [exact Hm|exact Hb|]. clear - HP. induction HP as [|b p bs preds (H & L) _ IH]; constructor; [|exact IH]. rewrite (predicts_len _ _ H). exact L.
Qed.
(** LOSS.mask below -1, and no class left. *)
Theorem thm_callback_bad m K outs : outs <> [] -> (m < -1 -> result_callback m K outs = Err KeyError) /\ (m = Z.of_nat K - 1 -> result_callback m K outs = Err ZeroDivisionError).
Proof.
  intros Ho. split; intros Hm; unfold result_callback; cbv zeta.
  - assert (N : (Z.to_nat (Z.of_nat K - (m + 1)) = S (Z.to_nat (Z.of_nat K - (m + 1)) - 1))%nat) by lia. rewrite N. cbn [seq map foldM]. unfold class_avg at 1. destruct outs as [|out outs]; [congruence|]. cbn [map mapM].
    replace (m + 1 + Z.of_nat 0 <? 0) with true by (symmetry; apply Z.ltb_lt; lia). reflexivity.
  - replace (Z.to_nat (Z.of_nat K - (m + 1))) with O by lia. cbn [seq map foldM bind]. replace (Z.of_nat K =? m + 1) with true by (symmetry; apply Z.eqb_eq; lia). reflexivity.
Qed.
Theorem thm_scannet_spec b labels : Forall (fun c => 0 <= c < 2048) labels ->
  exists new, new_labels b labels = Ok new /\ Forall2 (fun c v => 0 <= v < zlen (scannet_classes b) /\
     (In c (scannet_classes b) -> nth_error (scannet_classes b) (Z.to_nat v) = Some c) /\ (~ In c (scannet_classes b) -> v = 0)) labels new /\
   forall prob, predicts prob new -> old_labels b prob = Ok (map (fun c => if existsb (Z.eqb c) (scannet_classes b) then c else 0) labels).
Proof.
  intros H. assert (E : class_ids b = scannet_classes b) by (destruct b; vm_compute; reflexivity). rewrite <- E. destruct (thm_scannet_labels b labels H) as (new & A & B & D). exists new. split; [exact A|]. split; [exact B|]. intros prob HP. apply D. apply predicts_argmax. exact HP.
Qed.
