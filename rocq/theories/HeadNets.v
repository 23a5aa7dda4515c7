(** SegNet and HRNet: the logits are the last layer applied to features that do not depend on it. *)
From Coq Require Import String List ZArith Bool QArith Qcanon Lia.
From Verif Require Import Res Tensor ListFacts Key Num Points Octree NnBasic NnConv NnInterp Features Net SumFacts SpecState StateFacts StateNets SpecHead HeadFacts.
Import ListNotations.
Open Scope Z_scope.

Section Head.
Context (P P' : params).
Notation ag := (same_checkpoint P P').
Context (c : Qc) (s : nat -> Qc).
Lemma segnet_changed cin cout stages lin ne x o depth pts : (1 <= stages)%nat -> ag (before_last_layer (segnet_state cin cout stages)) ->
  layer_changed P P' (sub (sub [] "header" 0) "1" 0) 64 cout c s ->
  outcomes (with_points c s cout) (SegNet P cin cout stages lin ne x o depth pts) (SegNet P' cin cout stages lin ne x o depth pts).
Proof.
  intros Hs H Hl. destruct (segnet_ends cin stages) as [A EA]. apply (no_outputs P P' (fun n => segnet_state cin n stages) A _ _ cout EA) in H. clear A EA.
  unfold segnet_state in H. cbv zeta in H. apply ag_app in H. destruct H as [H1 H]. apply ag_app in H. destruct H as [H2 H].
  apply ag_app in H. destruct H as [H3 H4]. apply ag_app in H4. destruct H4 as [H4 _]. unfold SegNet. cbv zeta. apply outcomes_bind.
  - apply foldM_ext'. intros [y idx] z Hz. apply in_arange in Hz. destruct Hz as (i & Hi & ->). apply (ag_seq _ _ _ _ i) in H1; [|exact Hi]. cbv beta in H1.
    unfold segnet_down. cbv zeta. rewrite Zof_succ.
    apply bind_ext'; [reflexivity|]. intros a Ea. apply bind_ext'; [reflexivity|]. intros b Eb.
    apply tget_val in Ea. apply tget_val in Eb. destruct Ea as [<- _], Eb as [<- _]. rewrite !in_nth by lia.
    cbn [Nat.eqb]. replace (S i - 1)%nat with i by lia.
    apply bind_ext'; [|reflexivity]. apply (conv_bn_relu_same _ _ _ _ _ 3%nat 27%nat); [reflexivity|exact H1].
  - intros [y idx] _. apply outcomes_bind; [reflexivity|]. intros c' Ec.
    apply (tget_back _ 0) in Ec. destruct Ec as [<- _].
    assert (Ew : nth (length (cin :: stage_channels 8 stages) - 1) (cin :: stage_channels 8 stages) O = width_at 8 stages (stages - 1)).
    { cbn [length]. rewrite stage_length. rewrite in_nth by lia. replace (S stages - 1)%nat with stages by lia.
      destruct (Nat.eqb_spec stages 0); [lia|]. reflexivity. }
    rewrite Ew. apply outcomes_bind; [apply (conv_bn_relu_same _ _ _ _ _ 3%nat 27%nat); [reflexivity|exact H2]|]. intros w _.
    apply outcomes_bind; [reflexivity|]. intros c0 E0. apply (tget_val _ 0) in E0. destruct E0 as [<- _]. rewrite stage_nth by lia.
    apply outcomes_bind.
    + apply foldM_ext'. intros t z Hz. apply in_arange in Hz. destruct Hz as (i & Hi & ->). apply (ag_seq _ _ _ _ i) in H3; [|exact Hi]. cbv beta in H3.
      unfold segnet_up. cbv zeta. rewrite !Zof_succ.
      apply bind_ext'; [reflexivity|]. intros a Ea. apply bind_ext'; [reflexivity|]. intros b Eb.
      apply tget_val in Ea. apply tget_val in Eb. destruct Ea as [<- _], Eb as [<- _]. rewrite !rev_nth_w' by lia.
      apply bind_ext'; [reflexivity|]. intros id _. apply bind_ext'; [reflexivity|]. intros u _.
      apply (conv_bn_relu_same _ _ _ _ _ 3%nat 27%nat); [reflexivity|]. replace (stages - 1 - S i)%nat with (stages - 2 - i)%nat by lia. exact H3.
    + intros t _. apply outcomes_bind; [reflexivity|]. intros c1 E1. apply (tget_back _ 0) in E1. destruct E1 as [<- _].
      assert (El : nth (length (rev (stage_channels 8 stages) ++ [width_at 8 stages 0]) - 1) (rev (stage_channels 8 stages) ++ [width_at 8 stages 0]) O
                   = width_at 8 stages 0).
      { rewrite app_length, rev_length, stage_length. cbn [length]. rewrite rev_nth_w' by lia. f_equal. lia. }
      rewrite El. apply outcomes_bind; [reflexivity|]. intros [q pts'] _. eapply outcomes_map; [apply (head_changed P P' c s); [exact H4|exact Hl]|].
      intros a a' Ha. split; [exact Ha|reflexivity].
Qed.
Lemma hrnet_changed cin cout stages num ne x o depth : ag (before_last_layer (hrnet_state cin cout stages num)) ->
  layer_changed P P' (sub (sub [] "cls_header" 0) "header" 1) 1024 cout c s ->
  outcomes (logits_changed cout c s) (HRNet P cin cout stages num ne x o depth) (HRNet P' cin cout stages num ne x o depth).
Proof.
  intros H Hl. destruct (hrnet_ends cin stages num) as [A EA]. apply (no_outputs P P' (fun n => hrnet_state cin n stages num) A _ _ cout EA) in H. clear A EA.
  unfold hrnet_state in H. apply ag_app in H. destruct H as [H1 H]. apply ag_app in H. destruct H as [H2 H].
  apply ag_app in H. destruct H as [H3 H]. apply ag_app in H. destruct H as [H4 H]. apply ag_app in H. destruct H as [H5 _].
  unfold HRNet. apply outcomes_bind.
  - unfold hr_front. apply bind_ext'; [apply (conv_bn_relu_same _ _ _ _ _ 3%nat 27%nat); [reflexivity|exact H1]|]. intros y _.
    apply bind_ext'; [reflexivity|]. intros y' _. apply (conv_bn_relu_same _ _ _ _ _ 3%nat 27%nat); [reflexivity|exact H2].
  - intros y _. cbv zeta. apply outcomes_bind.
    + apply foldM_ext'. intros t z Hz. apply in_arange in Hz. destruct Hz as (i & Hi & ->). rewrite Nat2Z.id. apply bind_ext'.
      * apply (ag_seq _ _ _ _ i) in H3; [|exact Hi]. cbv beta in H3. unfold hr_branches. apply bind_ext'; [reflexivity|]. intros [] _.
        apply mapM_ext. intros z Hz. apply in_arange in Hz. destruct Hz as (b & Hb & ->). rewrite hr_len in Hb.
        apply bind_ext'; [reflexivity|]. intros c' Ec. apply tget_val in Ec. destruct Ec as [<- _]. rewrite hr_nth by exact Hb.
        apply bind_ext'; [reflexivity|]. intros u _. apply (ag_seq _ _ _ _ b) in H3; [|exact Hb]. cbv beta in H3. apply res_blocks_same. exact H3.
      * intros t' _. destruct (Z.of_nat i <? Z.of_nat stages - 1) eqn:Ei; [|reflexivity]. apply Z.ltb_lt in Ei.
        apply (ag_seq _ _ _ _ i) in H4; [|lia]. cbv beta zeta in H4. unfold hr_transitions. cbv zeta.
        apply mapM_ext. intros z Hz. apply in_arange in Hz. destruct Hz as (b & Hb & ->). rewrite hr_len in Hb.
        apply bind_ext'; [|reflexivity]. apply mapM_ext. intros z Hz. apply in_arange in Hz. destruct Hz as (a & Ha & ->). rewrite hr_len in Ha.
        apply bind_ext'; [reflexivity|]. intros ca Ea. apply bind_ext'; [reflexivity|]. intros cb Eb.
        apply tget_val in Ea. apply tget_val in Eb. destruct Ea as [<- _], Eb as [<- _]. rewrite !hr_nth by lia.
        apply bind_ext'; [reflexivity|]. intros u _. apply trans_same. intros Ene.
        apply (ag_seq _ _ _ _ a) in H4; [|exact Ha]. cbv beta in H4. apply (ag_seq _ _ _ _ b) in H4; [|exact Hb]. cbv beta in H4. rewrite Ene in H4.
        unfold zlen. rewrite hr_len. unfold sub in H4. rewrite Nat2Z.inj_add, Nat2Z.inj_mul in H4. exact H4.
    + intros t _. unfold hr_header. apply outcomes_bind; [reflexivity|]. intros outs _. apply outcomes_bind; [reflexivity|]. intros u _.
      rewrite hr_sum. apply outcomes_bind; [apply conv1x1_bn_relu_same; exact H5|]. intros w _. apply outcomes_bind; [reflexivity|]. intros v _.
      apply linear_changed. exact Hl.
Qed.

(** The layers named above are the last of the checkpoints. *)
Lemma ends_last (S : nat -> list (path * slot)) p ci co : (exists A, forall n, S n = A ++ s_linear p ci n) -> last_layer (S co) p ci co.
Proof. intros [A E]. unfold last_layer. rewrite E, before_last. reflexivity. Qed.
Lemma all_last :
  (forall g cin cout, last_layer (unet_state g cin cout) (sub (sub [] "header" 0) "1" 0) (u_head g) cout) /\
  (forall cin cout stages, last_layer (lenet_state cin cout stages) (sub [] "header" 3) 128 cout) /\
  (forall cin cout num stages, last_layer (resnet_state cin cout num stages) (sub [] "header" 2) 512 cout) /\
  (forall cin cout stages, last_layer (segnet_state cin cout stages) (sub (sub [] "header" 0) "1" 0) 64 cout) /\
  (forall cin cout stages num, last_layer (hrnet_state cin cout stages num) (sub (sub [] "cls_header" 0) "header" 1) 1024 cout).
Proof.
  split; [intros g cin cout; apply (ends_last (unet_state g cin)); apply unet_ends|].
  split; [intros cin cout st; apply (ends_last (fun n => lenet_state cin n st)); apply lenet_ends|].
  split; [intros cin cout num st; apply (ends_last (fun n => resnet_state cin n num st)); apply resnet_ends|].
  split; [intros cin cout st; apply (ends_last (fun n => segnet_state cin n st)); apply segnet_ends|].
  intros cin cout st num; apply (ends_last (fun n => hrnet_state cin n st num)); apply hrnet_ends.
Qed.
End Head.
