(** Image2Shape and OUNet read no learned value outside the tensors of their checkpoint;
    their signals lie in the range of tanh. *)
From Coq Require Import String List ZArith Bool QArith Qcanon Lia.
From Verif Require Import Res Tensor ListFacts Key Num Points Octree NnBasic NnConv NnInterp Features Net Shape Ounet SpecState SpecResid StateFacts StateNets ResidFacts.
Import ListNotations.
Open Scope Z_scope.

Section Other.
Context (P P' : params).
Notation ag := (same_checkpoint P P').
Context (Hn : same_noise P P').

Lemma image2shape_same {I} g cout dev (enc : list I -> res feat) image o update : (a_full g <= a_depth g)%nat -> ag (ae_dec_state g cout) ->
  Image2Shape g P cout dev enc image o update = Image2Shape g P' cout dev enc image o update.
Proof.
  intros Hd H. unfold Image2Shape. apply bind_ext'; [reflexivity|]. intros x _. apply bind_ext'; [reflexivity|]. intros code _.
  apply bind_ext'; [reflexivity|]. intros [o'|] _; [|reflexivity]. apply ae_decoder_same; assumption.
Qed.

Lemma ou_decoder_same g cout convs oi o update : (a_full g <= a_depth g)%nat -> ag (ae_dec_state g cout) ->
  ou_decoder g P cout convs oi o update = ou_decoder g P' cout convs oi o update.
Proof.
  intros Hd H. unfold ae_dec_state in H. cbv zeta in H. change (ag (
    flat_map (fun i => s_deconv_bn (sub [] "upsample" i) 8 (dch g (a_full g + i)) (dch g (a_full g + i + 1))) (seq 0 (a_depth g - a_full g))
    ++ flat_map (fun i => s_res_blocks (sub [] "decoder_blks" i) (dch g (a_full g + i)) (dch g (a_full g + i)) (a_blocks g) 4 false) (seq 0 (a_depth g - a_full g + 1))
    ++ flat_map (fun i => s_head (sub [] "predict" i) (dch g (a_full g + i)) 64 2) (seq 0 (a_depth g - a_full g + 1))
    ++ s_head (sub [] "header" 0) (dch g (a_depth g)) 64 cout)) in H.
  apply ag_app in H. destruct H as [H1 H]. apply ag_app in H. destruct H as [H2 H]. apply ag_app in H. destruct H as [H3 H4].
  unfold ou_decoder. apply bind_ext'; [reflexivity|]. intros x0 _. apply bind_ext'.
  - apply foldM_ext'. intros [[x o'] lg] z Hz. apply in_arange in Hz. destruct Hz as (i & Hi & ->).
    unfold ou_dec_step. cbv zeta. replace (Z.of_nat (a_full g) + Z.of_nat i) with (Z.of_nat (a_full g + i)) by lia.
    apply (ag_seq _ _ _ _ i) in H2; [|lia]. apply (ag_seq _ _ _ _ i) in H3; [|lia]. cbv beta in H2, H3.
    apply bind_ext'; [reflexivity|]. intros chs Echs. apply bind_ext'; [reflexivity|]. intros c Ec. rewrite (dec_channels_val _ _ _ _ Echs Ec).
    apply bind_ext'.
    + destruct (0 <? Z.of_nat i) eqn:Ei; [|reflexivity]. apply Z.ltb_lt in Ei. destruct i as [|i]; [lia|].
      replace (Z.of_nat (a_full g + S i) - 1) with (Z.of_nat (a_full g + i)) by lia. replace (Z.of_nat (S i) - 1) with (Z.of_nat i) by lia.
      apply bind_ext'; [reflexivity|]. intros c' Ec'. rewrite (dec_channels_val _ _ _ _ Echs Ec').
      apply bind_ext'; [|reflexivity].
      apply (deconv_bn_relu_same _ _ _ _ _ 2%nat 8%nat); [reflexivity|]. apply (ag_seq _ _ _ _ i) in H1; [|lia]. cbv beta in H1.
      replace (a_full g + S i)%nat with (a_full g + i + 1)%nat by lia. exact H1.
    + intros u _. apply bind_ext'; [apply res_blocks_same; exact H2|]. intros w _. apply bind_ext'; [apply head_same; exact H3|]. intros l _. reflexivity.
  - intros [[x o'] lg] _. apply bind_ext'; [reflexivity|]. intros chs Echs. apply bind_ext'; [reflexivity|]. intros c Ec. rewrite (dec_channels_val _ _ _ _ Echs Ec).
    apply bind_ext'; [apply head_same; exact H4|]. intros s _. apply bind_ext'; [|reflexivity]. f_equal. apply tanh_same. exact Hn.
Qed.
End Other.

Lemma thm_ou_signal_range P (Q : Qc -> Prop) g cout convs oi o update logits s o' : (forall v, Q (p_tanh P v)) -> ou_decoder g P cout convs oi o update = Ok (logits, s, o') ->
  every_entry Q s /\ (update = true -> exists l, nth_error (layers o') (a_depth g) = Some l /\ l_features l = Some s).
Proof.
  intros H E. unfold ou_decoder in E. apply bind_inv in E. destruct E as (x0 & _ & E). apply bind_inv in E. destruct E as ([[x o1] lg] & _ & E).
  do 3 (apply bind_inv in E; destruct E as (? & _ & E)). apply bind_inv in E. destruct E as (s' & Es & E). apply bind_inv in E. destruct E as (o2 & Eo & E).
  injection E as <- <- <-. split.
  - unfold octree_depad in Es. apply bind_inv in Es. destruct Es as (m & _ & Es). apply (mask_get_Forall _ _ _ _ (tanh_range P Q _ H) Es).
  - intros ->. unfold store_features, upd_layer in Eo. destruct (nth_error (layers o1) (a_depth g)) as [l|] eqn:El; [|discriminate]. injection Eo as <-.
    exists (set_features l (Some s')). split; [|reflexivity]. cbn [layers with_layers].
    clear - El. revert El. generalize (a_depth g) as n. generalize (layers o1) as L. induction L as [|a L IH]; intros [|n] E; try discriminate; [reflexivity|].
    cbn [set_nth nth_error] in *. apply IH. exact E.
Qed.
Lemma thm_i2s_signal_range {I} P (Q : Qc -> Prop) g cout dev (enc : list I -> res feat) image o update logits s o' : (forall v, Q (p_tanh P v)) ->
  Image2Shape g P cout dev enc image o update = Ok (logits, s, o') ->
  every_entry Q s /\ (update = true -> exists l, nth_error (layers o') (a_depth g) = Some l /\ l_features l = Some s).
Proof.
  intros H E. unfold Image2Shape in E. apply bind_inv in E. destruct E as (x & _ & E). apply bind_inv in E. destruct E as (code & _ & E).
  apply bind_inv in E. destruct E as ([o1|] & _ & E); [|discriminate]. exact (thm_signal_range _ _ _ _ _ _ _ _ _ _ H E).
Qed.
