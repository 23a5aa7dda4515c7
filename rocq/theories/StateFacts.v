(** The networks read no learned value outside the tensors of their checkpoint. *)
From Coq Require Import String List ZArith Bool QArith Qcanon Lia.
From Verif Require Import Res Tensor ListFacts Key Num Points Octree NnBasic NnConv NnInterp Features Net SpecState.
Import ListNotations.
Open Scope Z_scope.

Lemma bind_ext' {A B} (x x' : res A) (f g : A -> res B) : x = x' -> (forall a, x = Ok a -> f a = g a) -> bind x f = bind x' g.
Proof. intros <- H. destruct x as [a|]; cbn [bind]; [apply H; reflexivity|reflexivity]. Qed.
Lemma foldM_ext' {A T} (f g : T -> A -> res T) l : forall s, (forall s a, In a l -> f s a = g s a) -> foldM f s l = foldM g s l.
Proof.
  induction l as [|a l IH]; intros s H; [reflexivity|]. cbn [foldM]. rewrite (H s a (or_introl eq_refl)).
  destruct (g s a); cbn [bind]; [|reflexivity]. apply IH. intros s' b Hb. apply H. right; exact Hb.
Qed.
Lemma tget_val (l : list nat) i a : tget l (Z.of_nat i) = Ok a -> nth i l O = a /\ (i < length l)%nat.
Proof.
  unfold tget, norm_index. replace (0 <=? Z.of_nat i) with true by (symmetry; apply Z.leb_le; lia). cbn [andb].
  replace (Z.of_nat i <? 0) with false by (symmetry; apply Z.ltb_ge; lia). cbn [andb].
  destruct (Z.of_nat i <? zlen l); [|discriminate]. rewrite Nat2Z.id. destruct (nth_error l i) as [b|] eqn:E; [|discriminate].
  intros H. injection H as <-. split; [apply nth_error_nth; exact E|]. apply nth_error_Some. congruence.
Qed.
Lemma tget_back (l : list nat) i a : tget l (- Z.of_nat (S i)) = Ok a -> nth (length l - S i) l O = a /\ (S i <= length l)%nat.
Proof.
  unfold tget, norm_index, zlen. replace (0 <=? - Z.of_nat (S i)) with false by (symmetry; apply Z.leb_gt; lia). cbn [andb].
  replace (- Z.of_nat (S i) <? 0) with true by (symmetry; apply Z.ltb_lt; lia). cbn [andb].
  destruct (0 <=? - Z.of_nat (S i) + Z.of_nat (length l)) eqn:E0; [|discriminate]. apply Z.leb_le in E0.
  replace (Z.to_nat (- Z.of_nat (S i) + Z.of_nat (length l))) with (length l - S i)%nat by lia.
  destruct (nth_error l (length l - S i)) as [b|] eqn:E; [|discriminate].
  intros H. injection H as <-. split; [apply nth_error_nth; exact E|lia].
Qed.
Lemma nth_last (l : list nat) : nth (length l - 1) l O = last l O.
Proof.
  induction l as [|a l IH]; [reflexivity|]. destruct l as [|b l]; [reflexivity|].
  replace (length (a :: b :: l) - 1)%nat with (S (length (b :: l) - 1)) by (cbn [length]; lia).
  change (last (a :: b :: l) O) with (last (b :: l) O). rewrite <- IH. reflexivity.
Qed.

Section Agree.
Context (P P' : params).
Notation ag := (same_checkpoint P P').

Lemma tensor1_ext n f g : (forall i, (i < n)%nat -> f i = g i) -> tensor1 n f = tensor1 n g.
Proof. intros H. unfold tensor1. apply map_ext_in. intros i Hi. apply in_seq in Hi. apply H. lia. Qed.
Lemma tensor2_ext a b f g : (forall i j, (i < a)%nat -> (j < b)%nat -> f i j = g i j) -> tensor2 a b f = tensor2 a b g.
Proof. intros H. unfold tensor2. apply map_ext_in. intros i Hi. apply in_seq in Hi. apply tensor1_ext. intros j Hj. apply H; lia. Qed.
Lemma tensor3_ext a b c f g : (forall i j k, (i < a)%nat -> (j < b)%nat -> (k < c)%nat -> f i j k = g i j k) -> tensor3 a b c f = tensor3 a b c g.
Proof. intros H. unfold tensor3. apply map_ext_in. intros i Hi. apply in_seq in Hi. apply tensor2_ext. intros j k Hj Hk. apply H; lia. Qed.

Lemma conv_same p ci co n stride ne x o d :
  same_tensor P P' (p, Conv (n * n * n) ci co) -> conv P p ci co [n] stride ne x o d = conv P' p ci co [n] stride ne x o d.
Proof.
  intros H. unfold conv. apply bind_ext'; [reflexivity|]. intros m E. cbv [conv_init resize_with_last_val] in E. cbn in E. injection E as <-.
  cbn [m_kdim m_inconv m_outconv]. rewrite (tensor3_ext _ _ _ _ (p_weight P' p)); [reflexivity|]. intros i j k Hi Hj Hk. apply H; assumption.
Qed.
Lemma deconv_same p ci co n stride ne x o d :
  same_tensor P P' (p, Conv (n * n * n) co ci) -> deconv P p ci co [n] stride ne x o d = deconv P' p ci co [n] stride ne x o d.
Proof.
  intros H. unfold deconv. apply bind_ext'; [reflexivity|]. intros m E. cbv [conv_init resize_with_last_val] in E. cbn in E. injection E as <-.
  cbn [m_kdim m_inconv m_outconv]. rewrite (tensor3_ext _ _ _ _ (p_weight P' p)); [reflexivity|]. intros i j k Hi Hj Hk. apply H; assumption.
Qed.
Lemma ag_nil : ag []. Proof. constructor. Qed.
Lemma ag_two a b : ag [a; b] -> same_tensor P P' a /\ same_tensor P P' b.
Proof. intros H. inversion H as [|? ? Ha H']; subst. inversion H'; subst. split; assumption. Qed.
Lemma ag_app a b : ag (a ++ b) -> ag a /\ ag b.
Proof. intros H. apply Forall_app in H. exact H. Qed.
Lemma ag_flat {T} (f : T -> list (path * slot)) l i : ag (flat_map f l) -> In i l -> ag (f i).
Proof.
  intros H Hi. unfold same_checkpoint in *. rewrite Forall_forall in *. intros e He. apply H. apply in_flat_map. exists i. split; assumption.
Qed.
Lemma ag_seq (f : nat -> list (path * slot)) n i : ag (flat_map f (seq 0 n)) -> (i < n)%nat -> ag (f i).
Proof. intros H Hi. apply (ag_flat f (seq 0 n)); [exact H|]. apply in_seq. lia. Qed.

Lemma conv_bn_same p ci co n k stride ne x o d : k = (n * n * n)%nat -> ag (s_conv_bn p k ci co) ->
  conv_bn P p ci co [n] stride ne x o d = conv_bn P' p ci co [n] stride ne x o d.
Proof.
  intros -> H. apply ag_two in H. destruct H as [H1 H2]. unfold conv_bn. apply bind_ext'; [apply conv_same; exact H1|]. intros y _. apply H2.
Qed.
Lemma conv_bn_relu_same p ci co n k stride ne x o d : k = (n * n * n)%nat -> ag (s_conv_bn p k ci co) ->
  conv_bn_relu P p ci co [n] stride ne x o d = conv_bn_relu P' p ci co [n] stride ne x o d.
Proof.
  intros -> H. apply ag_two in H. destruct H as [H1 H2]. unfold conv_bn_relu. apply bind_ext'; [apply conv_same; exact H1|].
  intros y _. apply bind_ext'; [apply H2|reflexivity].
Qed.
Lemma deconv_bn_relu_same p ci co n k stride ne x o d : k = (n * n * n)%nat -> ag (s_deconv_bn p k ci co) ->
  deconv_bn_relu P p ci co [n] stride ne x o d = deconv_bn_relu P' p ci co [n] stride ne x o d.
Proof.
  intros -> H. apply ag_two in H. destruct H as [H1 H2]. unfold deconv_bn_relu. apply bind_ext'; [apply deconv_same; exact H1|].
  intros y _. apply bind_ext'; [apply H2|reflexivity].
Qed.
Lemma linear_same_nb p ci co x : same_tensor P P' (p, Linear co ci) -> linear P p ci co false x = linear P' p ci co false x.
Proof.
  intros H. unfold linear. rewrite (tensor2_ext co ci (p_weight P p O) (p_weight P' p O)); [reflexivity|]. intros i j Hi Hj. apply H; assumption.
Qed.
Lemma linear_same p ci co x : ag (s_linear p ci co) -> linear P p ci co true x = linear P' p ci co true x.
Proof.
  intros H. apply ag_two in H. destruct H as [H1 H2]. unfold linear.
  rewrite (tensor2_ext co ci (p_weight P p O) (p_weight P' p O)) by (intros i j Hi Hj; apply H1; assumption).
  rewrite (tensor1_ext co (p_bias P p) (p_bias P' p)) by (intros i Hi; apply H2; assumption). reflexivity.
Qed.
Lemma conv1x1_bn_same p ci co x : ag (s_linear_bn p ci co) -> conv1x1_bn P p ci co x = conv1x1_bn P' p ci co x.
Proof.
  intros H. apply ag_two in H. destruct H as [H1 H2]. unfold conv1x1_bn. apply bind_ext'; [apply linear_same_nb; exact H1|]. intros y _. apply H2.
Qed.
Lemma conv1x1_bn_relu_same p ci co x : ag (s_linear_bn p ci co) -> conv1x1_bn_relu P p ci co x = conv1x1_bn_relu P' p ci co x.
Proof.
  intros H. apply ag_two in H. destruct H as [H1 H2]. unfold conv1x1_bn_relu. apply bind_ext'; [apply linear_same_nb; exact H1|].
  intros y _. apply bind_ext'; [apply H2|reflexivity].
Qed.
Lemma fc_bn_relu_same p ci co x : ag (s_linear_bn p ci co) -> fc_bn_relu P p ci co x = fc_bn_relu P' p ci co x.
Proof. exact (conv1x1_bn_relu_same p ci co x). Qed.
Lemma head_same p ci ch co x : ag (s_head p ci ch co) -> head P p ci ch co x = head P' p ci ch co x.
Proof.
  intros H. apply ag_app in H. destruct H as [H1 H2]. unfold head. apply bind_ext'; [apply conv1x1_bn_relu_same; exact H1|].
  intros y _. apply linear_same. exact H2.
Qed.

Lemma bneck_inv co b cb : bottleneck_channels co b = Ok cb -> cb = (co / b)%nat.
Proof. unfold bottleneck_channels. destruct (Nat.eqb b 0); [discriminate|]. intros H. injection H as <-. reflexivity. Qed.
Lemma res_block_same p ci co bneck ne x o d : ag (s_res_block p ci co bneck) ->
  res_block P p ci co 1 bneck ne x o d = res_block P' p ci co 1 bneck ne x o d.
Proof.
  intros H. unfold s_res_block in H. apply ag_app in H. destruct H as [H1 H]. apply ag_app in H. destruct H as [H2 H].
  apply ag_app in H. destruct H as [H3 H4]. unfold res_block. apply bind_ext'; [reflexivity|]. intros cb E. apply bneck_inv in E. subst cb.
  apply bind_ext'; [reflexivity|]. intros [y d'] _. apply bind_ext'; [apply conv1x1_bn_relu_same; exact H1|]. intros c1 _.
  apply bind_ext'; [apply (conv_bn_relu_same _ _ _ 3%nat 27%nat); [reflexivity|exact H2]|]. intros c2 _.
  apply bind_ext'; [apply conv1x1_bn_same; exact H3|]. intros c3 _.
  apply bind_ext'; [|intros z _; reflexivity]. destruct (Nat.eqb ci co); [reflexivity|]. apply conv1x1_bn_same. exact H4.
Qed.
Lemma res_block2_same p ci co bneck ne x o d : ag (s_res_block2 p ci co bneck) ->
  res_block2 P p ci co 1 bneck ne x o d = res_block2 P' p ci co 1 bneck ne x o d.
Proof.
  intros H. unfold s_res_block2 in H. apply ag_app in H. destruct H as [H1 H]. apply ag_app in H. destruct H as [H2 H3].
  unfold res_block2. apply bind_ext'; [reflexivity|]. intros cb E. apply bneck_inv in E. subst cb.
  apply bind_ext'; [reflexivity|]. intros [] _.
  apply bind_ext'; [apply (conv_bn_relu_same _ _ _ 3%nat 27%nat); [reflexivity|exact H1]|]. intros c1 _.
  apply bind_ext'; [apply (conv_bn_same _ _ _ 3%nat 27%nat); [reflexivity|exact H2]|]. intros c2 _.
  apply bind_ext'; [|intros z _; reflexivity]. destruct (Nat.eqb ci co); [reflexivity|]. apply conv1x1_bn_same. exact H3.
Qed.
Lemma in_arange n z : In z (arange n) -> exists i, (i < n)%nat /\ z = Z.of_nat i.
Proof. intros H. apply in_map_iff in H. destruct H as (i & <- & Hi). apply in_seq in Hi. exists i. split; [lia|reflexivity]. Qed.
Lemma Zof_succ i : Z.of_nat i + 1 = Z.of_nat (S i). Proof. lia. Qed.
Lemma res_blocks_same p ci co num bneck ne basic x o d : ag (s_res_blocks p ci co num bneck basic) ->
  res_blocks P p ci co num bneck ne basic x o d = res_blocks P' p ci co num bneck ne basic x o d.
Proof.
  intros H. unfold res_blocks. apply foldM_ext'. intros y z Hz. apply in_arange in Hz. destruct Hz as (i & Hi & ->).
  apply bind_ext'; [reflexivity|]. intros a Ea. apply bind_ext'; [reflexivity|]. intros b Eb.
  rewrite Zof_succ in Eb. apply tget_val in Ea. apply tget_val in Eb. destruct Ea as [<- _], Eb as [<- _].
  apply (ag_seq _ _ i) in H; [|exact Hi].
  assert (E1 : nth i (ci :: repeat co num) O = if Nat.eqb i 0 then ci else co).
  { destruct i as [|i]; [reflexivity|]. cbn [nth Nat.eqb]. rewrite (nth_indep _ O co) by (rewrite repeat_length; lia). apply nth_repeat. }
  assert (E2 : nth (S i) (ci :: repeat co num) O = co).
  { cbn [nth]. rewrite (nth_indep _ O co) by (rewrite repeat_length; lia). apply nth_repeat. }
  rewrite E1, E2. destruct basic; [apply res_block2_same|apply res_block_same]; exact H.
Qed.

(** ** UNet *)
Lemma unet_down_same g cin cout ne o depth convd i : ag (unet_state g cin cout) -> (i < length (u_enc_blk g))%nat ->
  unet_down g P ne o depth convd (Z.of_nat i) = unet_down g P' ne o depth convd (Z.of_nat i).
Proof.
  intros H Hi. unfold unet_state in H. cbv zeta in H. do 3 (apply ag_app in H; destruct H as [? H]). clear H.
  apply (ag_seq _ _ i) in H1; [|exact Hi]. apply (ag_seq _ _ i) in H2; [|exact Hi].
  unfold unet_down. cbv zeta. rewrite Zof_succ.
  apply bind_ext'; [reflexivity|]. intros a Ea. apply bind_ext'; [reflexivity|]. intros b Eb. apply bind_ext'; [reflexivity|]. intros c Ec.
  apply tget_val in Ea. apply tget_val in Eb. apply tget_val in Ec. destruct Ea as [<- _], Eb as [<- _], Ec as [<- _].
  cbv beta in H1, H2. rewrite Nat.add_1_r in H1, H2.
  apply bind_ext'; [reflexivity|]. intros x _. apply bind_ext'; [apply (conv_bn_relu_same _ _ _ 2%nat 8%nat); [reflexivity|exact H1]|].
  intros y _. apply bind_ext'; [apply res_blocks_same; exact H2|reflexivity].
Qed.
Lemma unet_up_same g cin cout ne o depth convd x i : ag (unet_state g cin cout) -> (i < length (u_dec_blk g))%nat ->
  unet_up g P ne o depth convd x (Z.of_nat i) = unet_up g P' ne o depth convd x (Z.of_nat i).
Proof.
  intros H Hi. unfold unet_state in H. cbv zeta in H. do 3 (apply ag_app in H; destruct H as [_ H]).
  apply ag_app in H. destruct H as [H1 H]. apply ag_app in H. destruct H as [H2 _].
  apply (ag_seq _ _ i) in H1; [|exact Hi]. apply (ag_seq _ _ i) in H2; [|exact Hi].
  unfold unet_up. cbv zeta. rewrite Zof_succ. replace (- Z.of_nat i - 2) with (- Z.of_nat (S (S i))) by lia.
  apply bind_ext'; [reflexivity|]. intros a Ea. apply bind_ext'; [reflexivity|]. intros b Eb. apply bind_ext'; [reflexivity|]. intros c Ec.
  apply bind_ext'; [reflexivity|]. intros n En.
  apply tget_val in Ea. apply tget_val in Eb. apply tget_back in Ec. apply tget_val in En. destruct Ea as [<- _], Eb as [<- _], Ec as [<- _], En as [<- _].
  cbv beta in H1, H2. rewrite Nat.add_1_r in H1, H2. replace (length (u_enc_ch g) - i - 2)%nat with (length (u_enc_ch g) - S (S i))%nat in H2 by lia.
  apply bind_ext'; [apply (deconv_bn_relu_same _ _ _ 2%nat 8%nat); [reflexivity|exact H1]|]. intros y _.
  apply bind_ext'; [reflexivity|]. intros s _. apply bind_ext'; [reflexivity|]. intros z _. apply res_blocks_same. exact H2.
Qed.
Lemma unet_same g cin cout lin ne x o depth pts : ag (unet_state g cin cout) ->
  UNet g P cin cout lin ne x o depth pts = UNet g P' cin cout lin ne x o depth pts.
Proof.
  intros H. unfold UNet. cbv zeta. apply bind_ext'.
  - unfold unet_encoder. apply bind_ext'; [reflexivity|]. intros c0 E0. apply (tget_val _ 0) in E0. destruct E0 as [<- _].
    apply bind_ext'.
    + apply (conv_bn_relu_same _ _ _ 3%nat 27%nat); [reflexivity|]. unfold unet_state in H. cbv zeta in H. apply ag_app in H. apply H.
    + intros y _. apply foldM_ext'. intros s z Hz. apply in_arange in Hz. destruct Hz as (i & Hi & ->). apply (unet_down_same g cin cout); assumption.
  - intros convd _. apply bind_ext'.
    + unfold unet_decoder. apply bind_ext'; [reflexivity|]. intros y _. apply foldM_ext'. intros s z Hz. apply in_arange in Hz.
      destruct Hz as (i & Hi & ->). apply (unet_up_same g cin cout); assumption.
    + intros y _. apply bind_ext'; [reflexivity|]. intros c Ec. apply (tget_back _ 0) in Ec. destruct Ec as [<- _].
      apply bind_ext'; [reflexivity|]. intros [z pts'] _. apply bind_ext'; [|reflexivity]. apply head_same.
      unfold unet_state in H. cbv zeta in H. do 5 (apply ag_app in H; destruct H as [_ H]). rewrite nth_last. exact H.
Qed.
End Agree.
