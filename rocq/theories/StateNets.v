(** LeNet, ResNet, SegNet, the auto-encoder and HRNet read no learned value outside the
    tensors of their checkpoint. *)
From Coq Require Import String List ZArith Bool QArith Qcanon Lia.
From Verif Require Import Res Tensor ListFacts Key Num Points Octree NnBasic NnConv NnInterp Features Net SpecState StateFacts.
Import ListNotations.
Open Scope Z_scope.

Section Nets.
Context (P P' : params).
Notation ag := (same_checkpoint P P').
Context (Hn : same_noise P P').

Lemma dropout_same p x : dropout P p x = dropout P' p x.
Proof.
  destruct Hn as [Hm _]. unfold dropout. apply map_ext. intros [i r]. apply map_ext. intros [c v]. cbn [fst snd]. rewrite Hm. reflexivity.
Qed.
Lemma tanh_same x : tanh_ P x = tanh_ P' x.
Proof. destruct Hn as [_ Ht]. unfold tanh_. apply map_ext. intros r. apply map_ext. exact Ht. Qed.

Lemma stage_nth k n i : (i < n)%nat -> nth i (stage_channels k n) O = width_at k n i.
Proof.
  intros H. unfold stage_channels, width_at. set (f := fun i => (2 ^ Nat.max (i + k - n) 2)%nat).
  rewrite (nth_indep _ O (f O)) by (rewrite map_length, seq_length; exact H). rewrite (map_nth f), seq_nth by exact H. reflexivity.
Qed.
Lemma stage_length k n : length (stage_channels k n) = n.
Proof. unfold stage_channels. rewrite map_length, seq_length. reflexivity. Qed.
Lemma in_nth k n c i : (i < S n)%nat -> nth i (c :: stage_channels k n) O = if Nat.eqb i 0 then c else width_at k n (i - 1).
Proof. destruct i as [|i]; intros H; [reflexivity|]. cbn [nth Nat.eqb]. rewrite stage_nth by lia. f_equal. lia. Qed.

(** ** lenet.py *)
Lemma lenet_same cin cout stages ne x o depth : ag (lenet_state cin cout stages) ->
  LeNet P cin cout stages ne x o depth = LeNet P' cin cout stages ne x o depth.
Proof.
  intros H. unfold lenet_state in H. apply ag_app in H. destruct H as [H1 H]. apply ag_app in H. destruct H as [H2 H3].
  unfold LeNet. cbv zeta. apply bind_ext'.
  - apply foldM_ext'. intros y z Hz. apply in_arange in Hz. destruct Hz as (i & Hi & ->). apply (ag_seq _ _ _ _ i) in H1; [|exact Hi]. cbv beta in H1.
    unfold lenet_stage. cbv zeta. rewrite Zof_succ.
    apply bind_ext'; [reflexivity|]. intros a Ea. apply bind_ext'; [reflexivity|]. intros b Eb.
    apply tget_val in Ea. apply tget_val in Eb. destruct Ea as [<- _], Eb as [<- _]. rewrite !in_nth by lia.
    cbn [Nat.eqb]. replace (S i - 1)%nat with i by lia.
    apply bind_ext'; [|reflexivity]. apply (conv_bn_relu_same _ _ _ _ _ 3%nat 27%nat); [reflexivity|exact H1].
  - intros y _. apply bind_ext'; [reflexivity|]. intros C _. apply bind_ext'; [reflexivity|]. intros v _. rewrite !dropout_same.
    apply bind_ext'; [apply fc_bn_relu_same; exact H2|]. intros f _. rewrite dropout_same. apply linear_same. exact H3.
Qed.

(** ** resnet.py *)
Lemma resnet_same cin cout num stages ne x o depth : ag (resnet_state cin cout num stages) ->
  ResNet P cin cout num stages ne x o depth = ResNet P' cin cout num stages ne x o depth.
Proof.
  intros H. unfold resnet_state in H. apply ag_app in H. destruct H as [H1 H]. apply ag_app in H. destruct H as [H2 H].
  apply ag_app in H. destruct H as [H3 H4]. unfold ResNet. cbv zeta.
  apply bind_ext'; [reflexivity|]. intros c0 E0. apply (tget_val _ 0) in E0. destruct E0 as [<- L0]. rewrite stage_length in L0.
  rewrite stage_nth by exact L0.
  apply bind_ext'; [apply (conv_bn_relu_same _ _ _ _ _ 3%nat 27%nat); [reflexivity|exact H1]|]. intros y _.
  apply bind_ext'; [reflexivity|]. intros y' _. apply bind_ext'.
  - apply foldM_ext'. intros s z Hz. apply in_arange in Hz. destruct Hz as (i & Hi & ->). apply (ag_seq _ _ _ _ i) in H2; [|exact Hi]. cbv beta in H2.
    unfold resnet_stage. cbv zeta. rewrite Zof_succ. rewrite Nat.add_1_r in H2.
    apply bind_ext'; [reflexivity|]. intros a Ea. apply bind_ext'; [reflexivity|]. intros b Eb.
    apply tget_val in Ea. apply tget_val in Eb. destruct Ea as [<- _], Eb as [<- _]. rewrite !stage_nth by lia.
    apply bind_ext'; [|reflexivity]. apply res_blocks_same. exact H2.
  - intros s _. apply bind_ext'; [reflexivity|]. intros C EC. apply (tget_back _ 0) in EC. destruct EC as [<- _].
    rewrite stage_length, stage_nth by lia. apply bind_ext'; [reflexivity|]. intros g _.
    apply bind_ext'; [apply fc_bn_relu_same; exact H3|]. intros f _. rewrite dropout_same. apply linear_same. exact H4.
Qed.

(** ** segnet.py *)
Lemma rev_nth_w k n i : (i < n)%nat -> nth i (rev (stage_channels k n) ++ [width_at k n 0]) O = width_at k n (n - 1 - i).
Proof.
  intros H. rewrite app_nth1 by (rewrite rev_length, stage_length; exact H). rewrite rev_nth by (rewrite stage_length; exact H).
  rewrite stage_length. rewrite stage_nth by lia. f_equal. lia.
Qed.
Lemma rev_nth_w' k n i : (i <= n)%nat -> (1 <= n)%nat -> nth i (rev (stage_channels k n) ++ [width_at k n 0]) O = width_at k n (n - 1 - i).
Proof.
  intros H Hn'. destruct (Nat.eq_dec i n) as [->|Hne]; [|apply rev_nth_w; lia].
  rewrite app_nth2 by (rewrite rev_length, stage_length; lia). rewrite rev_length, stage_length, Nat.sub_diag. cbn [nth]. f_equal. lia.
Qed.
Lemma segnet_same cin cout stages lin ne x o depth pts : (1 <= stages)%nat -> ag (segnet_state cin cout stages) ->
  SegNet P cin cout stages lin ne x o depth pts = SegNet P' cin cout stages lin ne x o depth pts.
Proof.
  intros Hs H. unfold segnet_state in H. cbv zeta in H. apply ag_app in H. destruct H as [H1 H]. apply ag_app in H. destruct H as [H2 H].
  apply ag_app in H. destruct H as [H3 H4]. unfold SegNet. cbv zeta. apply bind_ext'.
  - apply foldM_ext'. intros [y idx] z Hz. apply in_arange in Hz. destruct Hz as (i & Hi & ->). apply (ag_seq _ _ _ _ i) in H1; [|exact Hi]. cbv beta in H1.
    unfold segnet_down. cbv zeta. rewrite Zof_succ.
    apply bind_ext'; [reflexivity|]. intros a Ea. apply bind_ext'; [reflexivity|]. intros b Eb.
    apply tget_val in Ea. apply tget_val in Eb. destruct Ea as [<- _], Eb as [<- _]. rewrite !in_nth by lia.
    cbn [Nat.eqb]. replace (S i - 1)%nat with i by lia.
    apply bind_ext'; [|reflexivity]. apply (conv_bn_relu_same _ _ _ _ _ 3%nat 27%nat); [reflexivity|exact H1].
  - intros [y idx] _. apply bind_ext'; [reflexivity|]. intros c Ec.
    apply (tget_back _ 0) in Ec. destruct Ec as [<- _].
    assert (Ew : nth (length (cin :: stage_channels 8 stages) - 1) (cin :: stage_channels 8 stages) O = width_at 8 stages (stages - 1)).
    { cbn [length]. rewrite stage_length. rewrite in_nth by lia. replace (S stages - 1)%nat with stages by lia.
      destruct (Nat.eqb_spec stages 0); [lia|]. reflexivity. }
    rewrite Ew. apply bind_ext'; [apply (conv_bn_relu_same _ _ _ _ _ 3%nat 27%nat); [reflexivity|exact H2]|]. intros w _.
    apply bind_ext'; [reflexivity|]. intros c0 E0. apply (tget_val _ 0) in E0. destruct E0 as [<- _]. rewrite stage_nth by lia.
    apply bind_ext'.
    + apply foldM_ext'. intros s z Hz. apply in_arange in Hz. destruct Hz as (i & Hi & ->). apply (ag_seq _ _ _ _ i) in H3; [|exact Hi]. cbv beta in H3.
      unfold segnet_up. cbv zeta. rewrite !Zof_succ.
      apply bind_ext'; [reflexivity|]. intros a Ea. apply bind_ext'; [reflexivity|]. intros b Eb.
      apply tget_val in Ea. apply tget_val in Eb. destruct Ea as [<- _], Eb as [<- _]. rewrite !rev_nth_w' by lia.
      apply bind_ext'; [reflexivity|]. intros id _. apply bind_ext'; [reflexivity|]. intros u _.
      apply (conv_bn_relu_same _ _ _ _ _ 3%nat 27%nat); [reflexivity|]. replace (stages - 1 - S i)%nat with (stages - 2 - i)%nat by lia. exact H3.
    + intros s _. apply bind_ext'; [reflexivity|]. intros c1 E1. apply (tget_back _ 0) in E1. destruct E1 as [<- _].
      assert (El : nth (length (rev (stage_channels 8 stages) ++ [width_at 8 stages 0]) - 1) (rev (stage_channels 8 stages) ++ [width_at 8 stages 0]) O
                   = width_at 8 stages 0).
      { rewrite app_length, rev_length, stage_length. cbn [length]. rewrite rev_nth_w' by lia. f_equal. lia. }
      rewrite El. apply bind_ext'; [reflexivity|]. intros [q pts'] _. apply bind_ext'; [|reflexivity]. apply head_same. exact H4.
Qed.

(** ** autoencoder.py *)
Lemma ae_encoder_same g cin CF feature o : (a_full g <= a_depth g)%nat -> ag (ae_enc_state g cin) ->
  ae_encoder g P cin CF feature o = ae_encoder g P' cin CF feature o.
Proof.
  intros Hd H. unfold ae_enc_state in H. cbv zeta in H. apply ag_app in H. destruct H as [H1 H]. apply ag_app in H. destruct H as [H2 H].
  apply ag_app in H. destruct H as [H3 H4]. unfold ae_encoder.
  apply bind_ext'; [reflexivity|]. intros x _. apply bind_ext'; [reflexivity|]. intros [] _.
  apply bind_ext'; [reflexivity|]. intros c Ec. apply tget_val in Ec. destruct Ec as [<- _].
  apply bind_ext'; [apply (conv_bn_relu_same _ _ _ _ _ 3%nat 27%nat); [reflexivity|exact H1]|]. intros y _. apply bind_ext'.
  - apply foldM_ext'. intros s z Hz. apply in_arange in Hz. destruct Hz as (i & Hi & ->).
    unfold ae_enc_step. cbv zeta. replace (Z.of_nat (a_depth g) - Z.of_nat i) with (Z.of_nat (a_depth g - i)) by lia.
    apply (ag_seq _ _ _ _ i) in H2; [|lia]. cbv beta in H2.
    apply bind_ext'; [reflexivity|]. intros c Ec. apply tget_val in Ec. destruct Ec as [<- _].
    apply bind_ext'; [reflexivity|]. intros u _. apply bind_ext'; [apply res_blocks_same; exact H2|]. intros w _.
    destruct (Z.of_nat (a_full g) <? Z.of_nat (a_depth g - i)) eqn:El; [|reflexivity]. apply Z.ltb_lt in El.
    apply (ag_seq _ _ _ _ i) in H3; [|lia]. cbv beta in H3.
    replace (Z.of_nat (a_depth g - i) - 1) with (Z.of_nat (a_depth g - i - 1)) by lia.
    apply bind_ext'; [reflexivity|]. intros c' Ec'. apply tget_val in Ec'. destruct Ec' as [<- _].
    apply bind_ext'; [|reflexivity]. apply (conv_bn_relu_same _ _ _ _ _ 2%nat 8%nat); [reflexivity|exact H3].
  - intros convs _. apply bind_ext'; [reflexivity|]. intros u _. apply bind_ext'; [reflexivity|]. intros cf Ef. apply tget_val in Ef. destruct Ef as [<- _].
    apply bind_ext'; [apply linear_same; exact H4|]. intros w _. f_equal. apply tanh_same.
Qed.

Lemma set_nth_nth (l : list nat) i v j : (j < length l)%nat -> nth j (set_nth l i v) O = if Nat.eqb j i then v else nth j l O.
Proof.
  revert i j; induction l as [|a l IH]; intros i j Hj; [cbn in Hj; lia|]. destruct i as [|i], j as [|j]; try reflexivity.
  cbn [set_nth nth Nat.eqb]. apply IH. cbn in Hj; lia.
Qed.
Lemma set_nth_len {A} (l : list A) i v : length (set_nth l i v) = length l.
Proof. revert i; induction l as [|a l IH]; intros [|i]; cbn [set_nth length]; [reflexivity..|]. rewrite IH. reflexivity. Qed.
Definition dch (g : ae_cfg) (d : nat) : nat := if Nat.eqb d (a_full g) then a_code g else nth d (a_ch g) O.
Lemma dec_channels_val g chs d c : dec_channels g = Ok chs -> tget chs (Z.of_nat d) = Ok c -> c = dch g d.
Proof.
  unfold dec_channels, tset, norm_index. replace (0 <=? Z.of_nat (a_full g)) with true by (symmetry; apply Z.leb_le; lia). cbn [andb].
  replace (Z.of_nat (a_full g) <? 0) with false by (symmetry; apply Z.ltb_ge; lia). cbn [andb].
  destruct (Z.of_nat (a_full g) <? zlen (a_ch g)); [|discriminate]. intros H. injection H as <-. rewrite Nat2Z.id. intros E.
  apply tget_val in E. destruct E as [<- El]. rewrite set_nth_len in El. apply set_nth_nth. exact El.
Qed.
Lemma ae_decoder_same g cout code o update : (a_full g <= a_depth g)%nat -> ag (ae_dec_state g cout) ->
  ae_decoder g P cout code o update = ae_decoder g P' cout code o update.
Proof.
  intros Hd H. unfold ae_dec_state in H. cbv zeta in H. fold (dch g) in H. change (ag (
    flat_map (fun i => s_deconv_bn (sub [] "upsample" i) 8 (dch g (a_full g + i)) (dch g (a_full g + i + 1))) (seq 0 (a_depth g - a_full g))
    ++ flat_map (fun i => s_res_blocks (sub [] "decoder_blks" i) (dch g (a_full g + i)) (dch g (a_full g + i)) (a_blocks g) 4 false) (seq 0 (a_depth g - a_full g + 1))
    ++ flat_map (fun i => s_head (sub [] "predict" i) (dch g (a_full g + i)) 64 2) (seq 0 (a_depth g - a_full g + 1))
    ++ s_head (sub [] "header" 0) (dch g (a_depth g)) 64 cout)) in H.
  apply ag_app in H. destruct H as [H1 H]. apply ag_app in H. destruct H as [H2 H]. apply ag_app in H. destruct H as [H3 H4].
  unfold ae_decoder. apply bind_ext'.
  - apply foldM_ext'. intros [[x o'] lg] z Hz. apply in_arange in Hz. destruct Hz as (i & Hi & ->).
    unfold ae_dec_step. cbv zeta. replace (Z.of_nat (a_full g) + Z.of_nat i) with (Z.of_nat (a_full g + i)) by lia.
    apply (ag_seq _ _ _ _ i) in H2; [|lia]. apply (ag_seq _ _ _ _ i) in H3; [|lia]. cbv beta in H2, H3.
    apply bind_ext'; [reflexivity|]. intros chs Echs. apply bind_ext'; [reflexivity|]. intros c Ec. rewrite (dec_channels_val _ _ _ _ Echs Ec).
    apply bind_ext'.
    + destruct (0 <? Z.of_nat i) eqn:Ei; [|reflexivity]. apply Z.ltb_lt in Ei. destruct i as [|i]; [lia|].
      replace (Z.of_nat (a_full g + S i) - 1) with (Z.of_nat (a_full g + i)) by lia. replace (Z.of_nat (S i) - 1) with (Z.of_nat i) by lia.
      apply bind_ext'; [reflexivity|]. intros c' Ec'. rewrite (dec_channels_val _ _ _ _ Echs Ec').
      apply (deconv_bn_relu_same _ _ _ _ _ 2%nat 8%nat); [reflexivity|]. apply (ag_seq _ _ _ _ i) in H1; [|lia]. cbv beta in H1.
      replace (a_full g + S i)%nat with (a_full g + i + 1)%nat by lia. exact H1.
    + intros u _. apply bind_ext'; [apply res_blocks_same; exact H2|]. intros w _. apply bind_ext'; [apply head_same; exact H3|]. intros l _. reflexivity.
  - intros [[x o'] lg] _. apply bind_ext'; [reflexivity|]. intros chs Echs. apply bind_ext'; [reflexivity|]. intros c Ec. rewrite (dec_channels_val _ _ _ _ Echs Ec).
    apply bind_ext'; [apply head_same; exact H4|]. intros s _. apply bind_ext'; [|reflexivity]. f_equal. apply tanh_same.
Qed.
Lemma ae_same g cin cout CF dev feature o update : (a_full g <= a_depth g)%nat -> ag (ae_enc_state g cin ++ ae_dec_state g cout) ->
  AutoEncoder g P cin cout CF dev feature o update = AutoEncoder g P' cin cout CF dev feature o update.
Proof.
  intros Hd H. apply ag_app in H. destruct H as [H1 H2]. unfold AutoEncoder. apply bind_ext'; [apply ae_encoder_same; assumption|].
  intros code _. apply bind_ext'; [reflexivity|]. intros o' _. apply ae_decoder_same; assumption.
Qed.

(** ** hrnet.py *)
Lemma hr_nth n i : (i < Nat.min n 4)%nat -> nth i (firstn n hr_channels) O = hr_width i.
Proof.
  intros H. unfold hr_width, hr_channels. 
  destruct n as [|[|[|[|n]]]]; destruct i as [|[|[|[|i]]]]; cbn [firstn nth]; try reflexivity; cbn in H; try lia; destruct n; cbn in *; try reflexivity; lia.
Qed.
Lemma hr_len n : length (firstn n hr_channels) = Nat.min n 4.
Proof. apply firstn_length. Qed.
Lemma hr_sum n : fold_right Nat.add O (firstn n hr_channels) = list_sum (map hr_width (seq 0 (Nat.min n 4))).
Proof. destruct n as [|[|[|[|n]]]]; [reflexivity..|]. replace (Nat.min (S (S (S (S n)))) 4) with 4%nat by lia. unfold hr_channels. cbn [firstn]. rewrite firstn_nil. reflexivity. Qed.
Lemma trans_same p ci co ne x o a b : (Nat.eqb ci co = false -> ag (s_linear_bn p ci co)) ->
  hr_trans P p ci co ne x o a b = hr_trans P' p ci co ne x o a b.
Proof.
  intros H. unfold hr_trans. cbv zeta.
  assert (E : forall y, (if Nat.eqb ci co then Ok y else conv1x1_bn_relu P p ci co y) = (if Nat.eqb ci co then Ok y else conv1x1_bn_relu P' p ci co y)).
  { intros y. destruct (Nat.eqb ci co); [reflexivity|]. apply conv1x1_bn_relu_same. apply H. reflexivity. }
  destruct (b <? a); [apply bind_ext'; [reflexivity|intros y _; apply E]|]. destruct (a <? b); [|reflexivity].
  apply bind_ext'; [apply E|reflexivity].
Qed.
Lemma hrnet_same cin cout stages num ne x o depth : ag (hrnet_state cin cout stages num) ->
  HRNet P cin cout stages num ne x o depth = HRNet P' cin cout stages num ne x o depth.
Proof.
  intros H. unfold hrnet_state in H. apply ag_app in H. destruct H as [H1 H]. apply ag_app in H. destruct H as [H2 H].
  apply ag_app in H. destruct H as [H3 H]. apply ag_app in H. destruct H as [H4 H]. apply ag_app in H. destruct H as [H5 H6].
  unfold HRNet. apply bind_ext'.
  - unfold hr_front. apply bind_ext'; [apply (conv_bn_relu_same _ _ _ _ _ 3%nat 27%nat); [reflexivity|exact H1]|]. intros y _.
    apply bind_ext'; [reflexivity|]. intros y' _. apply (conv_bn_relu_same _ _ _ _ _ 3%nat 27%nat); [reflexivity|exact H2].
  - intros y _. cbv zeta. apply bind_ext'.
    + apply foldM_ext'. intros s z Hz. apply in_arange in Hz. destruct Hz as (i & Hi & ->). rewrite Nat2Z.id. apply bind_ext'.
      * apply (ag_seq _ _ _ _ i) in H3; [|exact Hi]. cbv beta in H3. unfold hr_branches. apply bind_ext'; [reflexivity|]. intros [] _.
        apply mapM_ext. intros z Hz. apply in_arange in Hz. destruct Hz as (b & Hb & ->). rewrite hr_len in Hb.
        apply bind_ext'; [reflexivity|]. intros c Ec. apply tget_val in Ec. destruct Ec as [<- _]. rewrite hr_nth by exact Hb.
        apply bind_ext'; [reflexivity|]. intros u _. apply (ag_seq _ _ _ _ b) in H3; [|exact Hb]. cbv beta in H3. apply res_blocks_same. exact H3.
      * intros t _. destruct (Z.of_nat i <? Z.of_nat stages - 1) eqn:Ei; [|reflexivity]. apply Z.ltb_lt in Ei.
        apply (ag_seq _ _ _ _ i) in H4; [|lia]. cbv beta zeta in H4. unfold hr_transitions. cbv zeta.
        apply mapM_ext. intros z Hz. apply in_arange in Hz. destruct Hz as (b & Hb & ->). rewrite hr_len in Hb.
        apply bind_ext'; [|reflexivity]. apply mapM_ext. intros z Hz. apply in_arange in Hz. destruct Hz as (a & Ha & ->). rewrite hr_len in Ha.
        apply bind_ext'; [reflexivity|]. intros ca Ea. apply bind_ext'; [reflexivity|]. intros cb Eb.
        apply tget_val in Ea. apply tget_val in Eb. destruct Ea as [<- _], Eb as [<- _]. rewrite !hr_nth by lia.
        apply bind_ext'; [reflexivity|]. intros u _. apply trans_same. intros Ene.
        apply (ag_seq _ _ _ _ a) in H4; [|exact Ha]. cbv beta in H4. apply (ag_seq _ _ _ _ b) in H4; [|exact Hb]. cbv beta in H4. rewrite Ene in H4.
        unfold zlen. rewrite hr_len. unfold sub in H4. rewrite Nat2Z.inj_add, Nat2Z.inj_mul in H4. exact H4.
    + intros t _. unfold hr_header. apply bind_ext'; [reflexivity|]. intros outs _. apply bind_ext'; [reflexivity|]. intros u _.
      rewrite hr_sum. apply bind_ext'; [apply conv1x1_bn_relu_same; exact H5|]. intros w _. apply bind_ext'; [reflexivity|]. intros v _.
      apply linear_same. exact H6.
Qed.
End Nets.
