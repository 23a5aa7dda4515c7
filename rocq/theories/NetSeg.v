(** Shapes of the outputs of ResNet and SegNet. *)
From Coq Require Import String List ZArith Bool QArith Qcanon Lia.
From Verif Require Import Res Tensor Key Num Points Octree NnBasic NnConv NnInterp Net Spec SpecGeo WF SpecNeigh SpecNN SpecInterp SpecNet
  ListFacts KidsFacts WFFacts SearchFacts NnFacts PadFacts Family PoolFacts Unpool Finite SumFacts ConvOct NetFacts NetLoops NetPool
  UpsampleFacts GlobalPool VoxelThm BuildFacts.
Import ListNotations.
Open Scope Z_scope.

Lemma sumv_shape C rows : Forall (fun r => length r = C) rows -> length (sumv C rows) = C.
Proof.
  intros H. unfold sumv. induction H as [|r rows Hr _ IH]; cbn [fold_right]; [apply repeat_length|]. rewrite vadd_len; congruence.
Qed.
Lemma rows_at_sub {A} tags k (src : list A) a : In a (rows_at tags k src) -> In a src.
Proof. unfold rows_at. intros H. apply in_map_iff in H. destruct H as ([t r] & <- & H). apply filter_In in H. destruct H as [H _]. apply in_combine_r in H. exact H. Qed.
Lemma global_shape o d ne C x : wf_octree o -> (d <= depth o)%nat -> shape (node_count o d ne) C x ->
  exists y, octree_global_pool C x o d ne = Ok y /\ shape (batch_size o) C y.
Proof.
  intros W Hd Hx. destruct (thm_global_pool o d ne C x W Hd Hx) as (cs & y & _ & E & Hl & Hv). exists y. split; [exact E|]. split; [exact Hl|].
  apply Forall_forall. intros r Hr. apply In_nth_error in Hr. destruct Hr as [b Hb]. destruct (Hv b r Hb) as [H1 H2]. cbv zeta in H1, H2.
  destruct (rows_at (samples cs) (Z.of_nat b) x) as [|a l] eqn:Er.
  - rewrite H1 by reflexivity. apply repeat_length.
  - rewrite H2 by discriminate. unfold meanv. rewrite map_length. apply sumv_shape. apply Forall_forall. intros r' Hr'.
    destruct Hx as [_ Hx]. rewrite Forall_forall in Hx. apply Hx. rewrite <- Er in Hr'. apply rows_at_sub in Hr'. exact Hr'.
Qed.

Section Resnet.
  Variables (P : params) (cin cout num stages : nat) (ne : bool) (o : octree) (dep lo : nat).
  Hypothesis W : wf_octree o.
  Hypothesis HN : norms_keep lo P.
  Hypothesis Hdep : (stages <= dep <= depth o)%nat.
  Hypothesis Hst : (1 <= stages)%nat.
  Hypothesis Hnum : (1 <= num)%nat.
  Hypothesis HL : layers_ready o ne lo (dep - stages + 1) dep.
  Hypothesis HB : poolable o ne (dep - stages) dep.
  Hypothesis Hcin : channel_ok cin.
  Notation ch i := (nth i (stage_channels 9 stages) O).

  Lemma resnet_stage_ok i x : (i < stages - 1)%nat -> at_layer o ne (dep - S i) (ch i) x ->
    exists y, resnet_stage P (stage_channels 9 stages) num ne o (Z.of_nat dep) x (Z.of_nat i) = Ok y /\ at_layer o ne (dep - S (S i)) (ch (S i)) y.
  Proof.
    intros Hi Hx. unfold resnet_stage. pose proof (stage_len 9 stages) as Hl.
    rewrite (tget_len _ i O) by lia. cbn [bind]. replace (Z.of_nat i + 1) with (Z.of_nat (S i)) by lia. rewrite (tget_len _ (S i) O) by lia. cbn [bind].
    replace (Z.of_nat dep - Z.of_nat i - 1) with (Z.of_nat (dep - S i)) by lia. destruct (HL (dep - S i)%nat ltac:(lia)) as [Hn Hb].
    destruct (res_blocks_shape o (depth o) lo ne P W HN [("resblocks"%string, Z.of_nat i)] (ch i) (ch (S i)) num 4 false (dep - S i) x) as (y & Ey & Hy);
      [lia|exact Hn|exact Hb|lia|apply stage_ok; lia|apply chan_le, stage_ok; lia|lia|exact Hx|].
    rewrite Ey. cbn [bind]. replace (dep - S i)%nat with (S (dep - S (S i))) in * by lia.
    apply max_pool_shape; [exact W|lia| |exact Hy]. intros E. apply (HB E). lia.
  Qed.
  Theorem thm_resnet x : (lo <= batch_size o)%nat -> shape (node_count o dep ne) cin x ->
    exists y, ResNet P cin cout num stages ne x o (Z.of_nat dep) = Ok y /\ shape (batch_size o) cout y.
  Proof.
    intros Hbs Hx. unfold ResNet. pose proof (stage_len 9 stages) as Hl. change (tget (stage_channels 9 stages) 0) with (tget (stage_channels 9 stages) (Z.of_nat 0)).
    rewrite (tget_len _ 0 O) by lia. cbn [bind]. destruct (HL dep ltac:(lia)) as [Hn Hb].
    destruct (conv_bn_relu_shape o (depth o) lo ne P W HN [("conv1"%string, 0)] cin (ch 0) [3%nat] 1 dep x) as (y & Ey & Hy); auto; [lia|apply chan_le; exact Hcin|].
    rewrite Ey. cbn [bind]. change (down dep 1) with dep in Hy. 
    destruct (max_pool_shape o ne (ch 0) (dep - 1) y W) as (z & Ez & Hz); [lia| | |].
    { intros E. apply (HB E). lia. }
    { replace (S (dep - 1)) with dep by lia. exact Hy. }
    replace (S (dep - 1)) with dep in Ez by lia. rewrite Ez. cbn [bind].
    destruct (foldM_arange (fun i x => at_layer o ne (dep - S i) (ch i) x) (resnet_stage P (stage_channels 9 stages) num ne o (Z.of_nat dep)) (stages - 1) z) as (u & Eu & Hu).
    - exact Hz.
    - intros i s Hi. apply resnet_stage_ok. exact Hi.
    - rewrite Eu. cbn [bind]. change (-1) with (- Z.of_nat 1). rewrite (tget_neg _ 1 O) by lia. cbn [bind]. rewrite Hl.
      replace (Z.of_nat dep - Z.of_nat stages) with (Z.of_nat (dep - stages)) by lia. unfold at_depth.
      replace (Z.of_nat (dep - stages) <? 0) with false by (symmetry; apply Z.ltb_ge; lia). rewrite Nat2Z.id.
      replace (S (stages - 1)) with stages in Hu by lia.
      destruct (global_shape o (dep - stages) ne (ch (stages - 1)) u W ltac:(lia) Hu) as (v & Ev & Hv). rewrite Ev. cbn [bind].
      destruct (conv1x1_bn_relu_shape lo P HN [("header"%string, 0)] (ch (stages - 1)) 512 _ _ Hbs Hv) as (w & Ew & Hw). unfold fc_bn_relu. unfold conv1x1_bn_relu in Ew. rewrite Ew. cbn [bind].
      apply linear_shape. apply dropout_shape. exact Hw.
  Qed.
End Resnet.

Lemma app_nth_last (l : list nat) a d : nth (length l) (l ++ [a]) d = a.
Proof. rewrite app_nth2 by lia. rewrite Nat.sub_diag. reflexivity. Qed.

Section Segnet.
  Variables (P : params) (cin cout stages : nat) (ne : bool) (o : octree) (dep lo : nat).
  Hypothesis W : wf_octree o.
  Hypothesis HN : norms_keep lo P.
  Hypothesis Hdep : (stages <= dep <= depth o)%nat.
  Hypothesis Hst : (1 <= stages)%nat.
  Hypothesis HL : layers_ready o ne lo (dep - stages) dep.
  Hypothesis HB : poolable o ne (dep - stages) dep.
  Hypothesis Hcin : channel_ok cin.
  Notation st := (stage_channels 8 stages).
  Notation chs := (cin :: st).
  Notation ch i := (nth i chs O).
  Notation chs2 := (rev st ++ [nth 0 st O]).
  Definition has_index (m : ddict (list (list Z))) (j : nat) : Prop :=
    exists idx, dfind m (Z.of_nat (dep - j)) = Ok idx /\ shape (node_count o (dep - S j) true) (ch (S j)) idx /\ Forall (Forall (fun s => 0 <= s < 8)) idx.

  Lemma seg_len : length chs = S stages.
  Proof. cbn [length]. rewrite stage_len. reflexivity. Qed.
  Lemma seg_len2 : length chs2 = S stages.
  Proof. rewrite app_length, rev_length, stage_len. cbn. lia. Qed.
  Lemma seg_rev i : (i < stages)%nat -> nth i chs2 O = ch (stages - i).
  Proof.
    intros Hi. rewrite app_nth1 by (rewrite rev_length, stage_len; exact Hi). rewrite rev_nth by (rewrite stage_len; exact Hi). rewrite stage_len.
    replace (stages - i)%nat with (S (stages - S i)) by lia. reflexivity.
  Qed.
  Lemma seg2_ok i : channel_ok (nth i chs2 O).
  Proof.
    destruct (Nat.lt_ge_cases i stages) as [H|H]; [rewrite seg_rev by exact H; apply cons_stage_ok; [lia|exact Hcin]|].
    destruct (Nat.eq_dec i stages) as [->|N].
    - pose proof (app_nth_last (rev st) (nth 0 st O) O) as E. rewrite rev_length, stage_len in E. rewrite E. apply stage_ok. lia.
    - rewrite nth_overflow by (rewrite seg_len2; lia). unfold channel_ok. lia.
  Qed.

  Lemma segnet_down_ok i x m : (i < stages)%nat -> at_layer o ne (dep - i) (ch i) x -> (forall j, (j < i)%nat -> has_index m j) ->
    exists y m', segnet_down P chs ne o (Z.of_nat dep) (x, m) (Z.of_nat i) = Ok (y, m') /\ at_layer o ne (dep - S i) (ch (S i)) y /\
      (forall j, (j < S i)%nat -> has_index m' j).
  Proof.
    intros Hi Hx Hm. unfold segnet_down. pose proof seg_len as Hl.
    rewrite (tget_len _ i O) by lia. cbn [bind]. replace (Z.of_nat i + 1) with (Z.of_nat (S i)) by lia. rewrite (tget_len _ (S i) O) by lia. cbn [bind].
    replace (Z.of_nat dep - Z.of_nat i) with (Z.of_nat (dep - i)) by lia. destruct (HL (dep - i)%nat ltac:(lia)) as [Hn Hb].
    destruct (conv_bn_relu_shape o (depth o) lo ne P W HN [("convs"%string, Z.of_nat i)] (ch i) (ch (S i)) [3%nat] 1 (dep - i) x) as (y & Ey & Hy);
      auto; [lia|apply chan_le, cons_stage_ok; [lia|exact Hcin]|].
    rewrite Ey. cbn [bind]. change (down (dep - i) 1) with (dep - i)%nat in Hy.
    destruct (max_pool_ok o ne (ch (S i)) (dep - S i) y W) as (z & idx & Ez & Hz & Hidx & Hr); [lia| | |].
    { intros E. apply (HB E). lia. }
    { replace (S (dep - S i)) with (dep - i)%nat by lia. exact Hy. }
    replace (S (dep - S i)) with (dep - i)%nat in Ez by lia. rewrite Ez. cbn [bind].
    exists z, (dput m (Z.of_nat (dep - i)) idx). split; [reflexivity|]. split; [exact Hz|]. intros j Hj. unfold has_index. rewrite dfind_put.
    destruct (Nat.eq_dec j i) as [->|N]; [rewrite Z.eqb_refl; exists idx; auto|].
    replace (Z.of_nat (dep - j) =? Z.of_nat (dep - i)) with false by (symmetry; apply Z.eqb_neq; lia). apply Hm. lia.
  Qed.
  Lemma segnet_up_ok m i x : (forall j, (j < stages)%nat -> has_index m j) -> (i < stages)%nat -> at_layer o ne (dep - stages + i) (nth i chs2 O) x ->
    exists y, segnet_up P chs2 ne o (Z.of_nat (dep - stages)) m x (Z.of_nat i) = Ok y /\ at_layer o ne (dep - stages + S i) (nth (S i) chs2 O) y.
  Proof.
    intros Hm Hi Hx. unfold segnet_up. pose proof seg_len2 as Hl.
    rewrite (tget_len _ i O) by lia. cbn [bind]. replace (Z.of_nat i + 1) with (Z.of_nat (S i)) by lia. rewrite (tget_len _ (S i) O) by lia. cbn [bind].
    replace (Z.of_nat (dep - stages) + Z.of_nat i + 1) with (Z.of_nat (dep - (stages - S i))) by lia.
    destruct (Hm (stages - S i)%nat ltac:(lia)) as (idx & Ei & Hidx & Hr). rewrite Ei. cbn [bind].
    replace (dep - S (stages - S i))%nat with (dep - stages + i)%nat in Hidx by lia. replace (S (stages - S i)) with (stages - i)%nat in Hidx by lia.
    rewrite <- (seg_rev i Hi) in Hidx.
    replace (Z.of_nat (dep - stages) + Z.of_nat i) with (Z.of_nat (dep - stages + i)) by lia. unfold at_depth.
    replace (Z.of_nat (dep - stages + i) <? 0) with false by (symmetry; apply Z.ltb_ge; lia). rewrite Nat2Z.id.
    destruct (thm_unpool o (dep - stages + i) ne (nth i chs2 O) x idx W ltac:(lia) Hx Hidx Hr) as (qs & ps & cs & u & _ & _ & Ec & Eu & Hu & _).
    rewrite Eu. cbn [bind]. destruct (xyzb_count o (S (dep - stages + i)) ne W ltac:(lia)) as (cs' & Ec' & Hcl). rewrite Ec in Ec'. assert (cs' = cs) by congruence. subst cs'.
    rewrite Hcl in Hu. replace (dep - (stages - S i))%nat with (dep - stages + S i)%nat by lia. destruct (HL (dep - stages + S i)%nat ltac:(lia)) as [Hn Hb].
    apply (conv_bn_relu_shape o (depth o) lo ne P W HN [("deconvs"%string, Z.of_nat i)] (nth i chs2 O) (nth (S i) chs2 O) [3%nat] 1 (dep - stages + S i) u);
      [auto|lia|exact Hn|auto|apply chan_le, seg2_ok|exact Hb|].
    unfold at_layer. replace (dep - stages + S i)%nat with (S (dep - stages + i)) by lia. exact Hu.
  Qed.
  Lemma segnet_encoder_ok x : at_layer o ne dep cin x ->
    exists y m, foldM (segnet_down P chs ne o (Z.of_nat dep)) (x, []) (arange stages) = Ok (y, m) /\
      at_layer o ne (dep - stages) (ch stages) y /\ forall j, (j < stages)%nat -> has_index m j.
  Proof.
    intros Hx. destruct (foldM_arange (fun i s => at_layer o ne (dep - i) (ch i) (fst s) /\ forall j, (j < i)%nat -> has_index (snd s) j)
      (segnet_down P chs ne o (Z.of_nat dep)) stages (x, [])) as ([y m] & E & Hy & Hm).
    - cbn [fst snd]. rewrite Nat.sub_0_r. split; [exact Hx|]. intros j Hj. lia.
    - intros i [s m] Hi [H1 H2]. destruct (segnet_down_ok i s m Hi H1 H2) as (y & m' & E & H3). exists (y, m'). auto.
    - exists y, m. auto.
  Qed.
  Theorem thm_segnet lin x pts : (ne = true -> node_count o (dep - stages) true = node_count o (dep - stages) false) ->
    (lo <= length pts)%nat -> shape (node_count o dep ne) cin x -> Forall (fun p => -32768 <= snd p < 32768) pts ->
    exists logits pts', SegNet P cin cout stages lin ne x o (Z.of_nat dep) pts = Ok (logits, pts') /\ shape (length pts) cout logits.
  Proof.
    intros He Hlo Hx Hp. unfold SegNet. pose proof seg_len as Hl. pose proof seg_len2 as Hl2. pose proof (stage_len 8 stages) as Hl3.
    destruct (segnet_encoder_ok x Hx) as (y & m & E & Hy & Hm). rewrite E. cbn [bind]. change (-1) with (- Z.of_nat 1). rewrite (tget_neg chs 1 O) by lia. cbn [bind].
    rewrite Hl. replace (S stages - 1)%nat with stages by lia.
    replace (Z.of_nat dep - Z.of_nat stages) with (Z.of_nat (dep - stages)) by lia.
    assert (He' : node_count o (dep - stages) false = node_count o (dep - stages) ne) by (destruct ne; [symmetry; apply He; reflexivity|reflexivity]).
    destruct (HL (dep - stages)%nat ltac:(lia)) as [Hn Hb].
    destruct (conv_bn_relu_shape o (depth o) lo false P W HN [("bottleneck"%string, 0)] (ch stages) (ch stages) [3%nat] 1 (dep - stages) y) as (z & Ez & Hz);
      [auto|lia|exact Hn|auto|apply chan_le, cons_stage_ok; [lia|exact Hcin]| | |].
    { unfold busy. change (down (dep - stages) 1) with (dep - stages)%nat. rewrite He'. exact Hb. }
    { unfold at_layer. rewrite He'. exact Hy. }
    rewrite Ez. cbn [bind]. change (tget st 0) with (tget st (Z.of_nat 0)). rewrite (tget_len st 0 O) by lia. cbn [bind].
    destruct (foldM_arange (fun i x => at_layer o ne (dep - stages + i) (nth i chs2 O) x) (segnet_up P chs2 ne o (Z.of_nat (dep - stages)) m) stages z) as (u & Eu & Hu).
    - rewrite Nat.add_0_r. rewrite (seg_rev 0) by lia. rewrite Nat.sub_0_r. unfold at_layer in *. rewrite <- He'. exact Hz.
    - intros i s Hi. apply segnet_up_ok; assumption.
    - rewrite Eu. cbn [bind]. rewrite (tget_neg chs2 1 O) by lia. cbn [bind]. rewrite Hl2. replace (S stages - 1)%nat with stages by lia.
      replace (dep - stages + stages)%nat with dep in Hu by lia.
      destruct (interp_shape o ne lin (nth stages chs2 O) dep u pts W ltac:(lia) Hu Hp) as (f & pts' & Ef & Hf). rewrite Ef. cbn [bind].
      destruct (head_shape lo P HN [("header"%string, 0)] (nth stages chs2 O) 64 cout (length pts) f Hlo Hf) as (lg & Elg & Hlg). rewrite Elg. cbn [bind].
      exists lg, pts'. auto.
  Qed.

  (** The bottleneck rejects a tensor with rows for the non-empty nodes only. *)
  Theorem thm_segnet_fails lin x pts : ne = true -> node_count o (dep - stages) true <> node_count o (dep - stages) false ->
    shape (node_count o dep ne) cin x -> SegNet P cin cout stages lin ne x o (Z.of_nat dep) pts = Err AssertionError.
  Proof.
    intros Hne Hc Hx. unfold SegNet. pose proof seg_len as Hl.
    destruct (segnet_encoder_ok x Hx) as (y & m & E & Hy & Hm). rewrite E. cbn [bind]. change (-1) with (- Z.of_nat 1). rewrite (tget_neg chs 1 O) by lia. cbn [bind].
    rewrite Hl. replace (S stages - 1)%nat with stages by lia.
    replace (Z.of_nat dep - Z.of_nat stages) with (Z.of_nat (dep - stages)) by lia.
    destruct (HL (dep - stages)%nat ltac:(lia)) as [Hn Hb].
    assert (G : conv P [("bottleneck"%string, 0)] (ch stages) (ch stages) [3%nat] 1 false y o (Z.of_nat (dep - stages)) = Err AssertionError).
    { destruct (conv_shape o (depth o) false P W [("bottleneck"%string, 0)] (ch stages) (ch stages) [3%nat] 1 (dep - stages)
        (tensor2 (node_count o (dep - stages) false) (ch stages) (fun _ _ => 0%Qc))) as (z & Ez & _); [auto|lia|exact Hn|auto|apply chan_le, cons_stage_ok; [lia|exact Hcin]|apply tensor2_shape|].
      unfold conv, at_depth in *. replace (Z.of_nat (dep - stages) <? 0) with false in * by (symmetry; apply Z.ltb_ge; lia). rewrite Nat2Z.id in *.
      destruct (conv_init _) as [mm0|]; [|discriminate]. cbn [bind] in *. unfold OctreeConv, conv_forward in *.
      destruct (conv_init _) as [mm1|]; [|discriminate]. cbn [bind] in *.
      destruct (conv_setup _ mm1 o (dep - stages)) as [s|] eqn:Es; [|discriminate]. cbn [bind] in *.
      unfold conv_setup in Es. cbn [c_stride c_isconv c_nempty Z.eqb Pos.eqb andb negb] in Es.
      destruct W as (K & M & T). destruct (t_layer _ _ _ _ T (dep - stages) ltac:(lia)) as (l & El & _ & _ & Hnn & _).
      unfold get_layer in Es. rewrite (tget_Ok _ _ _ El) in Es. cbn [bind] in Es.
      destruct (get_neigh _ _ _ _ _) as [t|]; [|discriminate]. cbn [bind] in Es. destruct (buffer_plan _ _ _ _) as [[n h]|]; [|discriminate]. cbn [bind] in Es.
      injection Es as <-. unfold check_and_init. cbn [g_in_h c_in]. replace (has_shape (nnum l) (ch stages) y) with false; [reflexivity|].
      symmetry. unfold has_shape. apply andb_false_iff. left. apply Z.eqb_neq. unfold zlen. destruct Hy as [Hy _]. rewrite Hy, Hne.
      intros Eq. apply Hc. unfold node_count in Eq |- *. rewrite El in Eq |- *. cbv iota in *. rewrite <- Eq. rewrite Nat2Z.id. reflexivity. }
    unfold conv_bn_relu. rewrite G. reflexivity.
  Qed.
End Segnet.
