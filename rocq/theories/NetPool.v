(** Shapes of the outputs of the networks with max pooling. *)
From Coq Require Import String List ZArith Bool QArith Qcanon Lia.
From Verif Require Import Res Tensor Key Num Points Octree NnBasic NnConv NnInterp Net Spec SpecGeo WF SpecNeigh SpecNN SpecInterp SpecNet
  ListFacts KidsFacts WFFacts SearchFacts NnFacts PadFacts Family PoolFacts Unpool Finite SumFacts NetFacts NetLoops
  UpsampleFacts GlobalPool VoxelThm.
Import ListNotations.
Open Scope Z_scope.

Lemma xyzb_count o d ne : wf_octree o -> (d <= depth o)%nat -> exists cs, octree_xyzb o d ne = Ok cs /\ length cs = node_count o d ne.
Proof.
  intros (K & M & T) Hd. exists (map (coords d) (sel K M ne d)). split; [apply (tree_xyzb o (depth o)); assumption|].
  rewrite map_length. symmetry. apply (node_count_sel o (depth o)); assumption.
Qed.
Lemma has_child o d qs cs q : wf_octree o -> (S d <= depth o)%nat -> octree_xyzb o d true = Ok qs -> octree_xyzb o (S d) false = Ok cs -> In q qs ->
  exists c, In c cs /\ parent_cell c = q.
Proof.
  intros (K & M & T) Hd Eq Ec Hq. rewrite (tree_xyzb o (depth o) K M) in Eq by (assumption || lia). rewrite (tree_xyzb o (depth o) K M) in Ec by (assumption || lia).
  injection Eq as <-. injection Ec as <-. apply in_map_iff in Hq. destruct Hq as (k & <- & Hk).
  assert (Hks : In (first_kid k) (kids k)) by (pose proof (kids_nth k 0 ltac:(lia)) as E; rewrite Z.add_0_r in E; eapply nth_error_In; exact E).
  exists (coords (S d) (first_kid k)). split.
  - apply in_map. cbn [sel]. rewrite (link_sel o (depth o) K M T) by lia. apply in_flat_map. exists k. split; assumption.
  - pose proof (sel_vkey o (depth o) K M T true d ltac:(lia)) as V. rewrite Forall_forall in V.
    destruct (kids_vkey (batch_size o) d k (first_kid k)) as [V1 V2]; [pose proof (t_depth _ _ _ _ T); lia|apply V; exact Hk|exact Hks|].
    rewrite (parent_coords (batch_size o)); [congruence|pose proof (t_depth _ _ _ _ T); lia|exact V1].
Qed.
Lemma child_no_range q : 0 <= child_no q < 8.
Proof. destruct q as [[[x y] z] b]. unfold child_no. pose proof (Z.mod_pos_bound x 2). pose proof (Z.mod_pos_bound y 2). pose proof (Z.mod_pos_bound z 2). lia. Qed.

Lemma finite_rows_ok n C (out : list (list (option Qc))) : finite out -> shape n C out -> exists y, finite_rows out = Ok y /\ shape n C y.
Proof.
  intros F [H1 H2]. unfold finite_rows. rewrite <- H1. clear H1. induction out as [|r out IH].
  - exists []. split; [reflexivity|]. split; [reflexivity|constructor].
  - inversion F as [|? ? Fr Fo]; subst. inversion H2 as [|? ? Hr Ho]; subst. destruct (IH Fo Ho) as (y & Ey & Hy1 & Hy2).
    assert (G : exists z, mapM (fun v => match v with Some q => Ok q | None => Err RuntimeError end) r = Ok z /\ length z = length r).
    { clear -Fr. induction r as [|v r IH]; [exists []; split; reflexivity|]. inversion Fr as [|? ? Hv Fr']; subst. destruct (IH Fr') as (z & Ez & Hz).
      destruct v as [q|]; [|congruence]. exists (q :: z). cbn [mapM bind]. rewrite Ez. cbn. split; [reflexivity|congruence]. }
    destruct G as (z & Ez & Hz). exists (z :: y). cbn [mapM]. rewrite Ez. cbn [bind]. rewrite Ey. cbn [bind]. split; [reflexivity|].
    split; [cbn; rewrite Hy1; reflexivity|]. constructor; [exact Hz|exact Hy2].
Qed.

Lemma cell_dec (p q : Z * Z * Z * Z) : {p = q} + {p <> q}.
Proof. repeat decide equality. Qed.

Lemma max_pool_ok o ne C d x : wf_octree o -> (S d <= depth o)%nat -> (ne = true -> branching o d) -> shape (node_count o (S d) ne) C x ->
  exists y idx, max_pool_ind C ne x o (Z.of_nat (S d)) = Ok (y, idx) /\ shape (node_count o d ne) C y /\
    shape (node_count o d true) C idx /\ Forall (Forall (fun s => 0 <= s < 8)) idx.
Proof.
  intros W Hd Hb Hx. destruct (thm_max_pool o d ne C x W Hd Hx) as (qs & ps & cs & out & idx & Eq & Ep & Ec & E & Hout & Hidx & HM).
  destruct (xyzb_count o d true W ltac:(lia)) as (qs' & Eq' & Hq). rewrite Eq in Eq'. assert (qs' = qs) by congruence. subst qs'.
  destruct (xyzb_count o d ne W ltac:(lia)) as (ps' & Ep' & Hpl). rewrite Ep in Ep'. assert (ps' = ps) by congruence. subst ps'.
  assert (F : finite out).
  { apply Forall_forall. intros row Hrow. apply Forall_forall. intros v Hv.
    apply In_nth with (d := []) in Hrow. destruct Hrow as (i & Hi & <-). apply In_nth with (d := None) in Hv. destruct Hv as (c & Hc & <-).
    rewrite (proj1 Hout) in Hi. rewrite (shape_nth (length ps) C out i Hout Hi) in Hc.
    destruct (nth_error ps i) as [p|] eqn:Ei; [|apply nth_error_None in Ei; lia].
    destruct (HM i p Ei) as [G1 G2]. destruct (in_dec cell_dec p qs) as [Hin|Hout'].
    - pose proof Hin as Hin'. apply In_nth_error in Hin. destruct Hin as [r Hr]. specialize (G1 r c Hr Hc). intros Hn. unfold entry2 in G1. rewrite Hn in G1. destruct G1 as [_ G1].
      destruct ne.
      + destruct (Hb eq_refl qs cs p Eq Ec Hin') as (ch & Hch & Hpc). exact (G1 ch Hch Hpc).
      + destruct (has_child o d qs cs p W Hd Eq Ec Hin') as (ch & Hch & Hpc). exact (G1 ch Hch Hpc).
    - specialize (G2 Hout' c Hc). unfold entry2 in G2. congruence. }
  rewrite Hpl in Hout. rewrite Hq in Hidx.
  destruct (finite_rows_ok _ _ out F Hout) as (y & Ey & Hy). exists y, idx. split; [|split; [exact Hy|split; [exact Hidx|]]].
  - unfold max_pool_ind, at_depth. replace (Z.of_nat (S d) <? 0) with false by (symmetry; apply Z.ltb_ge; lia). rewrite Nat2Z.id, E. cbn [bind]. rewrite Ey. reflexivity.
  - apply Forall_forall. intros row Hrow. apply Forall_forall. intros s Hs. apply In_nth with (d := []) in Hrow. destruct Hrow as (r & Hr & <-).
    apply In_nth with (d := 0) in Hs. destruct Hs as (c & Hc & <-). rewrite (proj1 Hidx) in Hr. rewrite (shape_nth _ C idx r Hidx Hr) in Hc.
    destruct (nth_error qs r) as [p|] eqn:Er; [|apply nth_error_None in Er; lia].
    assert (Hps : In p ps).
    { destruct W as (K & M & T). rewrite (tree_xyzb o (depth o) K M) in Eq by (assumption || lia). rewrite (tree_xyzb o (depth o) K M) in Ep by (assumption || lia).
      injection Eq as <-. injection Ep as <-. apply nth_error_In in Er. apply in_map_iff in Er. destruct Er as (k & <- & Hk). apply in_map. apply (sel_true_sub K M ne d k Hk). }
    apply In_nth_error in Hps. destruct Hps as [i Hi]. destruct (HM i p Hi) as [G1 _]. specialize (G1 r c Er Hc). unfold max_over_children in G1.
    destruct (entry2 None out i c) as [m|].
    + destruct G1 as [(j & q & _ & _ & Hcn & _) _]. unfold entry2 in Hcn. rewrite <- Hcn. apply child_no_range.
    + destruct G1 as [Hz _]. unfold entry2 in Hz. rewrite Hz. lia.
Qed.
Lemma max_pool_shape o ne C d x : wf_octree o -> (S d <= depth o)%nat -> (ne = true -> branching o d) -> shape (node_count o (S d) ne) C x ->
  exists y, max_pool C ne x o (Z.of_nat (S d)) = Ok y /\ shape (node_count o d ne) C y.
Proof. intros W Hd Hb Hx. destruct (max_pool_ok o ne C d x W Hd Hb Hx) as (y & idx & E & Hy & _). unfold max_pool. rewrite E. cbn [bind]. eauto. Qed.

(** ** channels per stage *)
Lemma stage_len k n : length (stage_channels k n) = n.
Proof. unfold stage_channels. rewrite map_length, seq_length. reflexivity. Qed.
Lemma stage_nth k n i : (i < n)%nat -> nth i (stage_channels k n) O = (2 ^ Nat.max (i + k - n) 2)%nat.
Proof.
  intros H. unfold stage_channels. rewrite (nth_indep _ O ((fun i => 2 ^ Nat.max (i + k - n) 2)%nat O)) by (rewrite map_length, seq_length; exact H).
  rewrite (map_nth (fun i => 2 ^ Nat.max (i + k - n) 2)%nat). rewrite seq_nth by exact H. reflexivity.
Qed.
Lemma stage_ok k n i : (k <= 9)%nat -> channel_ok (nth i (stage_channels k n) O).
Proof.
  intros Hk. destruct (Nat.lt_ge_cases i n) as [H|H].
  - rewrite stage_nth by exact H. unfold channel_ok. assert (E : (2 ^ Nat.max (i + k - n) 2 <= 2 ^ 9)%nat) by (apply Nat.pow_le_mono_r; lia). cbn [Nat.pow Nat.mul Nat.add] in E. lia.
  - rewrite nth_overflow by (rewrite stage_len; exact H). unfold channel_ok. lia.
Qed.
Lemma stage_last k n : (3 <= k)%nat -> (1 <= n)%nat -> nth (n - 1) (stage_channels k n) O = (2 ^ (k - 1))%nat.
Proof. intros Hk Hn. rewrite stage_nth by lia. f_equal. lia. Qed.
Lemma cons_stage_ok cin k n i : (k <= 9)%nat -> channel_ok cin -> channel_ok (nth i (cin :: stage_channels k n) O).
Proof. intros Hk Hc. destruct i as [|i]; [exact Hc|]. apply stage_ok. exact Hk. Qed.
Lemma chan_le c : channel_ok c -> Z.of_nat c <= 5000000.
Proof. unfold channel_ok. lia. Qed.

(** ** LeNet *)
Lemma chunk_shape {A} B v (l : list A) : length l = (B * v)%nat -> length (chunk_rows B v l) = B /\ Forall (fun r => length r = v) (chunk_rows B v l) /\
  forall r, In r (chunk_rows B v l) -> forall a, In a r -> In a l.
Proof.
  revert l. induction B as [|B IH]; intros l H; [cbn; repeat split; auto; contradiction|]. cbn [chunk_rows length].
  destruct (IH (skipn v l)) as (H1 & H2 & H3). { rewrite skipn_length, H. lia. }
  split; [rewrite H1; reflexivity|]. split; [constructor; [rewrite firstn_length, H; nia|exact H2]|].
  intros r [<-|Hr] a Ha.
  - rewrite <- (firstn_skipn v l). apply in_or_app. left. exact Ha.
  - rewrite <- (firstn_skipn v l). apply in_or_app. right. exact (H3 r Hr a Ha).
Qed.
Lemma concat_len {A} n (l : list (list A)) : Forall (fun r => length r = n) l -> length (concat l) = (length l * n)%nat.
Proof. induction 1 as [|r l H _ IH]; cbn; [reflexivity|]. rewrite app_length, IH, H. reflexivity. Qed.
Lemma flatten_shape B v C x : shape (B * v) C x -> shape B (v * C) (flatten_vox B v x).
Proof.
  intros [H1 H2]. destruct (chunk_shape B v x H1) as (L1 & L2 & L3). unfold flatten_vox. split; [rewrite map_length; exact L1|].
  apply Forall_map. apply Forall_forall. intros r Hr. rewrite Forall_forall in L2. rewrite (concat_len C); [rewrite (L2 r Hr); reflexivity|].
  apply Forall_forall. intros a Ha. rewrite Forall_forall in H2. apply H2. exact (L3 r Hr a Ha).
Qed.

Section Pooled.
  Variables (P : params) (cin cout stages : nat) (ne : bool) (o : octree) (dep lo : nat).
  Hypothesis W : wf_octree o.
  Hypothesis HN : norms_keep lo P.
  Hypothesis Hdep : (stages <= dep <= depth o)%nat.
  Hypothesis Hst : (1 <= stages)%nat.
  Hypothesis HL : layers_ready o ne lo (dep - stages + 1) dep.
  Hypothesis HB : poolable o ne (dep - stages) dep.
  Hypothesis Hcin : channel_ok cin.

  Lemma lenet_stage_ok i x : (i < stages)%nat -> at_layer o ne (dep - i) (nth i (cin :: stage_channels 7 stages) O) x ->
    exists y, lenet_stage P (cin :: stage_channels 7 stages) ne o (Z.of_nat dep) x (Z.of_nat i) = Ok y /\
      at_layer o ne (dep - S i) (nth (S i) (cin :: stage_channels 7 stages) O) y.
  Proof.
    intros Hi Hx. unfold lenet_stage. assert (Hl : length (cin :: stage_channels 7 stages) = S stages) by (cbn [length]; rewrite stage_len; reflexivity).
    rewrite (tget_len _ i O) by lia. cbn [bind]. replace (Z.of_nat i + 1) with (Z.of_nat (S i)) by lia. rewrite (tget_len _ (S i) O) by lia. cbn [bind].
    replace (Z.of_nat dep - Z.of_nat i) with (Z.of_nat (dep - i)) by lia. destruct (HL (dep - i)%nat ltac:(lia)) as [Hn Hb].
    destruct (conv_bn_relu_shape o (depth o) lo ne P W HN [("convs"%string, Z.of_nat i)] (nth i (cin :: stage_channels 7 stages) O)
      (nth (S i) (cin :: stage_channels 7 stages) O) [3%nat] 1 (dep - i) x) as (y & Ey & Hy); auto; [lia|apply chan_le, cons_stage_ok; [lia|exact Hcin]|].
    rewrite Ey. cbn [bind]. replace (dep - i)%nat with (S (dep - S i)) in * by lia.
    apply max_pool_shape; [exact W|lia| |exact Hy]. intros E. apply (HB E). lia.
  Qed.
  Theorem thm_lenet x : (dep - stages = 2)%nat -> (lo <= batch_size o)%nat -> shape (node_count o dep ne) cin x ->
    exists y, LeNet P cin cout stages ne x o (Z.of_nat dep) = Ok y /\ shape (batch_size o) cout y.
  Proof.
    intros H2 Hbs Hx. unfold LeNet.
    destruct (foldM_arange (fun i x => at_layer o ne (dep - i) (nth i (cin :: stage_channels 7 stages) O) x)
      (lenet_stage P (cin :: stage_channels 7 stages) ne o (Z.of_nat dep)) stages x) as (y & Ey & Hy).
    - rewrite Nat.sub_0_r. exact Hx.
    - intros i s Hi. apply lenet_stage_ok. exact Hi.
    - rewrite Ey. cbn [bind]. change (-1) with (- Z.of_nat 1). rewrite (tget_neg _ 1 O) by (cbn [length]; rewrite stage_len; lia). cbn [bind].
      assert (Hc : nth (length (cin :: stage_channels 7 stages) - 1) (cin :: stage_channels 7 stages) O = 64%nat).
      { cbn [length]. rewrite stage_len. replace (S stages - 1)%nat with (S (stages - 1)) by lia. cbn [nth]. apply (stage_last 7 stages); lia. }
      rewrite Hc. replace (Z.of_nat dep - Z.of_nat stages) with (Z.of_nat 2) by lia. unfold at_depth. change (Z.of_nat 2 <? 0) with false. cbv iota. rewrite Nat2Z.id.
      assert (Hy2 : shape (node_count o 2 ne) 64 y).
      { unfold at_layer in Hy. rewrite H2 in Hy. replace stages with (S (stages - 1)) in Hy at 1 by lia. cbn [nth] in Hy. rewrite (stage_last 7 stages) in Hy by lia. exact Hy. }
      destruct (thm_voxel o 2 ne 64 y W ltac:(lia) Hy2) as (cs & vox & _ & _ & _ & Ev & Hv & _). rewrite Ev. cbn [bind].
      pose proof (flatten_shape _ _ _ _ Hv) as Hf. change (8 ^ 2 * 64)%nat with 4096%nat in Hf.
      pose proof (dropout_shape P [("header"%string, 0)] _ _ _ Hf) as Hd.
      destruct (conv1x1_bn_relu_shape lo P HN [("header"%string, 1)] 4096 128 _ _ Hbs Hd) as (z & Ez & Hz). unfold fc_bn_relu. unfold conv1x1_bn_relu in Ez. rewrite Ez. cbn [bind].
      apply linear_shape. apply dropout_shape. exact Hz.
  Qed.
End Pooled.
