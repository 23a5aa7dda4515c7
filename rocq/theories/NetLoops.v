(** Shapes of the outputs of the networks. *)
From Coq Require Import String List ZArith Bool QArith Qcanon Lia.
From Verif Require Import Res Tensor Key Num Points Octree NnBasic NnConv NnInterp Net Spec SpecGeo WF SpecNeigh SpecNN SpecInterp SpecNet
  ListFacts KidsFacts WFFacts SearchFacts NnFacts ConvFacts ConvOct Deconv PadFacts Family PoolFacts Unpool Finite SumFacts NetFacts
  InterpFacts LinearFacts LinearThms UpsampleFacts GlobalPool VoxelThm.
Import ListNotations.
Open Scope Z_scope.

Lemma arange_S n : arange (S n) = arange n ++ [Z.of_nat n].
Proof. unfold arange. rewrite seq_S, map_app. reflexivity. Qed.
Lemma foldM_app {A S} (f : S -> A -> res S) s l1 l2 : foldM f s (l1 ++ l2) = bind (foldM f s l1) (fun s => foldM f s l2).
Proof. revert s. induction l1 as [|a l1 IH]; intros s; cbn; [reflexivity|]. destruct (f s a); cbn; [apply IH|reflexivity]. Qed.
Lemma foldM_arange {S} (Inv : nat -> S -> Prop) (f : S -> Z -> res S) n s : Inv O s ->
  (forall i s, (i < n)%nat -> Inv i s -> exists s', f s (Z.of_nat i) = Ok s' /\ Inv (Datatypes.S i) s') ->
  exists s', foldM f s (arange n) = Ok s' /\ Inv n s'.
Proof.
  intros H0 H. induction n as [|n IH]; [exists s; split; [reflexivity|exact H0]|].
  destruct IH as (s1 & E1 & H1). { intros i s' Hi. apply H. lia. }
  destruct (H n s1 ltac:(lia) H1) as (s2 & E2 & H2). exists s2. split; [|exact H2].
  rewrite arange_S, foldM_app, E1. cbn [bind foldM]. rewrite E2. reflexivity.
Qed.

Lemma tget_len {A} (l : list A) i d : (i < length l)%nat -> tget l (Z.of_nat i) = Ok (nth i l d).
Proof. intros H. apply tget_Ok. apply nth_error_nth'. exact H. Qed.
Lemma tget_neg {A} (l : list A) i d : (1 <= i <= length l)%nat -> tget l (- Z.of_nat i) = Ok (nth (length l - i) l d).
Proof.
  intros H. unfold tget, norm_index, zlen.
  replace (0 <=? - Z.of_nat i) with false by (symmetry; apply Z.leb_gt; lia). cbn [andb].
  replace (- Z.of_nat i <? 0) with true by (symmetry; apply Z.ltb_lt; lia). cbn [andb].
  replace (0 <=? - Z.of_nat i + Z.of_nat (length l)) with true by (symmetry; apply Z.leb_le; lia).
  replace (Z.to_nat (- Z.of_nat i + Z.of_nat (length l))) with (length l - i)%nat by lia.
  rewrite (nth_error_nth' l d) by lia. reflexivity.
Qed.

Lemma nth_repeat' {A} (a : A) n i d : (i < n)%nat -> nth i (repeat a n) d = a.
Proof. intros H. apply (repeat_spec n). apply nth_In. rewrite repeat_length. exact H. Qed.

Section Blocks.
  Variables (o : octree) (L lo : nat) (ne : bool) (P : params).
  Hypothesis W : wf_upto o L.
  Hypothesis HN : norms_keep lo P.
  Lemma res_blocks_shape p ci co num bk basic d x : (d <= L)%nat -> has_neigh o d -> busy o lo ne d -> bk <> O -> channel_ok co ->
    Z.of_nat ci <= 5000000 -> (num = O -> ci = co) -> at_layer o ne d ci x ->
    exists y, res_blocks P p ci co num bk ne basic x o (Z.of_nat d) = Ok y /\ at_layer o ne d co y.
  Proof.
    intros Hd Hn Hb Hk Hc Hci Hz Hx. unfold res_blocks.
    destruct (foldM_arange (fun i x => at_layer o ne d (nth i (ci :: repeat co num) O) x)
      (fun x i => ci0 <- tget (ci :: repeat co num) i ;; co0 <- tget (ci :: repeat co num) (i + 1) ;;
         (if basic then res_block2 else res_block) P (p ++ [("resblks"%string, i)]) ci0 co0 1 bk ne x o (Z.of_nat d)) num x) as (y & E & Hy).
    - exact Hx.
    - intros i s Hi Hs. assert (Hl : length (ci :: repeat co num) = S num) by (cbn; rewrite repeat_length; reflexivity).
      rewrite (tget_len _ i O) by lia. cbn [bind]. replace (Z.of_nat i + 1) with (Z.of_nat (S i)) by lia.
      rewrite (tget_len _ (S i) O) by lia. cbn [bind].
      assert (E1 : nth (S i) (ci :: repeat co num) O = co) by (cbn [nth]; rewrite (nth_repeat' co num i); [reflexivity|exact Hi]). rewrite E1.
      assert (Hci' : Z.of_nat (nth i (ci :: repeat co num) O) <= 5000000).
      { destruct i as [|i]; [exact Hci|]. cbn [nth]. rewrite (nth_repeat' co num i) by lia. unfold channel_ok in Hc. lia. }
      destruct basic; [apply (res_block2_shape o L lo)|apply (res_block_shape o L lo)]; assumption.
    - exists y. split; [exact E|]. destruct num as [|num]; [rewrite <- (Hz eq_refl); exact Hy|]. cbn [nth] in Hy. rewrite (nth_repeat' co (S num) num) in Hy by lia. exact Hy.
  Qed.
End Blocks.

(** ** interpolation at the query points *)
Lemma interp_shape o ne lin C d x pts : wf_octree o -> (d <= depth o)%nat -> shape (node_count o d ne) C x ->
  Forall (fun p => -32768 <= snd p < 32768) pts ->
  exists y pts', interp lin ne C x o (Z.of_nat d) pts = Ok (y, pts') /\ shape (length pts) C y.
Proof.
  intros W Hd Hx Hp. unfold interp, at_depth, interp_forward. replace (Z.of_nat d <? 0) with false by (symmetry; apply Z.ltb_ge; lia). rewrite Nat2Z.id.
  set (pts' := map _ pts). assert (Hp' : Forall (fun p => -32768 <= snd p < 32768) pts').
  { unfold pts'. apply Forall_map. eapply Forall_impl; [|exact Hp]. intros [p b]. auto. }
  assert (Hl : length pts' = length pts) by apply map_length.
  destruct lin.
  - destruct (thm_linear_interior o d ne C x pts' W Hd Hx Hp') as (cs & y & _ & E & Hy & _). rewrite E. cbn [bind]. exists y, pts'. split; [reflexivity|]. rewrite <- Hl. exact Hy.
  - destruct (thm_nearest o d ne false C x pts' W Hd Hx Hp') as (cs & y & _ & E & Hy & _). rewrite E. cbn [bind]. exists y, pts'. split; [reflexivity|]. rewrite <- Hl. exact Hy.
Qed.

(** ** U-Net *)
Lemma dfind_put {A} (m : ddict A) k v k' : dfind (dput m k v) k' = if k' =? k then Ok v else dfind m k'.
Proof. reflexivity. Qed.
Lemma forall_nth_ok l i : Forall channel_ok l -> channel_ok (nth i l O).
Proof. intros H. destruct (Nat.lt_ge_cases i (length l)) as [Hi|Hi]; [rewrite Forall_forall in H; apply H, nth_In; exact Hi|]. rewrite nth_overflow by exact Hi. unfold channel_ok. lia. Qed.

Section Unet.
  Variables (g : unet_cfg) (P : params) (cin cout : nat) (ne : bool) (o : octree) (dep lo : nat).
  Hypothesis G : unet_config g.
  Hypothesis W : wf_octree o.
  Hypothesis HN : norms_keep lo P.
  Notation es := (length (u_enc_blk g)).
  Notation ds := (length (u_dec_blk g)).
  Notation enc i := (nth i (u_enc_ch g) O).
  Notation dec i := (nth i (u_dec_ch g) O).
  Hypothesis Hdep : (es <= dep <= depth o)%nat.
  Hypothesis HL : layers_ready o ne lo (dep - es) dep.
  Hypothesis Hcin : channel_ok cin.

  Definition has_conv (convd : ddict (list (list Qc))) (j : nat) : Prop :=
    exists x, dfind convd (Z.of_nat (dep - j)) = Ok x /\ at_layer o ne (dep - j) (enc j) x.

  Lemma ready d : (dep - es <= d <= dep)%nat -> has_neigh o d /\ busy o lo ne d.
  Proof. intros H. apply HL. exact H. Qed.

  Lemma unet_down_ok i convd : (i < es)%nat -> (forall j, (j <= i)%nat -> has_conv convd j) ->
    exists c, unet_down g P ne o (Z.of_nat dep) convd (Z.of_nat i) = Ok c /\ forall j, (j <= S i)%nat -> has_conv c j.
  Proof.
    intros Hi H. pose proof (uc_enc g G) as Hl. unfold unet_down. rewrite (tget_len _ i O) by lia. cbn [bind].
    replace (Z.of_nat i + 1) with (Z.of_nat (S i)) by lia. rewrite (tget_len _ (S i) O) by lia. cbn [bind]. rewrite (tget_len (u_enc_blk g) i O) by lia. cbn [bind].
    destruct (H i ltac:(lia)) as (x & Ex & Hx). replace (Z.of_nat dep - Z.of_nat i) with (Z.of_nat (dep - i)) by lia. rewrite Ex. cbn [bind].
    destruct (ready (dep - i) ltac:(lia)) as [Hn1 Hb1]. destruct (ready (dep - S i) ltac:(lia)) as [Hn2 Hb2].
    pose proof (forall_nth_ok _ i (uc_enc_small g G)) as Hc1. pose proof (forall_nth_ok _ (S i) (uc_enc_small g G)) as Hc2. unfold channel_ok in Hc1.
    assert (Hdn : down (dep - i) 2 = (dep - S i)%nat) by (unfold down; cbn [Z.eqb Pos.eqb]; lia).
    destruct (conv_bn_relu_shape o (depth o) lo ne P W HN [("downsample"%string, Z.of_nat i)] (enc i) (enc (S i)) [2%nat] 2 (dep - i) x) as (y & Ey & Hy);
      [auto|lia|exact Hn1|right; split; [reflexivity|lia]|lia|rewrite Hdn; exact Hb2|exact Hx|].
    rewrite Hdn in Hy. rewrite Ey. cbn [bind].
    replace (Z.of_nat (dep - i) - 1) with (Z.of_nat (dep - S i)) by lia.
    destruct (res_blocks_shape o (depth o) lo ne P W HN [("encoder"%string, Z.of_nat i)] (enc (S i)) (enc (S i)) (nth i (u_enc_blk g) O) (u_bneck g) (u_basic g) (dep - S i) y)
      as (z & Ez & Hz); [lia|exact Hn2|exact Hb2|exact (uc_bneck g G)|exact Hc2|unfold channel_ok in Hc2; lia|reflexivity|exact Hy|].
    rewrite Ez. cbn [bind]. eexists. split; [reflexivity|]. intros j Hj. unfold has_conv. rewrite dfind_put.
    destruct (Nat.eq_dec j (S i)) as [->|N]; [rewrite Z.eqb_refl; exists z; auto|].
    replace (Z.of_nat (dep - j) =? Z.of_nat (dep - S i)) with false by (symmetry; apply Z.eqb_neq; lia). apply H. lia.
  Qed.
  Lemma unet_encoder_ok x : at_layer o ne dep cin x ->
    exists c, unet_encoder g P cin ne x o (Z.of_nat dep) = Ok c /\ forall j, (j <= es)%nat -> has_conv c j.
  Proof.
    intros Hx. pose proof (uc_enc g G) as Hl. unfold unet_encoder. rewrite (tget_len _ 0 O) by lia. cbn [bind].
    destruct (ready dep ltac:(lia)) as [Hn Hb]. pose proof Hcin as Hc. unfold channel_ok in Hc.
    destruct (conv_bn_relu_shape o (depth o) lo ne P W HN [("conv1"%string, 0)] cin (enc 0) [3%nat] 1 dep x) as (y & Ey & Hy); auto; [lia|lia|].
    rewrite Ey. cbn [bind].
    destruct (foldM_arange (fun i c => forall j, (j <= i)%nat -> has_conv c j) (unet_down g P ne o (Z.of_nat dep)) es (dput [] (Z.of_nat dep) y)) as (c & Ec & Hc').
    - intros j Hj. assert (j = O) by lia. subst j. unfold has_conv. rewrite Nat.sub_0_r, dfind_put, Z.eqb_refl. exists y. auto.
    - intros i s Hi. apply unet_down_ok. exact Hi.
    - exists c. auto.
  Qed.
  Lemma unet_up_ok convd i x : (forall j, (j <= es)%nat -> has_conv convd j) -> (i < ds)%nat -> at_layer o ne (dep - es + i) (dec i) x ->
    exists y, unet_up g P ne o (Z.of_nat (dep - es)) convd x (Z.of_nat i) = Ok y /\ at_layer o ne (dep - es + S i) (dec (S i)) y.
  Proof.
    intros H Hi Hx. pose proof (uc_enc g G) as Hl. pose proof (uc_dec g G) as Hl2. pose proof (uc_stages g G) as Hst. unfold unet_up.
    rewrite (tget_len _ i O) by lia. cbn [bind]. replace (Z.of_nat i + 1) with (Z.of_nat (S i)) by lia. rewrite (tget_len _ (S i) O) by lia. cbn [bind].
    replace (- Z.of_nat i - 2) with (- Z.of_nat (i + 2)) by lia. rewrite (tget_neg _ (i + 2) O) by lia. cbn [bind]. rewrite (tget_len (u_dec_blk g) i O) by lia. cbn [bind].
    replace (Z.of_nat (dep - es) + Z.of_nat i) with (Z.of_nat (dep - es + i)) by lia.
    pose proof (forall_nth_ok _ (S i) (uc_dec_small g G)) as Hc1. pose proof (forall_nth_ok _ (length (u_enc_ch g) - (i + 2)) (uc_enc_small g G)) as Hc2.
    assert (Hup : up (dep - es + i) 2 = (dep - es + S i)%nat) by (unfold up; cbn [Z.eqb Pos.eqb]; lia).
    destruct (ready (dep - es + S i) ltac:(lia)) as [Hn Hb].
    destruct (deconv_bn_relu_shape o (depth o) lo ne P W HN [("upsample"%string, Z.of_nat i)] (dec i) (dec (S i)) [2%nat] 2 (dep - es + i) x) as (y & Ey & Hy);
      [auto|rewrite Hup; lia|rewrite Hup; exact Hn|auto|unfold channel_ok in Hc1; lia|rewrite Hup; exact Hb|exact Hx|].
    rewrite Hup in Hy. rewrite Ey. cbn [bind]. replace (Z.of_nat (dep - es + i) + 1) with (Z.of_nat (dep - es + S i)) by lia.
    destruct (H (es - S i)%nat ltac:(lia)) as (sk & Es & Hs). replace (dep - (es - S i))%nat with (dep - es + S i)%nat in Es, Hs by lia.
    rewrite Es. cbn [bind]. replace (es - S i)%nat with (length (u_enc_ch g) - (i + 2))%nat in Hs by lia.
    destruct (cat_shape _ _ _ sk y Hs Hy) as (z & Ez & Hz). rewrite Ez. cbn [bind]. rewrite (Nat.add_comm (enc _)) in Hz.
    apply (res_blocks_shape o (depth o) lo ne P W HN); [lia|exact Hn|exact Hb|exact (uc_bneck g G)|exact Hc1|unfold channel_ok in Hc1, Hc2; lia| |exact Hz].
    intros E. exfalso. pose proof (uc_blocks g G) as F. rewrite Forall_forall in F. apply (F (nth i (u_dec_blk g) O)); [apply nth_In; exact Hi|exact E].
  Qed.
  Lemma last_nth' (l : list nat) n : length l = S n -> last l O = nth n l O.
  Proof.
    revert n. induction l as [|a l IH]; intros n H; [discriminate|]. destruct l as [|b l]; [cbn in H; assert (n = O) by lia; subst; reflexivity|].
    destruct n as [|n]; [discriminate|]. change (last (b :: l) O = nth n (b :: l) O). apply IH. cbn in H |- *. lia.
  Qed.
  Theorem thm_unet lin x pts : (lo <= length pts)%nat -> shape (node_count o dep ne) cin x -> Forall (fun p => -32768 <= snd p < 32768) pts ->
    exists logits pts', UNet g P cin cout lin ne x o (Z.of_nat dep) pts = Ok (logits, pts') /\ shape (length pts) cout logits.
  Proof.
    intros Hlo Hx Hp. pose proof (uc_enc g G) as Hl. pose proof (uc_dec g G) as Hl2. pose proof (uc_stages g G) as Hst.
    destruct (unet_encoder_ok x Hx) as (c & Ec & Hc). unfold UNet. rewrite Ec. cbn [bind]. unfold unet_decoder.
    replace (Z.of_nat dep - zlen (u_enc_blk g)) with (Z.of_nat (dep - es)) by (unfold zlen; lia).
    destruct (Hc es ltac:(lia)) as (y & Ey & Hy). rewrite Ey. cbn [bind].
    destruct (foldM_arange (fun i x => at_layer o ne (dep - es + i) (dec i) x) (unet_up g P ne o (Z.of_nat (dep - es)) c) ds y) as (z & Ez & Hz).
    - rewrite Nat.add_0_r. rewrite (uc_joint g G), (last_nth' _ es Hl). exact Hy.
    - intros i s Hi. apply unet_up_ok; assumption.
    - rewrite Ez. cbn [bind]. change (-1) with (- Z.of_nat 1). rewrite (tget_neg _ 1 O) by lia. cbn [bind].
      replace (length (u_dec_ch g) - 1)%nat with ds by lia.
      replace (Z.of_nat (dep - es) + zlen (u_dec_blk g)) with (Z.of_nat (dep - es + ds)) by (unfold zlen; lia).
      destruct (interp_shape o ne lin (dec ds) (dep - es + ds) z pts W ltac:(lia) Hz Hp) as (f & pts' & Ef & Hf). rewrite Ef. cbn [bind].
      destruct (head_shape lo P HN [("header"%string, 0)] (dec ds) (u_head g) cout (length pts) f Hlo Hf) as (lg & Elg & Hlg). rewrite Elg. cbn [bind].
      exists lg, pts'. auto.
  Qed.
End Unet.
