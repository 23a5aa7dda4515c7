(** Shapes of the outputs of HRNet. *)
From Coq Require Import String List ZArith Bool QArith Qcanon Lia.
From Verif Require Import Res Tensor Key Num Points Octree NnBasic NnConv NnInterp Features Net Spec SpecGeo WF SpecNeigh SpecNN SpecInterp SpecNet
  ListFacts KidsFacts WFFacts SearchFacts NnFacts PadFacts NetFacts NetLoops UpsampleFacts NetPool NetSeg.
Import ListNotations.
Open Scope Z_scope.

Definition list_is {B} (Q : nat -> B -> Prop) (n : nat) (l : list B) : Prop := length l = n /\ forall i y, nth_error l i = Some y -> Q i y.
Lemma list_is_nth {B} (Q : nat -> B -> Prop) n l i : list_is Q n l -> (i < n)%nat -> exists y, tget l (Z.of_nat i) = Ok y /\ Q i y.
Proof.
  intros [Hl Hq] Hi. destruct (nth_error l i) as [y|] eqn:E; [|apply nth_error_None in E; lia]. exists y. split; [apply tget_Ok; exact E|apply Hq; exact E].
Qed.
Lemma list_is_snoc {B} (Q : nat -> B -> Prop) n l y : list_is Q n l -> Q n y -> list_is Q (S n) (l ++ [y]).
Proof.
  intros [Hl Hq] Hy. split; [rewrite app_length; cbn; lia|]. intros i z E. destruct (Nat.lt_ge_cases i n) as [H|H].
  - rewrite nth_error_app1 in E by lia. apply Hq. exact E.
  - rewrite nth_error_app2 in E by lia. destruct (i - length l)%nat as [|k] eqn:Ek; cbn in E; [|destruct k; discriminate]. replace i with n by lia. congruence.
Qed.
Lemma mapM_app {A B} (f : A -> res B) l1 l2 : mapM f (l1 ++ l2) = (a <- mapM f l1 ;; b <- mapM f l2 ;; Ok (a ++ b)).
Proof.
  induction l1 as [|a l1 IH]; cbn [app mapM bind].
  - destruct (mapM f l2); reflexivity.
  - destruct (f a); [|reflexivity]. cbn [bind]. rewrite IH. destruct (mapM f l1); [|reflexivity]. cbn [bind]. destruct (mapM f l2); reflexivity.
Qed.
Lemma mapM_arange {B} (Q : nat -> B -> Prop) (f : Z -> res B) n : (forall i, (i < n)%nat -> exists y, f (Z.of_nat i) = Ok y /\ Q i y) ->
  exists ys, mapM f (arange n) = Ok ys /\ list_is Q n ys.
Proof.
  induction n as [|n IH]; intros H; [exists []; split; [reflexivity|]; split; [reflexivity|]; intros [|i] y E; discriminate|].
  destruct IH as (ys & E & Hy); [intros i Hi; apply H; lia|]. destruct (H n ltac:(lia)) as (y & Ey & Hq).
  exists (ys ++ [y]). rewrite arange_S, mapM_app, E. cbn [bind mapM]. rewrite Ey. cbn [bind]. split; [reflexivity|]. apply list_is_snoc; assumption.
Qed.
Lemma sum_shape n C xs : xs <> [] -> Forall (shape n C) xs -> exists y, sum_feats xs = Ok y /\ shape n C y.
Proof.
  intros Hne HF. destruct HF as [|x xs Hx HF]; [congruence|]. cbn [sum_feats]. clear Hne. revert x Hx. induction HF as [|z xs Hz _ IH]; intros x Hx; cbn [foldM]; [exists x; auto|].
  destruct (add_feat_shape n C x z Hx Hz) as (y & E & Hy). rewrite E. cbn [bind]. apply IH. exact Hy.
Qed.
Lemma list_is_Forall {B} (Q : B -> Prop) n l : list_is (fun _ => Q) n l -> Forall Q l.
Proof. intros [_ H]. apply Forall_forall. intros x Hx. apply In_nth_error in Hx. destruct Hx as [i Hi]. exact (H i x Hi). Qed.
Lemma upsample_shape o ne C d x : wf_octree o -> (S d <= depth o)%nat -> shape (node_count o d ne) C x ->
  exists y, at_depth (Z.of_nat d) (fun d => octree_upsample "nearest" ne C x o d None) = Ok y /\ shape (node_count o (S d) ne) C y.
Proof.
  intros W Hd Hx. destruct (thm_upsample o d (S d) ne C x W ltac:(lia) Hx) as (_ & _ & u & _ & _ & E & Hu & _). exists u. split; [|exact Hu].
  unfold at_depth. replace (Z.of_nat d <? 0) with false by (symmetry; apply Z.ltb_ge; lia). rewrite Nat2Z.id. exact E.
Qed.
Lemma cats_shape n cs xs : xs <> [] -> Forall2 (fun c x => shape n c x) cs xs -> exists y, cat_cols xs = Ok y /\ shape n (fold_right Nat.add O cs) y.
Proof.
  intros Hne H. destruct H as [|c x cs xs Hx HF]; [congruence|]. unfold cat_cols. cbn [fold_right]. clear Hne. revert c x Hx. induction HF as [|c' z cs xs Hz _ IH]; intros c x Hx; cbn [foldM fold_right].
  - exists x. rewrite Nat.add_0_r. auto.
  - destruct (cat_shape n c c' x z Hx Hz) as (y & E & Hy). unfold cat_cols in E. cbn [foldM] in E. destruct (Nat.eqb (length x) (length z)); [|discriminate]. cbn [bind] in *.
    assert (Ey : zip_with (@app Qc) x z = y) by congruence. rewrite Ey. rewrite Nat.add_assoc. apply IH. exact Hy.
Qed.
Lemma list_is_Forall2 {B} (Q : nat -> B -> Prop) (cs : list nat) l : list_is (fun i y => Q (nth i cs O) y) (length cs) l -> Forall2 Q cs l.
Proof.
  revert l. induction cs as [|c cs IH]; intros [|y l] [Hl Hq]; try discriminate; constructor.
  - exact (Hq 0%nat y eq_refl).
  - apply IH. split; [cbn in Hl; lia|]. intros i z E. exact (Hq (S i) z E).
Qed.
Lemma firstn_nth (l : list nat) n i : (i < n)%nat -> nth i (firstn n l) O = nth i l O.
Proof. revert n i. induction l as [|a l IH]; intros [|n] [|i] H; try reflexivity; try lia. cbn. apply IH. lia. Qed.

Section Hr.
  Variables (P : params) (cin cout num stages : nat) (ne : bool) (o : octree) (dep lo : nat).
  Hypothesis W : wf_octree o.
  Hypothesis HN : norms_keep lo P.
  Hypothesis Hdep : (stages + 2 <= dep <= depth o)%nat.
  Hypothesis Hst : (1 <= stages <= 4)%nat.
  Hypothesis HL : layers_ready o ne lo 2 dep.
  Hypothesis HB : poolable o ne 2 dep.
  Hypothesis Hcin : channel_ok cin.
  Notation ch i := (nth i hr_channels O).
  Notation D := (dep - 1)%nat.
  Definition ok_data := (fun i (x : feat) => at_layer o ne (D - i) (ch i) x).

  Lemma ch_ok i : channel_ok (ch i).
  Proof. unfold channel_ok. do 4 (destruct i as [|i]; [cbn; lia|]). cbn. destruct i; cbn; lia. Qed.
  Lemma ch_len n : (n <= 4)%nat -> length (firstn n hr_channels) = n.
  Proof. intros H. rewrite firstn_length. cbn [hr_channels length]. lia. Qed.

  (** Pooling repeatedly, and upsampling repeatedly. *)
  Lemma pools_shape C n d x : (2 <= d)%nat -> (d + n < dep)%nat -> at_layer o ne (d + n) C x ->
    exists y, foldM (fun x i => max_pool C ne x o (Z.of_nat (d + n) - i)) x (arange n) = Ok y /\ at_layer o ne d C y.
  Proof.
    intros Hd Hn Hx. destruct (foldM_arange (fun i x => at_layer o ne (d + n - i) C x) (fun x i => max_pool C ne x o (Z.of_nat (d + n) - i)) n x) as (y & E & Hy).
    - rewrite Nat.sub_0_r. exact Hx.
    - intros i s Hi Hs. replace (Z.of_nat (d + n) - Z.of_nat i) with (Z.of_nat (S (d + n - S i))) by lia. apply max_pool_shape; [exact W|lia| |].
      + intros E. apply (HB E). lia.
      + replace (S (d + n - S i)) with (d + n - i)%nat by lia. exact Hs.
    - exists y. split; [exact E|]. replace (d + n - n)%nat with d in Hy by lia. exact Hy.
  Qed.
  Lemma ups_shape C n d x : (d + n <= dep)%nat -> at_layer o ne d C x ->
    exists y, foldM (fun x i => at_depth (Z.of_nat d + i) (fun d => octree_upsample "nearest" ne C x o d None)) x (arange n) = Ok y /\ at_layer o ne (d + n) C y.
  Proof.
    intros Hn Hx. apply (foldM_arange (fun i x => at_layer o ne (d + i) C x)).
    - rewrite Nat.add_0_r. exact Hx.
    - intros i s Hi Hs. rewrite <- Nat2Z.inj_add. rewrite Nat.add_succ_r. apply upsample_shape; [exact W|lia|exact Hs].
  Qed.
  Lemma trans_shape p i j x : (i < 4)%nat -> (j < 4)%nat -> (S i + 2 <= D)%nat -> (S j + 2 <= S D)%nat -> ok_data i x ->
    exists y, hr_trans P p (ch i) (ch j) ne x o (Z.of_nat D - Z.of_nat i) (Z.of_nat D - Z.of_nat j) = Ok y /\ at_layer o ne (D - j) (ch j) y.
  Proof.
    intros Hi Hj Hi2 Hj2 Hx. unfold hr_trans.
    assert (Pj : forall d z, (2 <= d <= dep)%nat -> at_layer o ne d (ch i) z ->
      exists y, (if Nat.eqb (ch i) (ch j) then Ok z else conv1x1_bn_relu P p (ch i) (ch j) z) = Ok y /\ at_layer o ne d (ch j) y).
    { intros d z Hd Hz. destruct (Nat.eqb_spec (ch i) (ch j)) as [E|N]; [exists z; rewrite <- E; auto|].
      destruct (HL d Hd) as [_ Hb]. exact (conv1x1_bn_relu_shape lo P HN p (ch i) (ch j) _ z Hb Hz). }
    destruct (Z.ltb_spec (Z.of_nat D - Z.of_nat j) (Z.of_nat D - Z.of_nat i)) as [H|H].
    - replace (Z.to_nat (Z.of_nat D - Z.of_nat i - (Z.of_nat D - Z.of_nat j))) with (j - i)%nat by lia.
      replace (Z.of_nat D - Z.of_nat i) with (Z.of_nat ((D - j) + (j - i))) by lia.
      destruct (pools_shape (ch i) (j - i) (D - j) x ltac:(lia) ltac:(lia)) as (y & E & Hy).
      { replace (D - j + (j - i))%nat with (D - i)%nat by lia. exact Hx. }
      rewrite E. cbn [bind]. apply Pj; [lia|exact Hy].
    - destruct (Z.ltb_spec (Z.of_nat D - Z.of_nat i) (Z.of_nat D - Z.of_nat j)) as [H'|H'].
      + destruct (Pj (D - i)%nat x ltac:(lia) Hx) as (y & E & Hy). rewrite E. cbn [bind].
        replace (Z.to_nat (Z.of_nat D - Z.of_nat j - (Z.of_nat D - Z.of_nat i))) with (i - j)%nat by lia.
        replace (Z.of_nat D - Z.of_nat i) with (Z.of_nat (D - i)) by lia. replace (D - j)%nat with (D - i + (i - j))%nat by lia. apply ups_shape; [lia|exact Hy].
      + exists x. replace j with i by lia. auto.
  Qed.
  Lemma branches_shape p n xs : (1 <= n <= stages)%nat -> list_is ok_data n xs ->
    exists ys, hr_branches P p (firstn n hr_channels) num ne xs o (Z.of_nat D) = Ok ys /\ list_is ok_data n ys.
  Proof.
    intros Hn Hxs. unfold hr_branches. rewrite ch_len by lia. destruct Hxs as [Hl Hq]. rewrite Hl, Nat.eqb_refl. cbn [assert_ bind].
    apply mapM_arange. intros i Hi. rewrite (tget_len _ i O) by (rewrite ch_len; lia). cbn [bind]. rewrite firstn_nth by exact Hi.
    destruct (list_is_nth ok_data n xs i (conj Hl Hq) Hi) as (x & E & Hx). rewrite E. cbn [bind].
    replace (Z.of_nat D - Z.of_nat i) with (Z.of_nat (D - i)) by lia. destruct (HL (D - i)%nat ltac:(lia)) as [Hnb Hb].
    apply (res_blocks_shape o (depth o) lo ne P W HN); [lia|exact Hnb|exact Hb|destruct (Nat.ltb _ _); lia|apply ch_ok|apply chan_le, ch_ok|auto|exact Hx].
  Qed.
  Lemma transitions_shape p n xs : (1 <= n)%nat -> (S n <= stages)%nat -> list_is ok_data n xs ->
    exists ys, hr_transitions P p (firstn (S n) hr_channels) ne xs o (Z.of_nat D) = Ok ys /\ list_is ok_data (S n) ys.
  Proof.
    intros Hn Hs Hxs. unfold hr_transitions. rewrite ch_len by lia. apply mapM_arange. intros j Hj.
    destruct (mapM_arange (fun _ x => at_layer o ne (D - j) (ch j) x) (fun i =>
      ci <- tget (firstn (S n) hr_channels) i ;; co <- tget (firstn (S n) hr_channels) (Z.of_nat j) ;; x <- tget xs i ;;
      hr_trans P (p ++ [("trans_func"%string, i * zlen (firstn (S n) hr_channels) + Z.of_nat j)]) ci co ne x o (Z.of_nat D - i) (Z.of_nat D - Z.of_nat j)) (S n - 1)) as (fs & E & Hf).
    - intros i Hi. rewrite (tget_len _ i O) by (rewrite ch_len; lia). cbn [bind]. rewrite (tget_len _ j O) by (rewrite ch_len; lia). cbn [bind].
      rewrite !firstn_nth by lia. destruct (list_is_nth ok_data n xs i Hxs ltac:(lia)) as (x & E & Hx). rewrite E. cbn [bind].
      apply trans_shape; try lia. exact Hx.
    - rewrite E. cbn [bind]. unfold ok_data. apply sum_shape.
      + destruct Hf as [Hf _]. intros ->. cbn in Hf. lia.
      + exact (list_is_Forall _ _ _ Hf).
  Qed.
  Theorem thm_hrnet x : (lo <= batch_size o)%nat -> shape (node_count o dep ne) cin x ->
    exists y, HRNet P cin cout stages num ne x o (Z.of_nat dep) = Ok y /\ shape (batch_size o) cout y.
  Proof.
    intros Hbs Hx. unfold HRNet, hr_front.
    destruct (HL dep ltac:(lia)) as [Hn Hb].
    destruct (conv_bn_relu_shape o (depth o) lo ne P W HN [("front"%string, 0); ("conv"%string, 0)] cin 32 [3%nat] 1 dep x) as (y & Ey & Hy); auto; [lia|apply chan_le; exact Hcin|].
    rewrite Ey. cbn [bind]. change (down dep 1) with dep in Hy. 
    destruct (max_pool_shape o ne 32 (dep - 1) y W) as (z & Ez & Hz); [lia| | |].
    { intros E. apply (HB E). lia. }
    { replace (S (dep - 1)) with dep by lia. exact Hy. }
    replace (S (dep - 1)) with dep in Ez by lia. rewrite Ez. cbn [bind]. replace (Z.of_nat dep - 1) with (Z.of_nat D) by lia.
    destruct (HL D ltac:(lia)) as [Hn' Hb'].
    destruct (conv_bn_relu_shape o (depth o) lo ne P W HN [("front"%string, 0); ("conv"%string, 1)] 32 128 [3%nat] 1 D z) as (u & Eu & Hu); auto; [lia|lia|].
    change (down D 1) with D in Hu. rewrite Eu. cbn [bind].
    destruct (foldM_arange (fun i xs => list_is ok_data (Nat.min (S i) stages) xs) (fun convs i =>
      convs <- hr_branches P [("branches"%string, i)] (firstn (Z.to_nat i + 1) hr_channels) num ne convs o (Z.of_nat D) ;;
      if i <? Z.of_nat stages - 1
      then hr_transitions P [("transitions"%string, i)] (firstn (Z.to_nat i + 2) hr_channels) ne convs o (Z.of_nat D)
      else Ok convs) stages [u]) as (xs & Exs & Hxs).
    - replace (Nat.min 1 stages) with 1%nat by lia. split; [reflexivity|]. intros [|i] v E; [|destruct i; discriminate]. cbn in E. assert (v = u) by congruence. subst v.
      unfold ok_data. rewrite Nat.sub_0_r. exact Hu.
    - intros i xs Hi Hxs. rewrite Nat2Z.id. replace (Nat.min (S i) stages) with (S i) in Hxs by lia. rewrite Nat.add_1_r.
      destruct (branches_shape [("branches"%string, Z.of_nat i)] (S i) xs ltac:(lia) Hxs) as (ys & E & Hys). rewrite E. cbn [bind].
      destruct (Z.ltb_spec (Z.of_nat i) (Z.of_nat stages - 1)) as [H|H].
      + replace (i + 2)%nat with (S (S i)) by lia. replace (Nat.min (S (S i)) stages) with (S (S i)) by lia. apply transitions_shape; [lia|lia|exact Hys].
      + exists ys. split; [reflexivity|]. replace (Nat.min (S (S i)) stages) with (S i) by lia. exact Hys.
    - rewrite Exs. cbn [bind]. replace (Nat.min (S stages) stages) with stages in Hxs by lia. unfold hr_header.
      destruct (mapM_arange (fun i y => shape (node_count o 2 ne) (nth i (firstn stages hr_channels) O) y) (fun i =>
        x <- tget xs i ;; c <- tget (firstn stages hr_channels) i ;;
        foldM (fun x j => max_pool c ne x o (Z.of_nat D - i - j)) x (arange (Z.to_nat (Z.of_nat D - i - 2)))) (length xs)) as (outs & Eo & Ho).
      + intros i Hi. destruct Hxs as [Hl Hq]. rewrite Hl in Hi. destruct (list_is_nth ok_data stages xs i (conj Hl Hq) Hi) as (v & Ev & Hv). rewrite Ev. cbn [bind].
        rewrite (tget_len _ i O) by (rewrite ch_len; lia). cbn [bind]. rewrite firstn_nth by exact Hi.
        replace (Z.to_nat (Z.of_nat D - Z.of_nat i - 2)) with (D - i - 2)%nat by lia. replace (Z.of_nat D - Z.of_nat i) with (Z.of_nat (2 + (D - i - 2))) by lia.
        apply pools_shape; [lia|lia|]. replace (2 + (D - i - 2))%nat with (D - i)%nat by lia. exact Hv.
      + rewrite Eo. cbn [bind]. destruct Hxs as [Hl _]. destruct (cats_shape (node_count o 2 ne) (firstn stages hr_channels) outs) as (v & Ev & Hv).
        * destruct Ho as [Ho _]. intros ->. cbn in Ho. lia.
        * apply (list_is_Forall2 (fun c x => shape (node_count o 2 ne) c x)). rewrite ch_len by lia. rewrite Hl in Ho. exact Ho.
        * rewrite Ev. cbn [bind]. destruct (HL 2%nat ltac:(lia)) as [_ Hb2].
          destruct (conv1x1_bn_relu_shape lo P HN [("cls_header"%string, 0); ("conv1x1"%string, 0)] _ 1024 _ v Hb2 Hv) as (w & Ew & Hw). rewrite Ew. cbn [bind].
          destruct (global_shape o 2 ne 1024 w W ltac:(lia) Hw) as (g & Eg & Hg). rewrite Eg. cbn [bind]. apply linear_shape. exact Hg.
  Qed.
End Hr.
