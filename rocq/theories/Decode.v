(** Decoding on a growing octree and on the finished octree. *)
From Coq Require Import String List ZArith Bool QArith Qcanon Lia.
From Verif Require Import Res Tensor Key Num Points Octree NnBasic NnConv NnInterp Features Net Spec SpecGeo WF SpecNeigh SpecGrow SpecNN SpecInterp SpecFeature SpecNet
  ListFacts KidsFacts NumFacts WFFacts SearchFacts BuildFacts NeighSparse NeighThms GrowFacts NnFacts PadFacts PoolFacts FeatureFacts NetFacts NetLoops NetAe.
Import ListNotations.
Open Scope Z_scope.

(** ** layers with the same tables *)
Definition same1 (o1 o2 : octree) (d : nat) : Prop :=
  exists l1 l2, get_layer o1 (Z.of_nat d) = Ok l1 /\ get_layer o2 (Z.of_nat d) = Ok l2 /\ nnum l1 = nnum l2 /\ neighs l1 = neighs l2.
Definition same2 (o1 o2 : octree) (d : nat) : Prop :=
  exists l1 l2, get_layer o1 (Z.of_nat d) = Ok l1 /\ get_layer o2 (Z.of_nat d) = Ok l2 /\ children l1 = children l2 /\ nnum_nempty l1 = nnum_nempty l2.
Lemma same_neigh o1 o2 d k s : same1 o1 o2 d -> get_neigh o1 d k s false = get_neigh o2 d k s false.
Proof. intros (l1 & l2 & E1 & E2 & _ & H). unfold get_neigh. rewrite E1, E2. cbn [bind]. rewrite H. reflexivity. Qed.
Lemma same_setup1 o1 o2 g m d : same1 o1 o2 d -> c_stride g = 1 -> c_nempty g = false -> conv_setup g m o1 d = conv_setup g m o2 d.
Proof.
  intros Hs E1 E2. unfold conv_setup. rewrite E1, E2. cbn [Z.eqb Pos.eqb andb]. rewrite (same_neigh o1 o2) by exact Hs.
  destruct Hs as (l1 & l2 & -> & -> & H & _). cbn [bind]. rewrite H. reflexivity.
Qed.
Lemma same_conv P p ci co ks x o1 o2 d : same1 o1 o2 d -> conv P p ci co ks 1 false x o1 (Z.of_nat d) = conv P p ci co ks 1 false x o2 (Z.of_nat d).
Proof.
  intros Hs. unfold conv. apply bind_ext; [reflexivity|]. intros m. unfold at_depth. destruct (Z.of_nat d <? 0); [reflexivity|]. rewrite Nat2Z.id.
  unfold OctreeConv. apply bind_ext; [reflexivity|]. intros m'. apply bind_ext; [|reflexivity]. unfold conv_forward. apply bind_ext; [reflexivity|]. intros m2.
  rewrite (same_setup1 o1 o2) by (exact Hs || reflexivity). reflexivity.
Qed.
Lemma same_deconv P p ci co ks x o1 o2 d : same2 o1 o2 d -> same1 o1 o2 (S d) ->
  deconv P p ci co ks 2 false x o1 (Z.of_nat d) = deconv P p ci co ks 2 false x o2 (Z.of_nat d).
Proof.
  intros (l1 & l2 & E1 & E2 & H1 & H2) Hs. unfold deconv. apply bind_ext; [reflexivity|]. intros m. unfold at_depth. destruct (Z.of_nat d <? 0); [reflexivity|]. rewrite Nat2Z.id.
  unfold OctreeDeconv. apply bind_ext; [reflexivity|]. intros m'. cbn [c_stride c_nempty Z.eqb Pos.eqb andb negb]. apply bind_ext.
  - unfold octree_depad, nempty_mask. rewrite E1, E2. cbn [bind]. rewrite H1. reflexivity.
  - intros y. apply bind_ext; [|reflexivity]. unfold deconv_forward. apply bind_ext; [reflexivity|]. intros m2.
    assert (Es : conv_setup (mkCfg ci co ks 2 false 200000000 false) m2 o1 d = conv_setup (mkCfg ci co ks 2 false 200000000 false) m2 o2 d).
    { unfold conv_setup. cbn [c_stride c_nempty c_isconv Z.eqb Pos.eqb andb negb]. replace (Z.of_nat d + 1) with (Z.of_nat (S d)) by lia. replace (d + 1)%nat with (S d) by lia.
      rewrite (same_neigh o1 o2) by exact Hs. rewrite E1, E2. cbn [bind]. destruct Hs as (k1 & k2 & -> & -> & H & _). cbn [bind]. rewrite H, H2. reflexivity. }
    rewrite Es. reflexivity.
Qed.
Lemma same_res_block P p ci co bk x o1 o2 d : same1 o1 o2 d -> res_block P p ci co 1 bk false x o1 (Z.of_nat d) = res_block P p ci co 1 bk false x o2 (Z.of_nat d).
Proof.
  intros Hs. unfold res_block. apply bind_ext; [reflexivity|]. intros cb. cbn [Z.eqb Pos.eqb bind]. apply bind_ext; [reflexivity|]. intros c1.
  apply bind_ext; [|reflexivity]. unfold conv_bn_relu. apply bind_ext; [apply same_conv; exact Hs|reflexivity].
Qed.
Lemma foldM_ext {A B} (f g : A -> B -> res A) l : (forall a b, f a b = g a b) -> forall a, foldM f a l = foldM g a l.
Proof. intros H. induction l as [|b l IH]; intros a; [reflexivity|]. cbn [foldM]. rewrite H. destruct (g a b); [apply IH|reflexivity]. Qed.
Lemma same_res_blocks P p ci co num bk x o1 o2 d : same1 o1 o2 d ->
  res_blocks P p ci co num bk false false x o1 (Z.of_nat d) = res_blocks P p ci co num bk false false x o2 (Z.of_nat d).
Proof.
  intros Hs. unfold res_blocks. apply foldM_ext. intros a i. apply bind_ext; [reflexivity|]. intros c1. apply bind_ext; [reflexivity|]. intros c2. apply same_res_block. exact Hs.
Qed.

(** One stage of the decoder before the octree is updated. *)
Definition ae_stage (g : ae_cfg) (P : params) (x : feat) (o : octree) (i : Z) : res (feat * feat) :=
  let d := Z.of_nat (a_full g) + i in
  chs <- dec_channels g ;;
  c <- tget chs d ;;
  x <- (if 0 <? i
        then c' <- tget chs (d - 1) ;;
             deconv_bn_relu P [("upsample"%string, i - 1)] c' c [2%nat] 2 false x o (d - 1)
        else Ok x) ;;
  x <- res_blocks P [("decoder_blks"%string, i)] c c (a_blocks g) 4 false false x o d ;;
  logit <- head P [("predict"%string, i)] c 64 2 x ;;
  Ok (x, logit).
Definition ae_update (g : ae_cfg) (o : octree) (logit : feat) (i : Z) : res octree :=
  o <- octree_split o (map argmax logit) (Z.to_nat (Z.of_nat (a_full g) + i)) ;;
  if Z.of_nat (a_full g) + i <? Z.of_nat (a_depth g) then octree_grow o (Z.to_nat (Z.of_nat (a_full g) + i) + 1) true else Ok o.
Lemma step_stage g P upd x o lgs i : ae_dec_step g P upd (x, o, lgs) i =
  ('(y, logit) <- ae_stage g P x o i ;;
   o <- (if upd then ae_update g o logit i else Ok o) ;;
   Ok (y, o, dput lgs (Z.of_nat (a_full g) + i) logit)).
Proof.
  unfold ae_dec_step, ae_stage. destruct (dec_channels g); [|reflexivity]. cbn [bind]. destruct (tget _ _); [|reflexivity]. cbn [bind].
  match goal with |- context [if 0 <? i then ?a else ?b] => destruct (if 0 <? i then a else b); [|reflexivity] end. cbn [bind].
  destruct (res_blocks _ _ _ _ _ _ _ _ _ _ _); [|reflexivity]. cbn [bind]. destruct (head _ _ _ _ _ _); reflexivity.
Qed.
Lemma same_stage g P x o1 o2 i : same1 o1 o2 (a_full g + i) -> (i <> O -> same2 o1 o2 (a_full g + i - 1)) ->
  ae_stage g P x o1 (Z.of_nat i) = ae_stage g P x o2 (Z.of_nat i).
Proof.
  intros H1 H2. unfold ae_stage. replace (Z.of_nat (a_full g) + Z.of_nat i) with (Z.of_nat (a_full g + i)) by lia. apply bind_ext; [reflexivity|]. intros chs.
  apply bind_ext; [reflexivity|]. intros c. apply bind_ext.
  - destruct i as [|i]; [reflexivity|]. replace (0 <? Z.of_nat (S i)) with true by (symmetry; apply Z.ltb_lt; lia). apply bind_ext; [reflexivity|]. intros c'.
    replace (Z.of_nat (a_full g + S i) - 1) with (Z.of_nat (a_full g + i)) by lia. unfold deconv_bn_relu. apply bind_ext; [|reflexivity].
    replace (a_full g + S i - 1)%nat with (a_full g + i)%nat in H2 by lia. apply same_deconv; [apply H2; lia|]. replace (S (a_full g + i)) with (a_full g + S i)%nat by lia. exact H1.
  - intros y. apply bind_ext; [apply same_res_blocks; exact H1|reflexivity].
Qed.

(** ** the two runs in lockstep *)
Section Lock.
  Variables (g : ae_cfg) (P : params) (B : nat).
  Hypothesis HC : ae_config g.
  Notation full := (a_full g).
  Notation dep := (a_depth g).
  (** the finished octree *)
  Variables (o : octree) (K : nat -> list Z) (M : nat -> list bool) (a : nat).
  Hypothesis Ha : (a <= full)%nat.
  Hypothesis T : tree_upto o dep K M.
  Hypothesis N : neigh_upto o K a dep.
  (** the growing octree *)
  Variables (o0 : octree) (code : feat).
  Hypothesis HD0 : depth o0 = dep.
  Hypothesis HF0 : full_depth o0 = full.
  Hypothesis T0 : exists M', tree_upto o0 full K M' /\ (forall d, (d < full)%nat -> M' d = M d).
  Hypothesis N0 : neigh_upto o0 K 0 full.
  Hypothesis Hne : forall d, (full <= d <= dep)%nat -> K d <> [].

  Definition grown (m : nat) (o1 : octree) : Prop :=
    let L := Nat.min (full + m) dep in depth o1 = dep /\ full_depth o1 = full /\ batch_size o1 = batch_size o0 /\
    (exists M', tree_upto o1 L K M' /\ (forall d, (d < full + m)%nat -> (d <= L)%nat -> M' d = M d)) /\ neigh_upto o1 K 0 L.
  Lemma lock_stage i o1 x : (full + i <= dep)%nat -> grown i o1 -> ae_stage g P x o1 (Z.of_nat i) = ae_stage g P x o (Z.of_nat i).
  Proof.
    intros Hi (D1 & D2 & _ & (M' & T' & HM) & N'). replace (Nat.min (full + i) dep) with (full + i)%nat in * by lia. apply same_stage.
    - destruct (tree_get o1 _ K M' T' (full + i)%nat ltac:(lia)) as (l1 & E1 & G1 & _ & _ & A1 & _). destruct (tree_get o _ K M T (full + i)%nat ltac:(lia)) as (l2 & E2 & G2 & _ & _ & A2 & _).
      exists l1, l2. split; [exact E1|]. split; [exact E2|]. split; [congruence|]. rewrite (N' (full + i)%nat l1), (N (full + i)%nat l2) by (assumption || lia). reflexivity.
    - intros Hi0. destruct (tree_get o1 _ K M' T' (full + i - 1)%nat ltac:(lia)) as (l1 & E1 & G1 & _ & A1 & _ & B1). destruct (tree_get o _ K M T (full + i - 1)%nat ltac:(lia)) as (l2 & E2 & G2 & _ & A2 & _ & B2).
      exists l1, l2. split; [exact E1|]. split; [exact E2|]. rewrite HM in A1, B1 by lia. split; congruence.
  Qed.
  Lemma lock_update i o1 lg : (full + i <= dep)%nat -> grown i o1 -> shape (length (K (full + i)%nat)) 2 lg -> M (full + i)%nat = split_flags (map argmax lg) ->
    exists o2, ae_update g o1 lg (Z.of_nat i) = Ok o2 /\ grown (S i) o2.
  Proof.
    intros Hi (D1 & D2 & D3 & (M' & T' & HM) & N') Hlg Em. unfold ae_update. replace (Nat.min (full + i) dep) with (full + i)%nat in * by lia.
    replace (Z.of_nat full + Z.of_nat i) with (Z.of_nat (full + i)) by lia. rewrite Nat2Z.id. set (d := (full + i)%nat) in *.
    assert (Hs : map argmax lg <> []). { destruct lg; [|discriminate]. destruct Hlg as [Hl _]. cbn [length] in Hl. exfalso. apply (Hne d); [unfold d in *; lia|]. destruct (K d); [reflexivity|discriminate]. }
    destruct (tree_split o1 d K M' d (map argmax lg) T' N' (le_n _) (argmax_01 _ _ Hlg) Hs) as (o2 & E2 & F1 & F2 & F3 & T2 & N2). { rewrite map_length. apply Hlg. }
    rewrite E2. cbn [bind]. rewrite <- Em in T2. destruct (Z.ltb_spec (Z.of_nat d) (Z.of_nat dep)) as [H|H].
    - destruct (tree_grow o2 d K (fupd M' d (M d)) d T2 N2) as (o3 & E3 & G1 & G2 & G3 & T3 & N3); [lia|lia|]. replace (d + 1)%nat with (S d) by lia.
      rewrite E3. exists o3. split; [reflexivity|]. unfold grown. replace (Nat.min (full + S i) dep) with (S d) by (unfold d in *; lia).
      split; [congruence|]. split; [congruence|]. split; [congruence|].
      assert (EK : flat_map kids (select (fupd M' d (M d) d) (K d)) = K (S d)) by (rewrite fupd_eq, (t_link _ _ _ _ T d) by lia; rewrite pick_select; reflexivity).
      rewrite EK in T3, N3. split.
      + eexists. split; [eapply tree_upto_ext; [| |exact T3]|].
        * intros j Hj. unfold fupd. destruct (Nat.eqb_spec j (S d)) as [->|_]; reflexivity.
        * intros j Hj. reflexivity.
        * intros j Hj Hj2. rewrite fupd_ne by (unfold d in *; lia). unfold fupd. destruct (Nat.eqb_spec j d) as [->|Hj']; [reflexivity|apply HM; unfold d in *; lia].
      + eapply neigh_upto_ext; [|exact N3]. intros j Hj. unfold fupd. destruct (Nat.eqb_spec j (S d)) as [->|_]; reflexivity.
    - exists o2. split; [reflexivity|]. unfold grown. replace (Nat.min (full + S i) dep) with d by (unfold d in *; lia). split; [congruence|]. split; [congruence|]. split; [congruence|]. split; [|exact N2].
      exists (fupd M' d (M d)). split; [exact T2|]. intros j Hj Hj2. unfold fupd. destruct (Nat.eqb_spec j d) as [->|Hj']; [reflexivity|apply HM; unfold d in *; lia].
  Qed.

  (** The growing run follows the fixed run as long as the flags of the finished octree
      are the predictions of the fixed run. *)
  Lemma lock_fold m : (full + m <= S dep)%nat -> forall x lgs, foldM (ae_dec_step g P false) (code, o, []) (arange m) = Ok (x, o, lgs) ->
    (forall i, (i < m)%nat -> exists lg, dfind lgs (Z.of_nat (full + i)) = Ok lg /\ shape (length (K (full + i)%nat)) 2 lg /\ M (full + i)%nat = split_flags (map argmax lg)) ->
    exists o1, foldM (ae_dec_step g P true) (code, o0, []) (arange m) = Ok (x, o1, lgs) /\ grown m o1.
  Proof.
    induction m as [|m IH]; intros Hm x lgs E Hlg.
    - destruct HC as [C1 C2 _ _]. cbn [arange seq map foldM] in *. assert (Eq : forall (a b : feat * octree * ddict feat), Ok a = Ok b -> a = b) by congruence. apply Eq in E.
      assert (x = code) by congruence. assert (lgs = []) by congruence. subst x lgs. exists o0. split; [reflexivity|].
      unfold grown. replace (Nat.min (full + 0) dep) with full by lia. split; [exact HD0|]. split; [exact HF0|]. split; [reflexivity|]. split; [|exact N0].
      destruct T0 as (M' & T1 & HM). exists M'. split; [exact T1|]. intros d Hd _. apply HM. lia.
    - rewrite arange_S, foldM_app in *. destruct (foldM (ae_dec_step g P false) (code, o, []) (arange m)) as [[[x1 oo] lgs1]|] eqn:E1; [|discriminate]. cbn [bind foldM] in E.
      rewrite step_stage in E. destruct (ae_stage g P x1 oo (Z.of_nat m)) as [[y lg]|] eqn:Es; [|discriminate]. cbn [bind] in E.
      assert (Eq : forall (a b : feat * octree * ddict feat), Ok a = Ok b -> a = b) by congruence. apply Eq in E.
      assert (y = x) by congruence. assert (oo = o) by congruence. assert (E3 : dput lgs1 (Z.of_nat full + Z.of_nat m) lg = lgs) by congruence. subst y oo. clear E.
      replace (Z.of_nat full + Z.of_nat m) with (Z.of_nat (full + m)) in E3 by lia.
      destruct (IH ltac:(lia) x1 lgs1 eq_refl) as (o1 & F1 & G1).
      { intros i Hi. destruct (Hlg i ltac:(lia)) as (lgi & A1 & A2). exists lgi. split; [|exact A2]. rewrite <- E3, dfind_put in A1.
        replace (Z.of_nat (full + i) =? Z.of_nat (full + m)) with false in A1 by (symmetry; apply Z.eqb_neq; lia). exact A1. }
      destruct (Hlg m ltac:(lia)) as (lg' & A1 & A2 & A3). rewrite <- E3, dfind_put, Z.eqb_refl in A1. assert (lg' = lg) by congruence. subst lg'.
      destruct (lock_update m o1 lg ltac:(lia) G1 A2 A3) as (o2 & U & G2).
      exists o2. split; [|exact G2]. rewrite F1. cbn [bind foldM]. rewrite step_stage, (lock_stage m o1 x1 ltac:(lia) G1), Es. cbn [bind]. rewrite U. cbn [bind].
      replace (Z.of_nat full + Z.of_nat m) with (Z.of_nat (full + m)) by lia. rewrite E3. reflexivity.
  Qed.
  (** ... and conversely. *)
  Lemma lock_back m : (full + m <= S dep)%nat -> forall x o1 lgs, foldM (ae_dec_step g P true) (code, o0, []) (arange m) = Ok (x, o1, lgs) ->
    (forall i, (i < m)%nat -> exists lg, dfind lgs (Z.of_nat (full + i)) = Ok lg /\ shape (length (K (full + i)%nat)) 2 lg /\ M (full + i)%nat = split_flags (map argmax lg)) ->
    foldM (ae_dec_step g P false) (code, o, []) (arange m) = Ok (x, o, lgs) /\ grown m o1.
  Proof.
    induction m as [|m IH]; intros Hm x o1 lgs E Hlg.
    - destruct HC as [C1 C2 _ _]. cbn [arange seq map foldM] in *. assert (Eq : forall (a b : feat * octree * ddict feat), Ok a = Ok b -> a = b) by congruence. apply Eq in E.
      assert (x = code) by congruence. assert (lgs = []) by congruence. assert (o1 = o0) by congruence. subst x lgs o1. split; [reflexivity|].
      unfold grown. replace (Nat.min (full + 0) dep) with full by lia. split; [exact HD0|]. split; [exact HF0|]. split; [reflexivity|]. split; [|exact N0].
      destruct T0 as (M' & T1 & HM). exists M'. split; [exact T1|]. intros d Hd _. apply HM. lia.
    - rewrite arange_S, foldM_app in *. destruct (foldM (ae_dec_step g P true) (code, o0, []) (arange m)) as [[[x1 oo] lgs1]|] eqn:E1; [|discriminate]. cbn [bind foldM] in E.
      rewrite step_stage in E. destruct (ae_stage g P x1 oo (Z.of_nat m)) as [[y lg]|] eqn:Es; [|discriminate]. cbn [bind] in E.
      destruct (ae_update g oo lg (Z.of_nat m)) as [o2|] eqn:U; [|discriminate]. cbn [bind] in E.
      assert (Eq : forall (a b : feat * octree * ddict feat), Ok a = Ok b -> a = b) by congruence. apply Eq in E.
      assert (y = x) by congruence. assert (o2 = o1) by congruence. assert (E3 : dput lgs1 (Z.of_nat full + Z.of_nat m) lg = lgs) by congruence. subst y o2. clear E.
      replace (Z.of_nat full + Z.of_nat m) with (Z.of_nat (full + m)) in E3 by lia.
      destruct (IH ltac:(lia) x1 oo lgs1 eq_refl) as (F1 & G1).
      { intros i Hi. destruct (Hlg i ltac:(lia)) as (lgi & A1 & A2). exists lgi. split; [|exact A2]. rewrite <- E3, dfind_put in A1.
        replace (Z.of_nat (full + i) =? Z.of_nat (full + m)) with false in A1 by (symmetry; apply Z.eqb_neq; lia). exact A1. }
      destruct (Hlg m ltac:(lia)) as (lg' & A1 & A2 & A3). rewrite <- E3, dfind_put, Z.eqb_refl in A1. assert (lg' = lg) by congruence. subst lg'.
      destruct (lock_update m oo lg ltac:(lia) G1 A2 A3) as (o2 & U' & G2). assert (o2 = o1) by congruence. subst o2. split; [|exact G2].
      rewrite F1. cbn [bind foldM]. rewrite step_stage, <- (lock_stage m oo x1 ltac:(lia) G1), Es. cbn [bind].
      replace (Z.of_nat full + Z.of_nat m) with (Z.of_nat (full + m)) by lia. rewrite E3. reflexivity.
  Qed.
End Lock.

(** ** tables *)
Lemma has_neigh_upto o L K M a : tree_upto o L K M -> (forall d, (a <= d <= L)%nat -> has_neigh o d) -> neigh_upto o K a L.
Proof.
  intros T H d l Hd El. destruct (H d Hd) as (l' & ks & t & E1 & E2 & E3 & C). assert (l' = l) by congruence. subst l'.
  destruct (t_layer _ _ _ _ T d ltac:(lia)) as (l' & F1 & F2 & _). assert (l' = l) by congruence. subst l'. assert (ks = K d) by congruence. subst ks.
  destruct (tree_keys o L K M T d ltac:(lia)) as [Hs Hv]. pose proof (t_depth _ _ _ _ T). pose proof (t_L _ _ _ _ T).
  rewrite E3. f_equal. apply (neigh_correct_unique _ d (K d) t) in Hv; auto. lia.
Qed.
Lemma nflag_all m : nflag m = Z.of_nat (length m) -> m = map (fun _ => true) m.
Proof.
  rewrite nflag_count. intros H. apply Nat2Z.inj in H. assert (B : forall m, (count_true m <= length m)%nat).
  { intros m'. induction m' as [|b m' IH]; [apply le_n|]. rewrite count_true_cons. cbn [length]. destruct b; lia. }
  induction m as [|b m IH]; [reflexivity|]. rewrite count_true_cons in H. cbn [length map] in *. specialize (B m). destruct b; [f_equal; apply IH; lia|lia].
Qed.
Lemma grid_flags o L K M d : tree_upto o L K M -> (d < L)%nat -> (d < full_depth o)%nat -> M d = iM (batch_size o) d.
Proof.
  intros T Hd Hf. pose proof (t_mask _ _ _ _ T d ltac:(lia)) as Hm. pose proof (t_grid _ _ _ _ T d ltac:(lia) ltac:(lia)) as G1. pose proof (t_grid _ _ _ _ T (S d) ltac:(lia) ltac:(lia)) as G2.
  pose proof (t_link _ _ _ _ T d Hd) as Lk. rewrite G2, G1, pick_select in Lk. apply (f_equal (@length Z)) in Lk. rewrite flat_kids_length, full_grid_length, select_length in Lk by (rewrite <- G1; exact Hm).
  assert (E : M d = map (fun _ => true) (M d)).
  { apply nflag_all. rewrite nflag_count, Hm, G1, full_grid_length. f_equal. cbn [Nat.pow] in Lk. nia. }
  rewrite E. unfold iM. rewrite <- G1. clear - Hm. revert Hm. generalize (M d) (K d). intros m k. revert k. induction m as [|b m IH]; intros [|x k] H; try discriminate; [reflexivity|]. cbn [map]. f_equal. apply IH. cbn [length] in H. lia.
Qed.
Lemma obeys_unique n lg f : shape n 2 lg -> obeys lg f -> f = split_flags (map argmax lg).
Proof.
  intros Hs [Hl H]. destruct (argmax_obeys n lg Hs) as [Hl' H']. apply nth_error_ext. intros i. destruct (nth_error lg i) as [r|] eqn:Er.
  - assert (Hi : (i < length lg)%nat) by (apply nth_error_Some; congruence).
    destruct (nth_error f i) as [b|] eqn:Eb; [|apply nth_error_None in Eb; lia]. destruct (nth_error (split_flags (map argmax lg)) i) as [c|] eqn:Ec; [|apply nth_error_None in Ec; lia].
    destruct (H i r b Er Eb) as [A1 A2]. destruct (H' i r c Er Ec) as [B1 B2]. f_equal.
    assert (D : Exists asks_split lg \/ ~ Exists asks_split lg).
    { destruct (existsb (fun r => qltb (nth 0 r 0%Qc) (nth 1 r 0%Qc)) lg) eqn:E; [left|right].
      - apply existsb_exists in E. destruct E as (q & Hq & Eq). apply Exists_exists. exists q. split; [exact Hq|]. apply qltb_lt. exact Eq.
      - intros X. apply Exists_exists in X. destruct X as (q & Hq & Eq). assert (existsb (fun r => qltb (nth 0 r 0%Qc) (nth 1 r 0%Qc)) lg = true); [|congruence].
        apply existsb_exists. exists q. split; [exact Hq|]. apply qltb_lt. exact Eq. }
    destruct D as [D|D]; [specialize (A1 D); specialize (B1 D)|specialize (A2 D); specialize (B2 D)]; destruct b, c; intuition congruence.
  - apply nth_error_None in Er. rewrite (proj2 (nth_error_None f i)), (proj2 (nth_error_None _ i)); [reflexivity|lia|lia].
Qed.

Lemma layers_nth o o2 d l : Forall2 same_tree (layers o) (layers o2) -> nth_error (layers o) d = Some l -> exists l2, nth_error (layers o2) d = Some l2 /\ same_tree l l2.
Proof.
  intros H. revert d. induction H as [|a b la lb Hab H IH]; intros d E; [destruct d; discriminate|]. destruct d as [|d]; cbn [nth_error] in *; [|apply IH; exact E].
  exists b. split; [reflexivity|]. assert (l = a) by congruence. subst l. exact Hab.
Qed.
Lemma tree_move o o2 L K M : tree_upto o L K M -> Forall2 same_tree (layers o) (layers o2) -> depth o2 = depth o -> full_depth o2 = full_depth o -> batch_size o2 = batch_size o -> tree_upto o2 L K M.
Proof.
  intros [t1 t2 t3 t4 t5 t6 t7 t8 t9] H E1 E2 E3. constructor; rewrite ?E1, ?E2, ?E3; try assumption.
  - rewrite <- t5. apply (SearchFacts.Forall2_len _ _ _ H).
  - intros d Hd. destruct (t6 d Hd) as (l & A1 & A2 & A3 & A4 & A5). destruct (layers_nth o o2 d l H A1) as (l2 & B1 & B2 & B3 & B4 & B5). exists l2. split; [exact B1|]. repeat split; congruence.
Qed.
Lemma Forall2_index {A C} (R : A -> C -> Prop) : forall l m, length l = length m -> (forall i a b, nth_error l i = Some a -> nth_error m i = Some b -> R a b) -> Forall2 R l m.
Proof.
  induction l as [|a l IH]; intros [|b m] Hl H; try discriminate; [constructor|]. constructor; [apply (H O); reflexivity|]. apply IH; [cbn [length] in Hl; lia|]. intros i x y E1 E2. apply (H (S i)); assumption.
Qed.
Lemma same_trees o o1 L K M : tree_upto o L K M -> tree_upto o1 L K M -> depth o = L -> depth o1 = L -> Forall2 same_tree (layers o) (layers o1).
Proof.
  intros T T1 E E1. apply Forall2_index; [rewrite (t_len _ _ _ _ T), (t_len _ _ _ _ T1), E, E1; reflexivity|]. intros d l l1 A A1.
  assert (Hd : (d <= L)%nat) by (assert (d < length (layers o))%nat by (apply nth_error_Some; congruence); rewrite (t_len _ _ _ _ T) in H; lia).
  destruct (t_layer _ _ _ _ T d Hd) as (l' & B1 & B2 & B3 & B4 & B5). destruct (t_layer _ _ _ _ T1 d Hd) as (l1' & C1 & C2 & C3 & C4 & C5).
  assert (l' = l) by congruence. assert (l1' = l1) by congruence. subst l' l1'. unfold same_tree. repeat split; congruence.
Qed.

Section Replay.
  Variables (g : ae_cfg) (P : params) (cout lo B dev : nat).
  Hypothesis HC : ae_config g.
  Hypothesis HN : norms_keep lo P.
  Hypothesis HB : (1 <= B)%nat.
  Hypothesis HB2 : Z.of_nat B <= 32768.
  Hypothesis Hlo : (lo <= 8 /\ lo <= 8 ^ a_full g * B)%nat.
  Notation full := (a_full g).
  Notation dep := (a_depth g).
  Variable code : feat.
  Hypothesis Hcode : shape (8 ^ full * B) (a_code g) code.

  Lemma init_code : ae_init_octree g dev code = init_octree dep full B dev.
  Proof.
    unfold ae_init_octree. destruct Hcode as [Hxl _]. rewrite Hxl. replace (2 ^ (3 * full))%nat with (8 ^ full)%nat by (rewrite Nat.pow_mul_r; reflexivity).
    rewrite (Nat.mul_comm (8 ^ full) B), Nat.div_mul by (apply Nat.pow_nonzero; lia). reflexivity.
  Qed.
  (** A finished octree with its tables. *)
  Definition done (o : octree) (K : nat -> list Z) (M : nat -> list bool) : Prop :=
    tree_upto o dep K M /\ neigh_upto o K full dep /\ depth o = dep /\ full_depth o = full /\ batch_size o = B.
  Lemma done_start o K M : done o K M -> exists o0, ae_init_octree g dev code = Ok o0 /\ depth o0 = dep /\ full_depth o0 = full /\ batch_size o0 = B /\ device o0 = dev /\
    (exists M', tree_upto o0 full K M' /\ (forall d, (d < full)%nat -> M' d = M d)) /\ neigh_upto o0 K 0 full.
  Proof.
    intros (T & N & D1 & D2 & D3). pose proof HC as [H1 H2 _ _]. rewrite init_code. destruct (init_Ok dep full B dev ltac:(lia) HB2 ltac:(lia)) as (o0 & E0 & F1 & F2 & F3 & F4 & T0 & N0).
    exists o0. split; [exact E0|]. split; [exact F1|]. split; [exact F2|]. split; [exact F3|]. split; [exact F4|].
    assert (HK : forall d, (d <= full)%nat -> K d = full_grid B d) by (intros d Hd; rewrite (t_grid _ _ _ _ T d) by lia; rewrite D3; reflexivity). split.
    - exists (iM B). split; [eapply tree_upto_ext; [exact HK|reflexivity|exact T0]|]. intros d Hd. rewrite <- D3. symmetry. apply (grid_flags o dep K M d T); lia.
    - eapply neigh_upto_ext; [|exact N0]. intros d Hd. apply HK. lia.
  Qed.
  Lemma grown_depad o K M o0 o1 (y : feat) : done o K M -> grown g K M o0 (S dep - full) o1 -> length y = length (K dep) ->
    octree_depad y o1 (Z.of_nat dep) = octree_depad y o (Z.of_nat dep).
  Proof.
    intros (T & _) (D1 & D2 & _ & (M' & T' & HM) & _) Hy. pose proof HC as [H1 H2 _ _]. replace (Nat.min (full + (S dep - full)) dep) with dep in * by lia.
    rewrite (tree_depad o1 dep K M' T') by (lia || (rewrite (node_count_sel o1 dep K M' T') by lia; exact Hy)). rewrite (tree_depad o dep K M T) by (lia || (rewrite (node_count_sel o dep K M T) by lia; exact Hy)).
    rewrite HM by lia. reflexivity.
  Qed.
  Definition judged (l : ddict feat) (K : nat -> list Z) (M : nat -> list bool) : Prop :=
    forall d, (full <= d <= dep)%nat -> exists lg, dfind l (Z.of_nat d) = Ok lg /\ shape (length (K d)) 2 lg /\ M d = split_flags (map argmax lg).
  Lemma judged_fold l K M : judged l K M -> forall i, (i < S dep - full)%nat -> exists lg, dfind l (Z.of_nat (full + i)) = Ok lg /\ shape (length (K (full + i)%nat)) 2 lg /\ M (full + i)%nat = split_flags (map argmax lg).
  Proof. intros H i Hi. apply H. lia. Qed.
  Lemma judged_ne o K M l : done o K M -> judged l K M -> forall d, (full <= d <= dep)%nat -> K d <> [].
  Proof.
    intros (T & _ & D1 & D2 & D3) J d [Hd1 Hd2]. pose proof HC as [H1 H2 _ _]. induction d as [|d IH] in Hd1, Hd2 |- *.
    - rewrite (t_grid _ _ _ _ T 0%nat) by lia. intros E. apply (f_equal (@length Z)) in E. rewrite full_grid_length in E. cbn [length Nat.pow] in E. lia.
    - destruct (Nat.eq_dec full (S d)) as [<-|Nf].
      + rewrite (t_grid _ _ _ _ T full) by lia. intros E. apply (f_equal (@length Z)) in E. rewrite full_grid_length in E. cbn [length] in E. pose proof (Nat.pow_nonzero 8 full ltac:(lia)). nia.
      + specialize (IH ltac:(lia) ltac:(lia)). destruct (J d ltac:(lia)) as (lg & _ & Hs & Em). rewrite (t_link _ _ _ _ T d) by lia. intros E. apply (f_equal (@length Z)) in E.
        rewrite pick_select, flat_kids_length, select_length in E by (apply (t_mask _ _ _ _ T); lia). cbn [length] in E.
        assert (Hne : map argmax lg <> []). { destruct Hs as [Hl _]. destruct lg; [|discriminate]. destruct (K d); [congruence|discriminate]. }
        pose proof (split_flags_pos _ (argmax_01 _ _ Hs) Hne) as Hp. rewrite <- Em, nflag_count in Hp. lia.
  Qed.
  (** The run on the finished octree, from the growing run ... *)
  Lemma replay_core l s o1 o K M : ae_decode_code g P cout dev code = Ok (l, s, o1) -> done o K M -> judged l K M ->
    ae_decoder g P cout code o false = Ok (l, s, o).
  Proof.
    intros E D J. pose proof HC as [H1 H2 _ _]. destruct (done_start o K M D) as (o0 & E0 & F1 & F2 & F3 & F4 & T0 & N0). unfold ae_decode_code in E. rewrite E0 in E. cbn [bind] in E.
    unfold ae_decoder in *. destruct (foldM (ae_dec_step g P true) (code, o0, []) (arange (S dep - full))) as [[[x oo] lgs]|] eqn:Ef; [|discriminate]. cbn [bind] in E.
    destruct (dec_channels g) as [chs|] eqn:Ec; [|discriminate]. cbn [bind] in E. destruct (tget chs (Z.of_nat dep)) as [c|] eqn:Et; [|discriminate]. cbn [bind] in E.
    destruct (head P [("header"%string, 0)] c 64 cout x) as [hs|] eqn:Eh; [|discriminate]. cbn [bind] in E. destruct (octree_depad (tanh_ P hs) oo (Z.of_nat dep)) as [s'|] eqn:Ed; [|discriminate]. cbn [bind] in E.
    destruct (store_features oo dep s') as [o1'|] eqn:Es; [|discriminate]. cbn [bind] in E. assert (Eq : forall (a b : ddict feat * feat * octree), Ok a = Ok b -> a = b) by congruence. apply Eq in E.
    assert (lgs = l) by congruence. assert (s' = s) by congruence. subst lgs s'. clear E Eq.
    pose proof D as (T & N & D1 & D2 & D3).
    destruct (lock_back g P HC o K M full (le_n _) T N o0 code F1 F2 T0 N0 (judged_ne o K M l D J) (S dep - full) ltac:(lia) x oo l Ef (judged_fold l K M J)) as (Eb & G).
    rewrite Eb. cbn [bind]. rewrite ?Ec. cbn [bind]. rewrite Et. cbn [bind]. rewrite Eh. cbn [bind]. rewrite <- (grown_depad o K M o0 oo (tanh_ P hs) D G), Ed; [reflexivity|].
    destruct G as (_ & _ & _ & (M' & T' & HM) & _). replace (Nat.min (full + (S dep - full)) dep) with dep in * by lia. unfold octree_depad in Ed. rewrite (tree_mask oo dep K M' T') in Ed by lia. cbn [bind] in Ed.
    rewrite <- (t_mask _ _ _ _ T' dep) by lia. unfold mask_get in Ed. destruct (Nat.eqb_spec (length (M' dep)) (length (tanh_ P hs))) as [El|]; [symmetry; exact El|discriminate].
  Qed.
  (** ... and conversely. *)
  Lemma grow_core l s o K M : ae_decoder g P cout code o false = Ok (l, s, o) -> done o K M -> judged l K M ->
    exists oo o1, ae_decode_code g P cout dev code = Ok (l, s, o1) /\ store_features oo dep s = Ok o1 /\ depth oo = dep /\ full_depth oo = full /\ batch_size oo = B /\ tree_upto oo dep K M /\ neigh_upto oo K 0 dep.
  Proof.
    intros E D J. pose proof HC as [H1 H2 _ _]. destruct (done_start o K M D) as (o0 & E0 & F1 & F2 & F3 & F4 & T0 & N0). unfold ae_decode_code. rewrite E0. cbn [bind].
    unfold ae_decoder in *. destruct (foldM (ae_dec_step g P false) (code, o, []) (arange (S dep - full))) as [[[x oz] lgs]|] eqn:Ef; [|discriminate]. cbn [bind] in E.
    destruct (dec_channels g) as [chs|] eqn:Ec; [|discriminate]. cbn [bind] in *. destruct (tget chs (Z.of_nat dep)) as [c|] eqn:Et; [|discriminate]. cbn [bind] in *.
    destruct (head P [("header"%string, 0)] c 64 cout x) as [hs|] eqn:Eh; [|discriminate]. cbn [bind] in *. destruct (octree_depad (tanh_ P hs) oz (Z.of_nat dep)) as [s'|] eqn:Ed; [|discriminate]. cbn [bind] in *.
    assert (Eq : forall (a b : ddict feat * feat * octree), Ok a = Ok b -> a = b) by congruence. apply Eq in E.
    assert (lgs = l) by congruence. assert (s' = s) by congruence. assert (oz = o) by congruence. subst lgs s' oz. clear E Eq.
    pose proof D as (T & N & D1 & D2 & D3).
    destruct (lock_fold g P HC o K M full (le_n _) T N o0 code F1 F2 T0 N0 (judged_ne o K M l D J) (S dep - full) ltac:(lia) x l Ef (judged_fold l K M J)) as (oo & Eg & G).
    rewrite Eg. cbn [bind]. rewrite ?Ec. cbn [bind]. rewrite ?Et. cbn [bind]. rewrite Eh. cbn [bind]. rewrite (grown_depad o K M o0 oo (tanh_ P hs) D G), Ed; cbn [bind].
    2:{ unfold octree_depad in Ed. rewrite (tree_mask o dep K M T) in Ed by lia. cbn [bind] in Ed. rewrite <- (t_mask _ _ _ _ T dep) by lia. unfold mask_get in Ed. destruct (Nat.eqb_spec (length (M dep)) (length (tanh_ P hs))) as [El|]; [symmetry; exact El|discriminate]. }
    destruct G as (G1 & G2 & G3 & (M' & T' & HM) & N'). replace (Nat.min (full + (S dep - full)) dep) with dep in * by lia.
    destruct (store_features oo dep s) as [o1|] eqn:Es.
    2:{ exfalso. unfold store_features in Es. destruct (t_layer _ _ _ _ T' dep (le_n _)) as (ll & El & _). rewrite (upd_layer_Ok _ _ _ _ El) in Es. discriminate. }
    exists oo, o1. split; [reflexivity|]. split; [exact Es|]. split; [exact G1|]. split; [exact G2|]. split; [congruence|]. split; [|exact N'].
    eapply tree_upto_ext; [reflexivity| |exact T']. intros d Hd. symmetry. apply HM; lia.
  Qed.

  (** *** the theorems *)
  Lemma decoded_tables l s o1 : ae_decode_code g P cout dev code = Ok (l, s, o1) -> exists K M, done o1 K M /\ judged l K M /\ neigh_upto o1 K 0 dep.
  Proof.
    intros E. destruct (thm_decode g P cout lo B dev HC HN HB HB2 Hlo code Hcode) as (l' & s' & o' & E' & D1 & D2 & D3 & (K & M & T) & Hn & Hlg & _).
    assert (Eq : forall (a b : ddict feat * feat * octree), Ok a = Ok b -> a = b) by congruence. rewrite E in E'. apply Eq in E'. assert (l' = l) by congruence. assert (o' = o1) by congruence. subst l' o'. clear E'.
    rewrite D1 in T. assert (N : neigh_upto o1 K 0 dep) by (apply (has_neigh_upto o1 dep K M 0 T); intros d Hd; apply Hn; lia). exists K, M. split; [|split; [|exact N]].
    - split; [exact T|]. split; [|auto]. intros d ll Hd. apply N. lia.
    - intros d Hd. destruct (Hlg d Hd) as (lg & fl & A1 & A2 & A3 & A4). rewrite (node_count_sel o1 dep K M T) in A2 by lia. cbn [sel] in A2. exists lg. split; [exact A1|]. split; [exact A2|].
      rewrite (tree_mask o1 dep K M T) in A3 by lia. assert (fl = M d) by congruence. subst fl. apply (obeys_unique _ _ _ A2 A4).
  Qed.
  Theorem thm_replay l s o1 o : ae_decode_code g P cout dev code = Ok (l, s, o1) ->
    depth o = depth o1 -> full_depth o = full_depth o1 -> batch_size o = batch_size o1 -> Forall2 same_tree (layers o1) (layers o) -> (forall d, (full <= d <= dep)%nat -> has_neigh o d) ->
    ae_decoder g P cout code o false = Ok (l, s, o).
  Proof.
    intros E H1 H2 H3 H4 Hn. destruct (decoded_tables l s o1 E) as (K & M & (T & N & D1 & D2 & D3) & J & _). apply (replay_core l s o1 o K M E); [|exact J].
    assert (T' : tree_upto o dep K M) by (apply (tree_move o1 o dep K M T H4); assumption). split; [exact T'|]. split; [apply (has_neigh_upto o dep K M full T' Hn)|]. split; [congruence|]. split; congruence.
  Qed.
  Theorem thm_fixpoint l s o : wf_octree o -> depth o = dep -> full_depth o = full -> batch_size o = B -> layers_ready o false lo full dep ->
    ae_decoder g P cout code o false = Ok (l, s, o) ->
    (forall d logit flags, (full <= d <= dep)%nat -> dfind l (Z.of_nat d) = Ok logit -> nempty_mask o (Z.of_nat d) = Ok flags -> obeys logit flags) ->
    exists o1, ae_decode_code g P cout dev code = Ok (l, s, o1) /\ depth o1 = depth o /\ full_depth o1 = full_depth o /\ batch_size o1 = batch_size o /\ Forall2 same_tree (layers o) (layers o1).
  Proof.
    intros W D1 D2 D3 HL E Ho. pose proof HC as [H1 H2 _ _]. pose proof W as (K & M & T). rewrite D1 in T.
    assert (D : done o K M). { split; [exact T|]. split; [|auto]. apply (has_neigh_upto o dep K M full T). intros d Hd. apply HL. exact Hd. }
    assert (J : judged l K M).
    { destruct (thm_decoder_fixed g P cout lo 0%nat o HC HN W ltac:(congruence) HL code) as (l' & s' & E' & Hlg & _).
      - rewrite (node_count_sel o dep K M T) by lia. cbn [sel]. rewrite (t_grid _ _ _ _ T) by lia. rewrite full_grid_length, D3. exact Hcode.
      - assert (Eq : forall (a b : ddict feat * feat * octree), Ok a = Ok b -> a = b) by congruence. rewrite E in E'. apply Eq in E'. assert (l' = l) by congruence. subst l'. clear E'.
        intros d Hd. destruct (Hlg d Hd) as (lg & A1 & A2). exists lg. split; [exact A1|]. pose proof (Ho d lg (M d) Hd A1 (tree_mask o dep K M T d ltac:(lia))) as A3.
        rewrite (node_count_sel o dep K M T) in A2 by lia. cbn [sel] in A2. split; [exact A2|]. apply (obeys_unique _ _ _ A2 A3). }
    destruct (grow_core l s o K M E D J) as (oo & o1 & E1 & Es & G1 & G2 & G3 & T1 & N1). exists o1. split; [exact E1|].
    destruct (store_tree oo dep K M dep s o1 T1 Es) as (T' & _ & Q1 & Q2 & Q3 & _). split; [congruence|]. split; [congruence|]. split; [congruence|].
    apply (same_trees o o1 dep K M T T'); congruence.
  Qed.
End Replay.
