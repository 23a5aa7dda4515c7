(** The completion network that grows its output octree, and replay on the grown octree. *)
From Coq Require Import String List ZArith Bool QArith Qcanon Lia.
From Verif Require Import Res Tensor Key Num Points Octree NnBasic NnConv NnInterp Features Net Ounet Spec SpecGeo WF SpecNeigh SpecGrow SpecNN SpecInterp SpecFeature SpecNet
  ListFacts KidsFacts NumFacts WFFacts SearchFacts BuildFacts NeighSparse NeighThms GrowFacts NnFacts PadFacts PoolFacts FeatureFacts UpsampleFacts NetFacts NetLoops NetAe Decode OunetFacts.
Import ListNotations.
Open Scope Z_scope.

Lemma align_shape o oq L d C value K' M' : wf_octree o -> tree_upto oq L K' M' -> (d <= depth o)%nat -> (d <= L)%nat ->
  shape (node_count o d false) C value -> (0 < node_count o d false)%nat ->
  exists y, octree_align C value o oq d false = Ok y /\ shape (node_count oq d false) C y.
Proof.
  intros [K [M T]] T' Hd Hd' Hx Hpos. pose proof (node_count_sel o (depth o) K M T d false Hd) as HN. pose proof (node_count_sel oq L K' M' T' d false Hd') as HN'.
  assert (Hne : sel K M false d <> []) by (intros E; rewrite E in HN; cbn [length] in HN; lia).
  destruct Hx as [Hx Hc]. destruct (search_value_spec C value (sel K M false d) (sel K' M' false d)) as (y & Ey & Hy & H).
  { apply (sel_sorted o (depth o) K M T). exact Hd. } { exact Hne. } { lia. } { exact Hc. }
  exists y. split.
  { unfold octree_align. rewrite (tree_key o (depth o) K M) by assumption. cbn [bind]. rewrite (tree_key oq L K' M') by assumption. cbn [bind].
    replace (Nat.eqb (length (sel K M false d)) (length value)) with true by (symmetry; apply Nat.eqb_eq; lia). exact Ey. }
  rewrite HN'. exact Hy.
Qed.

(** One stage of the decoder before the octree is updated. *)
Definition ou_stage (g : ae_cfg) (P : params) (convs : ddict feat) (oin : octree) (x : feat) (o : octree) (i : Z) : res (feat * feat) :=
  let d := Z.of_nat (a_full g) + i in
  chs <- dec_channels g ;;
  c <- tget chs d ;;
  x <- (if 0 <? i
        then c' <- tget chs (d - 1) ;;
             x <- deconv_bn_relu P [("upsample"%string, i - 1)] c' c [2%nat] 2 false x o (d - 1) ;;
             conv <- dfind convs d ;;
             skip <- octree_align (List.length (nth 0 conv [])) conv oin o (Z.to_nat d) false ;;
             add_feat x skip
        else Ok x) ;;
  x <- res_blocks P [("decoder_blks"%string, i)] c c (a_blocks g) 4 false false x o d ;;
  logit <- head P [("predict"%string, i)] c 64 2 x ;;
  Ok (x, logit).
Lemma ou_step_stage g P convs oin upd x o lgs i : ou_dec_step g P convs oin upd (x, o, lgs) i =
  ('(y, logit) <- ou_stage g P convs oin x o i ;;
   o <- (if upd then ae_update g o logit i else Ok o) ;;
   Ok (y, o, dput lgs (Z.of_nat (a_full g) + i) logit)).
Proof.
  unfold ou_dec_step, ou_stage. destruct (dec_channels g); [|reflexivity]. cbn [bind]. destruct (tget _ _); [|reflexivity]. cbn [bind].
  match goal with |- context [if 0 <? i then ?a else ?b] => destruct (if 0 <? i then a else b); [|reflexivity] end. cbn [bind].
  destruct (res_blocks _ _ _ _ _ _ _ _ _ _ _); [|reflexivity]. cbn [bind]. destruct (head _ _ _ _ _ _); reflexivity.
Qed.
Lemma ou_same_stage g P convs oin x o1 o2 i : same1 o1 o2 (a_full g + i) -> (i <> O -> same2 o1 o2 (a_full g + i - 1)) ->
  octree_key o1 (Z.of_nat (a_full g + i)) false = octree_key o2 (Z.of_nat (a_full g + i)) false ->
  ou_stage g P convs oin x o1 (Z.of_nat i) = ou_stage g P convs oin x o2 (Z.of_nat i).
Proof.
  intros H1 H2 HK. unfold ou_stage. replace (Z.of_nat (a_full g) + Z.of_nat i) with (Z.of_nat (a_full g + i)) by lia. apply bind_ext; [reflexivity|]. intros chs.
  apply bind_ext; [reflexivity|]. intros c. apply bind_ext.
  - destruct i as [|i]; [reflexivity|]. replace (0 <? Z.of_nat (S i)) with true by (symmetry; apply Z.ltb_lt; lia). apply bind_ext; [reflexivity|]. intros c'.
    replace (Z.of_nat (a_full g + S i) - 1) with (Z.of_nat (a_full g + i)) by lia. unfold deconv_bn_relu. apply bind_ext.
    + apply bind_ext; [|reflexivity].
      replace (a_full g + S i - 1)%nat with (a_full g + i)%nat in H2 by lia. apply same_deconv; [apply H2; lia|]. replace (S (a_full g + i)) with (a_full g + S i)%nat by lia. exact H1.
    + intros u. apply bind_ext; [reflexivity|]. intros v. apply bind_ext; [|reflexivity]. rewrite Nat2Z.id. unfold octree_align. rewrite HK. reflexivity.
  - intros y. apply bind_ext; [apply same_res_blocks; exact H1|reflexivity].
Qed.

Section Grow.
  Variables (g : ae_cfg) (P : params) (cout lo B dev : nat) (convs : ddict feat) (oin : octree).
  Hypothesis HC : ae_config g.
  Hypothesis HN : norms_keep lo P.
  Hypothesis HB : (1 <= B)%nat.
  Hypothesis HB2 : Z.of_nat B <= 32768.
  Hypothesis Hlo : (lo <= 8 /\ lo <= 8 ^ a_full g * B)%nat.
  Hypothesis Win : wf_octree oin.
  Hypothesis Hdin : a_depth g = depth oin.
  Notation full := (a_full g).
  Notation dep := (a_depth g).
  Hypothesis Hin : forall d, (full < d <= dep)%nat -> (0 < node_count oin d false)%nat /\
    exists v, dfind convs (Z.of_nat d) = Ok v /\ shape (node_count oin d false) (nth d (a_ch g) O) v.
  Variable code : feat.
  Hypothesis Hcode : dfind convs (Z.of_nat full) = Ok code.
  Hypothesis Hcs : shape (8 ^ full * B) (a_code g) code.
  Notation dch := (dch g).
  Notation ae_in := (ae_in g).

  Lemma ou_stage_shape o i x : wf_upto o (full + i) -> (full + i <= dep)%nat -> has_neigh o (full + i) -> busy o lo false (full + i) -> ae_in o i x ->
    exists y z, ou_stage g P convs oin x o (Z.of_nat i) = Ok (y, z) /\ at_layer o false (full + i) (dch (full + i)) y /\ at_layer o false (full + i) 2 z.
  Proof.
    intros W Hd Hn Hb Hx. destruct (dec_ch g HC (full + i) Hd) as (chs & Ec & Hl & Hch). destruct HC as [H1 H2 H3 H4].
    unfold ou_stage. rewrite Ec. cbn [bind]. replace (Z.of_nat full + Z.of_nat i) with (Z.of_nat (full + i)) by lia.
    rewrite (tget_len chs (full + i) O) by lia. cbn [bind]. rewrite Hch, Nat2Z.id.
    assert (G : exists u, (if 0 <? Z.of_nat i
             then c' <- tget chs (Z.of_nat (full + i) - 1) ;;
                  x <- deconv_bn_relu P [("upsample"%string, Z.of_nat i - 1)] c' (dch (full + i)) [2%nat] 2 false x o (Z.of_nat (full + i) - 1) ;;
                  conv <- dfind convs (Z.of_nat (full + i)) ;; skip <- octree_align (List.length (nth 0 conv [])) conv oin o (full + i) false ;; add_feat x skip
             else Ok x) = Ok u /\ at_layer o false (full + i) (dch (full + i)) u).
    { unfold NetAe.ae_in in Hx. destruct i as [|i].
      - cbn [Nat.eqb Z.of_nat Z.ltb Z.compare] in *. exists x. split; [reflexivity|]. rewrite Nat.add_0_r in *. unfold NetAe.dch. rewrite Nat.eqb_refl. exact Hx.
      - replace (0 <? Z.of_nat (S i)) with true by (symmetry; apply Z.ltb_lt; lia). cbn [Nat.eqb] in Hx.
        replace (Z.of_nat (full + S i) - 1) with (Z.of_nat (full + i)) by lia. replace (full + S i - 1)%nat with (full + i)%nat in Hx by lia.
        rewrite (tget_len chs (full + i) O) by lia. cbn [bind]. rewrite Hch.
        destruct (deconv_bn_relu_shape o (full + S i) lo false P W HN [("upsample"%string, Z.of_nat (S i) - 1)] (dch (full + i)) (dch (full + S i)) [2%nat] 2 (full + i) x) as (u & Eu & Hu);
          auto; change (up (full + i) 2) with (S (full + i)) in *; replace (S (full + i)) with (full + S i)%nat in * by lia; auto.
        { pose proof (dch_ok g HC (full + S i)) as Hk. unfold channel_ok in Hk. lia. }
        rewrite Eu. cbn [bind]. destruct (Hin (full + S i)%nat ltac:(lia)) as (Hp & v & Ev & Hv). rewrite Ev. cbn [bind].
        assert (Hw : dch (full + S i)%nat = nth (full + S i) (a_ch g) O) by (unfold NetAe.dch; destruct (Nat.eqb_spec (full + S i) full); [lia|reflexivity]).
        assert (E0 : List.length (nth 0 v []) = nth (full + S i) (a_ch g) O).
        { destruct Hv as [A1 A2]. destruct v as [|r v]; [cbn in A1; lia|]. inversion A2; subst. assumption. }
        destruct W as (K & M & T).
        destruct (align_shape oin o (full + S i) (full + S i) _ v K M Win T ltac:(lia) ltac:(lia) Hv Hp) as (s & Es & Hs). rewrite E0, Es. cbn [bind].
        unfold at_layer in *. rewrite Hw in *. destruct (add_feat_shape _ _ _ _ Hu Hs) as (y & Ey & Hy). exists y. split; [exact Ey|exact Hy]. }
    destruct G as (u & Eu & Hu). rewrite Eu. cbn [bind].
    destruct (res_blocks_shape o (full + i) lo false P W HN [("decoder_blks"%string, Z.of_nat i)] (dch (full + i)) (dch (full + i)) (a_blocks g) 4 false (full + i) u) as (y & Ey & Hy);
      auto; [apply (dch_ok g HC)|pose proof (dch_ok g HC (full + i)) as Hk; unfold channel_ok in Hk; lia|].
    rewrite Ey. cbn [bind]. destruct (head_shape lo P HN [("predict"%string, Z.of_nat i)] (dch (full + i)) 64 2 _ y Hb Hy) as (lg & El & Hlg). rewrite El. cbn [bind].
    exists y, lg. auto.
  Qed.

  Notation ae_good := (ae_good g B).
  Notation ae_inv := (ae_inv g B).
  Lemma ou_grow_step i s : (full + i <= dep)%nat -> ae_inv i s -> exists s', ou_dec_step g P convs oin true s (Z.of_nat i) = Ok s' /\ ae_inv (S i) s'.
  Proof.
    destruct s as [[x o] lgs]. intros Hd (K & M & (D1 & D2 & D3 & T & N & Hne & Hlg) & Hx). replace (Nat.min (full + i) dep) with (full + i)%nat in * by lia.
    set (d := (full + i)%nat) in *.
    assert (Hb : busy o lo false d).
    { unfold busy. rewrite (node_count_sel o d K M T) by lia. cbn [sel]. destruct i as [|i].
      - unfold d in *. rewrite Nat.add_0_r in *. rewrite (t_grid _ _ _ _ T) by lia. rewrite D3, full_grid_length. lia.
      - unfold d in *. replace (full + S i)%nat with (S (full + i)) by lia. rewrite (t_link _ _ _ _ T) by lia. rewrite pick_select, flat_kids_length.
        specialize (Hne (full + i)%nat ltac:(lia)). destruct (select (M (full + i)%nat) (K (full + i)%nat)); [congruence|]. cbn [length]. lia. }
    destruct (ou_stage_shape o i x) as (y & lg & E & Hy & Hz); [exists K, M; exact T|exact Hd|apply (neigh_all o d K M T N); lia|exact Hb|exact Hx|].
    rewrite ou_step_stage, E. cbn [bind]. fold d in Hy, Hz. unfold ae_update.
    replace (Z.of_nat full + Z.of_nat i) with (Z.of_nat d) by lia. rewrite !Nat2Z.id.
    unfold at_layer in Hz. rewrite (node_count_sel o d K M T) in Hz by lia. cbn [sel] in Hz.
    unfold at_layer in Hy. rewrite (node_count_sel o d K M T) in Hy by lia. cbn [sel] in Hy.
    assert (H01 := argmax_01 _ lg Hz).
    assert (Hlen : length (map argmax lg) = length (K d)) by (rewrite map_length; apply Hz).
    assert (Hs : map argmax lg <> []).
    { intros E0. rewrite E0 in Hlen. cbn [length] in Hlen. apply (Hne d ltac:(lia)). destruct (K d); [|discriminate]. destruct (M d) as [|[] ?]; reflexivity. }
    destruct (tree_split o d K M d (map argmax lg) T N ltac:(lia) H01 Hs Hlen) as (o1 & E1 & P1 & P2 & P3 & T1 & N1). rewrite E1. cbn [bind].
    set (M1 := fupd M d (split_flags (map argmax lg))) in *.
    assert (Hne1 : forall j, (j <= d)%nat -> select (M1 j) (K j) <> []).
    { intros j Hj. unfold M1. destruct (Nat.eq_dec j d) as [->|Nj].
      - rewrite fupd_eq. pose proof (split_flags_pos _ H01 Hs) as Hpos. intros E0. apply (f_equal (@length Z)) in E0.
        rewrite select_length in E0 by (rewrite split_flags_length; exact Hlen). rewrite nflag_count in Hpos. cbn [length] in E0. lia.
      - rewrite fupd_ne by exact Nj. apply Hne. exact Hj. }
    assert (Hlg1 : forall j, (full <= j < full + S i)%nat -> exists lgj, dfind (dput lgs (Z.of_nat d) lg) (Z.of_nat j) = Ok lgj /\ shape (length (K j)) 2 lgj /\ M1 j = split_flags (map argmax lgj)).
    { intros j Hj. rewrite dfind_put. destruct (Nat.eq_dec j d) as [->|Nj].
      - rewrite Z.eqb_refl. exists lg. split; [reflexivity|]. split; [exact Hz|]. unfold M1. apply fupd_eq.
      - replace (Z.of_nat j =? Z.of_nat d) with false by (symmetry; apply Z.eqb_neq; lia). unfold M1. rewrite fupd_ne by exact Nj. apply Hlg. unfold d in Nj. lia. }
    assert (Hin' : forall o' K' M' L, tree_upto o' L K' M' -> (d <= L)%nat -> K' d = K d -> ae_in o' (S i) y).
    { intros o' K' M' L T' HL EK. unfold NetAe.ae_in. cbn [Nat.eqb]. replace (full + S i - 1)%nat with d by (unfold d; lia). unfold at_layer.
      rewrite (node_count_sel o' L K' M' T') by exact HL. cbn [sel]. rewrite EK. exact Hy. }
    destruct (Z.ltb_spec (Z.of_nat d) (Z.of_nat dep)) as [H|H].
    - destruct (tree_grow o1 d K M1 d T1 N1 ltac:(lia) ltac:(lia)) as (o2 & E2 & Q1 & Q2 & Q3 & T2 & N2).
      replace (d + 1)%nat with (S d) by lia. rewrite E2. cbn [bind].
      eexists. split; [reflexivity|]. cbn [NetAe.ae_inv].
      set (K2 := fupd K (S d) (flat_map kids (select (M1 d) (K d)))) in *. set (M2 := fupd M1 (S d) (map (fun _ => true) (flat_map kids (select (M1 d) (K d))))) in *.
      exists K2, M2. replace (Nat.min (full + S i) dep) with (S d) by (unfold d in *; lia). split.
      + split; [congruence|]. split; [congruence|]. split; [congruence|]. split; [exact T2|]. split; [exact N2|]. split.
        * intros j Hj. unfold K2, M2. destruct (Nat.eq_dec j (S d)) as [->|Nj].
          -- rewrite !fupd_eq. pose proof (Hne1 d ltac:(lia)) as Hq. destruct (select (M1 d) (K d)) as [|k ks]; [congruence|]. cbn [flat_map]. discriminate.
          -- rewrite !fupd_ne by exact Nj. apply Hne1. lia.
        * intros j Hj. unfold K2, M2. rewrite !fupd_ne by (unfold d; lia). apply Hlg1. exact Hj.
      + apply (Hin' o2 K2 M2 (S d)); [exact T2|lia|]. unfold K2. apply fupd_ne. lia.
    - eexists. split; [reflexivity|]. cbn [NetAe.ae_inv]. exists K, M1. replace (Nat.min (full + S i) dep) with d by (unfold d in *; lia). split.
      + split; [congruence|]. split; [congruence|]. split; [congruence|]. auto.
      + apply (Hin' o1 K M1 d); [exact T1|lia|reflexivity].
  Qed.

  Theorem thm_ou_grow : exists o0 logits signal o, init_octree dep full B dev = Ok o0 /\ ou_decoder g P cout convs oin o0 true = Ok (logits, signal, o) /\
      depth o = dep /\ full_depth o = full /\ batch_size o = B /\ wf_octree o /\
      (forall d, (d <= dep)%nat -> has_neigh o d /\ (0 < node_count o d true)%nat) /\
      (forall d, (full <= d <= dep)%nat -> exists logit flags, dfind logits (Z.of_nat d) = Ok logit /\ shape (node_count o d false) 2 logit /\
         nempty_mask o (Z.of_nat d) = Ok flags /\ obeys logit flags) /\
      shape (node_count o dep true) cout signal /\ exists l, nth_error (layers o) dep = Some l /\ l_features l = Some signal.
  Proof.
    pose proof Hcs as Hx. destruct HC as [H1 H2 H3 H4]. destruct Hx as [Hxl Hxc].
    destruct (init_Ok dep full B dev ltac:(lia) HB2 ltac:(lia)) as (o0 & E0 & D1 & D2 & D3 & _ & T0 & N0).
    unfold ou_decoder. rewrite Hcode. cbn [bind].
    destruct (foldM_arange ae_inv (ou_dec_step g P convs oin true) (S dep - full) (code, o0, [])) as ([[x o] lgs] & E & K & M & (G1 & G2 & G3 & T & N & Hne & Hlg) & Hi).
    - cbn [NetAe.ae_inv]. exists (full_grid B), (iM B). replace (Nat.min (full + 0) dep) with full by lia. split.
      + split; [exact D1|]. split; [exact D2|]. split; [exact D3|]. split; [exact T0|]. split; [exact N0|]. split; [|intros d Hd; lia].
        intros d Hd E1. apply (f_equal (@length Z)) in E1. unfold iM in E1. rewrite select_length in E1 by apply map_length.
        pose proof (nflag_all_true (full_grid B d)) as Hf. rewrite nflag_count, full_grid_length in Hf. cbn [length] in E1. rewrite E1 in Hf.
        pose proof (Nat.pow_nonzero 8 d ltac:(lia)). nia.
      + unfold NetAe.ae_in. cbn [Nat.eqb]. unfold at_layer. rewrite (node_count_sel o0 full _ _ T0) by lia. cbn [sel]. rewrite full_grid_length. split; [exact Hxl|exact Hxc].
    - intros i s Hi. apply ou_grow_step. lia.
    - exists o0. assert (G : forall (P0 : ddict feat -> feat -> octree -> Prop) r, (exists l s o, r = Ok (l, s, o) /\ P0 l s o) ->
         exists l s o, init_octree dep full B dev = Ok o0 /\ r = Ok (l, s, o) /\ P0 l s o) by (intros ? ? (l & s & q & A & C); exists l, s, q; auto).
      apply G. clear G. rewrite E. cbn [bind]. replace (Nat.min (full + (S dep - full)) dep) with dep in * by lia. destruct (dec_ch g HC dep ltac:(lia)) as (chs & Ec & Hl & Hch). rewrite Ec. cbn [bind].
      rewrite (tget_len chs dep O) by lia. cbn [bind]. rewrite Hch. unfold NetAe.ae_in in Hi. replace (Nat.eqb (S dep - full) 0) with false in Hi by (symmetry; apply Nat.eqb_neq; lia).
      replace (full + (S dep - full) - 1)%nat with dep in Hi by lia. assert (Hin' := Hi). unfold at_layer in Hin'.
      assert (Hb : (lo <= node_count o dep false)%nat).
      { rewrite (node_count_sel o dep K M T) by lia. cbn [sel]. destruct (Nat.eq_dec full dep) as [Ef|Nf].
        - rewrite (t_grid _ _ _ _ T) by lia. rewrite G3, full_grid_length, <- Ef. lia.
        - destruct dep as [|dp] eqn:Edp; [lia|]. rewrite (t_link _ _ _ _ T) by lia. rewrite pick_select, flat_kids_length.
          specialize (Hne dp ltac:(lia)). destruct (select (M dp) (K dp)); [congruence|]. cbn [length]. lia. }
      destruct (head_shape lo P HN [("header"%string, 0)] (dch dep) 64 cout _ x Hb Hin') as (s & Es & Hs). rewrite Es. cbn [bind].
      apply (tanh_shape P) in Hs. assert (Hss := Hs). destruct Hss as [Hsl Hsc]. rewrite (tree_depad o dep K M T) by (lia || exact Hsl). cbn [bind].
      destruct (nth_error (layers o) dep) as [l|] eqn:El; [|apply nth_error_None in El; rewrite (t_len _ _ _ _ T) in El; lia].
      destruct (store_features o dep (select (M dep) (tanh_ P s))) as [o'|] eqn:Eo; [|unfold store_features in Eo; rewrite (upd_layer_Ok _ _ _ _ El) in Eo; discriminate].
      cbn [bind]. destruct (store_tree o dep K M dep _ o' T Eo) as (T' & N' & Q1 & Q2 & Q3 & Hfe). specialize (N' _ _ N).
      exists lgs, (select (M dep) (tanh_ P s)), o'. split; [reflexivity|]. split; [congruence|]. split; [congruence|]. split; [congruence|].
      split; [exists K, M; rewrite Q1, G1; exact T'|]. split; [|split; [|split; [|exact Hfe]]].
      + intros d Hd. split; [apply (neigh_all o' dep K M T' N'); exact Hd|]. rewrite (node_count_sel o' dep K M T') by exact Hd. cbn [sel].
        specialize (Hne d Hd). destruct (select (M d) (K d)); [congruence|]. cbn [length]. lia.
      + intros d Hd. destruct (Hlg d ltac:(lia)) as (lg & E1 & E2 & E3). exists lg, (M d). split; [exact E1|].
        rewrite (node_count_sel o' dep K M T') by lia. cbn [sel]. split; [exact E2|]. split; [apply (tree_mask o' dep K M T'); lia|]. rewrite E3. apply (argmax_obeys _ _ E2).
      + split.
        * rewrite (node_count_sel o' dep K M T') by lia. cbn [sel]. rewrite select_length; [rewrite select_length; [reflexivity|apply (t_mask _ _ _ _ T); lia]|].
          rewrite Hsl, (node_count_sel o dep K M T) by lia. cbn [sel]. apply (t_mask _ _ _ _ T). lia.
        * apply Forall_forall. intros r Hr. rewrite Forall_forall in Hsc. apply Hsc. apply in_select in Hr. destruct Hr as (p & _ & Hp). eapply nth_error_In; exact Hp.
  Qed.

  (** ** replay on the grown octree *)
  Section Back.
    Variables (o : octree) (K : nat -> list Z) (M : nat -> list bool).
    Hypothesis D : done g B o K M.
    Hypothesis Hne : forall d, (full <= d <= dep)%nat -> K d <> [].
    Variable o0 : octree.
    Hypothesis HD0 : depth o0 = dep.
    Hypothesis HF0 : full_depth o0 = full.
    Hypothesis T0 : exists M', tree_upto o0 full K M' /\ (forall d, (d < full)%nat -> M' d = M d).
    Hypothesis N0 : neigh_upto o0 K 0 full.
    Notation grown := (grown g K M o0).
    Lemma ou_lock_stage i o1 x : (full + i <= dep)%nat -> grown i o1 -> ou_stage g P convs oin x o1 (Z.of_nat i) = ou_stage g P convs oin x o (Z.of_nat i).
    Proof.
      destruct D as (T & N & _). intros Hi (D1 & D2 & _ & (M' & T' & HM) & N'). replace (Nat.min (full + i) dep) with (full + i)%nat in * by lia. apply ou_same_stage.
      - destruct (tree_get o1 _ K M' T' (full + i)%nat ltac:(lia)) as (l1 & E1 & G1 & _ & _ & A1 & _). destruct (tree_get o _ K M T (full + i)%nat ltac:(lia)) as (l2 & E2 & G2 & _ & _ & A2 & _).
        exists l1, l2. split; [exact E1|]. split; [exact E2|]. split; [congruence|]. rewrite (N' (full + i)%nat l1), (N (full + i)%nat l2) by (assumption || lia). reflexivity.
      - intros Hi0. destruct (tree_get o1 _ K M' T' (full + i - 1)%nat ltac:(lia)) as (l1 & E1 & G1 & _ & A1 & _ & B1). destruct (tree_get o _ K M T (full + i - 1)%nat ltac:(lia)) as (l2 & E2 & G2 & _ & A2 & _ & B2).
        exists l1, l2. split; [exact E1|]. split; [exact E2|]. rewrite HM in A1, B1 by lia. split; congruence.
      - rewrite (tree_key o1 _ K M' T') by lia. rewrite (tree_key o _ K M T) by lia. reflexivity.
    Qed.
    Lemma ou_lock_back m : (full + m <= S dep)%nat -> forall x o1 lgs, foldM (ou_dec_step g P convs oin true) (code, o0, []) (arange m) = Ok (x, o1, lgs) ->
      (forall i, (i < m)%nat -> exists lg, dfind lgs (Z.of_nat (full + i)) = Ok lg /\ shape (length (K (full + i)%nat)) 2 lg /\ M (full + i)%nat = split_flags (map argmax lg)) ->
      foldM (ou_dec_step g P convs oin false) (code, o, []) (arange m) = Ok (x, o, lgs) /\ grown m o1.
    Proof.
      destruct D as (T & N & _).
      induction m as [|m IH]; intros Hm x o1 lgs E Hlg.
      - destruct HC as [C1 C2 _ _]. cbn [arange seq map foldM] in *. assert (Eq : forall (a b : feat * octree * ddict feat), Ok a = Ok b -> a = b) by congruence. apply Eq in E.
        assert (x = code) by congruence. assert (lgs = []) by congruence. assert (o1 = o0) by congruence. subst x lgs o1. split; [reflexivity|].
        unfold Decode.grown. replace (Nat.min (full + 0) dep) with full by lia. split; [exact HD0|]. split; [exact HF0|]. split; [reflexivity|]. split; [|exact N0].
        destruct T0 as (M' & T1 & HM). exists M'. split; [exact T1|]. intros d Hd _. apply HM. lia.
      - rewrite arange_S, foldM_app in *. destruct (foldM (ou_dec_step g P convs oin true) (code, o0, []) (arange m)) as [[[x1 oo] lgs1]|] eqn:E1; [|discriminate]. cbn [bind foldM] in E.
        rewrite ou_step_stage in E. destruct (ou_stage g P convs oin x1 oo (Z.of_nat m)) as [[y lg]|] eqn:Es; [|discriminate]. cbn [bind] in E.
        destruct (ae_update g oo lg (Z.of_nat m)) as [o2|] eqn:U; [|discriminate]. cbn [bind] in E.
        assert (Eq : forall (a b : feat * octree * ddict feat), Ok a = Ok b -> a = b) by congruence. apply Eq in E.
        assert (y = x) by congruence. assert (o2 = o1) by congruence. assert (E3 : dput lgs1 (Z.of_nat full + Z.of_nat m) lg = lgs) by congruence. subst y o2. clear E.
        replace (Z.of_nat full + Z.of_nat m) with (Z.of_nat (full + m)) in E3 by lia.
        destruct (IH ltac:(lia) x1 oo lgs1 eq_refl) as (F1 & G1).
        { intros i Hi. destruct (Hlg i ltac:(lia)) as (lgi & A1 & A2). exists lgi. split; [|exact A2]. rewrite <- E3, dfind_put in A1.
          replace (Z.of_nat (full + i) =? Z.of_nat (full + m)) with false in A1 by (symmetry; apply Z.eqb_neq; lia). exact A1. }
        destruct (Hlg m ltac:(lia)) as (lg' & A1 & A2 & A3). rewrite <- E3, dfind_put, Z.eqb_refl in A1. assert (lg' = lg) by congruence. subst lg'.
        destruct (lock_update g o K M full (le_n _) T o0 HD0 HF0 Hne m oo lg ltac:(lia) G1 A2 A3) as (o2 & U' & G2). assert (o2 = o1) by congruence. subst o2. split; [|exact G2].
        rewrite F1. cbn [bind foldM]. rewrite ou_step_stage, <- (ou_lock_stage m oo x1 ltac:(lia) G1), Es. cbn [bind].
        replace (Z.of_nat full + Z.of_nat m) with (Z.of_nat (full + m)) by lia. rewrite E3. reflexivity.
    Qed.
  End Back.

  Theorem thm_ou_replay o0 l s o1 o : init_octree dep full B dev = Ok o0 -> ou_decoder g P cout convs oin o0 true = Ok (l, s, o1) ->
    depth o = depth o1 -> full_depth o = full_depth o1 -> batch_size o = batch_size o1 -> Forall2 same_tree (layers o1) (layers o) -> (forall d, (full <= d <= dep)%nat -> has_neigh o d) ->
    ou_decoder g P cout convs oin o false = Ok (l, s, o).
  Proof.
    intros E0 E A1 A2 A3 A4 Hn.
    assert (Eq : forall (a b : ddict feat * feat * octree), Ok a = Ok b -> a = b) by congruence.
    destruct thm_ou_grow as (o0' & l' & s' & o1' & E0' & E' & D1 & D2 & D3 & W & Hn1 & Hlg & _). assert (o0' = o0) by congruence. subst o0'.
    assert (E1' := E'). rewrite E in E1'. apply Eq in E1'. assert (l' = l) by congruence. assert (o1' = o1) by congruence. subst l' o1'. clear E1' E' s'.
    destruct W as (K & M & T1). rewrite D1 in T1.
    assert (T : tree_upto o dep K M) by (apply (tree_move o1 o dep K M T1 A4); assumption).
    assert (D : done g B o K M). { split; [exact T|]. split; [apply (has_neigh_upto o dep K M full T Hn)|]. split; [congruence|]. split; congruence. }
    assert (J : judged g l K M).
    { intros d Hd. destruct (Hlg d Hd) as (lg & fl & B1 & B2 & B3 & B4). rewrite (node_count_sel o1 dep K M T1) in B2 by lia. cbn [sel] in B2. exists lg. split; [exact B1|]. split; [exact B2|].
      rewrite (tree_mask o1 dep K M T1) in B3 by lia. assert (fl = M d) by congruence. subst fl. apply (obeys_unique _ _ _ B2 B4). }
    destruct (done_start g lo B dev HC HB HB2 Hlo code Hcs o K M D) as (o0' & F0 & F1 & F2 & F3 & F4 & T0 & N0).
    rewrite (init_code g lo B dev HB Hlo code Hcs) in F0. assert (o0' = o0) by congruence. subst o0'.
    pose proof (judged_ne g lo B HC HB Hlo o K M l D J) as Hne. pose proof HC as [H1 H2 _ _].
    unfold ou_decoder in *. rewrite Hcode in *. cbn [bind] in *.
    destruct (foldM (ou_dec_step g P convs oin true) (code, o0, []) (arange (S dep - full))) as [[[x oo] lgs]|] eqn:Ef; [|discriminate]. cbn [bind] in E.
    destruct (dec_channels g) as [chs|] eqn:Ec; [|discriminate]. cbn [bind] in E. destruct (tget chs (Z.of_nat dep)) as [c|] eqn:Et; [|discriminate]. cbn [bind] in E.
    destruct (head P [("header"%string, 0)] c 64 cout x) as [hs|] eqn:Eh; [|discriminate]. cbn [bind] in E. destruct (octree_depad (tanh_ P hs) oo (Z.of_nat dep)) as [s'|] eqn:Ed; [|discriminate]. cbn [bind] in E.
    destruct (store_features oo dep s') as [o1'|] eqn:Es; [|discriminate]. cbn [bind] in E. apply Eq in E.
    assert (lgs = l) by congruence. assert (s' = s) by congruence. subst lgs s'. clear E Eq.
    destruct (ou_lock_back o K M D Hne o0 F1 F2 T0 N0 (S dep - full) ltac:(lia) x oo l Ef (judged_fold g lo B HB Hlo l K M J)) as (Eb & G).
    rewrite Eb. cbn [bind]. rewrite ?Ec. cbn [bind]. rewrite Et. cbn [bind]. rewrite Eh. cbn [bind]. rewrite <- (grown_depad g lo B dev HC HB Hlo o K M o0 oo (tanh_ P hs) D G), Ed; [reflexivity|].
    destruct G as (_ & _ & _ & (M' & T' & HM) & _). replace (Nat.min (full + (S dep - full)) dep) with dep in * by lia. unfold octree_depad in Ed. rewrite (tree_mask oo dep K M' T') in Ed by lia. cbn [bind] in Ed.
    rewrite <- (t_mask _ _ _ _ T' dep) by lia. unfold mask_get in Ed. destruct (Nat.eqb_spec (length (M' dep)) (length (tanh_ P hs))) as [El|]; [symmetry; exact El|discriminate].
  Qed.
End Grow.

(** ** the encoder and the whole network *)
Section Whole.
  Variables (g : ae_cfg) (P : params) (cin cout lo : nat) (get_input : octree -> res feat) (o : octree).
  Hypothesis HC : ae_config g.
  Hypothesis HN : norms_keep lo P.
  Hypothesis W : wf_octree o.
  Hypothesis Hdep : a_depth g = depth o.
  Hypothesis HL : layers_ready o false lo (a_full g) (a_depth g).
  Hypothesis Hcin : channel_ok cin.
  Notation full := (a_full g).
  Notation dep := (a_depth g).
  Notation ch d := (nth d (a_ch g) O).

  Lemma ou_enc_step i m x : (full + i <= dep)%nat -> dfind m (Z.of_nat (dep - i)) = Ok x -> at_layer o false (dep - i) (ch (dep - i)) x ->
    exists m' y, ae_enc_step g P o m (Z.of_nat i) = Ok m' /\ dfind m' (Z.of_nat (dep - i)) = Ok y /\ at_layer o false (dep - i) (ch (dep - i)) y /\
      (forall d, (dep - i < d)%nat -> dfind m' (Z.of_nat d) = dfind m (Z.of_nat d)) /\
      ((dep - i)%nat <> full -> exists z, dfind m' (Z.of_nat (dep - S i)) = Ok z /\ at_layer o false (dep - S i) (ch (dep - S i)) z).
  Proof.
    intros Hi Hm Hx. pose proof HC as [H1 H2 H3 H4]. unfold ae_enc_step. replace (Z.of_nat dep - Z.of_nat i) with (Z.of_nat (dep - i)) by lia.
    rewrite (tget_len _ (dep - i) O) by lia. cbn [bind]. rewrite Hm. cbn [bind]. destruct (HL (dep - i)%nat ltac:(lia)) as [Hn Hb].
    assert (Hk : forall d, channel_ok (ch d)) by (intros d; apply forall_nth_ok; exact H3).
    destruct (res_blocks_shape o (depth o) lo false P W HN [("encoder_blks"%string, Z.of_nat i)] (ch (dep - i)) (ch (dep - i)) (a_blocks g) 4 false (dep - i) x) as (y & Ey & Hy);
      auto; [lia|specialize (Hk (dep - i)%nat); unfold channel_ok in Hk; lia|].
    rewrite Ey. cbn [bind]. destruct (Nat.eq_dec (dep - i) full) as [Ef|Nf].
    - replace (Z.of_nat full <? Z.of_nat (dep - i)) with false by (symmetry; apply Z.ltb_ge; lia). eexists _, y. split; [reflexivity|]. rewrite dfind_put, Z.eqb_refl. split; [reflexivity|]. split; [exact Hy|].
      split; [|congruence]. intros d Hd. rewrite dfind_put. replace (Z.of_nat d =? Z.of_nat (dep - i)) with false by (symmetry; apply Z.eqb_neq; lia). reflexivity.
    - replace (Z.of_nat full <? Z.of_nat (dep - i)) with true by (symmetry; apply Z.ltb_lt; lia). replace (Z.of_nat (dep - i) - 1) with (Z.of_nat (dep - S i)) by lia.
      rewrite (tget_len _ (dep - S i) O) by lia. cbn [bind]. destruct (HL (dep - S i)%nat ltac:(lia)) as [_ Hb'].
      assert (Hdn : down (dep - i) 2 = (dep - S i)%nat) by (unfold down; cbn [Z.eqb Pos.eqb]; lia).
      destruct (conv_bn_relu_shape o (depth o) lo false P W HN [("downsample"%string, Z.of_nat i)] (ch (dep - i)) (ch (dep - S i)) [2%nat] 2 (dep - i) y) as (z & Ez & Hz);
        auto; [lia|right; split; [reflexivity|lia]|specialize (Hk (dep - i)%nat); unfold channel_ok in Hk; lia|rewrite Hdn; exact Hb'|].
      rewrite Hdn in Hz. rewrite Ez. cbn [bind]. eexists _, y. split; [reflexivity|]. rewrite !dfind_put, Z.eqb_refl.
      replace (Z.of_nat (dep - i) =? Z.of_nat (dep - S i)) with false by (symmetry; apply Z.eqb_neq; lia). split; [reflexivity|]. split; [exact Hy|]. split.
      + intros d Hd. rewrite !dfind_put. replace (Z.of_nat d =? Z.of_nat (dep - S i)) with false by (symmetry; apply Z.eqb_neq; lia).
        replace (Z.of_nat d =? Z.of_nat (dep - i)) with false by (symmetry; apply Z.eqb_neq; lia). reflexivity.
      + intros _. rewrite Z.eqb_refl. exists z. auto.
  Qed.
  Theorem thm_ou_encoder x : get_input o = Ok x -> shape (node_count o dep false) cin x ->
    exists convs, ou_encoder g P cin get_input o = Ok convs /\
      forall d, (full <= d <= dep)%nat -> exists v, dfind convs (Z.of_nat d) = Ok v /\ shape (node_count o d false) (ch d) v.
  Proof.
    intros E Hx. pose proof HC as [H1 H2 H3 H4]. unfold ou_encoder. rewrite E. cbn [bind].
    rewrite (tget_len _ dep O) by lia. cbn [bind]. destruct (HL dep ltac:(lia)) as [Hn Hb].
    destruct (conv_bn_relu_shape o (depth o) lo false P W HN [("conv1"%string, 0)] cin (ch dep) [3%nat] 1 dep x) as (y & Ey & Hy);
      auto; [lia|unfold channel_ok in Hcin; lia|].
    rewrite Ey. cbn [bind]. change (down dep 1) with dep in Hy.
    destruct (foldM_arange (fun i m => (forall d, (dep - i < d <= dep)%nat -> exists v, dfind m (Z.of_nat d) = Ok v /\ shape (node_count o d false) (ch d) v) /\
        if Nat.eqb i (S dep - full) then exists v, dfind m (Z.of_nat full) = Ok v /\ at_layer o false full (ch full) v else exists v, dfind m (Z.of_nat (dep - i)) = Ok v /\ at_layer o false (dep - i) (ch (dep - i)) v)
      (ae_enc_step g P o) (S dep - full) (dput [] (Z.of_nat dep) y)) as (m & Em & Ha & Hz).
    - split; [intros d Hd; lia|]. replace (Nat.eqb 0 (S dep - full)) with false by (symmetry; apply Nat.eqb_neq; lia). exists y. rewrite Nat.sub_0_r, dfind_put, Z.eqb_refl. auto.
    - intros i m Hi (Ha & Hu). replace (Nat.eqb i (S dep - full)) with false in Hu by (symmetry; apply Nat.eqb_neq; lia). destruct Hu as (u & Hu1 & Hu2).
      destruct (ou_enc_step i m u ltac:(lia) Hu1 Hu2) as (m' & v & Em & Ev & Hv & Hk & Hz). exists m'. split; [exact Em|]. split.
      + intros d Hd. destruct (Nat.eq_dec d (dep - i)) as [->|Nd]; [exists v; auto|]. rewrite Hk by lia. apply Ha. lia.
      + destruct (Nat.eqb_spec (S i) (S dep - full)) as [Es|Ns].
        * replace (dep - i)%nat with full in * by lia. exists v. auto.
        * apply Hz. lia.
    - exists m. split; [exact Em|]. rewrite Nat.eqb_refl in Hz. intros d Hd. destruct (Nat.eq_dec d full) as [->|Nd]; [exact Hz|]. apply Ha. lia.
  Qed.

  Hypothesis Hcode : a_code g = ch full.
  Hypothesis Hfull : (full <= full_depth o)%nat.
  Hypothesis HB : (1 <= batch_size o)%nat.
  Hypothesis Hlo : (lo <= 8)%nat.
  Hypothesis Hpos : forall d, (full < d <= dep)%nat -> (0 < node_count o d false)%nat.
  Lemma ou_grid : node_count o full false = (8 ^ full * batch_size o)%nat.
  Proof. pose proof HC as [H1 _ _ _]. destruct W as (K & M & T). rewrite (node_count_sel o (depth o) K M T) by lia. cbn [sel]. rewrite (t_grid _ _ _ _ T) by lia. apply full_grid_length. Qed.
  Theorem thm_ou_forward x : get_input o = Ok x -> shape (node_count o dep false) cin x ->
    forall update, exists logits signal o', OUNet_forward g P cin cout get_input o None update = Ok (logits, signal, o') /\
      depth o' = dep /\ full_depth o' = full /\ batch_size o' = batch_size o /\ wf_octree o' /\
      (forall d, (d <= dep)%nat -> has_neigh o' d /\ (0 < node_count o' d true)%nat) /\
      (forall d, (full <= d <= dep)%nat -> exists logit flags, dfind logits (Z.of_nat d) = Ok logit /\ shape (node_count o' d false) 2 logit /\
         nempty_mask o' (Z.of_nat d) = Ok flags /\ obeys logit flags) /\
      shape (node_count o' dep true) cout signal /\ (exists l, nth_error (layers o') dep = Some l /\ l_features l = Some signal) /\
      (forall o2, depth o2 = depth o' -> full_depth o2 = full_depth o' -> batch_size o2 = batch_size o' -> Forall2 same_tree (layers o') (layers o2) -> (forall d, (full <= d <= dep)%nat -> has_neigh o2 d) ->
         OUNet_forward g P cin cout get_input o (Some o2) false = Ok (logits, signal, o2)).
  Proof.
    intros E Hx update. pose proof HC as [H1 H2 H3 H4]. destruct (thm_ou_encoder x E Hx) as (convs & Ec & Hv). destruct (Hv full ltac:(lia)) as (code & Eco & Hco). rewrite ou_grid, <- Hcode in Hco.
    destruct (HL full ltac:(lia)) as [_ Hb]. rewrite ou_grid in Hb.
    assert (HB2 : Z.of_nat (batch_size o) <= 32768) by (destruct W as (K & M & T); apply (t_batch _ _ _ _ T)).
    assert (Hin : forall d, (full < d <= dep)%nat -> (0 < node_count o d false)%nat /\ exists v, dfind convs (Z.of_nat d) = Ok v /\ shape (node_count o d false) (ch d) v).
    { intros d Hd. split; [apply Hpos; exact Hd|]. apply Hv. lia. }
    destruct (thm_ou_grow g P cout lo (batch_size o) (device o) convs o HC HN HB HB2 (conj Hlo Hb) W Hdep Hin code Eco Hco) as (o0 & l & s & o' & E0 & E1 & D1 & D2 & D3 & W' & A1 & A2 & A3 & A4).
    exists l, s, o'. split; [unfold OUNet_forward, ou_init_octree; rewrite E0; cbn [bind]; rewrite Ec; cbn [bind]; exact E1|].
    split; [exact D1|]. split; [exact D2|]. split; [exact D3|]. split; [exact W'|]. split; [exact A1|]. split; [exact A2|]. split; [exact A3|]. split; [exact A4|].
    intros o2 B1 B2 B3 B4 B5. unfold OUNet_forward. cbn [bind]. rewrite Ec. cbn [bind].
    apply (thm_ou_replay g P cout lo (batch_size o) (device o) convs o HC HN HB HB2 (conj Hlo Hb) W Hdep Hin code Eco Hco o0 l s o' o2 E0 E1 B1 B2 B3 B4 B5).
  Qed.
End Whole.

Lemma thm_ou_no_method g P cin cout oin out update r : OUNet_forward g P cin cout no_method oin out update <> Ok r.
Proof. unfold OUNet_forward. destruct out as [o|]; [discriminate|]. destruct (ou_init_octree g oin); discriminate. Qed.
