(** The decoder of AutoEncoder, and the whole network. *)
From Coq Require Import String List ZArith Bool QArith Qcanon Lia.
From Verif Require Import Res Tensor Key Num Points Octree NnBasic NnConv NnInterp Features Net Spec SpecGeo WF SpecNeigh SpecGrow SpecNN SpecInterp SpecFeature SpecNet
  ListFacts KidsFacts NumFacts WFFacts SearchFacts BuildFacts NeighSparse GrowFacts NnFacts PadFacts PoolFacts FeatureFacts NetFacts NetLoops.
Import ListNotations.
Open Scope Z_scope.

Lemma argmax2 r : length r = 2%nat -> (argmax r = 1 /\ asks_split r) \/ (argmax r = 0 /\ ~ asks_split r).
Proof.
  intros H. destruct r as [|a [|b [|c r]]]; try discriminate. unfold argmax, asks_split. cbn [map max_first max_from nth xltb].
  destruct (qltb a b) eqn:E; cbn [snd].
  - left. split; [reflexivity|]. apply qltb_lt. exact E.
  - right. split; [reflexivity|]. intros L. apply qltb_lt in L. congruence.
Qed.
Lemma argmax_eqb r : length r = 2%nat -> ((1 =? argmax r) = true <-> asks_split r).
Proof.
  intros H. destruct (argmax2 r H) as [[-> A]|[-> A]]; cbn; [tauto|]. split; [discriminate|contradiction].
Qed.
Lemma argmax_01 n lg : shape n 2 lg -> zero_one (map argmax lg).
Proof.
  intros [_ H]. unfold zero_one. apply Forall_map. eapply Forall_impl; [|exact H]. cbv beta. intros r Hr. destruct (argmax2 r Hr) as [[-> _]|[-> _]]; auto.
Qed.
Lemma argmax_obeys n lg : shape n 2 lg -> obeys lg (split_flags (map argmax lg)).
Proof.
  intros [Hn H]. split; [rewrite split_flags_length, map_length; reflexivity|]. intros i r b Hr Hb. rewrite Forall_forall in H.
  assert (Hx : existsb (Z.eqb 1) (map argmax lg) = true <-> Exists asks_split lg).
  { rewrite existsb_exists, Exists_exists. split.
    - intros (a & Ha & Ea). apply in_map_iff in Ha. destruct Ha as (q & <- & Hq). exists q. split; [exact Hq|]. apply argmax_eqb; auto.
    - intros (q & Hq & Aq). exists (argmax q). split; [apply in_map; exact Hq|]. apply argmax_eqb; auto. }
  unfold split_flags in Hb. destruct (existsb (Z.eqb 1) (map argmax lg)) eqn:E.
  - assert (Ha : Exists asks_split lg) by (apply Hx; reflexivity). split; [|contradiction]. intros _.
    rewrite map_map, nth_error_map, Hr in Hb. cbn [option_map] in Hb. assert (Eb : b = (1 =? argmax r)) by congruence. rewrite Eb. apply argmax_eqb. apply H. eapply nth_error_In; exact Hr.
  - assert (Ha : ~ Exists asks_split lg) by (intros A; apply Hx in A; discriminate). split; [contradiction|]. intros _.
    destruct lg as [|q lg]; [destruct i; discriminate|]. cbn [map] in Hb. destruct i as [|i]; cbn [nth_error] in Hb; [split; congruence|].
    rewrite nth_error_map in Hb. destruct (nth_error (map argmax lg) i); cbn [option_map] in Hb; [|discriminate]. split; [congruence|discriminate].
Qed.
Lemma set_nth_nth (l : list nat) j v i : (j < length l)%nat -> nth i (set_nth l j v) O = if Nat.eqb i j then v else nth i l O.
Proof.
  intros H. pose proof (nth_error_set_nth l j v i H) as E. destruct (Nat.eqb i j).
  - apply nth_error_nth. exact E.
  - destruct (nth_error l i) as [a|] eqn:Ei.
    + rewrite (nth_error_nth _ _ _ Ei). apply nth_error_nth. exact E.
    + apply nth_error_None in Ei. rewrite (nth_overflow l) by exact Ei. apply nth_overflow. apply nth_error_None. exact E.
Qed.
Lemma store_tree o L K M d x o' : tree_upto o L K M -> store_features o d x = Ok o' ->
  tree_upto o' L K M /\ (forall a b, neigh_upto o K a b -> neigh_upto o' K a b) /\ depth o' = depth o /\ full_depth o' = full_depth o /\ batch_size o' = batch_size o /\
  exists l, nth_error (layers o') d = Some l /\ l_features l = Some x.
Proof.
  intros T E. unfold store_features in E. destruct (nth_error (layers o) d) as [l|] eqn:El.
  - rewrite (upd_layer_Ok _ _ _ _ El) in E. assert (Eq : forall A (x y : A), Ok x = Ok y -> x = y) by congruence. apply Eq in E. subst o'.
    assert (Hd : (d < length (layers o))%nat) by (apply nth_error_Some; congruence). unfold with_layers. cbn [layers depth full_depth batch_size].
    split; [|split; [|split; [reflexivity|split; [reflexivity|split; [reflexivity|]]]]].
    + destruct T as [t1 t2 t3 t4 t5 t6 t7 t8 t9]. constructor; cbn [layers depth full_depth batch_size]; try assumption.
      * rewrite set_nth_length. exact t5.
      * intros i Hi. destruct (t6 i Hi) as (l' & E1 & E2 & E3 & E4 & E5). rewrite nth_error_set_nth by exact Hd. destruct (Nat.eqb_spec i d) as [->|N].
        -- eexists. split; [reflexivity|]. assert (l' = l) by congruence. subst l'. cbn [set_features keys children nnum nnum_nempty]. auto.
        -- exists l'. auto.
    + intros a b N i l' Hi Hl'. cbn [layers] in Hl'. rewrite nth_error_set_nth in Hl' by exact Hd. destruct (Nat.eqb_spec i d) as [->|Ni].
      * assert (l' = set_features l (Some x)) by congruence. subst l'. cbn [set_features neighs]. apply (N d l Hi El).
      * apply (N i l' Hi Hl').
    + exists (set_features l (Some x)). rewrite nth_error_set_nth, Nat.eqb_refl by exact Hd. split; reflexivity.
  - unfold upd_layer in E. rewrite El in E. discriminate.
Qed.

Section Stage.
  Variables (g : ae_cfg) (P : params) (lo : nat).
  Hypothesis HC : ae_config g.
  Hypothesis HN : norms_keep lo P.
  Notation full := (a_full g).
  Notation dep := (a_depth g).
  Definition dch (d : nat) : nat := if Nat.eqb d full then a_code g else nth d (a_ch g) O.

  Lemma dec_ch d : (d <= dep)%nat -> exists chs, dec_channels g = Ok chs /\ length chs = length (a_ch g) /\ forall d, nth d chs O = dch d.
  Proof.
    intros Hd. destruct HC as [H1 H2 H3 H4]. unfold dec_channels. rewrite tset_Ok by (unfold zlen; lia). rewrite Nat2Z.id. eexists. split; [reflexivity|].
    split; [apply set_nth_length|]. intros i. rewrite set_nth_nth by lia. reflexivity.
  Qed.
  Lemma dch_ok d : channel_ok (dch d).
  Proof. destruct HC as [H1 H2 H3 H4]. unfold dch. destruct (Nat.eqb d full); [exact H4|]. apply forall_nth_ok. exact H3. Qed.

  (** One stage of the decoder before the update of the octree. *)
  Definition ae_in (o : octree) (i : nat) (x : feat) : Prop :=
    if Nat.eqb i 0 then at_layer o false full (a_code g) x else at_layer o false (full + i - 1) (dch (full + i - 1)) x.
  Lemma stage_shape o i x : wf_upto o (full + i) -> (full + i <= dep)%nat -> has_neigh o (full + i) -> busy o lo false (full + i) -> ae_in o i x ->
    exists chs y z, dec_channels g = Ok chs /\
      (c <- tget chs (Z.of_nat full + Z.of_nat i) ;;
       x <- (if 0 <? Z.of_nat i
             then c' <- tget chs (Z.of_nat full + Z.of_nat i - 1) ;;
                  deconv_bn_relu P [("upsample"%string, Z.of_nat i - 1)] c' c [2%nat] 2 false x o (Z.of_nat full + Z.of_nat i - 1)
             else Ok x) ;;
       x <- res_blocks P [("decoder_blks"%string, Z.of_nat i)] c c (a_blocks g) 4 false false x o (Z.of_nat full + Z.of_nat i) ;;
       logit <- head P [("predict"%string, Z.of_nat i)] c 64 2 x ;; Ok (x, logit)) = Ok (y, z) /\
      at_layer o false (full + i) (dch (full + i)) y /\ at_layer o false (full + i) 2 z.
  Proof.
    intros W Hd Hn Hb Hx. destruct (dec_ch (full + i) Hd) as (chs & Ec & Hl & Hch). exists chs. destruct HC as [H1 H2 H3 H4].
    replace (Z.of_nat full + Z.of_nat i) with (Z.of_nat (full + i)) by lia.
    rewrite (tget_len chs (full + i) O) by lia. cbn [bind]. rewrite Hch.
    assert (G : exists u, (if 0 <? Z.of_nat i
             then c' <- tget chs (Z.of_nat (full + i) - 1) ;;
                  deconv_bn_relu P [("upsample"%string, Z.of_nat i - 1)] c' (dch (full + i)) [2%nat] 2 false x o (Z.of_nat (full + i) - 1)
             else Ok x) = Ok u /\ at_layer o false (full + i) (dch (full + i)) u).
    { unfold ae_in in Hx. destruct i as [|i].
      - cbn [Nat.eqb Z.of_nat Z.ltb Z.compare] in *. exists x. split; [reflexivity|]. rewrite Nat.add_0_r in *. unfold dch. rewrite Nat.eqb_refl. exact Hx.
      - replace (0 <? Z.of_nat (S i)) with true by (symmetry; apply Z.ltb_lt; lia). cbn [Nat.eqb] in Hx.
        replace (Z.of_nat (full + S i) - 1) with (Z.of_nat (full + i)) by lia. replace (full + S i - 1)%nat with (full + i)%nat in Hx by lia.
        rewrite (tget_len chs (full + i) O) by lia. cbn [bind]. rewrite Hch.
        destruct (deconv_bn_relu_shape o (full + S i) lo false P W HN [("upsample"%string, Z.of_nat (S i) - 1)] (dch (full + i)) (dch (full + S i)) [2%nat] 2 (full + i) x) as (u & Eu & Hu);
          auto; change (up (full + i) 2) with (S (full + i)) in *; replace (S (full + i)) with (full + S i)%nat in * by lia; auto.
        { pose proof (dch_ok (full + S i)) as Hk. unfold channel_ok in Hk. lia. }
        exists u. auto. }
    destruct G as (u & Eu & Hu). rewrite Eu. cbn [bind].
    destruct (res_blocks_shape o (full + i) lo false P W HN [("decoder_blks"%string, Z.of_nat i)] (dch (full + i)) (dch (full + i)) (a_blocks g) 4 false (full + i) u) as (y & Ey & Hy);
      auto; [apply dch_ok|pose proof (dch_ok (full + i)) as Hk; unfold channel_ok in Hk; lia|].
    rewrite Ey. cbn [bind]. destruct (head_shape lo P HN [("predict"%string, Z.of_nat i)] (dch (full + i)) 64 2 _ y Hb Hy) as (lg & El & Hlg). rewrite El. cbn [bind].
    exists y, lg. auto.
  Qed.

End Stage.

Section Decoder.
  Variables (g : ae_cfg) (P : params) (cout lo B dev : nat).
  Hypothesis HC : ae_config g.
  Hypothesis HN : norms_keep lo P.
  Hypothesis HB : (1 <= B)%nat.
  Hypothesis HB2 : Z.of_nat B <= 32768.
  Hypothesis Hlo : (lo <= 8 /\ lo <= 8 ^ a_full g * B)%nat.
  Notation full := (a_full g).
  Notation dep := (a_depth g).
  Notation dch := (dch g).
  Notation ae_in := (ae_in g).
  Definition ae_good (o : octree) (L : nat) (K : nat -> list Z) (M : nat -> list bool) (i : nat) (lgs : ddict feat) : Prop :=
    depth o = dep /\ full_depth o = full /\ batch_size o = B /\ tree_upto o L K M /\ neigh_upto o K 0 L /\
    (forall d, (d <= L)%nat -> select (M d) (K d) <> []) /\
    forall d, (full <= d < full + i)%nat -> exists lg, dfind lgs (Z.of_nat d) = Ok lg /\ shape (length (K d)) 2 lg /\ M d = split_flags (map argmax lg).
  Definition ae_inv (i : nat) (s : feat * octree * ddict feat) : Prop :=
    let '(x, o, lgs) := s in exists K M, ae_good o (Nat.min (full + i) dep) K M i lgs /\ ae_in o i x.

  Lemma grow_step i s : (full + i <= dep)%nat -> ae_inv i s -> exists s', ae_dec_step g P true s (Z.of_nat i) = Ok s' /\ ae_inv (S i) s'.
  Proof.
    destruct s as [[x o] lgs]. intros Hd (K & M & (D1 & D2 & D3 & T & N & Hne & Hlg) & Hx). replace (Nat.min (full + i) dep) with (full + i)%nat in * by lia.
    set (d := (full + i)%nat) in *.
    assert (Hb : busy o lo false d).
    { unfold busy. rewrite (node_count_sel o d K M T) by lia. cbn [sel]. destruct i as [|i].
      - unfold d in *. rewrite Nat.add_0_r in *. rewrite (t_grid _ _ _ _ T) by lia. rewrite D3, full_grid_length. lia.
      - unfold d in *. replace (full + S i)%nat with (S (full + i)) by lia. rewrite (t_link _ _ _ _ T) by lia. rewrite pick_select, flat_kids_length.
        specialize (Hne (full + i)%nat ltac:(lia)). destruct (select (M (full + i)%nat) (K (full + i)%nat)); [congruence|]. cbn [length]. lia. }
    destruct (stage_shape g P lo HC HN o i x) as (chs & y & lg & Ech & E & Hy & Hz); [exists K, M; exact T|exact Hd|apply (neigh_all o d K M T N); lia|exact Hb|exact Hx|].
    unfold ae_dec_step. rewrite Ech. cbn [bind]. destruct (tget chs (Z.of_nat full + Z.of_nat i)) as [c|]; [|discriminate]. cbn [bind] in *.
    match type of E with context [bind ?a _] => destruct a as [u|]; [|discriminate] end. cbn [bind] in *.
    match type of E with context [bind ?a _] => destruct a as [v|]; [|discriminate] end. cbn [bind] in *.
    match type of E with context [bind ?a _] => destruct a as [w|]; [|discriminate] end. cbn [bind] in *.
    assert (v = y /\ w = lg) by (split; congruence). destruct H as [-> ->]. clear E.
    replace (Z.of_nat full + Z.of_nat i) with (Z.of_nat d) by lia. rewrite !Nat2Z.id.
    unfold at_layer in Hz. rewrite (node_count_sel o d K M T) in Hz by lia. cbn [sel] in Hz.
    unfold at_layer in Hy. rewrite (node_count_sel o d K M T) in Hy by lia. cbn [sel] in Hy.
    assert (H01 := argmax_01 _ lg Hz).
    assert (Hlen : length (map argmax lg) = length (K d)) by (rewrite map_length; apply Hz).
    assert (Hs : map argmax lg <> []).
    { intros E0. rewrite E0 in Hlen. cbn [length] in Hlen. apply (Hne d ltac:(lia)). destruct (K d); [|discriminate]. destruct (M d) as [|[] ?]; reflexivity. }
    destruct (tree_split o d K M d (map argmax lg) T N ltac:(lia) H01 Hs Hlen) as (o1 & E1 & P1 & P2 & P3 & T1 & N1). rewrite E1. cbn [bind].
    set (M1 := fupd M d (split_flags (map argmax lg))) in *.
    assert (Hne1 : forall j, (j <= d)%nat -> select (M1 j) (K j) <> []).
    { intros j Hj. unfold M1. destruct (Nat.eq_dec j d) as [->|Nj].
      - rewrite fupd_eq. pose proof (split_flags_pos _ H01 Hs) as Hpos. intros E0. apply (f_equal (@length Z)) in E0.
        rewrite select_length in E0 by (rewrite split_flags_length; exact Hlen). rewrite nflag_count in Hpos. cbn [length] in E0. lia.
      - rewrite fupd_ne by exact Nj. apply Hne. exact Hj. }
    assert (Hlg1 : forall j, (full <= j < full + S i)%nat -> exists lgj, dfind (dput lgs (Z.of_nat d) lg) (Z.of_nat j) = Ok lgj /\ shape (length (K j)) 2 lgj /\ M1 j = split_flags (map argmax lgj)).
    { intros j Hj. rewrite dfind_put. destruct (Nat.eq_dec j d) as [->|Nj].
      - rewrite Z.eqb_refl. exists lg. split; [reflexivity|]. split; [exact Hz|]. unfold M1. apply fupd_eq.
      - replace (Z.of_nat j =? Z.of_nat d) with false by (symmetry; apply Z.eqb_neq; lia). unfold M1. rewrite fupd_ne by exact Nj. apply Hlg. unfold d in Nj. lia. }
    assert (Hin : forall o' K' M' L, tree_upto o' L K' M' -> (d <= L)%nat -> K' d = K d -> ae_in o' (S i) y).
    { intros o' K' M' L T' HL EK. unfold ae_in. cbn [Nat.eqb]. replace (full + S i - 1)%nat with d by (unfold d; lia). unfold at_layer.
      rewrite (node_count_sel o' L K' M' T') by exact HL. cbn [sel]. rewrite EK. exact Hy. }
    destruct (Z.ltb_spec (Z.of_nat d) (Z.of_nat dep)) as [H|H].
    - destruct (tree_grow o1 d K M1 d T1 N1 ltac:(lia) ltac:(lia)) as (o2 & E2 & Q1 & Q2 & Q3 & T2 & N2).
      replace (d + 1)%nat with (S d) by lia. rewrite E2. cbn [bind].
      eexists. split; [reflexivity|]. cbn [ae_inv].
      set (K2 := fupd K (S d) (flat_map kids (select (M1 d) (K d)))) in *. set (M2 := fupd M1 (S d) (map (fun _ => true) (flat_map kids (select (M1 d) (K d))))) in *.
      exists K2, M2. replace (Nat.min (full + S i) dep) with (S d) by (unfold d in *; lia). split.
      + split; [congruence|]. split; [congruence|]. split; [congruence|]. split; [exact T2|]. split; [exact N2|]. split.
        * intros j Hj. unfold K2, M2. destruct (Nat.eq_dec j (S d)) as [->|Nj].
          -- rewrite !fupd_eq. pose proof (Hne1 d ltac:(lia)) as Hq. destruct (select (M1 d) (K d)) as [|k ks]; [congruence|]. cbn [flat_map]. discriminate.
          -- rewrite !fupd_ne by exact Nj. apply Hne1. lia.
        * intros j Hj. unfold K2, M2. rewrite !fupd_ne by (unfold d; lia). apply Hlg1. exact Hj.
      + apply (Hin o2 K2 M2 (S d)); [exact T2|lia|]. unfold K2. apply fupd_ne. lia.
    - eexists. split; [reflexivity|]. cbn [ae_inv]. exists K, M1. replace (Nat.min (full + S i) dep) with d by (unfold d in *; lia). split.
      + split; [congruence|]. split; [congruence|]. split; [congruence|]. auto.
      + apply (Hin o1 K M1 d); [exact T1|lia|reflexivity].
  Qed.

  Theorem thm_decode code : shape (8 ^ full * B) (a_code g) code ->
    exists logits signal o, ae_decode_code g P cout dev code = Ok (logits, signal, o) /\
      depth o = dep /\ full_depth o = full /\ batch_size o = B /\ wf_octree o /\
      (forall d, (d <= dep)%nat -> has_neigh o d /\ (0 < node_count o d true)%nat) /\
      (forall d, (full <= d <= dep)%nat -> exists logit flags, dfind logits (Z.of_nat d) = Ok logit /\ shape (node_count o d false) 2 logit /\
         nempty_mask o (Z.of_nat d) = Ok flags /\ obeys logit flags) /\
      shape (node_count o dep true) cout signal /\ exists l, nth_error (layers o) dep = Some l /\ l_features l = Some signal.
  Proof.
    intros Hx. destruct HC as [H1 H2 H3 H4]. unfold ae_decode_code, ae_init_octree. destruct Hx as [Hxl Hxc]. rewrite Hxl.
    replace (2 ^ (3 * full))%nat with (8 ^ full)%nat by (rewrite Nat.pow_mul_r; reflexivity).
    rewrite (Nat.mul_comm (8 ^ full) B), Nat.div_mul by (apply Nat.pow_nonzero; lia).
    destruct (init_Ok dep full B dev ltac:(lia) HB2 ltac:(lia)) as (o0 & E0 & D1 & D2 & D3 & _ & T0 & N0). rewrite E0. cbn [bind].
    unfold ae_decoder. destruct (foldM_arange ae_inv (ae_dec_step g P true) (S dep - full) (code, o0, [])) as ([[x o] lgs] & E & K & M & (G1 & G2 & G3 & T & N & Hne & Hlg) & Hin).
    - cbn [ae_inv]. exists (full_grid B), (iM B). replace (Nat.min (full + 0) dep) with full by lia. split.
      + split; [exact D1|]. split; [exact D2|]. split; [exact D3|]. split; [exact T0|]. split; [exact N0|]. split; [|intros d Hd; lia].
        intros d Hd E1. apply (f_equal (@length Z)) in E1. unfold iM in E1. rewrite select_length in E1 by apply map_length.
        pose proof (nflag_all_true (full_grid B d)) as Hf. rewrite nflag_count, full_grid_length in Hf. cbn [length] in E1. rewrite E1 in Hf.
        pose proof (Nat.pow_nonzero 8 d ltac:(lia)). nia.
      + unfold ae_in. cbn [Nat.eqb]. unfold at_layer. rewrite (node_count_sel o0 full _ _ T0) by lia. cbn [sel]. rewrite full_grid_length. split; [exact Hxl|exact Hxc].
    - intros i s Hi. apply grow_step. lia.
    - rewrite E. cbn [bind]. replace (Nat.min (full + (S dep - full)) dep) with dep in * by lia. destruct (dec_ch g HC dep ltac:(lia)) as (chs & Ec & Hl & Hch). rewrite Ec. cbn [bind].
      rewrite (tget_len chs dep O) by lia. cbn [bind]. rewrite Hch. unfold ae_in in Hin. replace (Nat.eqb (S dep - full) 0) with false in Hin by (symmetry; apply Nat.eqb_neq; lia).
      replace (full + (S dep - full) - 1)%nat with dep in Hin by lia. assert (Hin' := Hin). unfold at_layer in Hin'.
      assert (Hb : (lo <= node_count o dep false)%nat).
      { rewrite (node_count_sel o dep K M T) by lia. cbn [sel]. destruct (Nat.eq_dec full dep) as [Ef|Nf].
        - rewrite (t_grid _ _ _ _ T) by lia. rewrite G3, full_grid_length, <- Ef. lia.
        - destruct dep as [|dp] eqn:Edp; [lia|]. rewrite (t_link _ _ _ _ T) by lia. rewrite pick_select, flat_kids_length.
          specialize (Hne dp ltac:(lia)). destruct (select (M dp) (K dp)); [congruence|]. cbn [length]. lia. }
      destruct (head_shape lo P HN [("header"%string, 0)] (dch dep) 64 cout _ x Hb Hin') as (s & Es & Hs). rewrite Es. cbn [bind].
      apply (tanh_shape P) in Hs. assert (Hss := Hs). destruct Hss as [Hsl Hsc]. rewrite (tree_depad o dep K M T) by (lia || exact Hsl). cbn [bind].
      destruct (nth_error (layers o) dep) as [l|] eqn:El; [|apply nth_error_None in El; rewrite (t_len _ _ _ _ T) in El; lia].
      destruct (store_features o dep (select (M dep) (tanh_ P s))) as [o'|] eqn:Eo; [|unfold store_features in Eo; rewrite (upd_layer_Ok _ _ _ _ El) in Eo; discriminate].
      cbn [bind]. destruct (store_tree o dep K M dep _ o' T Eo) as (T' & N' & Q1 & Q2 & Q3 & Hfe). specialize (N' _ _ N).
      exists lgs, (select (M dep) (tanh_ P s)), o'. split; [reflexivity|]. split; [congruence|]. split; [congruence|]. split; [congruence|].
      split; [exists K, M; rewrite Q1, G1; exact T'|]. split; [|split; [|split; [|exact Hfe]]].
      + intros d Hd. split; [apply (neigh_all o' dep K M T' N'); exact Hd|]. rewrite (node_count_sel o' dep K M T') by exact Hd. cbn [sel].
        specialize (Hne d Hd). destruct (select (M d) (K d)); [congruence|]. cbn [length]. lia.
      + intros d Hd. destruct (Hlg d ltac:(lia)) as (lg & E1 & E2 & E3). exists lg, (M d). split; [exact E1|].
        rewrite (node_count_sel o' dep K M T') by lia. cbn [sel]. split; [exact E2|]. split; [apply (tree_mask o' dep K M T'); lia|]. rewrite E3. apply (argmax_obeys _ _ E2).
      + split.
        * rewrite (node_count_sel o' dep K M T') by lia. cbn [sel]. rewrite select_length; [rewrite select_length; [reflexivity|apply (t_mask _ _ _ _ T); lia]|].
          rewrite Hsl, (node_count_sel o dep K M T) by lia. cbn [sel]. apply (t_mask _ _ _ _ T). lia.
        * apply Forall_forall. intros r Hr. rewrite Forall_forall in Hsc. apply Hsc. apply in_select in Hr. destruct Hr as (p & _ & Hp). eapply nth_error_In; exact Hp.
  Qed.
End Decoder.

Section Whole.
  Variables (g : ae_cfg) (P : params) (cin cout CF lo dev : nat) (feature : string) (o : octree).
  Hypothesis HC : ae_config g.
  Hypothesis HN : norms_keep lo P.
  Hypothesis W : wf_octree o.
  Hypothesis Hdep : a_depth g = depth o.
  Hypothesis HL : layers_ready o false lo (a_full g) (a_depth g).
  Hypothesis Hcin : channel_ok cin.
  Notation full := (a_full g).
  Notation dep := (a_depth g).
  Notation ch d := (nth d (a_ch g) O).

  Lemma ch_small d : channel_ok (ch d).
  Proof. destruct HC as [H1 H2 H3 H4]. apply forall_nth_ok. exact H3. Qed.
  Lemma enc_step i m x : (full + i <= dep)%nat -> dfind m (Z.of_nat (dep - i)) = Ok x -> at_layer o false (dep - i) (ch (dep - i)) x ->
    exists m', ae_enc_step g P o m (Z.of_nat i) = Ok m' /\
      exists y, if Nat.eqb (dep - i) full then dfind m' (Z.of_nat full) = Ok y /\ at_layer o false full (ch full) y
                else dfind m' (Z.of_nat (dep - S i)) = Ok y /\ at_layer o false (dep - S i) (ch (dep - S i)) y.
  Proof.
    intros Hi Hm Hx. destruct HC as [H1 H2 H3 H4]. unfold ae_enc_step. replace (Z.of_nat dep - Z.of_nat i) with (Z.of_nat (dep - i)) by lia.
    rewrite (tget_len _ (dep - i) O) by lia. cbn [bind]. rewrite Hm. cbn [bind]. destruct (HL (dep - i)%nat ltac:(lia)) as [Hn Hb].
    destruct (res_blocks_shape o (depth o) lo false P W HN [("encoder_blks"%string, Z.of_nat i)] (ch (dep - i)) (ch (dep - i)) (a_blocks g) 4 false (dep - i) x) as (y & Ey & Hy);
      auto; [lia|apply ch_small|pose proof (ch_small (dep - i)) as Hk; unfold channel_ok in Hk; lia|].
    rewrite Ey. cbn [bind]. destruct (Nat.eqb_spec (dep - i) full) as [Ef|Nf].
    - replace (Z.of_nat full <? Z.of_nat (dep - i)) with false by (symmetry; apply Z.ltb_ge; lia). eexists. split; [reflexivity|]. exists y. rewrite Ef in *. rewrite dfind_put, Z.eqb_refl. auto.
    - replace (Z.of_nat full <? Z.of_nat (dep - i)) with true by (symmetry; apply Z.ltb_lt; lia). replace (Z.of_nat (dep - i) - 1) with (Z.of_nat (dep - S i)) by lia.
      rewrite (tget_len _ (dep - S i) O) by lia. cbn [bind]. destruct (HL (dep - S i)%nat ltac:(lia)) as [_ Hb'].
      assert (Hdn : down (dep - i) 2 = (dep - S i)%nat) by (unfold down; cbn [Z.eqb Pos.eqb]; lia).
      destruct (conv_bn_relu_shape o (depth o) lo false P W HN [("downsample"%string, Z.of_nat i)] (ch (dep - i)) (ch (dep - S i)) [2%nat] 2 (dep - i) y) as (z & Ez & Hz);
        auto; [lia|right; split; [reflexivity|lia]|pose proof (ch_small (dep - i)) as Hk; unfold channel_ok in Hk; lia|rewrite Hdn; exact Hb'|].
      rewrite Hdn in Hz. rewrite Ez. cbn [bind]. eexists. split; [reflexivity|]. exists z. rewrite dfind_put, Z.eqb_refl. auto.
  Qed.
  Theorem thm_encoder x : get_input_feature CF o feature false = Ok x -> shape (node_count o dep false) cin x ->
    exists code, ae_encoder g P cin CF feature o = Ok code /\ shape (node_count o full false) (a_code g) code.
  Proof.
    intros E Hx. destruct HC as [H1 H2 H3 H4]. unfold ae_encoder. rewrite E. cbn [bind].
    replace (forallb (fun r : list Qc => Nat.eqb (length r) cin) x) with true.
    2:{ symmetry. apply forallb_forall. intros r Hr. destruct Hx as [_ Hx]. rewrite Forall_forall in Hx. rewrite (Hx r Hr). apply Nat.eqb_refl. }
    cbn [assert_ bind]. rewrite (tget_len _ dep O) by lia. cbn [bind]. destruct (HL dep ltac:(lia)) as [Hn Hb].
    destruct (conv_bn_relu_shape o (depth o) lo false P W HN [("conv1"%string, 0)] cin (ch dep) [3%nat] 1 dep x) as (y & Ey & Hy);
      auto; [lia|unfold channel_ok in Hcin; lia|].
    rewrite Ey. cbn [bind]. change (down dep 1) with dep in Hy.
    destruct (foldM_arange (fun i m => exists x, if Nat.eqb i (S dep - full) then dfind m (Z.of_nat full) = Ok x /\ at_layer o false full (ch full) x
        else dfind m (Z.of_nat (dep - i)) = Ok x /\ at_layer o false (dep - i) (ch (dep - i)) x)
      (ae_enc_step g P o) (S dep - full) (dput [] (Z.of_nat dep) y)) as (m & Em & z & Hz).
    - exists y. replace (Nat.eqb 0 (S dep - full)) with false by (symmetry; apply Nat.eqb_neq; lia). rewrite Nat.sub_0_r, dfind_put, Z.eqb_refl. auto.
    - intros i m Hi (u & Hu). replace (Nat.eqb i (S dep - full)) with false in Hu by (symmetry; apply Nat.eqb_neq; lia). destruct Hu as [Hu1 Hu2].
      destruct (enc_step i m u ltac:(lia) Hu1 Hu2) as (m' & Em & v & Hv). exists m'. split; [exact Em|]. exists v.
      destruct (Nat.eqb_spec (dep - i) full); destruct (Nat.eqb_spec (S i) (S dep - full)); try lia; exact Hv.
    - rewrite Em. cbn [bind]. rewrite Nat.eqb_refl in Hz. destruct Hz as [Hz1 Hz2]. rewrite Hz1. cbn [bind]. rewrite (tget_len _ full O) by lia. cbn [bind].
      destruct (linear_shape P [("proj"%string, 0)] (ch full) (a_code g) true _ z Hz2) as (w & Ew & Hw). rewrite Ew. cbn [bind]. eexists. split; [reflexivity|]. apply tanh_shape. exact Hw.
  Qed.

  (** Without an update the decoder follows the given octree and returns it. *)
  Theorem thm_decoder_fixed code : shape (node_count o full false) (a_code g) code ->
    exists logits signal, ae_decoder g P cout code o false = Ok (logits, signal, o) /\
      (forall d, (full <= d <= dep)%nat -> exists logit, dfind logits (Z.of_nat d) = Ok logit /\ shape (node_count o d false) 2 logit) /\
      shape (node_count o dep true) cout signal.
  Proof.
    intros Hx. destruct HC as [H1 H2 H3 H4]. unfold ae_decoder.
    destruct (foldM_arange (fun i (s : feat * octree * ddict feat) => let '(x, o', lgs) := s in o' = o /\ ae_in g o i x /\
        forall d, (full <= d < full + i)%nat -> exists lg, dfind lgs (Z.of_nat d) = Ok lg /\ shape (node_count o d false) 2 lg)
      (ae_dec_step g P false) (S dep - full) (code, o, [])) as ([[x o'] lgs] & E & -> & Hin & Hlg).
    - split; [reflexivity|]. split; [exact Hx|]. intros d Hd. lia.
    - intros i [[x o'] lgs] Hi (-> & Hin & Hlg). destruct (HL (full + i)%nat ltac:(lia)) as [Hn Hb].
      assert (W' : wf_upto o (full + i)).
      { destruct W as (K & M & T). exists K, M. destruct T as [t1 t2 t3 t4 t5 t6 t7 t8 t9]. constructor; try assumption; try lia; intros j Hj; [apply t6|apply t7|apply t8|apply t9]; lia. }
      destruct (stage_shape g P lo HC HN o i x W' ltac:(lia) Hn Hb Hin) as (chs & y & lg & Ech & E & Hy & Hz).
      unfold ae_dec_step. rewrite Ech. cbn [bind]. destruct (tget chs (Z.of_nat full + Z.of_nat i)) as [c|]; [|discriminate]. cbn [bind] in *.
      match type of E with context [bind ?a _] => destruct a as [u|]; [|discriminate] end. cbn [bind] in *.
      match type of E with context [bind ?a _] => destruct a as [v|]; [|discriminate] end. cbn [bind] in *.
      match type of E with context [bind ?a _] => destruct a as [w|]; [|discriminate] end. cbn [bind] in *.
      assert (v = y /\ w = lg) by (split; congruence). destruct H as [-> ->]. clear E. eexists. split; [reflexivity|]. split; [reflexivity|]. split.
      + unfold ae_in. cbn [Nat.eqb]. replace (full + S i - 1)%nat with (full + i)%nat by lia. exact Hy.
      + intros d Hd. rewrite dfind_put. destruct (Nat.eq_dec d (full + i)) as [->|Nd].
        * replace (Z.of_nat (full + i) =? Z.of_nat full + Z.of_nat i) with true by (symmetry; apply Z.eqb_eq; lia). exists lg. auto.
        * replace (Z.of_nat d =? Z.of_nat full + Z.of_nat i) with false by (symmetry; apply Z.eqb_neq; lia). apply Hlg. lia.
    - rewrite E. cbn [bind]. destruct (dec_ch g HC dep ltac:(lia)) as (chs & Ec & Hl & Hch). rewrite Ec. cbn [bind].
      rewrite (tget_len chs dep O) by lia. cbn [bind]. rewrite Hch. unfold ae_in in Hin. replace (Nat.eqb (S dep - full) 0) with false in Hin by (symmetry; apply Nat.eqb_neq; lia).
      replace (full + (S dep - full) - 1)%nat with dep in Hin by lia. destruct (HL dep ltac:(lia)) as [Hn Hb].
      destruct (head_shape lo P HN [("header"%string, 0)] (dch g dep) 64 cout _ x Hb Hin) as (s & Es & Hs). rewrite Es. cbn [bind].
      apply (tanh_shape P) in Hs. destruct Hs as [Hsl Hsc]. destruct W as (K & M & T). rewrite (tree_depad o (depth o) K M T) by (lia || exact Hsl). cbn [bind].
      eexists _, _. split; [reflexivity|]. split; [intros d Hd; apply Hlg; lia|]. split.
      + rewrite (node_count_sel o (depth o) K M T) by lia. cbn [sel]. rewrite select_length; [rewrite select_length; [reflexivity|apply (t_mask _ _ _ _ T); lia]|].
        rewrite Hsl, (node_count_sel o (depth o) K M T) by lia. cbn [sel]. apply (t_mask _ _ _ _ T). lia.
      + apply Forall_forall. intros r Hr. rewrite Forall_forall in Hsc. apply Hsc. apply in_select in Hr. destruct Hr as (p & _ & Hp). eapply nth_error_In; exact Hp.
  Qed.

  Theorem thm_autoencoder_fixed x : get_input_feature CF o feature false = Ok x -> shape (node_count o dep false) cin x ->
    exists logits signal, AutoEncoder g P cin cout CF dev feature o false = Ok (logits, signal, o) /\
      (forall d, (full <= d <= dep)%nat -> exists logit, dfind logits (Z.of_nat d) = Ok logit /\ shape (node_count o d false) 2 logit) /\
      shape (node_count o dep true) cout signal.
  Proof.
    intros E Hx. destruct (thm_encoder x E Hx) as (code & Ec & Hc). unfold AutoEncoder. rewrite Ec. cbn [bind]. apply thm_decoder_fixed. exact Hc.
  Qed.
  Theorem thm_autoencoder_update x : get_input_feature CF o feature false = Ok x -> shape (node_count o dep false) cin x ->
    (full <= full_depth o)%nat -> (1 <= batch_size o)%nat -> (lo <= 8)%nat ->
    exists logits signal o', AutoEncoder g P cin cout CF dev feature o true = Ok (logits, signal, o') /\
      depth o' = dep /\ full_depth o' = full /\ batch_size o' = batch_size o /\ wf_octree o' /\
      (forall d, (d <= dep)%nat -> has_neigh o' d /\ (0 < node_count o' d true)%nat) /\
      (forall d, (full <= d <= dep)%nat -> exists logit flags, dfind logits (Z.of_nat d) = Ok logit /\ shape (node_count o' d false) 2 logit /\
         nempty_mask o' (Z.of_nat d) = Ok flags /\ obeys logit flags) /\
      shape (node_count o' dep true) cout signal /\ exists l, nth_error (layers o') dep = Some l /\ l_features l = Some signal.
  Proof.
    intros E Hx Hf HB Hlo. destruct (thm_encoder x E Hx) as (code & Ec & Hc). unfold AutoEncoder. rewrite Ec. cbn [bind].
    assert (Hcnt : node_count o full false = (8 ^ full * batch_size o)%nat).
    { destruct HC as [H1 _ _ _]. destruct W as (K & M & T). rewrite (node_count_sel o (depth o) K M T) by lia. cbn [sel]. rewrite (t_grid _ _ _ _ T) by lia. apply full_grid_length. }
    rewrite Hcnt in Hc. destruct (HL full ltac:(destruct HC; lia)) as [_ Hb]. rewrite Hcnt in Hb.
    apply (thm_decode g P cout lo (batch_size o) dev HC HN HB ltac:(destruct W as (K & M & T); apply (t_batch _ _ _ _ T)) (conj Hlo Hb) code Hc).
  Qed.
End Whole.
