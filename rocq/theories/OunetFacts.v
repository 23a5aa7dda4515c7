(** The completion network: no call of its constructor succeeds; its decoder on a given octree. *)
From Coq Require Import String List ZArith Bool QArith Qcanon Lia.
From Verif Require Import Res Tensor Key Num Points Octree NnBasic NnConv NnInterp Features Net Ounet Spec SpecGeo WF SpecNeigh SpecGrow SpecNN SpecInterp SpecFeature SpecNet
  ListFacts KidsFacts NumFacts WFFacts SearchFacts BuildFacts NeighSparse GrowFacts NnFacts PadFacts PoolFacts FeatureFacts UpsampleFacts NetFacts NetLoops NetAe.
Import ListNotations.
Open Scope Z_scope.

Lemma mapM_err {A B} (f : A -> res B) (l : list A) e : mapM f l = Err e -> exists a, In a l /\ f a = Err e.
Proof.
  induction l as [|a l IH]; cbn [mapM]; [discriminate|]. destruct (f a) as [b|e'] eqn:E; cbn [bind].
  - destruct (mapM f l); cbn [bind]; [discriminate|]. intros H. destruct (IH H) as (x & Hx & Ex). exists x. split; [right; exact Hx|exact Ex].
  - intros H. exists a. split; [left; reflexivity|congruence].
Qed.
Lemma bind_call_err {V} (sig : signature V) args kwargs e : bind_call sig args kwargs = Err e -> e = TypeError.
Proof.
  unfold bind_call. destruct (Nat.ltb _ _); [congruence|]. destruct (negb _); [congruence|]. intros H. apply mapM_err in H. destruct H as (p & _ & H).
  destruct (key_value _ _); [discriminate|]. destruct (snd p); [discriminate|congruence].
Qed.
Lemma thm_ounet_init args kwargs : OUNet_init args kwargs = Err TypeError.
Proof.
  unfold OUNet_init. destruct (bind_call ou_signature args kwargs) as [env|e] eqn:E; cbn [bind]; [|rewrite (bind_call_err _ _ _ _ E); reflexivity].
  assert (A : forall k (f : pyval -> res (list (string * pyval))), (forall v, f v = Err TypeError) -> bind (arg k env) f = Err TypeError).
  { intros k f Hf. unfold arg. destruct (key_value k env); cbn [bind]; [apply Hf|reflexivity]. }
  repeat (apply A; intros). reflexivity.
Qed.
Lemma thm_completion channel nout depth full feature : completion_get_model channel nout depth full feature = Err TypeError.
Proof. apply thm_ounet_init. Qed.

(** ** the decoder *)
Lemma zip_cons {A B C} (f : A -> B -> C) a b l m : zip_with f (a :: l) (b :: m) = f a b :: zip_with f l m.
Proof. reflexivity. Qed.
Lemma vadd_zero (r : list Qc) : vadd r (repeat 0%Qc (length r)) = r.
Proof. induction r as [|a r IH]; [reflexivity|]. cbn [length repeat vadd]. rewrite IH. f_equal. ring. Qed.
Lemma add_zero (x y : feat) n C : shape n C x -> shape n C y -> (forall j r, nth_error y j = Some r -> r = repeat 0%Qc C) -> add_feat x y = Ok x.
Proof.
  intros [Hx1 Hx2] [Hy1 Hy2] Hz. assert (HL : length x = length y) by congruence.
  assert (E : zip_with vadd x y = x).
  { clear Hx1 Hy1. revert y HL Hy2 Hz. induction Hx2 as [|r x Hr Hx IH]; intros [|s y] HL Hy Hz; cbn in HL; try discriminate; [reflexivity|].
    rewrite zip_cons. inversion Hy; subst. rewrite IH; [|lia|assumption|intros j t Ht; apply (Hz (S j) t Ht)]. f_equal.
    rewrite (Hz O s eq_refl). apply vadd_zero. }
  unfold add_feat. rewrite E. replace (_ && _)%bool with true; [reflexivity|]. symmetry. apply andb_true_iff. rewrite HL, Nat.eqb_refl. split; [reflexivity|].
  apply forallb_forall. intros [a b] Hab. rewrite Forall_forall in Hx2, Hy2. cbn [fst snd]. rewrite (Hx2 a), (Hy2 b); [apply Nat.eqb_refl|eapply in_combine_r; exact Hab|eapply in_combine_l; exact Hab].
Qed.
Lemma align_zero o oq d ne C value : wf_octree o -> wf_octree oq -> (d <= depth o)%nat -> (d <= depth oq)%nat ->
  shape (node_count o d ne) C value -> (0 < node_count o d ne)%nat ->
  (forall ps qs q, octree_xyzb o d ne = Ok ps -> octree_xyzb oq d ne = Ok qs -> In q ps -> In q qs -> False) ->
  exists y, octree_align C value o oq d ne = Ok y /\ shape (node_count oq d ne) C y /\ forall j r, nth_error y j = Some r -> r = repeat 0%Qc C.
Proof.
  intros W Wq Hd Hdq Hv Hp Hdis. destruct (thm_align o oq d ne C value W Wq Hd Hdq Hv Hp) as (ps & qs & y & E1 & E2 & E3 & Hs & Hy).
  exists y. split; [exact E3|]. split; [exact Hs|]. intros j r Hr.
  assert (Hj : exists q, nth_error qs j = Some q).
  { destruct (nth_error qs j) as [q|] eqn:Eq; [exists q; reflexivity|]. exfalso. apply nth_error_None in Eq.
    assert (HLq : length qs = node_count oq d ne).
    { destruct Wq as (K & M & T). rewrite (node_count_sel oq (depth oq) K M T) by exact Hdq.
      rewrite (tree_xyzb oq (depth oq) K M) in E2 by assumption. injection E2 as <-. rewrite map_length. reflexivity. }
    destruct Hs as [Hs _]. assert (j < length y)%nat by (apply nth_error_Some; congruence). lia. }
  destruct Hj as (q & Hq). destruct (Hy j q Hq) as [_ Hn]. rewrite Hn in Hr; [unfold vzero in Hr; congruence|]. intros Hin. apply (Hdis ps qs q E1 E2 Hin). eapply nth_error_In; exact Hq.
Qed.

Section Decoder.
  Variables (g : ae_cfg) (P : params) (cout lo : nat) (convs : ddict feat) (oin o : octree).
  Hypothesis HC : ae_config g.
  Hypothesis HN : norms_keep lo P.
  Hypothesis Win : wf_octree oin.
  Hypothesis W : wf_octree o.
  Hypothesis Hdin : a_depth g = depth oin.
  Hypothesis Hdep : a_depth g = depth o.
  Hypothesis HL : layers_ready o false lo (a_full g) (a_depth g).
  Notation full := (a_full g).
  Notation dep := (a_depth g).
  Hypothesis Hin : forall d, (full < d <= dep)%nat -> (0 < node_count oin d false)%nat /\
    exists v, dfind convs (Z.of_nat d) = Ok v /\ shape (node_count oin d false) (nth d (a_ch g) O) v.
  Variable code : feat.
  Hypothesis Hcode : dfind convs (Z.of_nat full) = Ok code.
  Hypothesis Hcs : shape (node_count o full false) (a_code g) code.
  Definition apart : Prop := forall d ps qs q, (full < d <= dep)%nat -> octree_xyzb oin d false = Ok ps -> octree_xyzb o d false = Ok qs -> In q ps -> In q qs -> False.
  Notation dch := (dch g).

  Lemma skip_step d u : (full < d <= dep)%nat -> at_layer o false d (dch d) u ->
    exists v s y, dfind convs (Z.of_nat d) = Ok v /\ octree_align (List.length (nth 0 v [])) v oin o d false = Ok s /\ add_feat u s = Ok y /\ at_layer o false d (dch d) y /\ (apart -> y = u).
  Proof.
    intros Hd Hu. destruct (Hin d Hd) as (Hp & v & Ev & Hv). assert (Hw : dch d = nth d (a_ch g) O) by (unfold NetAe.dch; destruct (Nat.eqb_spec d full); [lia|reflexivity]).
    assert (E0 : List.length (nth 0 v []) = nth d (a_ch g) O).
    { destruct Hv as [H1 H2]. destruct v as [|r v]; [cbn in H1; lia|]. inversion H2; subst. assumption. }
    destruct (thm_align oin o d false _ v Win W ltac:(lia) ltac:(lia) Hv Hp) as (ps & qs & s & E1 & E2 & E3 & Hs & _).
    unfold at_layer in *. rewrite Hw in *. destruct (add_feat_shape _ _ _ _ Hu Hs) as (y & Ey & Hy). exists v, s, y. rewrite E0. split; [exact Ev|]. split; [exact E3|]. split; [exact Ey|]. split; [exact Hy|].
    intros HA. destruct (align_zero oin o d false _ v Win W ltac:(lia) ltac:(lia) Hv Hp) as (s' & E3' & _ & Hz); [intros ps' qs' q; apply (HA d ps' qs' q Hd)|].
    rewrite E3 in E3'. injection E3' as <-. rewrite (add_zero _ _ _ _ Hu Hs Hz) in Ey. congruence.
  Qed.

  Lemma ou_step i x lgs : (full + i <= dep)%nat -> ae_in g o i x ->
    exists y lg, ou_dec_step g P convs oin false (x, o, lgs) (Z.of_nat i) = Ok (y, o, dput lgs (Z.of_nat (full + i)) lg) /\
      at_layer o false (full + i) (dch (full + i)) y /\ at_layer o false (full + i) 2 lg /\
      (apart -> ae_dec_step g P false (x, o, lgs) (Z.of_nat i) = Ok (y, o, dput lgs (Z.of_nat (full + i)) lg)).
  Proof.
    intros Hd Hx. destruct (HL (full + i)%nat ltac:(lia)) as [Hn Hb]. destruct (dec_ch g HC (full + i) Hd) as (chs & Ec & Hl & Hch). destruct HC as [H1 H2 H3 H4].
    unfold ou_dec_step, ae_dec_step. rewrite Ec. cbn [bind]. replace (Z.of_nat full + Z.of_nat i) with (Z.of_nat (full + i)) by lia.
    rewrite (tget_len chs (full + i) O) by lia. cbn [bind]. rewrite Hch, Nat2Z.id.
    set (upx := if 0 <? Z.of_nat i then c' <- tget chs (Z.of_nat (full + i) - 1) ;; deconv_bn_relu P [("upsample"%string, Z.of_nat i - 1)] c' (dch (full + i)) [2%nat] 2 false x o (Z.of_nat (full + i) - 1) else Ok x).
    assert (G : exists u, (if 0 <? Z.of_nat i
             then c' <- tget chs (Z.of_nat (full + i) - 1) ;;
                  x <- deconv_bn_relu P [("upsample"%string, Z.of_nat i - 1)] c' (dch (full + i)) [2%nat] 2 false x o (Z.of_nat (full + i) - 1) ;;
                  conv <- dfind convs (Z.of_nat (full + i)) ;; skip <- octree_align (List.length (nth 0 conv [])) conv oin o (full + i) false ;; add_feat x skip
             else Ok x) = Ok u /\ at_layer o false (full + i) (dch (full + i)) u /\ (apart -> upx = Ok u)).
    { unfold ae_in in Hx. unfold upx. destruct i as [|i].
      - cbn [Nat.eqb Z.of_nat Z.ltb Z.compare] in *. exists x. split; [reflexivity|]. rewrite Nat.add_0_r in *. unfold NetAe.dch. rewrite Nat.eqb_refl. auto.
      - replace (0 <? Z.of_nat (S i)) with true by (symmetry; apply Z.ltb_lt; lia). cbn [Nat.eqb] in Hx.
        replace (Z.of_nat (full + S i) - 1) with (Z.of_nat (full + i)) by lia. replace (full + S i - 1)%nat with (full + i)%nat in Hx by lia.
        rewrite (tget_len chs (full + i) O) by lia. cbn [bind]. rewrite Hch.
        destruct (deconv_bn_relu_shape o (depth o) lo false P W HN [("upsample"%string, Z.of_nat (S i) - 1)] (dch (full + i)) (dch (full + S i)) [2%nat] 2 (full + i) x) as (u & Eu & Hu);
          auto; change (up (full + i) 2) with (S (full + i)) in *; replace (S (full + i)) with (full + S i)%nat in * by lia; auto; try lia.
        { pose proof (dch_ok g HC (full + S i)) as Hk. unfold channel_ok in Hk. lia. }
        rewrite Eu. cbn [bind]. destruct (skip_step (full + S i) u ltac:(lia) Hu) as (v & s & y & Ev & Es & Ey & Hy & HA). rewrite Ev. cbn [bind]. rewrite Es. cbn [bind].
        exists y. split; [exact Ey|]. split; [exact Hy|]. intros A. rewrite (HA A). reflexivity. }
    destruct G as (u & Eu & Hu & HA). rewrite Eu. cbn [bind].
    destruct (res_blocks_shape o (depth o) lo false P W HN [("decoder_blks"%string, Z.of_nat i)] (dch (full + i)) (dch (full + i)) (a_blocks g) 4 false (full + i) u) as (y & Ey & Hy);
      auto; [lia|apply (dch_ok g HC)|pose proof (dch_ok g HC (full + i)) as Hk; unfold channel_ok in Hk; lia|].
    rewrite Ey. cbn [bind]. destruct (head_shape lo P HN [("predict"%string, Z.of_nat i)] (dch (full + i)) 64 2 _ y Hb Hy) as (lg & El & Hlg). rewrite El. cbn [bind].
    exists y, lg. split; [reflexivity|]. split; [exact Hy|]. split; [exact Hlg|]. intros A. fold upx. rewrite (HA A). cbn [bind]. rewrite Ey. cbn [bind]. rewrite El. reflexivity.
  Qed.

  Theorem thm_ou_decoder : exists logits signal, ou_decoder g P cout convs oin o false = Ok (logits, signal, o) /\
    (forall d, (full <= d <= dep)%nat -> exists logit, dfind logits (Z.of_nat d) = Ok logit /\ shape (node_count o d false) 2 logit) /\
    shape (node_count o dep true) cout signal /\
    (apart -> ae_decoder g P cout code o false = Ok (logits, signal, o)).
  Proof.
    destruct HC as [H1 H2 H3 H4]. unfold ou_decoder. rewrite Hcode. cbn [bind].
    destruct (foldM_arange (fun i (s : feat * octree * ddict feat) => let '(x, o', lgs) := s in o' = o /\ ae_in g o i x /\
        (forall d, (full <= d < full + i)%nat -> exists lg, dfind lgs (Z.of_nat d) = Ok lg /\ shape (node_count o d false) 2 lg) /\
        (apart -> foldM (ae_dec_step g P false) (code, o, []) (arange i) = Ok (x, o, lgs)))
      (ou_dec_step g P convs oin false) (S dep - full) (code, o, [])) as ([[x o'] lgs] & E & -> & Hx & Hlg & HA).
    - split; [reflexivity|]. split; [exact Hcs|]. split; [intros d Hd; lia|reflexivity].
    - intros i [[x o'] lgs] Hi (-> & Hx & Hlg & HA). destruct (ou_step i x lgs ltac:(lia) Hx) as (y & lg & E & Hy & Hz & HB).
      eexists. split; [exact E|]. split; [reflexivity|]. split; [|split].
      + unfold ae_in. cbn [Nat.eqb]. replace (full + S i - 1)%nat with (full + i)%nat by lia. exact Hy.
      + intros d Hd. rewrite dfind_put. destruct (Nat.eq_dec d (full + i)) as [->|Nd].
        * rewrite Z.eqb_refl. exists lg. auto.
        * replace (Z.of_nat d =? Z.of_nat (full + i)) with false by (symmetry; apply Z.eqb_neq; lia). apply Hlg. lia.
      + intros A. rewrite arange_S, foldM_app, (HA A). cbn [bind foldM]. rewrite (HB A). reflexivity.
    - rewrite E. cbn [bind]. destruct (dec_ch g HC dep ltac:(lia)) as (chs & Ec & Hl & Hch). rewrite Ec. cbn [bind].
      rewrite (tget_len chs dep O) by lia. cbn [bind]. rewrite Hch. unfold ae_in in Hx. replace (Nat.eqb (S dep - full) 0) with false in Hx by (symmetry; apply Nat.eqb_neq; lia).
      replace (full + (S dep - full) - 1)%nat with dep in Hx by lia. destruct (HL dep ltac:(lia)) as [Hn Hb].
      destruct (head_shape lo P HN [("header"%string, 0)] (dch dep) 64 cout _ x Hb Hx) as (s & Es & Hs). rewrite Es. cbn [bind].
      apply (tanh_shape P) in Hs. destruct Hs as [Hsl Hsc]. destruct W as (K & M & T). rewrite (tree_depad o (depth o) K M T) by (lia || exact Hsl). cbn [bind].
      eexists _, _. split; [reflexivity|]. split; [intros d Hd; apply Hlg; lia|]. split.
      + split.
        * rewrite (node_count_sel o (depth o) K M T) by lia. cbn [sel]. rewrite select_length; [rewrite select_length; [reflexivity|apply (t_mask _ _ _ _ T); lia]|].
          rewrite Hsl, (node_count_sel o (depth o) K M T) by lia. cbn [sel]. apply (t_mask _ _ _ _ T). lia.
        * apply Forall_forall. intros r Hr. rewrite Forall_forall in Hsc. apply Hsc. apply in_select in Hr. destruct Hr as (p & _ & Hp). eapply nth_error_In; exact Hp.
      + intros A. unfold ae_decoder. rewrite (HA A). cbn [bind]. rewrite Ec. cbn [bind]. rewrite (tget_len chs dep O) by lia. cbn [bind]. rewrite Hch, Es. cbn [bind].
        rewrite (tree_depad o (depth o) K M T) by (lia || exact Hsl). reflexivity.
  Qed.
End Decoder.

(** ** only the features of shared cells are used *)
Lemma nth_error_eq {A} : forall l m : list A, (forall j, nth_error l j = nth_error m j) -> l = m.
Proof.
  induction l as [|a l IH]; intros [|b m] H; try reflexivity; try discriminate (H O). f_equal; [specialize (H O); cbn in H; congruence|]. apply IH. intros j. apply (H (S j)).
Qed.
Lemma cell_eq_dec (p q : Z * Z * Z * Z) : {p = q} + {p <> q}.
Proof. repeat decide equality. Qed.
Lemma align_ext o oq d ne C v v' : wf_octree o -> wf_octree oq -> (d <= depth o)%nat -> (d <= depth oq)%nat ->
  shape (node_count o d ne) C v -> shape (node_count o d ne) C v' -> (0 < node_count o d ne)%nat ->
  (forall ps qs i q, octree_xyzb o d ne = Ok ps -> octree_xyzb oq d ne = Ok qs -> nth_error ps i = Some q -> In q qs -> nth_error v i = nth_error v' i) ->
  octree_align C v o oq d ne = octree_align C v' o oq d ne.
Proof.
  intros W Wq Hd Hdq Hv Hv' Hp HA. destruct (thm_align o oq d ne C v W Wq Hd Hdq Hv Hp) as (ps & qs & y & E1 & E2 & E3 & Hs & Hy).
  destruct (thm_align o oq d ne C v' W Wq Hd Hdq Hv' Hp) as (ps' & qs' & y' & E1' & E2' & E3' & Hs' & Hy').
  rewrite E1 in E1'. injection E1' as <-. rewrite E2 in E2'. injection E2' as <-. rewrite E3, E3'. f_equal.
  assert (HLq : length qs = node_count oq d ne).
  { destruct Wq as (K & M & T). rewrite (node_count_sel oq (depth oq) K M T) by exact Hdq.
    rewrite (tree_xyzb oq (depth oq) K M) in E2 by assumption. injection E2 as <-. rewrite map_length. reflexivity. }
  apply nth_error_eq. intros j. destruct (nth_error qs j) as [q|] eqn:Eq.
  - destruct (Hy j q Eq) as [H1 H2]. destruct (Hy' j q Eq) as [H1' H2']. destruct (in_dec cell_eq_dec q ps) as [Hi|Hn].
    + apply In_nth_error in Hi. destruct Hi as (i & Hi). rewrite (H1 i Hi), (H1' i Hi). apply (HA ps qs i q E1 E2 Hi). eapply nth_error_In; exact Eq.
    + rewrite (H2 Hn), (H2' Hn). reflexivity.
  - apply nth_error_None in Eq. destruct Hs as [Hs _], Hs' as [Hs' _]. rewrite (proj2 (nth_error_None y j)), (proj2 (nth_error_None y' j)) by lia. reflexivity.
Qed.
Lemma foldM_ext {A S} (f h : S -> A -> res S) l : (forall s a, In a l -> f s a = h s a) -> forall s, foldM f s l = foldM h s l.
Proof.
  induction l as [|a l IH]; intros H s; [reflexivity|]. cbn [foldM]. rewrite (H s a (or_introl eq_refl)). destruct (h s a); [|reflexivity]. cbn [bind]. apply IH. intros s' b Hb. apply H. right. exact Hb.
Qed.
Theorem thm_ou_shared g P cout convs convs' oin o : wf_octree oin -> wf_octree o -> a_depth g = depth oin -> a_depth g = depth o ->
  dfind convs (Z.of_nat (a_full g)) = dfind convs' (Z.of_nat (a_full g)) ->
  (forall d, (a_full g < d <= a_depth g)%nat -> (0 < node_count oin d false)%nat /\
    exists C v v', dfind convs (Z.of_nat d) = Ok v /\ dfind convs' (Z.of_nat d) = Ok v' /\ shape (node_count oin d false) C v /\ shape (node_count oin d false) C v' /\
      forall ps qs i q, octree_xyzb oin d false = Ok ps -> octree_xyzb o d false = Ok qs -> nth_error ps i = Some q -> In q qs -> nth_error v i = nth_error v' i) ->
  ou_decoder g P cout convs oin o false = ou_decoder g P cout convs' oin o false.
Proof.
  intros Win W Hdin Hdep Hcode Hin. unfold ou_decoder. rewrite Hcode. destruct (dfind convs' (Z.of_nat (a_full g))) as [code|]; [|reflexivity]. cbn [bind].
  assert (E : forall l st, snd (fst st) = o -> (forall i, In i l -> 0 <= i /\ Z.of_nat (a_full g) + i <= Z.of_nat (a_depth g)) ->
     foldM (ou_dec_step g P convs oin false) st l = foldM (ou_dec_step g P convs' oin false) st l).
  { induction l as [|i l IH]; intros [[x o'] lgs] Ho Hl; [reflexivity|]. cbn [fst snd] in Ho. subst o'. cbn [foldM].
    assert (Es : ou_dec_step g P convs oin false (x, o, lgs) i = ou_dec_step g P convs' oin false (x, o, lgs) i).
    { destruct (Hl i (or_introl eq_refl)) as [Hi0 Hi1]. unfold ou_dec_step. apply bind_ext; [reflexivity|]. intros chs. apply bind_ext; [reflexivity|]. intros c. apply bind_ext; [|reflexivity].
      destruct (Z.ltb_spec 0 i) as [Hp|Hp]; [|reflexivity]. apply bind_ext; [reflexivity|]. intros c'. apply bind_ext; [reflexivity|]. intros u.
      destruct (Hin (Z.to_nat (Z.of_nat (a_full g) + i)) ltac:(lia)) as (Hn & C & v & v' & Ev & Ev' & Hv & Hv' & HA).
      rewrite Z2Nat.id in Ev, Ev' by lia. rewrite Ev, Ev'. cbn [bind].
      assert (W1 : forall w : list (list Qc), shape (node_count oin (Z.to_nat (Z.of_nat (a_full g) + i)) false) C w -> List.length (nth 0 w []) = C).
      { intros w [Hw1 Hw2]. destruct w as [|r w]; [cbn in Hw1; lia|]. inversion Hw2; subst. reflexivity. }
      rewrite (W1 v Hv), (W1 v' Hv'). rewrite (align_ext oin o (Z.to_nat (Z.of_nat (a_full g) + i)) false C v v' Win W ltac:(lia) ltac:(lia) Hv Hv' Hn HA). reflexivity. }
    rewrite Es. destruct (ou_dec_step g P convs' oin false (x, o, lgs) i) as [[[x1 o1] l1]|] eqn:E1; [|reflexivity]. cbn [bind]. apply IH; [|intros j Hj; apply Hl; right; exact Hj].
    cbn [fst snd]. unfold ou_dec_step in E1. clear - E1.
    repeat match type of E1 with bind ?a _ = _ => destruct a; [|discriminate]; cbn [bind] in E1 end. apply (f_equal (fun r => match r with Ok (_, o, _) => o | Err _ => o1 end)) in E1. cbn in E1. congruence. }
  rewrite E; [reflexivity|reflexivity|]. intros i Hi. unfold arange in Hi. apply in_map_iff in Hi. destruct Hi as (j & <- & Hj). apply in_seq in Hj. lia.
Qed.
