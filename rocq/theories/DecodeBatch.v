(** Decoding a batch of codes in which every sample splits. *)
From Coq Require Import String List ZArith Bool QArith Qcanon Lia.
From Verif Require Import Res Tensor Key Num NumFacts Points Octree NnBasic NnConv NnInterp Features Net Spec SpecGeo WF SpecNeigh SpecGrow SpecMerge SpecNN SpecInterp SpecFeature SpecNet SpecBatch
  ListFacts KidsFacts WFFacts SearchFacts NeighSparse NeighThms GrowFacts MergeFacts NnFacts PadFacts MergeConv CatFacts NetFacts NetAe NetBatch BatchThms Decode.
Import ListNotations.
Open Scope Z_scope.

(** ** a decoded octree has neither normals nor points *)
Definition plain (dev : nat) (o : octree) : Prop := device o = dev /\ Forall (fun l => l_normals l = None /\ l_points l = None) (layers o).
Lemma plain_upd dev o d f o' : (forall l, l_normals (f l) = l_normals l /\ l_points (f l) = l_points l) -> plain dev o -> upd_layer o d f = Ok o' -> plain dev o'.
Proof.
  intros Hf [H1 H2] E. unfold upd_layer in E. destruct (nth_error (layers o) d) as [l|] eqn:El; [|discriminate].
  assert (Eq : forall A (x y : A), Ok x = Ok y -> x = y) by congruence. apply Eq in E. subst o'. split; [exact H1|]. cbn [with_layers layers].
  assert (Hl : l_normals (f l) = None /\ l_points (f l) = None) by (rewrite Forall_forall in H2; destruct (Hf l) as [-> ->]; apply H2; eapply nth_error_In; exact El).
  clear - Hl H2. generalize dependent d. induction H2 as [|a t Ha H IH]; intros d; [destruct d; constructor|]. destruct d; cbn [set_nth]; constructor; auto.
Qed.
Ltac upd_plain := match goal with E : upd_layer _ _ _ = Ok _ |- _ => eapply plain_upd; [|eassumption|exact E]; intros ?; split; reflexivity end.
Lemma plain_neigh dev o d o' : plain dev o -> construct_neigh o d = Ok o' -> plain dev o'.
Proof.
  intros H E. unfold construct_neigh in E. destruct (Nat.leb d (full_depth o)).
  - destruct (neigh_full _ _); [|discriminate]. cbn [bind] in E. upd_plain.
  - destruct (get_layer _ _); [|discriminate]. cbn [bind] in E. destruct (need (children _)); [|discriminate]. cbn [bind] in E. destruct (need (neighs _)); [|discriminate]. cbn [bind] in E.
    destruct (neigh_sparse _ _); [|discriminate]. cbn [bind] in E. upd_plain.
Qed.
Lemma plain_grow_full dev o d o' : plain dev o -> octree_grow_full o d true = Ok o' -> plain dev o'.
Proof.
  intros H E. unfold octree_grow_full in E. destruct (assert_ _); [|discriminate]. cbn [bind] in E. destruct (upd_layer _ _ _) as [o1|] eqn:E1; [|discriminate]. cbn [bind] in E.
  eapply plain_neigh; [|exact E]. clear E. upd_plain.
Qed.
Lemma foldM_inv {A B} (I : A -> Prop) (f : A -> B -> res A) : (forall a b a', I a -> f a b = Ok a' -> I a') -> forall l a a', I a -> foldM f a l = Ok a' -> I a'.
Proof.
  intros H. induction l as [|b l IH]; intros a a' Ha E; cbn [foldM] in E; [congruence|]. destruct (f a b) as [a1|] eqn:E1; [|discriminate]. apply (IH a1); [eapply H; eassumption|exact E].
Qed.
Lemma plain_init dep full bs dev o : init_octree dep full bs dev = Ok o -> plain dev o.
Proof.
  intros E. unfold init_octree in E. revert E. apply (foldM_inv (plain dev)).
  - intros a b a' H Ea. eapply plain_grow_full; eassumption.
  - split; [reflexivity|]. cbn [octree_new layers]. apply Forall_forall. intros l Hl. apply repeat_spec in Hl. subst l. split; reflexivity.
Qed.
Lemma plain_split dev o s d o' : plain dev o -> octree_split o s d = Ok o' -> plain dev o'.
Proof. intros H E. unfold octree_split in E. destruct (split_children s) as [[c n]|]; [|discriminate]. cbn [bind] in E. upd_plain. Qed.
Lemma plain_grow dev o d o' : plain dev o -> octree_grow o d true = Ok o' -> plain dev o'.
Proof.
  intros H E. unfold octree_grow in E. destruct (get_layer _ _); [|discriminate]. cbn [bind] in E. destruct (upd_layer _ _ _) as [o1|] eqn:E1; [|discriminate]. cbn [bind] in E.
  assert (H1 : plain dev o1) by (clear E; upd_plain). clear E1. destruct (octree_key _ _ _); [|discriminate]. cbn [bind] in E.
  match type of E with context [if ?b then Err _ else _] => destruct b; [discriminate|] end. cbn [bind] in E. destruct (upd_layer _ _ _) as [o2|] eqn:E2; [|discriminate]. cbn [bind] in E.
  eapply plain_neigh; [|exact E]. clear E. upd_plain.
Qed.
Lemma plain_decode g P cout dev code l s o : ae_decode_code g P cout dev code = Ok (l, s, o) -> plain dev o.
Proof.
  intros E. unfold ae_decode_code in E. destruct (ae_init_octree g dev code) as [o0|] eqn:E0; [|discriminate]. cbn [bind] in E. apply plain_init in E0. unfold ae_decoder in E.
  destruct (foldM _ _ _) as [[[x o1] lgs]|] eqn:Ef; [|discriminate]. cbn [bind] in E.
  assert (H1 : plain dev o1).
  { pose (I := fun s : feat * octree * ddict feat => plain dev (snd (fst s))). change (I (x, o1, lgs)). revert Ef. apply (foldM_inv I); [|exact E0].
    intros [[a b] c] i [[a' b'] c'] Hb Es. unfold I in *. cbn [fst snd] in *. rewrite step_stage in Es. destruct (ae_stage g P a b i) as [[y lg]|]; [|discriminate]. cbn [bind] in Es.
    destruct (ae_update g b lg i) as [o2|] eqn:Eu; [|discriminate]. cbn [bind] in Es. assert (Eq : forall (a b : feat * octree * ddict feat), Ok a = Ok b -> a = b) by congruence. apply Eq in Es. assert (o2 = b') by congruence. subst o2.
    unfold ae_update in Eu. destruct (octree_split _ _ _) as [o2|] eqn:E2; [|discriminate]. cbn [bind] in Eu. apply (plain_split dev) in E2; [|exact Hb].
    destruct (_ <? _); [eapply plain_grow; eassumption|congruence]. }
  destruct (dec_channels g); [|discriminate]. cbn [bind] in E. destruct (tget _ _); [|discriminate]. cbn [bind] in E. destruct (head _ _ _ _ _ _); [|discriminate]. cbn [bind] in E.
  destruct (octree_depad _ _ _); [|discriminate]. cbn [bind] in E. destruct (store_features _ _ _) as [o2|] eqn:Es; [|discriminate]. cbn [bind] in E.
  assert (Eq : forall (a b : ddict feat * feat * octree), Ok a = Ok b -> a = b) by congruence. apply Eq in E. assert (o2 = o) by congruence. subst o2. unfold store_features in Es. clear - H1 Es. upd_plain.
Qed.
Lemma eval_keeps P : eval_mode P -> norms_keep 0 P.
Proof.
  intros [H _] p C n x _ [Hl Hc]. destruct (H p C) as (f & Hf). destruct (Hf x Hc) as [E Hs]. exists (map f x). split; [exact E|]. split; [rewrite map_length; exact Hl|exact Hs].
Qed.

Lemma flags_true lg : Exists asks_split lg -> (exists n, shape n 2 lg) -> split_flags (map argmax lg) = map (Z.eqb 1) (map argmax lg).
Proof.
  intros H (n & Hn). unfold split_flags. replace (existsb (Z.eqb 1) (map argmax lg)) with true; [reflexivity|]. symmetry. apply existsb_exists. apply Exists_exists in H. destruct H as (r & Hr & Ha).
  exists (argmax r). split; [apply in_map; exact Hr|]. apply argmax_eqb; [|exact Ha]. destruct Hn as [_ Hc]. rewrite Forall_forall in Hc. apply Hc. exact Hr.
Qed.
Lemma mapM_Forall2 {A B} (f : A -> res B) : forall l m, mapM f l = Ok m -> Forall2 (fun a b => f a = Ok b) l m.
Proof.
  induction l as [|a l IH]; intros m E; cbn [mapM] in E; [assert (m = []) by congruence; subst m; constructor|]. destruct (f a) as [b|] eqn:Ea; [|discriminate]. cbn [bind] in E.
  destruct (mapM f l) as [t|] eqn:Et; [|discriminate]. cbn [bind] in E. assert (m = b :: t) by congruence. subst m. constructor; [exact Ea|apply IH; reflexivity].
Qed.

Section One.
  Variables (g : ae_cfg) (P : params) (cout dev : nat).
  Hypothesis HC : ae_config g.
  Hypothesis HP : eval_mode P.
  Notation full := (a_full g).
  Notation dep := (a_depth g).
  Definition oc (r : ddict feat * feat * octree) : octree := snd r.

  Lemma HN0 : norms_keep 0 P.
  Proof. apply eval_keeps. exact HP. Qed.
  (** what is known of one member *)
  Definition member (code : feat) (r : ddict feat * feat * octree) (km : KM) : Prop :=
    shape (8 ^ full * 1) (a_code g) code /\ ae_decode_code g P cout dev code = Ok r /\ done g 1 (oc r) (fst km) (snd km) /\ judged g (fst (fst r)) (fst km) (snd km) /\ plain dev (oc r) /\
    (exists l, nth_error (layers (oc r)) dep = Some l /\ l_features l = Some (snd (fst r))).
  Lemma one_member code r : shape (8 ^ full) (a_code g) code -> ae_decode_code g P cout dev code = Ok r -> exists km, member code r km.
  Proof.
    intros Hs E. destruct r as [[l s] o]. rewrite <- (Nat.mul_1_r (8 ^ full)) in Hs. destruct (decoded_tables g P cout 0 1 dev HC HN0 ltac:(lia) ltac:(lia) ltac:(lia) code Hs l s o E) as (K & M & D & J & _).
    exists (K, M). unfold member, oc. cbn [fst snd]. split; [exact Hs|]. split; [exact E|]. split; [exact D|]. split; [exact J|]. split; [apply (plain_decode _ _ _ _ _ _ _ _ E)|].
    destruct (thm_decode g P cout 0 1 dev HC HN0 ltac:(lia) ltac:(lia) ltac:(lia) code Hs) as (l' & s' & o' & E' & _ & _ & _ & _ & _ & _ & _ & ll & H1 & H2).
    assert (Eq : forall (a b : ddict feat * feat * octree), Ok a = Ok b -> a = b) by congruence. rewrite E in E'. apply Eq in E'. exists ll. split; congruence.
  Qed.
End One.

Section DecodeBatch.
  Variables (g : ae_cfg) (P : params) (cout dev : nat) (codes : list feat) (rs : list (ddict feat * feat * octree)).
  Hypothesis HC : ae_config g.
  Hypothesis HP : eval_mode P.
  Hypothesis Hfull : (1 <= a_full g)%nat.
  Hypothesis Hne : codes <> [].
  Hypothesis Hcount : Z.of_nat (length codes) <= 32768.
  Hypothesis Hcodes : Forall (shape (8 ^ a_full g) (a_code g)) codes.
  Hypothesis Hrs : mapM (ae_decode_code g P cout dev) codes = Ok rs.
  Hypothesis Hsplit : Forall (fun r => forall d lg, (a_full g <= d <= a_depth g)%nat -> dfind (fst (fst r)) (Z.of_nat d) = Ok lg -> Exists asks_split lg) rs.
  Notation full := (a_full g).
  Notation dep := (a_depth g).
  Lemma members : exists kms, length rs = length codes /\ length kms = length codes /\ forall i, (i < length codes)%nat ->
    exists code r km, nth_error codes i = Some code /\ nth_error rs i = Some r /\ nth_error kms i = Some km /\ member g P cout dev code r km.
  Proof.
    pose proof (mapM_Forall2 _ _ _ Hrs) as F. clear Hrs Hsplit Hne Hcount. revert Hcodes. induction F as [|c r cs rs' E F IH]; intros H; [exists []; repeat split; cbn [length]; lia|].
    pose proof (Forall_inv H) as Hc. destruct (IH (Forall_inv_tail H)) as (kms & L1 & L2 & Hi). destruct (one_member g P cout dev HC HP c r Hc E) as (km & Hk). exists (km :: kms). cbn [length]. split; [lia|]. split; [lia|].
    intros [|i] Hl; [exists c, r, km; auto|]. cbn [nth_error]. apply Hi. lia.
  Qed.

  Theorem thm_decode_batch : exists l o m, ae_decode_code g P cout dev (concat codes) = Ok (l, concat (map (fun r => snd (fst r)) rs), o) /\
    merge_octrees (map snd rs) = Ok m /\ depth o = depth m /\ full_depth o = full_depth m /\ batch_size o = batch_size m /\ Forall2 same_tree (layers m) (layers o) /\
    (exists lm lo', nth_error (layers m) dep = Some lm /\ nth_error (layers o) dep = Some lo' /\ l_features lo' = l_features lm) /\
    forall d, (full <= d <= dep)%nat -> exists lgs, mapM (fun r => dfind (fst (fst r)) (Z.of_nat d)) rs = Ok lgs /\ dfind l (Z.of_nat d) = Ok (concat lgs).
  Proof.
    destruct members as (kms & L1 & L2 & Hi). pose proof HC as [C1 C2 _ _]. set (os := map oc rs).
    assert (Lo : length os = length codes) by (unfold os; rewrite map_length; exact L1).
    assert (Hio : forall i, (i < length codes)%nat -> exists code r km, nth_error codes i = Some code /\ nth_error rs i = Some r /\ nth_error os i = Some (oc r) /\ nth_error kms i = Some km /\ member g P cout dev code r km).
    { intros i Hl. destruct (Hi i Hl) as (code & r & km & A1 & A2 & A3 & A4). exists code, r, km. split; [exact A1|]. split; [exact A2|]. split; [unfold os; rewrite nth_error_map, A2; reflexivity|]. auto. }
    assert (Hn0 : (0 < length codes)%nat) by (destruct codes; [congruence|cbn [length]; lia]).
    destruct (Hio O Hn0) as (c0 & r0 & km0 & _ & _ & A0 & _ & M0). set (o0 := oc r0) in *.
    assert (D0 : depth o0 = dep /\ full_depth o0 = full /\ device o0 = dev) by (destruct M0 as (_ & _ & (_ & _ & X1 & X2 & _) & _ & (X3 & _) & _); auto). destruct D0 as (D01 & D02 & D03).
    assert (Hin : forall o, In o os -> exists code r km, o = oc r /\ member g P cout dev code r km).
    { intros o Ho. apply In_nth_error in Ho. destruct Ho as (i & Ei). assert (Hl : (i < length codes)%nat) by (rewrite <- Lo; apply nth_error_Some; congruence).
      destruct (Hio i Hl) as (code & r & km & _ & _ & A & _ & Mm). exists code, r, km. split; [congruence|exact Mm]. }
    assert (Hm : mergeable o0 os).
    { split; [destruct os; [discriminate|exact A0]|]. split; [rewrite Lo; exact Hcount|]. split.
      - apply Forall_forall. intros o Ho. destruct (Hin o Ho) as (code & r & km & -> & (_ & _ & (T & _ & X1 & X2 & X3) & _ & (X4 & _) & _)). split; [exists (fst km), (snd km); rewrite X1; exact T|]. repeat split; congruence.
      - intros ls F. rewrite D01 in F.
        assert (Hl : Forall (fun l => l_features l <> None /\ l_normals l = None /\ l_points l = None) ls).
        { apply Forall_forall. intros l Hl. apply In_nth_error in Hl. destruct Hl as (i & El). assert (Hi' : (i < length os)%nat) by (rewrite <- (SearchFacts.Forall2_len _ _ _ F); apply nth_error_Some; congruence).
          destruct (nth_error os i) as [o|] eqn:Eo; [|apply nth_error_None in Eo; lia]. pose proof (SearchFacts.Forall2_nth _ _ _ i _ _ F Eo El) as E. cbv beta in E.
          destruct (Hin o (nth_error_In _ _ Eo)) as (code & r & km & -> & (_ & _ & _ & _ & (_ & X) & (l' & Y1 & Y2))). split; [congruence|]. rewrite Forall_forall in X. apply X. eapply nth_error_In; exact E. }
        unfold cat_ok. split; [intros _; eapply Forall_impl; [|exact Hl]; cbv beta; tauto|].
        split; intros Hf; exfalso; destruct ls as [|l ls']; try discriminate; pose proof (Forall_inv Hl) as (_ & B1 & B2); cbn [first_has] in Hf; rewrite ?B1, ?B2 in Hf; discriminate. }
    assert (Hk : Forall2 (mem_tree o0) os kms).
    { apply Forall2_index; [lia|]. intros i o km Eo Ek. assert (Hl : (i < length codes)%nat) by (rewrite <- Lo; apply nth_error_Some; congruence). destruct (Hio i Hl) as (code & r & km' & _ & _ & A & B & (_ & _ & (T & _ & X1 & X2 & X3) & _ & (X4 & _) & _)).
      assert (o = oc r) by congruence. assert (km' = km) by congruence. subst o km'. unfold mem_tree. rewrite D01. split; [exact T|]. repeat split; congruence. }
    destruct (thm_batched o0 os Hm ltac:(lia)) as (o' & os' & Bt & Lo'). destruct (batched_tables o0 os o' os' kms Hm Hk ltac:(lia) Bt) as (Hn & _ & HK & HT & HB & HCv).
    assert (HK1 : forall i, (i < length os')%nat -> exists code r km, nth_error codes i = Some code /\ nth_error rs i = Some r /\ nth_error kms i = Some km /\ member g P cout dev code r km /\
       mem_tree o0 (mo o0 os' i) km /\ neigh_upto (mo o0 os' i) (fst km) 1 dep /\ Ki kms i = km).
    { intros i Hl. destruct (Hio i ltac:(lia)) as (code & r & km & B1 & B2 & _ & B3 & B4). exists code, r, km. split; [exact B1|]. split; [exact B2|]. split; [exact B3|]. split; [exact B4|].
      assert (Em : nth_error os' i = Some (mo o0 os' i)) by (apply nth_error_nth'; exact Hl). destruct (SearchFacts.Forall2_nth _ _ _ i _ _ HK Em B3) as [Q1 Q2]. rewrite D01 in Q2. split; [exact Q1|]. split; [exact Q2|].
      unfold Ki. apply nth_error_nth. exact B3. }
    assert (Hshape : Forall2 (fun oi x => shape (node_count oi full false) (a_code g) x) os' codes).
    { apply Forall2_index; [lia|]. intros i oi x Eo Ex. assert (Hl : (i < length os')%nat) by (apply nth_error_Some; congruence). destruct (HK1 i Hl) as (code & r & km & B1 & _ & _ & B4 & (T & Bs & _ & Fd & _) & _).
      assert (oi = mo o0 os' i) by (symmetry; apply nth_error_nth; exact Eo). assert (x = code) by congruence. subst oi x. rewrite (node_count_sel _ _ _ _ T) by lia. cbn [sel].
      rewrite (t_grid _ _ _ _ T) by lia. rewrite full_grid_length, Bs. destruct B4 as (Hs & _). exact Hs. }
    destruct (run_decoder o0 o' os' kms Hn HK HT HB HCv g P 0 cout 0 ""%string HC HP Hfull ltac:(congruence) _ _ (J_of o0 os' ltac:(lia) full false (a_code g) codes Hshape)) as (Y & y & E1 & E2 & HD & HJ & Ho & Ho').
    destruct y as [[l s] oy]. cbn [fst snd] in *. subst oy.
    assert (HY : forall i, (i < length os')%nat -> exists r, nth_error rs i = Some r /\ fst (Y i) = fst r).
    { intros i Hl. destruct (HK1 i Hl) as (code & r & km & B1 & B2 & B3 & B4 & (T & Bs & Dd & Fd & _) & Nn & _). exists r. split; [exact B2|]. destruct B4 as (Hs & Ed & _ & J & _). destruct r as [[lr sr] orr]. cbn [fst snd oc] in *.
      assert (Dn : done g 1 (mo o0 os' i) (fst km) (snd km)). { rewrite D01 in T. split; [exact T|]. split; [intros d ll Hd; apply Nn; lia|]. repeat split; congruence. }
      pose proof (replay_core g P cout 0 1 dev HC ltac:(lia) ltac:(lia) ltac:(lia) code Hs lr sr orr (mo o0 os' i) (fst km) (snd km) Ed Dn J) as R. specialize (E1 i Hl). rewrite (nth_error_nth _ _ [] B1) in E1. cbn [fst snd] in R. rewrite R in E1.
      assert (Eq : forall (a b : ddict feat * feat * octree), Ok a = Ok b -> a = b) by congruence. apply Eq in E1. rewrite <- E1. reflexivity. }
    assert (Hrsq : rs = map (fun i => nth i rs (r0)) (seq 0 (length os'))) by (apply (list_seq os'); lia).
    assert (HYn : forall i, (i < length os')%nat -> fst (Y i) = fst (nth i rs r0)) by (intros i Hl; destruct (HY i Hl) as (r & Er & ->); rewrite (nth_error_nth _ _ r0 Er); reflexivity).
    assert (Hs : s = concat (map (fun r => snd (fst r)) rs)).
    { rewrite (rows_of _ _ _ _ _ HJ). rewrite Hrsq, map_map. f_equal. apply map_ext_in. intros i Hin'. apply in_seq in Hin'. rewrite HYn by lia. reflexivity. }
    (* logits *)
    assert (HL : forall d, (full <= d <= dep)%nat -> exists Zs z, (forall i, (i < length os')%nat -> dfind (fst (fst (nth i rs r0))) (Z.of_nat d) = Ok (Zs i)) /\ dfind l (Z.of_nat d) = Ok z /\
        J os' (nodes o0 os' d false) 2 Zs z).
    { intros d Hd. destruct (HD d Hd) as (Zs & z & F1 & F2 & HJ'). exists Zs, z. split; [|auto]. intros i Hl. rewrite <- HYn by exact Hl. apply F1. exact Hl. }
    pose proof HT as (HTd & HTt & HTn). rewrite D01 in HTt, HTn.
    assert (Dn : done g (length codes) o' (mK kms) (mM kms)).
    { split; [exact HTt|]. split; [intros d ll Hd; apply HTn; lia|]. destruct Bt as (om & Em & Eo & _). rewrite (merge_Ok o0 os kms Hm Hk) in Em. assert (Hom : om = merged o0 os kms) by congruence. subst om.
      pose proof (merged_tree o0 os kms Hm Hk) as Tm. destruct (tree_all_neigh (merged o0 os kms) _ _ Tm ltac:(cbn [merged full_depth]; lia)) as (o2 & E' & On & _). assert (o2 = o') by congruence. subst o2. destruct On as (O1 & O2 & O3 & _).
      split; [congruence|]. split; [rewrite O2; exact D02|]. lia. }
    assert (Jd : judged g l (mK kms) (mM kms)).
    { intros d Hd. destruct (HL d Hd) as (Zs & z & F1 & F2 & HJ'). exists z. split; [exact F2|]. split.
      - pose proof (J_shape o0 o' os' kms HK HT d false 2 Zs z ltac:(lia) HJ') as Sh. rewrite (node_count_sel o' dep _ _ HTt) in Sh by lia. exact Sh.
      - assert (Fl : forall i, (i < length os')%nat -> snd (Ki kms i) d = map (Z.eqb 1) (map argmax (Zs i))).
        { intros i Hl. destruct (HK1 i Hl) as (code & r & km & B1 & B2 & B3 & (_ & _ & _ & Jr & _) & _ & _ & EK). rewrite EK. destruct (Jr d Hd) as (lg & G1 & G2 & G3).
          specialize (F1 i Hl). rewrite (nth_error_nth _ _ r0 B2) in F1. assert (lg = Zs i) by congruence. subst lg. rewrite G3. apply flags_true; [|eauto].
          rewrite Forall_forall in Hsplit. apply (Hsplit r (nth_error_In _ _ B2) d); assumption. }
        assert (Ez : z = concat (map Zs (seq 0 (length os')))) by (apply (rows_of _ _ _ _ _ HJ')). rewrite (mM_cat o0 os' kms HK d).
        rewrite flags_true.
        + rewrite Ez. unfold CatFacts.cat. rewrite !concat_map, !map_map. f_equal. apply map_ext_in. intros i Hin'. apply in_seq in Hin'. apply Fl. lia.
        + destruct (HK1 O Hn) as (code & r & km & B1 & B2 & _). specialize (F1 O Hn). rewrite (nth_error_nth _ _ r0 B2) in F1. rewrite Forall_forall in Hsplit. pose proof (Hsplit r (nth_error_In _ _ B2) d (Zs O) Hd F1) as Ex.
          apply Exists_exists in Ex. destruct Ex as (q & Hq & Aq). apply Exists_exists. exists q. split; [|exact Aq]. rewrite Ez. apply in_concat. exists (Zs O). split; [apply in_map; apply in_seq; lia|exact Hq].
        + exists (length z). split; [reflexivity|]. apply (J_rows _ _ _ _ _ HJ'). }
    assert (Hcc : shape (8 ^ full * length codes) (a_code g) (concat codes)).
    { split.
      - clear - Hcodes. induction Hcodes as [|c cs [Hc _] H IH]; [cbn; lia|]. cbn [concat length]. rewrite app_length, (IH H), Hc. lia.
      - apply Forall_concat. eapply Forall_impl; [|exact Hcodes]. intros c [_ Hc]. exact Hc. }
    destruct (grow_core g P cout 0 (length codes) dev HC ltac:(lia) Hcount ltac:(lia) (concat codes) Hcc l s o' (mK kms) (mM kms) E2 Dn Jd) as (oo & o1 & F1 & F2 & G1 & G2 & G3 & T1 & N1).
    destruct (store_tree oo dep _ _ dep s o1 T1 F2) as (T' & _ & Q1 & Q2 & Q3 & (lf & Elf & Hlf)).
    assert (Em : merge_octrees os = Ok (merged o0 os kms)) by (apply merge_Ok; assumption). pose proof (merged_tree o0 os kms Hm Hk) as Tm.
    assert (Dm : depth (merged o0 os kms) = dep) by exact D01. change (depth (merged o0 os kms)) with (depth o0) in Tm. rewrite D01 in Tm.
    exists l, o1, (merged o0 os kms). split; [rewrite <- Hs; exact F1|]. split; [exact Em|]. split; [congruence|]. split; [rewrite Q2, G2; symmetry; exact D02|]. split; [rewrite Q3, G3, <- Lo; reflexivity|].
    split; [apply (same_trees _ _ dep _ _ Tm T'); congruence|]. split.
    - destruct (thm_merge o0 os Hm) as (m' & Em' & _ & _ & _ & _ & _ & Hj). assert (m' = merged o0 os kms) by congruence. subst m'. destruct (Hj dep ltac:(lia)) as (ls & lm & Fl & El & (_ & _ & _ & _ & _ & _ & Jf & _)).
      exists lm, lf. split; [exact El|]. split; [exact Elf|]. rewrite Hlf, Jf, D01, Nat.eqb_refl. unfold joined_signal.
      assert (Fs : Forall2 (fun r li => l_features li = Some (snd (fst r))) rs ls).
      { apply Forall2_index; [rewrite (SearchFacts.Forall2_len _ _ _ Fl); lia|]. intros i r li Er Eli. assert (Hl : (i < length codes)%nat) by (rewrite <- L1; apply nth_error_Some; congruence).
        destruct (Hio i Hl) as (code & r' & km & _ & B2 & B3 & _ & (_ & _ & _ & _ & _ & (l' & Y1 & Y2))). assert (r' = r) by congruence. subst r'. pose proof (SearchFacts.Forall2_nth _ _ _ i _ _ Fl B3 Eli) as E. cbv beta in E. congruence. }
      assert (Hfst : first_has l_features ls = true). { destruct Fs as [|r li rs' ls' Hrl _]; [cbn [length] in L1; lia|]. cbn [first_has]. rewrite Hrl. reflexivity. }
      rewrite Hfst. cbn [andb]. f_equal. rewrite Hs. clear - Fs. induction Fs as [|r li rs' ls' Hrl F IH]; [reflexivity|]. cbn [map concat]. rewrite IH. unfold cat_some. cbn [map concat]. rewrite Hrl. reflexivity.
    - intros d Hd. destruct (HL d Hd) as (Zs & z & K1 & K2 & HJ'). exists (map Zs (seq 0 (length os'))). split; [|rewrite K2, (rows_of _ _ _ _ _ HJ'); reflexivity].
      rewrite Hrsq at 1. apply mapM_map. intros i Hin'. apply in_seq in Hin'. apply K1. lia.
  Qed.
End DecodeBatch.
