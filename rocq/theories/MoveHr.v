(** Moving a shape: recorded children, unpooling, upsampling, HRNet and SegNet. *)
From Coq Require Import String List ZArith Bool QArith Qcanon Lia.
From Verif Require Import Res Tensor Key Num NumFacts Points Octree NnBasic NnConv NnInterp Features Net Spec SpecGeo SpecBuild SpecNeigh SpecNN SpecInterp SpecNet SpecBatch SpecMove SpecMoveSeg
  WF ListFacts WFFacts SumFacts NnFacts ConvOct Deconv PoolFacts Unpool UpsampleFacts NetFacts NetLoops NetPool NetSeg NetHr NetBatch MoveFacts MoveNet MoveBuild MoveSeg MoveInterp MoveUnet DecodeBatch.
Import ListNotations.
Open Scope Z_scope.

Section Hr.
  Context {renum : Z -> Z}.
  Variables (e : nat) (t : Z -> Z * Z * Z) (o o' : octree).
  Variables (ne : bool) (lo : nat).
  Hypothesis Hlo : (e <= lo)%nat /\ (ne = false -> (S e <= lo)%nat).
  Notation s := (shift_to renum e t).
  Notation same := (fun v : Z * Z * Z => v).
  Hypothesis HM : motion_to renum e s same.
  Hypothesis HF : keeps_first e s.
  Hypothesis HO : moved e s o o'.
  Hypothesis HW : wf_octree o.
  Hypothesis HW' : wf_octree o'.
  Notation R := (R s o o' ne).

  Lemma keeps_child d q : (e <= d)%nat -> child_no (s (S d) q) = child_no q.
  Proof.
    intros Hd. destruct q as [[[x y] z] b]. unfold shift_to. destruct (t b) as [[u v] w]. unfold child_no.
    replace (S d - e)%nat with (S (d - e)) by lia. rewrite Nat2Z.inj_succ, Z.pow_succ_r by lia.
    assert (H : forall a k, (a + k * (2 * 2 ^ Z.of_nat (d - e))) mod 2 = a mod 2).
    { intros a k. replace (a + k * (2 * 2 ^ Z.of_nat (d - e))) with (a + (k * 2 ^ Z.of_nat (d - e)) * 2) by ring. apply Z.mod_add. lia. }
    rewrite !H. reflexivity.
  Qed.
  (** recorded children of the non-empty nodes *)
  Definition RI (d C : nat) (x x' : list (list Z)) : Prop := shape (node_count o d true) C x /\ shape (node_count o' d true) C x' /\
    Forall (Forall (fun k => 0 <= k < 8)) x /\ Forall (Forall (fun k => 0 <= k < 8)) x' /\ carried true s o o' d x x'.
  Lemma move_pool_ind d C x x' : (lo <= d)%nat -> (S d <= depth o)%nat -> (ne = true -> branching o d) -> R (S d) C x x' ->
    run2 (fun v v' => R d C (fst v) (fst v') /\ RI d C (snd v) (snd v')) (max_pool_ind C ne x o (Z.of_nat (S d))) (max_pool_ind C ne x' o' (Z.of_nat (S d))).
  Proof.
    intros Hl0 Hd Hb HR. pose proof HR as (Hx & Hx' & Hc). pose proof (proj1 HO) as D. assert (He : (e <= d)%nat) by (pose proof (proj1 Hlo); lia).
    destruct (max_pool_ok o ne C d x HW Hd Hb Hx) as (y & idx & E & Hy & Hi1 & Hi2).
    destruct (max_pool_ok o' ne C d x' HW' ltac:(lia) (branch' e s same o o' ne lo Hlo HM HO HW HW' d Hl0 Hd Hb) Hx') as (y' & idx' & E' & Hy' & Hi1' & Hi2').
    destruct (move_pool e s same o o' ne lo Hlo HM HO HW HW' d C x x' Hl0 Hd Hb HR) as (z & z' & G & G' & HZ).
    assert (z = y) by (unfold max_pool in G; rewrite E in G; cbn [bind] in G; congruence). subst z.
    assert (z' = y') by (unfold max_pool in G'; rewrite E' in G'; cbn [bind] in G'; congruence). subst z'.
    exists (y, idx), (y', idx'). split; [exact E|]. split; [exact E'|]. cbn [fst snd]. split; [exact HZ|]. do 4 (split; [assumption|]).
    destruct (thm_max_pool o d ne C x HW Hd Hx) as (ts & qs & cs & out & id1 & Et & Eq & Ec & Em & Hout & Hid & HMx).
    destruct (thm_max_pool o' d ne C x' HW' ltac:(lia) Hx') as (ts' & qs' & cs' & out' & id1' & Et' & Eq' & Ec' & Em' & Hout' & Hid' & HMx').
    assert (F : finite_rows out = Ok y /\ id1 = idx).
    { unfold max_pool_ind, at_depth in E. replace (Z.of_nat (S d) <? 0) with false in E by (symmetry; apply Z.ltb_ge; lia). rewrite Nat2Z.id, Em in E. cbn [bind] in E.
      destruct (finite_rows out); [|discriminate]. cbn [bind] in E. split; congruence. }
    assert (F' : finite_rows out' = Ok y' /\ id1' = idx').
    { unfold max_pool_ind, at_depth in E'. replace (Z.of_nat (S d) <? 0) with false in E' by (symmetry; apply Z.ltb_ge; lia). rewrite Nat2Z.id, Em' in E'. cbn [bind] in E'.
      destruct (finite_rows out'); [|discriminate]. cbn [bind] in E'. split; congruence. }
    destruct F as [F ->], F' as [F' ->].
    destruct (thm_unpool o d ne C y idx HW Hd Hy Hi1 Hi2) as (? & ? & ? & ? & K1 & K2 & _ & _ & _ & Sub & _). rewrite Et in K1. injection K1 as <-. rewrite Eq in K2. injection K2 as <-.
    destruct (cells e s same o o' ne lo Hlo HM HO HW HW' d ltac:(lia)) as (k1 & k2 & E1 & E2 & L1 & L2 & _ & _ & Hq0). rewrite Eq in E1. injection E1 as <-. rewrite Eq' in E2. injection E2 as <-.
    destruct (cells e s same o o' ne lo Hlo HM HO HW HW' (S d) ltac:(lia)) as (k1 & k2 & E1 & E2 & M1 & M2 & N1 & N2 & Hq). rewrite Ec in E1. injection E1 as <-. rewrite Ec' in E2. injection E2 as <-.
    intros a a' i j q A A' Hi Hj. rewrite Et in A. injection A as <-. rewrite Et' in A'. injection A' as <-.
    pose proof (Sub q (nth_error_In _ _ Hi)) as Pq. pose proof (proj2 (Hq0 q) Pq) as Pq'.
    apply In_nth_error in Pq as (ri & Hri). apply In_nth_error in Pq' as (rj & Hrj).
    assert (Li : (ri < length qs)%nat) by (apply nth_error_Some; congruence). assert (Lj : (rj < length qs')%nat) by (apply nth_error_Some; congruence).
    assert (Lt : (i < length idx)%nat) by (rewrite (proj1 Hid); apply nth_error_Some; congruence). assert (Lt' : (j < length idx')%nat) by (rewrite (proj1 Hid'); apply nth_error_Some; congruence).
    rewrite (nth_error_nth' idx []) by exact Lt. rewrite (nth_error_nth' idx' []) by exact Lt'. f_equal.
    assert (W1 : length (nth i idx []) = C) by (apply (shape_nth _ _ _ _ Hid); rewrite (proj1 Hid) in Lt; exact Lt).
    assert (W2 : length (nth j idx' []) = C) by (apply (shape_nth _ _ _ _ Hid'); rewrite (proj1 Hid') in Lt'; exact Lt').
    apply nth_ext with 0 0; [congruence|]. intros c Hcc. rewrite W1 in Hcc. change (entry2 0 idx i c = entry2 0 idx' j c).
    destruct (HMx ri q Hri) as [U _]. specialize (U i c Hi Hcc). rewrite (finite_rows_entry _ _ _ _ Hout F ri c Li Hcc) in U.
    destruct (HMx' rj (s d q) Hrj) as [V _]. specialize (V j c Hj Hcc). rewrite (finite_rows_entry _ _ _ _ Hout' F' rj c Lj Hcc) in V.
    assert (EY : at2 y ri c = at2 y' rj c). { unfold at2. destruct HZ as (_ & _ & HZ). rewrite (nth_error_nth_eq y y' ri rj (HZ qs qs' ri rj q Eq Eq' Hri Hrj)). reflexivity. }
    destruct U as [(u & qu & U1 & U2 & U0 & U3) U4]. destruct V as [(v & qv & V1 & V2 & V0 & V3) V4].
    destruct (Z.lt_trichotomy (entry2 0 idx i c) (entry2 0 idx' j c)) as [H|[H|H]]; [exfalso|exact H|exfalso].
    - assert (Hin : In (s (S d) qu) cs') by (apply Hq; eapply nth_error_In; exact U1). apply In_nth_error in Hin as (w & Hw).
      destruct (V4 w (s (S d) qu) Hw) as [_ V5]; [rewrite (mo_parent _ _ _ _ HM) by exact He; congruence|]. rewrite keeps_child, U0 in V5 by exact He. specialize (V5 H).
      assert (X : at2 x u c = at2 x' w c) by (unfold at2; rewrite (nth_error_nth_eq x x' u w (Hc cs cs' u w qu Ec Ec' U1 Hw)); reflexivity).
      rewrite <- X, U3, EY in V5. exact (Qclt_not_eq _ _ V5 eq_refl).
    - destruct (mo_onto _ _ _ _ HM (S d) qv ltac:(lia)) as (r & Er). subst qv. assert (Hin : In r cs) by (apply Hq; eapply nth_error_In; exact V1).
      apply In_nth_error in Hin as (w & Hw). rewrite (mo_parent _ _ _ _ HM) in V2 by exact He. apply (mo_inj _ _ _ _ HM) in V2; [|exact He].
      destruct (U4 w r Hw V2) as [_ U5]. rewrite keeps_child in V0 by exact He. rewrite V0 in U5. specialize (U5 H).
      assert (X : at2 x w c = at2 x' v c) by (unfold at2; rewrite (nth_error_nth_eq x x' w v (Hc cs cs' w v r Ec Ec' Hw V1)); reflexivity).
      rewrite X, V3, <- EY in U5. exact (Qclt_not_eq _ _ U5 eq_refl).
  Qed.
  Lemma move_unpool d C x x' i i' : (lo <= d)%nat -> (S d <= depth o)%nat -> R d C x x' -> RI d C i i' ->
    run2 (R (S d) C) (octree_max_unpool x i o d ne) (octree_max_unpool x' i' o' d ne).
  Proof.
    intros Hl0 Hd (Hx & Hx' & Hc) (Hi & Hi' & Fi & Fi' & Ci). pose proof (proj1 HO) as D. assert (He : (e <= d)%nat) by (pose proof (proj1 Hlo); lia).
    destruct (thm_unpool o d ne C x i HW Hd Hx Hi Fi) as (qs & ps & cs & u & Eq & Ep & Ec & Eu & Hu & Sub & U).
    destruct (thm_unpool o' d ne C x' i' HW' ltac:(lia) Hx' Hi' Fi') as (qs' & ps' & cs' & u' & Eq' & Ep' & Ec' & Eu' & Hu' & Sub' & U').
    destruct (cells e s same o o' ne lo Hlo HM HO HW HW' (S d) ltac:(lia)) as (k1 & k2 & E1 & E2 & L1 & L2 & _). rewrite Ec in E1. injection E1 as <-. rewrite Ec' in E2. injection E2 as <-.
    exists u, u'. split; [exact Eu|]. split; [exact Eu'|]. rewrite L1 in Hu. rewrite L2 in Hu'. split; [exact Hu|]. split; [exact Hu'|].
    intros a a' r r' q A A' Hr Hr'. rewrite Ec in A. injection A as <-. rewrite Ec' in A'. injection A' as <-.
    destruct (U r q Hr) as [Q1 G]. destruct (U' r' (s (S d) q) Hr') as [Q1' G']. rewrite (mo_parent _ _ _ _ HM) in Q1', G' by exact He.
    pose proof (Sub _ Q1) as P1. pose proof (Sub' _ Q1') as P1'. apply In_nth_error in Q1 as (m & Hm), Q1' as (m' & Hm'), P1 as (n & Hn), P1' as (n' & Hn').
    assert (Lr : (r < node_count o (S d) ne)%nat) by (rewrite <- L1; apply nth_error_Some; congruence). assert (Lr' : (r' < node_count o' (S d) ne)%nat) by (rewrite <- L2; apply nth_error_Some; congruence).
    rewrite (nth_error_nth' u []) by (rewrite (proj1 Hu); exact Lr). rewrite (nth_error_nth' u' []) by (rewrite (proj1 Hu'); exact Lr'). f_equal.
    apply nth_ext with 0%Qc 0%Qc; [rewrite (shape_nth _ _ _ _ Hu Lr), (shape_nth _ _ _ _ Hu' Lr'); reflexivity|].
    intros c Hcc. rewrite (shape_nth _ _ _ _ Hu Lr) in Hcc. change (at2 u r c = at2 u' r' c).
    rewrite (G n m c Hn Hm Hcc), (G' n' m' c Hn' Hm' Hcc). rewrite keeps_child by exact He.
    replace (entry2 0 i' m' c) with (entry2 0 i m c) by (unfold entry2; rewrite (nth_error_nth_eq i i' m m' (Ci qs qs' m m' _ Eq Eq' Hm Hm')); reflexivity).
    replace (at2 x' n' c) with (at2 x n c) by (unfold at2; rewrite (nth_error_nth_eq x x' n n' (Hc ps ps' n n' _ Ep Ep' Hn Hn')); reflexivity). reflexivity.
  Qed.
  Lemma move_upsample d C x x' : (lo <= d)%nat -> (S d <= depth o)%nat -> R d C x x' ->
    run2 (R (S d) C) (octree_upsample "nearest" ne C x o d None) (octree_upsample "nearest" ne C x' o' d None).
  Proof.
    intros Hl0 Hd (Hx & Hx' & Hc). pose proof (proj1 HO) as D. assert (He : (e <= d)%nat) by (pose proof (proj1 Hlo); lia).
    assert (A : forall z oo, octree_upsample "nearest" ne C z oo d None = octree_nearest_upsample z oo d ne).
    { intros z oo. unfold octree_upsample. rewrite (proj2 (Nat.eqb_neq (S d) d)) by lia. replace (Nat.leb d (S d)) with true by (symmetry; apply Nat.leb_le; lia).
      rewrite Nat.eqb_refl. reflexivity. }
    rewrite !A. destruct (thm_nearest_upsample o d ne C x HW Hd Hx) as (ps & cs & u & Ep & Ec & Eu & Hu & U & _).
    destruct (thm_nearest_upsample o' d ne C x' HW' ltac:(lia) Hx') as (ps' & cs' & u' & Ep' & Ec' & Eu' & Hu' & U' & _).
    exists u, u'. split; [exact Eu|]. split; [exact Eu'|]. split; [exact Hu|]. split; [exact Hu'|].
    intros a a' r r' q A1 A' Hr Hr'. rewrite Ec in A1. injection A1 as <-. rewrite Ec' in A'. injection A' as <-.
    destruct (U r q Hr) as (i & Hi & ->). destruct (U' r' _ Hr') as (i' & Hi' & ->). rewrite (mo_parent _ _ _ _ HM) in Hi' by exact He.
    exact (Hc ps ps' i i' _ Ep Ep' Hi Hi').
  Qed.

  (** lists of tensors *)
  Definition RL (Q : nat -> feat -> feat -> Prop) (m : nat) (xs xs' : list feat) : Prop :=
    length xs = m /\ length xs' = m /\ forall k, (k < m)%nat -> Q k (nth k xs []) (nth k xs' []).
  Lemma run2_mapM Q F F' m : (forall k, (k < m)%nat -> run2 (Q k) (F (Z.of_nat k)) (F' (Z.of_nat k))) ->
    run2 (RL Q m) (mapM F (arange m)) (mapM F' (arange m)).
  Proof.
    induction m as [|m IH]; intros H; [exists [], []; split; [reflexivity|]; split; [reflexivity|]; split; [reflexivity|]; split; [reflexivity|]; intros k Hk; lia|].
    destruct IH as (ys & ys' & E & E' & L & L' & HQ); [intros k Hk; apply H; lia|]. destruct (H m ltac:(lia)) as (y & y' & G & G' & Hy).
    exists (ys ++ [y]), (ys' ++ [y']). rewrite arange_S, !mapM_app, E, E'. cbn [bind mapM]. rewrite G, G'. split; [reflexivity|]. split; [reflexivity|].
    split; [rewrite app_length, L; cbn; lia|]. split; [rewrite app_length, L'; cbn; lia|]. intros k Hk. destruct (Nat.eq_dec k m) as [->|N].
    - rewrite !app_nth2 by lia. rewrite L, L', Nat.sub_diag. exact Hy.
    - rewrite !app_nth1 by lia. apply HQ. lia.
  Qed.
  Lemma RL_get {A B} Q m xs xs' k (T : A -> B -> Prop) F F' : RL Q m xs xs' -> (k < m)%nat -> run2 T (F (nth k xs [])) (F' (nth k xs' [])) ->
    run2 T (bind (tget xs (Z.of_nat k)) F) (bind (tget xs' (Z.of_nat k)) F').
  Proof. intros (L1 & L2 & _) Hk H. rewrite (tget_len xs k []), (tget_len xs' k []) by lia. exact H. Qed.
  Lemma run2_foldl (Acc : nat -> feat -> feat -> Prop) f : forall m Q k0 a a' xs xs', Acc k0 a a' -> RL Q m xs xs' ->
    (forall k b b' y y', (k < m)%nat -> Acc (k0 + k)%nat b b' -> Q k y y' -> run2 (Acc (S (k0 + k))) (f b y) (f b' y')) ->
    run2 (Acc (k0 + m)%nat) (foldM f a xs) (foldM f a' xs').
  Proof.
    induction m as [|m IH]; intros Q k0 a a' xs xs' HA (L & L' & HX) H.
    - destruct xs; [|discriminate]. destruct xs'; [|discriminate]. rewrite Nat.add_0_r. apply run2_ret. exact HA.
    - destruct xs as [|y xs]; [discriminate|]. destruct xs' as [|y' xs']; [discriminate|]. cbn [foldM]. eapply run2_bind.
      + pose proof (H 0%nat a a' y y' ltac:(lia)) as H0. rewrite Nat.add_0_r in H0. apply (H0 HA). exact (HX 0%nat ltac:(lia)).
      + intros b b' Hb. replace (k0 + S m)%nat with (S k0 + m)%nat by lia. apply (IH (fun k => Q (S k)) (S k0)); [exact Hb| |].
        * cbn [length] in L, L'. split; [lia|]. split; [lia|]. intros k Hk. exact (HX (S k) ltac:(lia)).
        * intros k c c' z z' Hk Hc Hz. specialize (H (S k) c c' z z' ltac:(lia)). replace (k0 + S k)%nat with (S k0 + k)%nat in H by lia. apply H; assumption.
  Qed.
  Lemma R_sums d C m xs xs' : (m <> 0)%nat -> RL (fun _ => R d C) m xs xs' -> run2 (R d C) (sum_feats xs) (sum_feats xs').
  Proof.
    intros Hm (L & L' & HX). destruct m as [|m]; [congruence|]. destruct xs as [|y xs]; [discriminate|]. destruct xs' as [|y' xs']; [discriminate|]. cbn [length] in L, L'. cbn [sum_feats].
    apply (run2_foldl (fun _ => R d C) add_feat m (fun _ => R d C) 0); [exact (HX 0%nat ltac:(lia))| |].
    - split; [lia|]. split; [lia|]. intros k Hk. exact (HX (S k) ltac:(lia)).
    - intros k b b' z z' _ Hb Hz. apply (R_add e s o o' ne lo Hlo); assumption.
  Qed.

  Variable P : params.
  Variable mr : nat.
  Hypothesis HP : fair_norms mr P.
  Variable hi : nat.
  Hypothesis Hhi : (hi <= depth o)%nat.
  Hypothesis HN : forall d, (lo <= d <= hi)%nat -> (1 <= d)%nat -> has_neigh o d.
  Hypothesis HN' : forall d, (lo <= d <= hi)%nat -> (1 <= d)%nat -> has_neigh o' d.
  Hypothesis HK : forall d, (lo <= d <= hi)%nat -> (1 <= d)%nat -> (mr <= node_count o d ne)%nat.
  Notation conv_br := (G_conv_bn_relu e t o o' ne lo Hlo HM HF HO HW HW' P mr HP hi Hhi HN HN' HK).
  Notation blocks := (G_res_blocks e t o o' ne lo Hlo HM HF HO HW HW' P mr HP hi Hhi HN HN' HK).
  Lemma R_cats d cs m xs xs' : (m <> 0)%nat -> length cs = m -> RL (fun k => R d (nth k cs O)) m xs xs' -> run2 (R d (fold_right Nat.add O cs)) (cat_cols xs) (cat_cols xs').
  Proof.
    intros Hm Hc (L & L' & HX). destruct m as [|m]; [congruence|]. destruct cs as [|c cs]; [discriminate|]. cbn [length] in Hc.
    destruct xs as [|y xs]; [discriminate|]. destruct xs' as [|y' xs']; [discriminate|]. cbn [length] in L, L'. cbn [cat_cols fold_right].
    set (f := fun acc y : feat => if Nat.eqb (length acc) (length y) then Ok (zip_with (@app Qc) acc y) else Err RuntimeError).
    assert (E : forall a b, f a b = cat_cols [a; b]). { intros a0 b0. unfold f. cbn [cat_cols foldM]. destruct (Nat.eqb (length a0) (length b0)); reflexivity. }
    assert (G : run2 (R d (c + fold_right Nat.add O (firstn (0 + m) cs))) (foldM f y xs) (foldM f y' xs')).
    { apply (run2_foldl (fun k => R d (c + fold_right Nat.add O (firstn k cs))) f m (fun k => R d (nth k cs O)) 0).
      - cbn [firstn fold_right]. rewrite Nat.add_0_r. exact (HX 0%nat ltac:(lia)).
      - split; [lia|]. split; [lia|]. intros k Hk. exact (HX (S k) ltac:(lia)).
      - intros k b b' z z' Hk Hb Hz. cbn [Nat.add] in *. rewrite !E. replace (c + fold_right Nat.add O (firstn (S k) cs))%nat with ((c + fold_right Nat.add O (firstn k cs)) + nth k cs O)%nat.
        + apply (G_cat e t o o' ne lo Hlo mr hi Hhi HN HN' HK); assumption.
        + clear - Hk Hc. assert (Hk' : (k < length cs)%nat) by lia. clear Hk Hc. revert k Hk'. induction cs as [|b cs IH]; intros [|k] Hk; cbn [length] in Hk; try lia; [cbn; lia|].
          specialize (IH k ltac:(lia)). cbn [firstn fold_right nth] in *. lia. }
    rewrite firstn_all2 in G by lia. exact G.
  Qed.

  Section HrNet.
    Variables (cin cout num stages dep : nat).
    Hypothesis Hdep : (stages + 2 <= dep <= hi)%nat.
    Hypothesis Hst : (1 <= stages <= 4)%nat.
    Hypothesis Hl2 : (lo <= 2)%nat.
    Hypothesis HBr : forall d, (2 <= d < dep)%nat -> ne = true -> branching o d.
    Hypothesis Hcin : channel_ok cin.
    Notation ch i := (nth i hr_channels O).
    Notation D := (dep - 1)%nat.
    Definition RH (k : nat) : feat -> feat -> Prop := R (D - k) (ch k).
    Lemma ch_small i : channel_ok (ch i).
    Proof. unfold channel_ok. do 4 (destruct i as [|i]; [cbn; lia|]). cbn. destruct i; cbn; lia. Qed.
    Lemma ch_count m : (m <= 4)%nat -> length (firstn m hr_channels) = m.
    Proof. intros H. rewrite firstn_length. cbn [hr_channels length]. lia. Qed.
    Lemma R_pools C m d x x' : (2 <= d)%nat -> (d + m < dep)%nat -> R (d + m) C x x' ->
      run2 (R d C) (foldM (fun x j => max_pool C ne x o (Z.of_nat (d + m) - j)) x (arange m)) (foldM (fun x j => max_pool C ne x o' (Z.of_nat (d + m) - j)) x' (arange m)).
    Proof.
      intros Hd Hm HX. assert (G : run2 (R (d + m - m) C) (foldM (fun x j => max_pool C ne x o (Z.of_nat (d + m) - j)) x (arange m)) (foldM (fun x j => max_pool C ne x o' (Z.of_nat (d + m) - j)) x' (arange m))).
      { apply (run2_fold e ne lo Hlo (fun k => R (d + m - k) C)); [rewrite Nat.sub_0_r; exact HX|].
        intros k v v' Hk HV. cbn beta. replace (Z.of_nat (d + m) - Z.of_nat k) with (Z.of_nat (S (d + m - S k))) by lia.
        apply (move_pool e s same o o' ne lo Hlo HM HO HW HW'); [lia|lia|apply HBr; lia|]. replace (S (d + m - S k)) with (d + m - k)%nat by lia. exact HV. }
      replace (d + m - m)%nat with d in G by lia. exact G.
    Qed.
    Lemma R_ups C m d x x' : (2 <= d)%nat -> (d + m <= dep)%nat -> R d C x x' ->
      run2 (R (d + m) C) (foldM (fun x j => at_depth (Z.of_nat d + j) (fun d => octree_upsample "nearest" ne C x o d None)) x (arange m))
        (foldM (fun x j => at_depth (Z.of_nat d + j) (fun d => octree_upsample "nearest" ne C x o' d None)) x' (arange m)).
    Proof.
      intros Hd Hm HX. apply (run2_fold e ne lo Hlo (fun k => R (d + k) C)); [rewrite Nat.add_0_r; exact HX|].
      intros k v v' Hk HV. cbn beta. rewrite <- Nat2Z.inj_add. unfold at_depth. replace (Z.of_nat (d + k) <? 0) with false by (symmetry; apply Z.ltb_ge; lia). rewrite Nat2Z.id.
      replace (d + S k)%nat with (S (d + k)) by lia. apply move_upsample; [lia|lia|exact HV].
    Qed.
    Lemma R_trans p i j x x' : (i < 4)%nat -> (j < 4)%nat -> (S i + 2 <= D)%nat -> (S j + 2 <= S D)%nat -> RH i x x' ->
      run2 (RH j) (hr_trans P p (ch i) (ch j) ne x o (Z.of_nat D - Z.of_nat i) (Z.of_nat D - Z.of_nat j))
        (hr_trans P p (ch i) (ch j) ne x' o' (Z.of_nat D - Z.of_nat i) (Z.of_nat D - Z.of_nat j)).
    Proof.
      intros Hi Hj Hi2 Hj2 HX. unfold hr_trans.
      assert (Pj : forall d z z', (2 <= d <= dep)%nat -> R d (ch i) z z' -> run2 (R d (ch j)) (if Nat.eqb (ch i) (ch j) then Ok z else conv1x1_bn_relu P p (ch i) (ch j) z)
        (if Nat.eqb (ch i) (ch j) then Ok z' else conv1x1_bn_relu P p (ch i) (ch j) z')).
      { intros d u u' Hd HU. destruct (Nat.eqb_spec (ch i) (ch j)) as [E|E]; [rewrite <- E; apply run2_ret; exact HU|apply (G_conv1x1_bn_relu e t o o' ne lo Hlo HM HO HW HW' P mr HP hi Hhi HN HN' HK); [lia|lia|assumption]]. }
      destruct (Z.ltb_spec (Z.of_nat D - Z.of_nat j) (Z.of_nat D - Z.of_nat i)) as [H|H].
      - replace (Z.to_nat (Z.of_nat D - Z.of_nat i - (Z.of_nat D - Z.of_nat j))) with (j - i)%nat by lia.
        replace (Z.of_nat D - Z.of_nat i) with (Z.of_nat ((D - j) + (j - i))) by lia. eapply run2_bind; [apply (R_pools (ch i) (j - i) (D - j) x x'); [lia|lia|]|].
        + replace (D - j + (j - i))%nat with (D - i)%nat by lia. exact HX.
        + intros y y' HY. apply Pj; [lia|exact HY].
      - destruct (Z.ltb_spec (Z.of_nat D - Z.of_nat i) (Z.of_nat D - Z.of_nat j)) as [H'|H'].
        + eapply run2_bind; [apply (Pj (D - i)%nat); [lia|exact HX]|]. intros y y' HY.
          replace (Z.to_nat (Z.of_nat D - Z.of_nat j - (Z.of_nat D - Z.of_nat i))) with (i - j)%nat by lia.
          replace (Z.of_nat D - Z.of_nat i) with (Z.of_nat (D - i)) by lia. unfold RH. replace (D - j)%nat with (D - i + (i - j))%nat by lia. apply R_ups; [lia|lia|exact HY].
        + replace j with i by lia. apply run2_ret. exact HX.
    Qed.
    Lemma R_branches p m xs xs' : (1 <= m <= stages)%nat -> RL RH m xs xs' ->
      run2 (RL RH m) (hr_branches P p (firstn m hr_channels) num ne xs o (Z.of_nat D)) (hr_branches P p (firstn m hr_channels) num ne xs' o' (Z.of_nat D)).
    Proof.
      intros Hm HX. unfold hr_branches. rewrite ch_count by lia. pose proof HX as (L1 & L2 & HQ). rewrite L1, L2, Nat.eqb_refl. cbn [assert_ bind].
      apply run2_mapM. intros k Hk. rewrite (tget_len _ k O) by (rewrite ch_count; lia). cbn [bind]. rewrite firstn_nth by exact Hk.
      apply (RL_get RH m xs xs' k); [exact HX|exact Hk|]. replace (Z.of_nat D - Z.of_nat k) with (Z.of_nat (D - k)) by lia.
      apply (blocks _ (D - k)%nat (ch k) (ch k)); [lia|lia|destruct (Nat.ltb _ _); lia|apply ch_small|apply chan_le, ch_small|auto|exact (HQ k Hk)].
    Qed.
    Lemma R_transitions p m xs xs' : (1 <= m)%nat -> (S m <= stages)%nat -> RL RH m xs xs' ->
      run2 (RL RH (S m)) (hr_transitions P p (firstn (S m) hr_channels) ne xs o (Z.of_nat D)) (hr_transitions P p (firstn (S m) hr_channels) ne xs' o' (Z.of_nat D)).
    Proof.
      intros Hm Hs HX. unfold hr_transitions. cbv zeta. rewrite ch_count by lia. apply run2_mapM. intros j Hj.
      eapply (run2_bind (RL (fun _ => RH j) (S m - 1))).
      - apply run2_mapM. intros i Hi. rewrite (tget_len _ i O) by (rewrite ch_count; lia). cbn [bind]. rewrite (tget_len _ j O) by (rewrite ch_count; lia). cbn [bind]. rewrite !firstn_nth by lia.
        apply (RL_get RH m xs xs' i); [exact HX|lia|]. apply R_trans; [lia|lia|lia|lia|]. destruct HX as (_ & _ & HQ). apply HQ. lia.
      - intros ys ys' HY. apply (R_sums _ _ (S m - 1)); [lia|exact HY].
    Qed.
    Hypothesis HRI : forall b c, renum b = renum c -> b = c.
    Lemma G_hrnet_to sigma x x' : permutes sigma (batch_size o) -> (forall i, (i < batch_size o)%nat -> renum (Z.of_nat i) = Z.of_nat (sigma i)) -> R dep cin x x' ->
      run2 (reordered sigma) (HRNet P cin cout stages num ne x o (Z.of_nat dep)) (HRNet P cin cout stages num ne x' o' (Z.of_nat dep)).
    Proof.
      intros HS HSR HX.
      unfold HRNet. cbv zeta. replace (Z.of_nat dep - 1) with (Z.of_nat D) by lia. eapply (run2_bind (RH 0)).
      { unfold hr_front. replace (Z.of_nat dep - 1) with (Z.of_nat D) by lia.
        eapply run2_bind; [apply (conv_br _ cin 32 [3%nat] 1 dep x x'); [auto|auto|lia|rewrite up1; lia|rewrite up1; lia|lia|small|exact HX]|]. intros y y' HY.
        eapply (run2_bind (R D 32)).
        { replace (Z.of_nat dep) with (Z.of_nat (S D)) by lia. apply (move_pool e s same o o' ne lo Hlo HM HO HW HW'); [lia|lia|apply HBr; lia|]. replace (S D) with dep by lia. exact HY. }
        intros u u' HU. unfold RH. rewrite Nat.sub_0_r. apply (conv_br _ 32 128 [3%nat] 1 D u u'); [auto|auto|lia|rewrite up1; lia|rewrite up1; lia|lia|lia|exact HU]. }
      intros u u' HU. eapply (run2_bind (RL RH (Nat.min (S stages) stages))).
      { apply (run2_fold e ne lo Hlo (fun k => RL RH (Nat.min (S k) stages))).
        - replace (Nat.min 1 stages) with 1%nat by lia. split; [reflexivity|]. split; [reflexivity|]. intros k Hk. assert (k = O) by lia. subst k. exact HU.
        - intros k xs xs' Hk HXs. rewrite Nat2Z.id, Nat.add_1_r. replace (Nat.min (S k) stages) with (S k) in HXs by lia.
          eapply run2_bind; [apply (R_branches _ (S k) xs xs'); [lia|exact HXs]|]. intros ys ys' HYs.
          destruct (Z.ltb_spec (Z.of_nat k) (Z.of_nat stages - 1)) as [H|H].
          + replace (k + 2)%nat with (S (S k)) by lia. replace (Nat.min (S (S k)) stages) with (S (S k)) by lia. apply R_transitions; [lia|lia|exact HYs].
          + replace (Nat.min (S (S k)) stages) with (S k) by lia. apply run2_ret. exact HYs. }
      intros xs xs' HXs. replace (Nat.min (S stages) stages) with stages in HXs by lia. unfold hr_header. pose proof HXs as (L1 & L2 & HQ).
      eapply (run2_bind (RL (fun k => R 2 (nth k (firstn stages hr_channels) O)) stages)).
      { rewrite L1, L2. apply run2_mapM. intros k Hk. apply (RL_get RH stages xs xs' k); [exact HXs|exact Hk|].
        rewrite (tget_len _ k O) by (rewrite ch_count; lia). cbn [bind]. rewrite firstn_nth by exact Hk.
        replace (Z.to_nat (Z.of_nat D - Z.of_nat k - 2)) with (D - k - 2)%nat by lia. replace (Z.of_nat D - Z.of_nat k) with (Z.of_nat (2 + (D - k - 2))) by lia.
        apply (R_pools (ch k) (D - k - 2) 2); [lia|lia|]. replace (2 + (D - k - 2))%nat with (D - k)%nat by lia. exact (HQ k Hk). }
      intros os os' HOs. eapply run2_bind; [apply (R_cats 2 (firstn stages hr_channels) stages os os'); [lia|apply ch_count; lia|exact HOs]|]. intros y y' HY.
      eapply run2_bind; [apply (G_conv1x1_bn_relu e t o o' ne lo Hlo HM HO HW HW' P mr HP hi Hhi HN HN' HK _ 2 _ 1024 _ _ ltac:(lia) ltac:(lia) HY)|]. intros a a' HA.
      destruct (move_global_to e s same o o' ne lo Hlo HM HO HW HW' sigma HS HSR HRI 2 1024 a a' ltac:(lia) HA) as (b & b' & E1 & E2 & Hb). rewrite E1, E2. cbn [bind].
      destruct (global_shape o 2 ne 1024 a HW ltac:(lia) (proj1 HA)) as (b1 & E3 & Sb). assert (b1 = b) by congruence. subst b1.
      destruct (global_shape o' 2 ne 1024 a' HW' ltac:(pose proof (proj1 HO); lia) (proj1 (proj2 HA))) as (b1 & E3' & Sb'). assert (b1 = b') by congruence. subst b1.
      destruct (linear_rows P [("cls_header"%string, 0); ("header"%string, 1)] 1024 cout true) as (f & _ & Hf). rewrite (Hf b (proj2 Sb)), (Hf b' (proj2 Sb')). apply run2_ret. apply reordered_map, Hb.
    Qed.
  End HrNet.

  Section SegNet.
    Variables (cin cout stages dep : nat).
    Hypothesis Hne : ne = false.
    Hypothesis Hdep : (stages < dep <= hi)%nat.
    Hypothesis Hst : (1 <= stages)%nat.
    Hypothesis Hlow : (lo <= dep - stages)%nat.
    Hypothesis Hcin : channel_ok cin.
    Notation st := (stage_channels 8 stages).
    Notation chs := (cin :: st).
    Notation ch i := (nth i chs O).
    Notation chs2 := (rev st ++ [nth 0 st O]).
    Lemma sdep : (stages <= dep <= depth o)%nat.
    Proof. lia. Qed.
    Definition RM (k : nat) (m m' : ddict (list (list Z))) : Prop := forall j, (j < k)%nat ->
      run2 (RI (dep - S j) (ch (S j))) (dfind m (Z.of_nat (dep - j))) (dfind m' (Z.of_nat (dep - j))).
    Definition RS (k : nat) (v v' : feat * ddict (list (list Z))) : Prop := R (dep - k) (ch k) (fst v) (fst v') /\ RM k (snd v) (snd v').
    Lemma R_seg_down k v v' : (k < stages)%nat -> RS k v v' ->
      run2 (RS (S k)) (segnet_down P chs ne o (Z.of_nat dep) v (Z.of_nat k)) (segnet_down P chs ne o' (Z.of_nat dep) v' (Z.of_nat k)).
    Proof.
      destruct v as [x m], v' as [x' m']. intros Hk [HV HMx]. cbn [fst snd] in HV, HMx. pose proof (seg_len cin stages) as Hl.
      unfold segnet_down. rewrite (tget_len _ k O) by lia. cbn [bind]. replace (Z.of_nat k + 1) with (Z.of_nat (S k)) by lia. rewrite (tget_len _ (S k) O) by lia. cbn [bind].
      replace (Z.of_nat dep - Z.of_nat k) with (Z.of_nat (dep - k)) by lia.
      eapply run2_bind; [apply (conv_br _ (ch k) (ch (S k)) [3%nat] 1 (dep - k)%nat); [auto|auto|lia|rewrite up1; lia|rewrite up1; lia|lia|apply chan_le, cons_stage_ok; [lia|exact Hcin]|exact HV]|].
      intros y y' HY.
      eapply (run2_bind (fun v v' => R (dep - S k) (ch (S k)) (fst v) (fst v') /\ RI (dep - S k) (ch (S k)) (snd v) (snd v'))).
      { replace (dep - k)%nat with (S (dep - S k)) in HY |- * by lia. apply move_pool_ind; [lia|lia|rewrite Hne; discriminate|exact HY]. }
      intros [z i] [z' i'] [HZ HI]. cbn [fst snd] in HZ, HI. apply run2_ret. split; [exact HZ|]. cbn [snd]. intros j Hj. rewrite !dfind_put. destruct (Nat.eq_dec j k) as [->|N].
      - rewrite Z.eqb_refl. apply run2_ret. exact HI.
      - replace (Z.of_nat (dep - j) =? Z.of_nat (dep - k)) with false by (symmetry; apply Z.eqb_neq; lia). apply HMx. lia.
    Qed.
    Lemma R_seg_up m m' k x x' : RM stages m m' -> (k < stages)%nat -> R (dep - stages + k) (nth k chs2 O) x x' ->
      run2 (R (dep - stages + S k) (nth (S k) chs2 O)) (segnet_up P chs2 ne o (Z.of_nat (dep - stages)) m x (Z.of_nat k)) (segnet_up P chs2 ne o' (Z.of_nat (dep - stages)) m' x' (Z.of_nat k)).
    Proof.
      intros HMx Hk HX. pose proof (seg_len2 stages o dep sdep Hst) as Hl. unfold segnet_up.
      rewrite (tget_len _ k O) by lia. cbn [bind]. replace (Z.of_nat k + 1) with (Z.of_nat (S k)) by lia. rewrite (tget_len _ (S k) O) by lia. cbn [bind].
      replace (Z.of_nat (dep - stages) + Z.of_nat k + 1) with (Z.of_nat (dep - (stages - S k))) by lia.
      eapply run2_bind; [apply (HMx (stages - S k)%nat); lia|]. intros i i' HI.
      replace (dep - S (stages - S k))%nat with (dep - stages + k)%nat in HI by lia. replace (S (stages - S k)) with (stages - k)%nat in HI by lia. rewrite <- (seg_rev cin stages o dep sdep Hst k Hk) in HI.
      replace (Z.of_nat (dep - stages) + Z.of_nat k) with (Z.of_nat (dep - stages + k)) by lia. unfold at_depth.
      replace (Z.of_nat (dep - stages + k) <? 0) with false by (symmetry; apply Z.ltb_ge; lia). rewrite Nat2Z.id.
      eapply run2_bind; [apply (move_unpool (dep - stages + k) (nth k chs2 O) x x' i i'); [lia|lia|exact HX|exact HI]|]. intros y y' HY.
      replace (dep - (stages - S k))%nat with (S (dep - stages + k)) by lia. replace (dep - stages + S k)%nat with (S (dep - stages + k)) by lia.
      apply (conv_br _ (nth k chs2 O) (nth (S k) chs2 O) [3%nat] 1 (S (dep - stages + k))); [auto|auto|lia|rewrite up1; lia|rewrite up1; lia|lia| |exact HY].
      apply chan_le. apply (seg2_ok cin stages o dep sdep Hst Hcin).
    Qed.
    Hypothesis HRI : forall b c, renum b = renum c -> b = c.
    Lemma G_segnet_to tau lin x x' pts pts' : (mr <= length pts)%nat -> R dep cin x x' -> permutes tau (length pts) -> reordered tau (moved_points_to renum e t pts) pts' ->
      Forall (askable lin dep) pts -> Forall (askable lin dep) pts' ->
      exists y q y' q', SegNet P cin cout stages lin ne x o (Z.of_nat dep) pts = Ok (y, q) /\ SegNet P cin cout stages lin ne x' o' (Z.of_nat dep) pts' = Ok (y', q') /\ shape (length pts) cout y /\ reordered tau y y'.
    Proof.
      intros Hpts HX HTP HTR HA HA'. pose proof (seg_len cin stages) as Hl. pose proof (seg_len2 stages o dep sdep Hst) as Hl2. pose proof (stage_len 8 stages) as Hl3. unfold SegNet. cbv zeta.
      assert (ENC : run2 (RS stages) (foldM (segnet_down P chs ne o (Z.of_nat dep)) (x, []) (arange stages)) (foldM (segnet_down P chs ne o' (Z.of_nat dep)) (x', []) (arange stages))).
      { apply (run2_fold e ne lo Hlo RS); [split; [cbn [fst]; rewrite Nat.sub_0_r; exact HX|intros j Hj; lia]|]. intros k v v' Hk HV. apply R_seg_down; assumption. }
      destruct ENC as ([y m] & [y' m'] & E1 & E1' & HY & HMx). cbn [fst snd] in HY, HMx. rewrite E1, E1'. cbn [bind].
      change (-1) with (- Z.of_nat 1). rewrite (tget_neg chs 1 O) by lia. rewrite Hl. replace (S stages - 1)%nat with stages by lia. cbn [bind].
      replace (Z.of_nat dep - Z.of_nat stages) with (Z.of_nat (dep - stages)) by lia.
      assert (B : run2 (R (dep - stages) (ch stages)) (conv_bn_relu P [("bottleneck"%string, 0)] (ch stages) (ch stages) [3%nat] 1 false y o (Z.of_nat (dep - stages)))
        (conv_bn_relu P [("bottleneck"%string, 0)] (ch stages) (ch stages) [3%nat] 1 false y' o' (Z.of_nat (dep - stages)))).
      { replace false with ne by exact Hne. apply (conv_br _ (ch stages) (ch stages) [3%nat] 1 (dep - stages)%nat); [auto|auto|lia|rewrite up1; lia|rewrite up1; lia|lia|apply chan_le, cons_stage_ok; [lia|exact Hcin]|exact HY]. }
      destruct B as (z & z' & E2 & E2' & HZ). rewrite E2, E2'. cbn [bind].
      change (tget st 0) with (tget st (Z.of_nat 0)). rewrite (tget_len st 0 O) by lia. cbn [bind].
      assert (DEC : run2 (R (dep - stages + stages) (nth stages chs2 O)) (foldM (segnet_up P chs2 ne o (Z.of_nat (dep - stages)) m) z (arange stages)) (foldM (segnet_up P chs2 ne o' (Z.of_nat (dep - stages)) m') z' (arange stages))).
      { apply (run2_fold e ne lo Hlo (fun k => R (dep - stages + k) (nth k chs2 O))).
        - rewrite Nat.add_0_r, (seg_rev cin stages o dep sdep Hst 0) by lia. rewrite Nat.sub_0_r. exact HZ.
        - intros k v v' Hk HV. apply R_seg_up; assumption. }
      destruct DEC as (u & u' & E3 & E3' & HU). rewrite E3, E3'. cbn [bind]. rewrite (tget_neg chs2 1 O) by lia. rewrite Hl2. replace (S stages - 1)%nat with stages by lia. cbn [bind].
      replace (dep - stages + stages)%nat with dep in HU by lia.
      destruct (move_interp_to e t o o' ne lo Hlo HM HRI HO HW HW' tau lin (nth stages chs2 O) dep u u' pts pts' ltac:(lia) HU HTP HTR HA HA') as (f & q & f' & q' & E4 & E4' & Sf & Sf' & Hf). rewrite E4, E4'. cbn [bind].
      destruct (head_reordered mr P [("header"%string, 0)] (nth stages chs2 O) 64 cout (length pts) tau f f' HP Hpts HTP Sf Sf' Hf) as (l & l' & El & El' & Sl & Hl'). rewrite El, El'. cbn [bind]. exists l, q, l', q'. auto.
    Qed.
  End SegNet.
End Hr.
