(** Moving a shape: pooling and the classification network. *)
From Coq Require Import String List ZArith Bool QArith Qcanon Lia Permutation.
From Verif Require Import Res Tensor Key Num NumFacts Points Octree NnBasic NnConv NnInterp Features Net Spec SpecGeo SpecNeigh SpecNN SpecNet SpecBatch SpecMove
  WF SumFacts NnFacts ConvOct Deconv PoolFacts GlobalPool VoxelThm NetFacts NetLoops NetPool NetSeg NetBatch MoveFacts.
Import ListNotations.
Open Scope Z_scope.

Lemma finite_rows_entry n C (out : list (list (option Qc))) y : shape n C out -> finite_rows out = Ok y ->
  forall i c, (i < n)%nat -> (c < C)%nat -> entry2 None out i c = Some (at2 y i c).
Proof.
  intros [<- H2]. revert y. unfold finite_rows. induction out as [|r out IH]; intros y E i c Hi Hc; [cbn in Hi; lia|]. inversion H2 as [|? ? Hr Ho]; subst.
  cbn [mapM] in E. destruct (mapM _ r) as [z|] eqn:Er; [|discriminate]. cbn [bind] in E. destruct (mapM _ out) as [zs|] eqn:Eo; [|discriminate]. cbn [bind] in E. injection E as <-.
  destruct i as [|i].
  - unfold entry2, at2. cbn [nth]. clear -Er Hc. revert z c Er Hc. induction r as [|v r IH]; intros z c Er Hc; [cbn in Hc; lia|].
    cbn [mapM] in Er. destruct v as [q|]; [|discriminate]. cbn [bind] in Er. destruct (mapM _ r) as [z'|] eqn:E'; [|discriminate]. cbn [bind] in Er. injection Er as <-.
    destruct c as [|c]; [reflexivity|]. cbn [nth]. apply IH; [reflexivity|cbn in Hc; lia].
  - apply (IH Ho zs eq_refl i c); [cbn in Hi; lia|exact Hc].
Qed.

Lemma combine_map_l {A B C} (f : A -> B) (l : list A) (m : list C) : combine (map f l) m = map (fun p => (f (fst p), snd p)) (combine l m).
Proof. revert m; induction l as [|a l IH]; intros [|c m]; cbn [map combine]; try reflexivity. rewrite IH. reflexivity. Qed.
Lemma filter_perm {A} (f : A -> bool) l l' : Permutation l l' -> Permutation (filter f l) (filter f l').
Proof.
  induction 1; cbn [filter]; [constructor|destruct (f x); [constructor|]; assumption| |eapply perm_trans; eassumption].
  destruct (f x), (f y); try apply Permutation_refl. apply perm_swap.
Qed.
Lemma vadd_comm3 (x : vec) : forall y z, vadd x (vadd y z) = vadd y (vadd x z).
Proof. induction x as [|a x IH]; intros [|b y] [|c z]; cbn [vadd]; try reflexivity. f_equal; [ring|apply IH]. Qed.
Lemma sumv_perm C l l' : Permutation l l' -> sumv C l = sumv C l'.
Proof. unfold sumv. induction 1; cbn [fold_right]; [reflexivity|congruence|apply vadd_comm3|congruence]. Qed.

(** The parameters apart from the dropout masks. *)
Record kernels_turned (turn : Z * Z * Z -> Z * Z * Z) (P P' : params) : Prop := {
  kt_conv : forall p, is_conv3 p -> forall k v, nth_error (box "333") k = Some v ->
    exists k', nth_error (box "333") k' = Some (turn v) /\ forall c o, p_weight P' p k' c o = p_weight P p k c o;
  kt_rest : forall p, ~ is_conv3 p -> forall k c o, p_weight P' p k c o = p_weight P p k c o;
  kt_bias : forall p c, p_bias P' p c = p_bias P p c;
  kt_norm : forall p C x, p_norm P' p C x = p_norm P p C x
}.
Lemma turned_kernels turn P P' : params_turned turn P P' -> kernels_turned turn P P'.
Proof. intros [H1 H2 H3 H4 _]. constructor; assumption. Qed.

Lemma reordered_map {A B} sigma (f : A -> B) l l' : reordered sigma l l' -> reordered sigma (map f l) (map f l').
Proof. intros [L H]. split; [rewrite !map_length; exact L|]. intros i Hi. rewrite map_length in Hi. rewrite !nth_error_map, (H i Hi). reflexivity. Qed.
Lemma reordered_perm {A} sigma (l l' : list A) : permutes sigma (length l) -> reordered sigma l l' -> Permutation l l'.
Proof.
  intros [S1 S2] [L H]. apply Permutation_sym, Permutation_nth_error. split; [exact (eq_sym L) || exact L|].
  exists (fun i => if Nat.ltb i (length l) then sigma i else i). split.
  - intros i j. destruct (Nat.ltb_spec i (length l)) as [Hi|Hi], (Nat.ltb_spec j (length l)) as [Hj|Hj]; intros E.
    + apply S2; assumption.
    + pose proof (S1 i Hi). lia.
    + pose proof (S1 j Hj). lia.
    + exact E.
  - intros i. destruct (Nat.ltb_spec i (length l)) as [Hi|Hi]; [first [apply H, Hi|symmetry; apply H, Hi]|]. rewrite !(proj2 (nth_error_None _ _)) by lia. reflexivity.
Qed.
Lemma all_rows {A} (l m : list A) : (forall i, nth_error l i = nth_error m i) -> l = m.
Proof.
  revert m. induction l as [|a l IH]; intros [|b m] H; [reflexivity|discriminate (H O)|discriminate (H O)|]. pose proof (H O) as H0. cbn in H0. injection H0 as ->. f_equal.
  apply IH. intros i. apply (H (S i)).
Qed.
Lemma reordered_id {A} (l l' : list A) : reordered (fun i => i) l l' -> l' = l.
Proof.
  intros [L H]. apply all_rows. intros i. destruct (Nat.ltb_spec i (length l)) as [Hi|Hi]; [apply H, Hi|]. rewrite !(proj2 (nth_error_None _ _)) by lia. reflexivity.
Qed.
Lemma permutes_id n : permutes (fun i => i) n.
Proof. split; auto. Qed.

Section MoveNet.
  Variables (e : nat) (s : nat -> Z * Z * Z * Z -> Z * Z * Z * Z) (turn : Z * Z * Z -> Z * Z * Z) (o o' : octree).
  Variables (ne : bool) (lo : nat).
  Hypothesis Hlo : (e <= lo)%nat /\ (ne = false -> (S e <= lo)%nat).
  Context {renum : Z -> Z}.
  Hypothesis HM : motion_to renum e s turn.
  Hypothesis HO : moved e s o o'.
  Hypothesis HW : wf_octree o.
  Hypothesis HW' : wf_octree o'.

  Definition R (d C : nat) (x x' : feat) : Prop := shape (node_count o d ne) C x /\ shape (node_count o' d ne) C x' /\ carried ne s o o' d x x'.
  Definition run2 {A B} (Q : A -> B -> Prop) (a : res A) (b : res B) : Prop := exists y y', a = Ok y /\ b = Ok y' /\ Q y y'.
  Lemma run2_bind {A B A' B'} (Q : A -> B -> Prop) (Q' : A' -> B' -> Prop) a b f g : run2 Q a b -> (forall y y', Q y y' -> run2 Q' (f y) (g y')) -> run2 Q' (bind a f) (bind b g).
  Proof. intros (y & y' & -> & -> & H) HF. cbn [bind]. apply HF. exact H. Qed.
  Lemma run2_ret {A B} (Q : A -> B -> Prop) y y' : Q y y' -> run2 Q (Ok y) (Ok y').
  Proof. intros H. exists y, y'. auto. Qed.
  Lemma run2_fold {S} (I : nat -> S -> S -> Prop) (f g : S -> Z -> res S) m x x' : I O x x' ->
    (forall k x x', (k < m)%nat -> I k x x' -> run2 (I (Datatypes.S k)) (f x (Z.of_nat k)) (g x' (Z.of_nat k))) ->
    run2 (I m) (foldM f x (arange m)) (foldM g x' (arange m)).
  Proof.
    intros H0 H. induction m as [|m IH]; [apply (run2_ret (I O)); exact H0|]. rewrite arange_S, !foldM_app.
    destruct (IH ltac:(intros k y y' Hk; apply H; lia)) as (y & y' & -> & -> & Hy). cbn [bind foldM].
    destruct (H m y y' ltac:(lia) Hy) as (z & z' & -> & -> & Hz). cbn [bind]. apply run2_ret. exact Hz.
  Qed.

  Lemma R_map d C C' f x x' : (forall r, length r = C -> length (f r) = C') -> R d C x x' -> R d C' (map f x) (map f x').
  Proof.
    intros Hf ([L1 F1] & [L2 F2] & Hc). repeat split; try (rewrite map_length; assumption); try (apply Forall_map; eapply Forall_impl; [|eassumption]; intros r; apply Hf).
    intros cs cs' i j q E1 E2 Hi Hj. rewrite !nth_error_map. rewrite (Hc cs cs' i j q E1 E2 Hi Hj). reflexivity.
  Qed.
  Lemma R_relu d C x x' : R d C x x' -> R d C (relu x) (relu x').
  Proof. apply R_map. intros r. rewrite map_length. auto. Qed.
  Lemma R_add d C x x' y y' : R d C x x' -> R d C y y' -> run2 (R d C) (add_feat x y) (add_feat x' y').
  Proof.
    intros ([A1 A2] & [B1 B2] & Hx) ([C1 C2] & [D1 D2] & Hy). exists (zip_with vadd x y), (zip_with vadd x' y').
    split; [apply (add_feat_ok _ _ C); [congruence|assumption..]|]. split; [apply (add_feat_ok _ _ C); [congruence|assumption..]|].
    assert (Sh : forall n a b, length a = n -> length b = n -> Forall (fun r => length r = C) a -> Forall (fun r => length r = C) b -> shape n C (zip_with vadd a b)).
    { intros n a b E1 E2 F1 F2. unfold zip_with. split; [rewrite map_length, combine_length; lia|]. apply Forall_map, Forall_forall. intros [u v] Hi. rewrite Forall_forall in F1, F2.
      pose proof (F1 u (in_combine_l _ _ _ _ Hi)) as Hu. pose proof (F2 v (in_combine_r _ _ _ _ Hi)) as Hv. change (length (vadd u v) = C). rewrite vadd_len; [exact Hu|]. transitivity C; [exact Hu|symmetry; exact Hv]. }
    split; [apply Sh; assumption|]. split; [apply Sh; assumption|].
    intros cs cs' i j q E1 E2 Hi Hj. unfold zip_with. rewrite !nth_error_map, !nth_error_combine. rewrite (Hx cs cs' i j q E1 E2 Hi Hj), (Hy cs cs' i j q E1 E2 Hi Hj). reflexivity.
  Qed.

  Lemma branch' d : (lo <= d)%nat -> (S d <= depth o)%nat -> (ne = true -> branching o d) -> ne = true -> branching o' d.
  Proof.
    intros He Hd HB Hne qs' cs' q' Eq' Ec' Hq'. specialize (HB Hne). pose proof (proj1 Hlo) as Hel.
    destruct (cells e s turn o o' ne lo Hlo HM HO HW HW' d ltac:(lia)) as (qs & qs1 & E1 & E2 & _ & _ & _ & _ & Hc). rewrite Hne in E1, E2. rewrite Eq' in E2. injection E2 as <-.
    destruct (cells e s turn o o' ne lo Hlo HM HO HW HW' (S d) ltac:(lia)) as (cs & cs1 & E3 & E4 & _ & _ & _ & _ & Hc2). rewrite Hne in E3, E4. rewrite Ec' in E4. injection E4 as <-.
    destruct (mo_onto _ _ _ _ HM d q' ltac:(lia)) as (q & <-). apply Hc in Hq'. destruct (HB qs cs q E1 E3 Hq') as (c & Hcc & <-).
    exists (s (S d) c). split; [apply Hc2; exact Hcc|]. apply (mo_parent _ _ _ _ HM). lia.
  Qed.

  Lemma move_pool d C x x' : (lo <= d)%nat -> (S d <= depth o)%nat -> (ne = true -> branching o d) -> R (S d) C x x' ->
    run2 (R d C) (max_pool C ne x o (Z.of_nat (S d))) (max_pool C ne x' o' (Z.of_nat (S d))).
  Proof.
    intros Hl0 Hd Hb (Hx & Hx' & Hc). pose proof (proj1 HO) as D. assert (He : (e <= d)%nat) by (pose proof (proj1 Hlo); lia).
    destruct (max_pool_ok o ne C d x HW Hd Hb Hx) as (y & idx & E & Hy & _).
    destruct (max_pool_ok o' ne C d x' HW' ltac:(lia) (branch' d Hl0 Hd Hb) Hx') as (y' & idx' & E' & Hy' & _).
    exists y, y'. split; [unfold max_pool; rewrite E; reflexivity|]. split; [unfold max_pool; rewrite E'; reflexivity|]. split; [exact Hy|]. split; [exact Hy'|].
    destruct (thm_max_pool o d ne C x HW Hd Hx) as (ts & qs & cs & out & id1 & Et & Eq & Ec & Em & Hout & _ & HMx).
    destruct (thm_max_pool o' d ne C x' HW' ltac:(lia) Hx') as (ts' & qs' & cs' & out' & id1' & Et' & Eq' & Ec' & Em' & Hout' & _ & HMx').
    assert (F : finite_rows out = Ok y).
    { unfold max_pool_ind, at_depth in E. replace (Z.of_nat (S d) <? 0) with false in E by (symmetry; apply Z.ltb_ge; lia). rewrite Nat2Z.id, Em in E. cbn [bind] in E.
      destruct (finite_rows out); [|discriminate]. cbn [bind] in E. congruence. }
    assert (F' : finite_rows out' = Ok y').
    { unfold max_pool_ind, at_depth in E'. replace (Z.of_nat (S d) <? 0) with false in E' by (symmetry; apply Z.ltb_ge; lia). rewrite Nat2Z.id, Em' in E'. cbn [bind] in E'.
      destruct (finite_rows out'); [|discriminate]. cbn [bind] in E'. congruence. }
    intros a a' i j q A A' Hi Hj. rewrite Eq in A. injection A as <-. rewrite Eq' in A'. injection A' as <-.
    destruct (cells e s turn o o' ne lo Hlo HM HO HW HW' d ltac:(lia)) as (k1 & k2 & E1 & E2 & L1 & L2 & _). rewrite Eq in E1. injection E1 as <-. rewrite Eq' in E2. injection E2 as <-.
    destruct (cells e s turn o o' ne lo Hlo HM HO HW HW' (S d) ltac:(lia)) as (k1 & k2 & E1 & E2 & M1 & M2 & N1 & N2 & Hq). rewrite Ec in E1. injection E1 as <-. rewrite Ec' in E2. injection E2 as <-.
    assert (Ht : In (s d q) ts' <-> In q ts) by (apply (proj2 (proj2 HO) d ts ts'); [lia|assumption..]).
    assert (Li : (i < length qs)%nat) by (apply nth_error_Some; congruence). assert (Lj : (j < length qs')%nat) by (apply nth_error_Some; congruence).
    rewrite (nth_error_nth' y []) by (rewrite (proj1 Hy), <- L1; exact Li). rewrite (nth_error_nth' y' []) by (rewrite (proj1 Hy'), <- L2; exact Lj). f_equal.
    apply nth_ext with 0%Qc 0%Qc; [rewrite (shape_nth _ _ _ _ Hy) by lia; rewrite (shape_nth _ _ _ _ Hy') by lia; reflexivity|].
    intros c Hcc. rewrite (shape_nth _ _ _ _ Hy) in Hcc by lia. change (at2 y i c = at2 y' j c).
    destruct (in_dec cell_dec q ts) as [Hin|Hn].
    2: { destruct (HMx i q Hi) as [_ G]. specialize (G Hn c Hcc). rewrite (finite_rows_entry _ _ _ _ Hout F i c Li Hcc) in G.
      destruct (HMx' j (s d q) Hj) as [_ G']. specialize (G' ltac:(intros Hx0; apply Hn, Ht, Hx0) c Hcc). rewrite (finite_rows_entry _ _ _ _ Hout' F' j c Lj Hcc) in G'. congruence. }
    pose proof (proj2 Ht Hin) as Hin'. apply In_nth_error in Hin as (ri & Hri). apply In_nth_error in Hin' as (rj & Hrj).
    destruct (HMx i q Hi) as [G _]. specialize (G ri c Hri Hcc). rewrite (finite_rows_entry _ _ _ _ Hout F i c Li Hcc) in G.
    destruct (HMx' j (s d q) Hj) as [G' _]. specialize (G' rj c Hrj Hcc). rewrite (finite_rows_entry _ _ _ _ Hout' F' j c Lj Hcc) in G'.
    destruct G as [(u & qu & U1 & U2 & _ & U3) U4]. destruct G' as [(v & qv & V1 & V2 & _ & V3) V4].
    apply Qcle_antisym.
    - rewrite <- U3. assert (Hin : In (s (S d) qu) cs') by (apply Hq; eapply nth_error_In; exact U1). apply In_nth_error in Hin as (w & Hw).
      destruct (V4 w (s (S d) qu) Hw) as [V5 _]; [rewrite (mo_parent _ _ _ _ HM) by exact He; congruence|].
      unfold at2 in V5 |- *. rewrite (nth_error_nth_eq x x' u w); [exact V5|]. apply (Hc cs cs' u w qu Ec Ec' U1 Hw).
    - rewrite <- V3. destruct (mo_onto _ _ _ _ HM (S d) qv ltac:(lia)) as (r & Er). subst qv. assert (Hin : In r cs) by (apply Hq; eapply nth_error_In; exact V1).
      apply In_nth_error in Hin as (w & Hw). rewrite (mo_parent _ _ _ _ HM) in V2 by exact He. apply (mo_inj _ _ _ _ HM) in V2; [|exact He].
      destruct (U4 w r Hw V2) as [U5 _]. unfold at2 in U5 |- *. rewrite <- (nth_error_nth_eq x x' w v); [exact U5|]. apply (Hc cs cs' w v r Ec Ec' Hw V1).
  Qed.

  Lemma map_snd_combine {A B} (l : list A) (m : list B) : length l = length m -> map snd (combine l m) = m.
  Proof. revert m. induction l as [|a l IH]; intros [|b m] H; try discriminate; [reflexivity|]. cbn [combine map snd]. f_equal. apply IH. cbn in H. congruence. Qed.
  Lemma cells_perm d C x x' cs cs' : (lo <= d <= depth o)%nat -> R d C x x' -> octree_xyzb o d ne = Ok cs -> octree_xyzb o' d ne = Ok cs' ->
    Permutation (combine (map (s d) cs) x) (combine cs' x').
  Proof.
    intros Hd (Hx & Hx' & Hc) Ec Ec'. destruct (cells e s turn o o' ne lo Hlo HM HO HW HW' d Hd) as (k1 & k2 & E1 & E2 & L1 & L2 & N1 & N2 & Hq). rewrite Ec in E1. injection E1 as <-. rewrite Ec' in E2. injection E2 as <-.
    apply NoDup_Permutation_bis.
    - apply nd_combine, nd_map_in; [|exact N1]. intros a b _ _. apply (mo_inj _ _ _ _ HM). lia.
    - rewrite !combine_length, map_length. rewrite (proj1 Hx), (proj1 Hx'), L1, L2. rewrite (count_eq e s turn o o' ne lo Hlo HM HO HW HW' d Hd). lia.
    - intros [q r] Hi. apply In_nth_error in Hi as (i & Hi). rewrite nth_error_combine, nth_error_map in Hi. destruct (nth_error cs i) as [q0|] eqn:E0; [|discriminate]. cbn [option_map] in Hi.
      destruct (nth_error x i) as [r0|] eqn:E1; [|discriminate]. injection Hi as <- <-.
      assert (Hin : In (s d q0) cs') by (apply Hq; eapply nth_error_In; exact E0). apply In_nth_error in Hin as (j & Hj).
      pose proof (Hc cs cs' i j q0 Ec Ec' E0 Hj) as Hr. rewrite E1 in Hr. apply nth_error_In with j. rewrite nth_error_combine, Hj, <- Hr. reflexivity.
  Qed.
  Section Order.
  Variable sigma : nat -> nat.
  Hypothesis HS : permutes sigma (batch_size o).
  Hypothesis HSR : forall i, (i < batch_size o)%nat -> renum (Z.of_nat i) = Z.of_nat (sigma i).
  Hypothesis HRI : forall b c, renum b = renum c -> b = c.
  Lemma move_global_to d C x x' : (lo <= d <= depth o)%nat -> R d C x x' -> run2 (reordered sigma) (octree_global_pool C x o d ne) (octree_global_pool C x' o' d ne).
  Proof.
    intros Hd HR. pose proof HR as (Hx & Hx' & _). pose proof HO as (D & B & _).
    destruct (thm_global_pool o d ne C x HW ltac:(lia) Hx) as (cs & y & Ec & Ey & Ly & Hy).
    destruct (thm_global_pool o' d ne C x' HW' ltac:(lia) Hx') as (cs' & y' & Ec' & Ey' & Ly' & Hy').
    exists y, y'. split; [exact Ey|]. split; [exact Ey'|]. rewrite B in Ly'. split; [congruence|]. intros b Hb. rewrite Ly in Hb.
    pose proof (nth_error_nth' y' [] (n:=sigma b) ltac:(rewrite Ly'; apply (proj1 HS), Hb)) as N'. pose proof (nth_error_nth' y [] ltac:(rewrite Ly; exact Hb)) as N. rewrite N, N'. f_equal.
    pose proof (cells_perm d C x x' cs cs' Hd HR Ec Ec') as Pm.
    assert (Pr : Permutation (rows_at (samples cs) (Z.of_nat b) x) (rows_at (samples cs') (Z.of_nat (sigma b)) x')).
    { set (g := fun (k : Z) (p : (Z * Z * Z * Z) * vec) => sample_of (fst p) =? k).
      assert (G : forall k cc (xx : feat), rows_at (samples cc) k xx = map snd (filter (g k) (combine cc xx))).
      { intros k cc xx. unfold rows_at, samples, g. rewrite combine_map_l. generalize (combine cc xx) as l. induction l as [|[[[[a1 a2] a3] a4] r] l IH]; [reflexivity|].
        cbn [map filter fst snd sample_of]. destruct (a4 =? k); cbn [map snd]; rewrite IH; reflexivity. }
      rewrite !G. apply Permutation_trans with (map snd (filter (g (Z.of_nat (sigma b))) (combine (map (s d) cs) x))); [|apply Permutation_map, filter_perm; exact Pm].
      rewrite combine_map_l. generalize (combine cs x) as l. induction l as [|[q r] l IH]; [constructor|]. cbn [map filter fst snd].
      replace (g (Z.of_nat (sigma b)) (s d q, r)) with (g (Z.of_nat b) (q, r)).
      { destruct (g (Z.of_nat b) (q, r)); cbn [map snd]; [constructor|]; exact IH. }
      unfold g. cbn [fst]. rewrite (mo_sample _ _ _ _ HM), <- (HSR b Hb) by lia.
      destruct (Z.eqb_spec (sample_of q) (Z.of_nat b)) as [->|Nq]; [symmetry; apply Z.eqb_refl|]. symmetry. apply Z.eqb_neq. intros E. apply Nq, HRI, E. }
    specialize (Hy b _ N). specialize (Hy' (sigma b) _ N'). cbn zeta in Hy, Hy'. destruct Hy as [Y0 Y1], Hy' as [Y0' Y1'].
    destruct (rows_at (samples cs) (Z.of_nat b) x) as [|r0 rs] eqn:Er.
    - rewrite Y0 by reflexivity. apply Y0'. apply Permutation_nil. exact Pr.
    - rewrite Y1 by discriminate. rewrite Y1'.
      + unfold meanv. rewrite (sumv_perm C _ _ Pr), (Permutation_length Pr). reflexivity.
      + intros E0. rewrite E0 in Pr. apply Permutation_sym, Permutation_nil in Pr. discriminate.
  Qed.
  End Order.

  Section Params.
  Variables P P' : params.
  Variable mr : nat.
  Hypothesis HP : fair_norms mr P.
  Hypothesis HPT : kernels_turned turn P P'.
  Definition okd (d : nat) : Prop := (lo <= d <= depth o)%nat /\ (mr <= node_count o d ne)%nat.
  Lemma R_norm p d C x x' : okd d -> R d C x x' -> run2 (R d C) (p_norm P p C x) (p_norm P' p C x').
  Proof.
    intros [Hd Hk] HR. pose proof HR as ([L1 F1] & [L2 F2] & Hc). destruct (HP p C) as (f & Hsame & Hf).
    destruct (cells e s turn o o' ne lo Hlo HM HO HW HW' d Hd) as (cs & cs' & E1 & E2 & K1 & K2 & _).
    assert (Px : Permutation x x').
    { pose proof (cells_perm d C x x' cs cs' Hd HR E1 E2) as Pm. apply (Permutation_map snd) in Pm. rewrite !map_snd_combine in Pm by (rewrite ?map_length; congruence). exact Pm. }
    assert (Hk' : (mr <= length x')%nat) by (rewrite <- (Permutation_length Px), L1; exact Hk).
    destruct (Hf x ltac:(lia) F1) as [A1 A2]. destruct (Hf x' Hk' F2) as [B1 B2]. exists (map (f x) x), (map (f x') x'). rewrite (kt_norm _ _ _ HPT).
    split; [exact A1|]. split; [exact B1|]. split; [split; [rewrite map_length; exact L1|exact A2]|]. split; [split; [rewrite map_length; exact L2|exact B2]|].
    intros a a' i j q Ea Ea' Hi Hj. rewrite !nth_error_map, (Hc a a' i j q Ea Ea' Hi Hj). destruct (nth_error x' j) as [r|]; [|reflexivity]. cbn [option_map]. f_equal. apply Hsame. exact Px.
  Qed.
  Lemma nth_dropout Q p x i : nth_error (dropout Q p x) i = option_map (fun r => map (fun cv => (snd cv * p_mask Q p i (fst cv))%Qc) (combine (seq 0 (length r)) r)) (nth_error x i).
  Proof.
    unfold dropout. rewrite nth_error_map, nth_error_combine. destruct (nth_error x i) as [r|] eqn:E.
    - assert (Hi : (i < length x)%nat) by (apply nth_error_Some; congruence). rewrite (nth_error_nth' (seq 0 (length x)) O) by (rewrite seq_length; exact Hi). rewrite seq_nth by exact Hi. reflexivity.
    - destruct (nth_error (seq 0 (length x)) i); reflexivity.
  Qed.
  Lemma dropout_len Q p x : length (dropout Q p x) = length x.
  Proof. unfold dropout. rewrite map_length, combine_length, seq_length. apply Nat.min_id. Qed.
  Lemma dropout_to sigma p x x' : (forall i c, (i < length x)%nat -> p_mask P' p (sigma i) c = p_mask P p i c) -> reordered sigma x x' -> reordered sigma (dropout P p x) (dropout P' p x').
  Proof.
    intros HMk [L H]. split; [rewrite !dropout_len; exact L|]. intros i Hi. rewrite dropout_len in Hi. rewrite !nth_dropout, (H i Hi). destruct (nth_error x i) as [r|]; [|reflexivity]. cbn [option_map]. f_equal.
    apply map_ext. intros [c v]. cbn [fst snd]. rewrite HMk by exact Hi. reflexivity.
  Qed.
  Lemma linear_map' p ci co ub : ~ is_conv3 p -> exists f, (forall r, length r = ci -> length (f r) = co) /\
    forall x, Forall (fun r => length r = ci) x -> linear P p ci co ub x = Ok (map f x) /\ linear P' p ci co ub x = Ok (map f x).
  Proof.
    intros Hp. set (B := transpose ci (tensor2 co ci (p_weight P p 0%nat))). assert (HBl : length B = ci) by apply transpose_len.
    assert (HB : transpose ci (tensor2 co ci (p_weight P' p 0%nat)) = B).
    { unfold B. f_equal. unfold tensor2, tensor1. apply map_ext. intros i. apply map_ext. intros c. apply (kt_rest _ _ _ HPT). exact Hp. }
    assert (HC : tensor1 co (p_bias P' p) = tensor1 co (p_bias P p)) by (unfold tensor1; apply map_ext; intros c; apply (kt_bias _ _ _ HPT)).
    exists (fun r => match (if ub then Some (tensor1 co (p_bias P p)) else None) with None => vecmat co r B | Some b => vadd (vecmat co r B) b end). split.
    - intros r Hr. destruct ub.
      + rewrite vadd_len; unfold vecmat; rewrite map_length, seq_length; [reflexivity|]. symmetry. apply tensor1_len.
      + unfold vecmat. rewrite map_length, seq_length. reflexivity.
    - intros x Hx. unfold linear. rewrite HB, HC. fold B. rewrite (mm_ok co x B ci Hx HBl). cbn [bind]. unfold add_bias. destruct ub; [rewrite map_map|]; split; reflexivity.
  Qed.
  Lemma R_linear p d ci co ub x x' : ~ is_conv3 p -> R d ci x x' -> run2 (R d co) (linear P p ci co ub x) (linear P' p ci co ub x').
  Proof.
    intros Hp HR. destruct (linear_map' p ci co ub Hp) as (f & Hl & Hf). exists (map f x), (map f x').
    split; [apply Hf; apply HR|]. split; [apply Hf; apply HR|]. apply (R_map d ci co f); assumption.
  Qed.
  Lemma R_conv1x1_bn p d ci co x x' : ~ is_conv3 p -> okd d -> R d ci x x' -> run2 (R d co) (conv1x1_bn P p ci co x) (conv1x1_bn P' p ci co x').
  Proof. intros Hp Hok HR. eapply run2_bind; [apply R_linear; eassumption|]. intros y y' H. apply R_norm; assumption. Qed.
  Lemma R_conv1x1_bn_relu p d ci co x x' : ~ is_conv3 p -> okd d -> R d ci x x' -> run2 (R d co) (conv1x1_bn_relu P p ci co x) (conv1x1_bn_relu P' p ci co x').
  Proof. intros Hp Hok HR. eapply run2_bind; [apply R_linear; eassumption|]. intros y y' H. eapply run2_bind; [apply R_norm; [exact Hok|exact H]|]. intros z z' Hz. apply run2_ret, R_relu, Hz. Qed.
  Lemma turned333 p ci co : is_conv3 p -> turned turn "333" (tensor3 (length (box "333")) ci co (p_weight P p)) (tensor3 (length (box "333")) ci co (p_weight P' p)).
  Proof.
    intros Hp k v Hk. destruct (kt_conv _ _ _ HPT p Hp k v Hk) as (k' & Hk' & Hw). exists k'. split; [exact Hk'|].
    unfold tensor3. rewrite !nth_error_map. assert (L1 : (k < length (box "333"))%nat) by (apply nth_error_Some; congruence). assert (L2 : (k' < length (box "333"))%nat) by (apply nth_error_Some; congruence).
    rewrite !(nth_error_nth' (seq 0 _) O) by (rewrite seq_length; assumption). rewrite !seq_nth by assumption. cbn [Nat.add]. cbn [option_map]. f_equal. unfold tensor2, tensor1. apply map_ext. intros i. apply map_ext. intros c. apply Hw.
  Qed.
  Lemma R_conv p d ci co x x' : is_conv3 p -> (lo <= d)%nat -> conv_ready o d "333" 1 -> conv_ready o' d "333" 1 -> Z.of_nat ci <= 5000000 -> R d ci x x' ->
    run2 (R d co) (conv P p ci co [3%nat] 1 ne x o (Z.of_nat d)) (conv P' p ci co [3%nat] 1 ne x' o' (Z.of_nat d)).
  Proof.
    intros Hp He Q Q' Hc (Hx & Hx' & Hcar).
    assert (G : forall PP z oo, conv PP p ci co [3%nat] 1 ne z oo (Z.of_nat d) = OctreeConv (mkCfg ci co [3%nat] 1 ne 200000000 true) false (tensor3 (length (box "333")) ci co (p_weight PP p)) None z oo d).
    { intros PP z oo. unfold conv. replace (conv_init _) with (Ok (mkDims "333" (length (box "333")) ci co)) by reflexivity. cbn [bind m_kdim m_inconv m_outconv]. unfold at_depth.
      replace (Z.of_nat d <? 0) with false by (symmetry; apply Z.ltb_ge; lia). rewrite Nat2Z.id. reflexivity. }
    rewrite !G. destruct (move_conv e s turn o o' ne lo Hlo HM HO HW HW' d [3%nat] "333" ci co 200000000 x x' _ _ None He Q Q' ltac:(cbn; tauto) Hx Hx' Hcar
      (tensor3_shape _ _ _ (p_weight P p)) (tensor3_shape _ _ _ (p_weight P' p)) (turned333 p ci co Hp) I) as (y & y' & A & B & C & D & E).
    { replace (length (box "333")) with 27%nat by reflexivity. lia. }
    exists y, y'. unfold R. auto.
  Qed.
  Lemma R_conv_bn_relu p d ci co x x' : is_conv3 p -> okd d -> conv_ready o d "333" 1 -> conv_ready o' d "333" 1 -> Z.of_nat ci <= 5000000 -> R d ci x x' ->
    run2 (R d co) (conv_bn_relu P p ci co [3%nat] 1 ne x o (Z.of_nat d)) (conv_bn_relu P' p ci co [3%nat] 1 ne x' o' (Z.of_nat d)).
  Proof.
    intros Hp He Q Q' Hc HR. eapply run2_bind; [apply R_conv; try eassumption; apply He|]. intros y y' H. eapply run2_bind; [apply R_norm; [exact He|exact H]|]. intros z z' Hz. apply run2_ret, R_relu, Hz.
  Qed.
  Lemma conv3_app p n : is_conv3 (p ++ [(n, 0)]) <-> In n ["conv1"; "conv3x3"]%string.
  Proof. unfold is_conv3. rewrite last_last. reflexivity. Qed.
  Ltac notconv := rewrite conv3_app; cbn; intros HN; repeat destruct HN as [HN|HN]; try discriminate; contradiction.
  Lemma R_res_block p d ci co bk x x' : okd d -> conv_ready o d "333" 1 -> conv_ready o' d "333" 1 -> bk <> O -> channel_ok co -> R d ci x x' ->
    run2 (R d co) (res_block P p ci co 1 bk ne x o (Z.of_nat d)) (res_block P' p ci co 1 bk ne x' o' (Z.of_nat d)).
  Proof.
    intros He Q Q' Hb Hc HR. unfold res_block, bottleneck_channels. rewrite (proj2 (Nat.eqb_neq bk 0) Hb). cbn [bind Z.eqb Pos.eqb].
    pose proof (Nat.div_le_upper_bound co bk co Hb ltac:(nia)) as Hcb. unfold channel_ok in Hc.
    eapply run2_bind; [apply (R_conv1x1_bn_relu _ d); [notconv|exact He|exact HR]|]. intros y1 y1' H1.
    eapply run2_bind; [apply (R_conv_bn_relu _ d _ (co / bk)); [apply conv3_app; cbn; tauto|exact He|exact Q|exact Q'|lia|exact H1]|]. intros y2 y2' H2.
    eapply run2_bind; [apply (R_conv1x1_bn _ d); [notconv|exact He|exact H2]|]. intros y3 y3' H3.
    eapply (run2_bind (R d co)).
    { destruct (Nat.eqb_spec ci co) as [->|]; [apply run2_ret; exact HR|apply (R_conv1x1_bn _ d); [notconv|exact He|exact HR]]. }
    intros y4 y4' H4. eapply run2_bind; [apply (R_add d co); [exact H3|exact H4]|]. intros y5 y5' H5. apply run2_ret, R_relu, H5.
  Qed.
  Lemma R_res_blocks p d ci co num bk x x' : okd d -> conv_ready o d "333" 1 -> conv_ready o' d "333" 1 -> bk <> O -> channel_ok co -> (num <> O) -> R d ci x x' ->
    run2 (R d co) (res_blocks P p ci co num bk ne false x o (Z.of_nat d)) (res_blocks P' p ci co num bk ne false x' o' (Z.of_nat d)).
  Proof.
    intros He Q Q' Hb Hc Hnum HR. unfold res_blocks.
    assert (G : run2 (R d (nth num (ci :: repeat co num) O)) (res_blocks P p ci co num bk ne false x o (Z.of_nat d)) (res_blocks P' p ci co num bk ne false x' o' (Z.of_nat d))).
    { unfold res_blocks. apply (run2_fold (fun k => R d (nth k (ci :: repeat co num) O))); [exact HR|]. intros k y y' Hk Hy.
      rewrite (tget_len _ k O) by (cbn [length]; rewrite repeat_length; lia). cbn [bind]. replace (Z.of_nat k + 1) with (Z.of_nat (S k)) by lia.
      rewrite (tget_len _ (S k) O) by (cbn [length]; rewrite repeat_length; lia). cbn [bind].
      replace (nth (S k) (ci :: repeat co num) O) with co by (cbn [nth]; symmetry; apply nth_repeat'; exact Hk). apply R_res_block; assumption. }
    destruct num as [|m]; [contradiction|]. cbn [nth] in G. rewrite nth_repeat' in G by lia. exact G.
  Qed.

  Lemma move_resnet_to sigma cin cout num stages dep x x' : permutes sigma (batch_size o) -> (forall i, (i < batch_size o)%nat -> renum (Z.of_nat i) = Z.of_nat (sigma i)) -> (forall b c, renum b = renum c -> b = c) ->
    (forall p i c, (i < batch_size o)%nat -> p_mask P' p (sigma i) c = p_mask P p i c) -> (stages <= dep <= depth o)%nat -> (lo <= dep - stages)%nat -> (1 <= stages)%nat -> (1 <= num)%nat -> channel_ok cin ->
    (forall d, (dep - stages < d <= dep)%nat -> (mr <= node_count o d ne)%nat) -> (mr <= batch_size o)%nat ->
    (forall d, (dep - stages < d <= dep)%nat -> conv_ready o d "333" 1 /\ conv_ready o' d "333" 1) ->
    (forall d, (dep - stages <= d < dep)%nat -> ne = true -> branching o d) -> R dep cin x x' ->
    run2 (reordered sigma) (ResNet P cin cout num stages ne x o (Z.of_nat dep)) (ResNet P' cin cout num stages ne x' o' (Z.of_nat dep)).
  Proof.
    intros HS HSR HRI HMk Hdep He Hst Hnum Hcin HK HKb HQ HBr HX. pose proof (stage_len 9 stages) as Hl. unfold channel_ok in Hcin.
    unfold ResNet. cbv zeta.
    change (tget (stage_channels 9 stages) 0) with (tget (stage_channels 9 stages) (Z.of_nat 0)). rewrite (tget_len _ 0 O) by lia. cbn [bind].
    eapply run2_bind; [apply (R_conv_bn_relu _ dep cin (nth 0 (stage_channels 9 stages) O)); [cbv; tauto|split; [lia|apply HK; lia]|apply HQ; lia|apply HQ; lia|lia|exact HX]|].
    intros y y' HY. eapply (run2_bind (R (dep - 1) (nth 0 (stage_channels 9 stages) O))).
    { replace dep with (S (dep - 1)) in HY |- * by lia. replace (S (dep - 1) - 1)%nat with (dep - 1)%nat by lia. apply move_pool; [lia|lia|apply HBr; lia|exact HY]. }
    intros u u' HU. eapply (run2_bind (R (dep - S (stages - 1)) (nth (stages - 1) (stage_channels 9 stages) O))).
    { apply (run2_fold (fun k => R (dep - S k) (nth k (stage_channels 9 stages) O))); [exact HU|].
      intros i v v' Hk HV. unfold resnet_stage. rewrite (tget_len _ i O) by lia. cbn [bind]. replace (Z.of_nat i + 1) with (Z.of_nat (S i)) by lia. rewrite (tget_len _ (S i) O) by lia. cbn [bind].
      replace (Z.of_nat dep - Z.of_nat i - 1) with (Z.of_nat (dep - S i)) by lia.
      eapply run2_bind; [apply (R_res_blocks _ (dep - S i) (nth i (stage_channels 9 stages) O) (nth (S i) (stage_channels 9 stages) O) num 4); [split; [lia|apply HK; lia]|apply HQ; lia|apply HQ; lia|lia|apply stage_ok; lia|lia|exact HV]|].
      intros a a' HA. replace (dep - S i)%nat with (S (dep - S (S i))) in HA |- * by lia. apply move_pool; [lia|lia|apply HBr; lia|exact HA]. }
    intros v v' HV. change (-1) with (- Z.of_nat 1). rewrite (tget_neg _ 1 O) by lia. cbn [bind]. rewrite Hl. replace (S (stages - 1)) with stages in HV by lia.
    replace (Z.of_nat dep - Z.of_nat stages) with (Z.of_nat (dep - stages)) by lia. unfold at_depth. replace (Z.of_nat (dep - stages) <? 0) with false by (symmetry; apply Z.ltb_ge; lia). rewrite Nat2Z.id.
    destruct (move_global_to sigma HS HSR HRI (dep - stages) _ v v' ltac:(lia) HV) as (g & g' & G1 & G2 & HG). rewrite G1, G2. cbn [bind].
    assert (Gl : shape (batch_size o) (nth (stages - 1) (stage_channels 9 stages) O) g) by (destruct (global_shape o (dep - stages)%nat ne _ v HW ltac:(lia) (proj1 HV)) as (g1 & E1 & E2); congruence).
    assert (Gl' : shape (batch_size o') (nth (stages - 1) (stage_channels 9 stages) O) g') by (destruct (global_shape o' (dep - stages)%nat ne _ v' HW' ltac:(pose proof (proj1 HO); lia) (proj1 (proj2 HV))) as (g1 & E1 & E2); congruence).
    set (C := nth (stages - 1) (stage_channels 9 stages) O) in *. pose proof (proj1 (proj2 HO)) as Bs.
    destruct (linear_map' [("header"%string, 0)] C 512 false ltac:(intros [HN0|[HN0|[]]]; discriminate HN0)) as (f & Fl & Hf). unfold fc_bn_relu. rewrite (proj1 (Hf g (proj2 Gl))), (proj2 (Hf g' (proj2 Gl'))). cbn [bind].
    destruct (HP [("header"%string, 0)] 512%nat) as (f2 & Hf2s & Hf2). rewrite (kt_norm _ _ _ HPT).
    assert (F1 : Forall (fun r => length r = 512%nat) (map f g)) by (apply Forall_map; eapply Forall_impl; [|apply (proj2 Gl)]; exact Fl).
    assert (F1' : Forall (fun r => length r = 512%nat) (map f g')) by (apply Forall_map; eapply Forall_impl; [|apply (proj2 Gl')]; exact Fl).
    destruct (Hf2 (map f g) ltac:(rewrite map_length, (proj1 Gl); exact HKb) F1) as [-> F2]. destruct (Hf2 (map f g') ltac:(rewrite map_length, (proj1 Gl'), Bs; exact HKb) F1') as [-> F2']. cbn [bind].
    assert (Q1 : reordered sigma (map (f2 (map f g)) (map f g)) (map (f2 (map f g')) (map f g'))).
    { rewrite (map_ext (f2 (map f g')) (f2 (map f g))); [apply reordered_map, reordered_map, HG|]. apply Hf2s, Permutation_sym, (reordered_perm sigma); [rewrite map_length, (proj1 Gl); exact HS|apply reordered_map, HG]. }
    set (y1 := map (f2 (map f g)) (map f g)) in *. set (y1' := map (f2 (map f g')) (map f g')) in *.
    assert (Q2 : reordered sigma (dropout P [("header"%string, 1)] (relu y1)) (dropout P' [("header"%string, 1)] (relu y1'))).
    { apply dropout_to; [|apply reordered_map, Q1]. intros i c Hi. apply HMk. unfold relu, y1 in Hi. rewrite !map_length, (proj1 Gl) in Hi. exact Hi. }
    destruct (linear_map' [("header"%string, 2)] 512 cout true ltac:(intros [HN0|[HN0|[]]]; discriminate HN0)) as (f3 & _ & Hf3).
    assert (F3 : Forall (fun r => length r = 512%nat) (dropout P [("header"%string, 1)] (relu y1))) by (apply (dropout_shape P _ (length y1)), relu_shape; split; [reflexivity|exact F2]).
    assert (F3' : Forall (fun r => length r = 512%nat) (dropout P' [("header"%string, 1)] (relu y1'))) by (apply (dropout_shape P' _ (length y1')), relu_shape; split; [reflexivity|exact F2']).
    rewrite (proj1 (Hf3 _ F3)), (proj2 (Hf3 _ F3')). apply run2_ret. apply reordered_map, Q2.
  Qed.
  End Params.
End MoveNet.

(** The samples keep their numbers. *)
Lemma move_global e s turn o o' ne lo : (e <= lo)%nat /\ (ne = false -> (S e <= lo)%nat) -> motion e s turn -> moved e s o o' -> wf_octree o -> wf_octree o' ->
  forall d C x x', (lo <= d <= depth o)%nat -> R s o o' ne d C x x' -> exists y, octree_global_pool C x o d ne = Ok y /\ octree_global_pool C x' o' d ne = Ok y.
Proof.
  intros Hlo HM HO HW HW' d C x x' Hd HR.
  destruct (move_global_to e s turn o o' ne lo Hlo HM HO HW HW' (fun i => i) (permutes_id _) (fun i _ => eq_refl) (fun b c E => E) d C x x' Hd HR) as (y & y' & E1 & E2 & H).
  apply reordered_id in H. subst y'. eauto.
Qed.
