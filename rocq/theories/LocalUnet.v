(** How far UNet looks: proofs. *)
From Coq Require Import String List ZArith Bool QArith Qcanon Lia Permutation.
From Verif Require Import Res Tensor Key Num NumFacts Points Octree NnBasic NnConv NnInterp Features Net Spec SpecGeo SpecBuild SpecNeigh SpecNN SpecInterp SpecNet SpecBatch SpecMove SpecMoveSeg SpecLocal
  WF ListFacts WFFacts SumFacts NnFacts ConvOct Deconv NetFacts NetLoops NetPool NetSeg NetBatch MoveFacts MoveNet MoveBuild MoveSeg MoveInterp DecodeBatch MoveUnet LocalFacts.
Import ListNotations.
Open Scope Z_scope.

(** ** the zones *)
Lemma within_mono dep c r r' d q : r <= r' -> within dep c r d q -> within dep c r' d q.
Proof. destruct c as [[[cx cy] cz] cb], q as [[[x y] z] b]. unfold within. cbv zeta. intuition lia. Qed.
Lemma box3 dx dy dz : In (dx, dy, dz) (box "333") -> -1 <= dx <= 1 /\ -1 <= dy <= 1 /\ -1 <= dz <= 1.
Proof.
  assert (H : forallb (fun v => let '(a, b, c) := v in ((-1 <=? a) && (a <=? 1) && ((-1 <=? b) && (b <=? 1)) && ((-1 <=? c) && (c <=? 1)))%bool) (box "333") = true) by (vm_compute; reflexivity).
  rewrite forallb_forall in H. intros Hi. specialize (H _ Hi). cbv beta iota in H. rewrite !andb_true_iff, !Z.leb_le in H. lia.
Qed.
Lemma box2 dx dy dz : In (dx, dy, dz) (box "222") -> 0 <= dx <= 1 /\ 0 <= dy <= 1 /\ 0 <= dz <= 1.
Proof.
  assert (H : forallb (fun v => let '(a, b, c) := v in ((0 <=? a) && (a <=? 1) && ((0 <=? b) && (b <=? 1)) && ((0 <=? c) && (c <=? 1)))%bool) (box "222") = true) by (vm_compute; reflexivity).
  rewrite forallb_forall in H. intros Hi. specialize (H _ Hi). cbv beta iota in H. rewrite !andb_true_iff, !Z.leb_le in H. lia.
Qed.
Lemma side_pos k : 0 < 2 ^ Z.of_nat k.
Proof. apply Z.pow_pos_nonneg; lia. Qed.
Lemma side_up dep d : (S d <= dep)%nat -> 2 ^ Z.of_nat (dep - d) = 2 * 2 ^ Z.of_nat (dep - S d).
Proof. intros H. replace (Z.of_nat (dep - d)) with (Z.succ (Z.of_nat (dep - S d))) by lia. apply Z.pow_succ_r. lia. Qed.
Lemma near3 dep c r d q p : within dep c r d q -> reads 1 "333" q p -> within dep c (r + 2 ^ Z.of_nat (dep - d)) d p.
Proof.
  destruct c as [[[cx cy] cz] cb], q as [[[x y] z] b]. intros H (dx & dy & dz & Hb & ->). apply box3 in Hb as (B1 & B2 & B3). unfold within in *. cbv zeta in *.
  pose proof (side_pos (dep - d)) as Hp. set (h := 2 ^ Z.of_nat (dep - d)) in *. clearbody h.
  assert (G : forall a, -1 <= a <= 1 -> - h <= a * h <= h) by (intros a Ha; assert (a = -1 \/ a = 0 \/ a = 1) as [-> | [-> | ->]] by lia; lia).
  pose proof (G dx B1). pose proof (G dy B2). pose proof (G dz B3). rewrite !Z.mul_1_l, !Z.mul_add_distr_r. lia.
Qed.
Lemma near2 dep c r d q p : (S d <= dep)%nat -> within dep c r d q -> reads 2 "222" q p -> within dep c r (S d) p.
Proof.
  intros Hd. destruct c as [[[cx cy] cz] cb], q as [[[x y] z] b]. intros H (dx & dy & dz & Hb & ->). apply box2 in Hb as (B1 & B2 & B3). unfold within in *. cbv zeta in *. rewrite side_up in H by exact Hd.
  pose proof (side_pos (dep - S d)) as Hp. set (h := 2 ^ Z.of_nat (dep - S d)) in *. clearbody h.
  assert (G : forall a, 0 <= a <= 1 -> 0 <= a * h <= h) by (intros a Ha; assert (a = 0 \/ a = 1) as [-> | ->] by lia; lia).
  pose proof (G dx B1). pose proof (G dy B2). pose proof (G dz B3). rewrite !Z.mul_add_distr_r, <- !Z.mul_assoc. rewrite !Z.mul_assoc in H |- *. rewrite !(Z.mul_comm _ 2), <- !Z.mul_assoc in H. rewrite <- !Z.mul_assoc. lia.
Qed.
Lemma above2 dep c r d q p : (S d <= dep)%nat -> within dep c r (S d) q -> reads 2 "222" p q -> within dep c (r + 2 ^ Z.of_nat (dep - S d)) d p.
Proof.
  intros Hd. destruct c as [[[cx cy] cz] cb], p as [[[x y] z] b]. intros H (dx & dy & dz & Hb & ->). apply box2 in Hb as (B1 & B2 & B3). unfold within in *. cbv zeta in *. rewrite (side_up dep d) by exact Hd.
  pose proof (side_pos (dep - S d)) as Hp. set (h := 2 ^ Z.of_nat (dep - S d)) in *. clearbody h.
  assert (G : forall a, 0 <= a <= 1 -> 0 <= a * h <= h) by (intros a Ha; assert (a = 0 \/ a = 1) as [-> | ->] by lia; lia).
  pose proof (G dx B1). pose proof (G dy B2). pose proof (G dz B3). rewrite !Z.mul_add_distr_r, <- !Z.mul_assoc in H. replace (x * (2 * h)) with (2 * (x * h)) by ring. replace (y * (2 * h)) with (2 * (y * h)) by ring. replace (z * (2 * h)) with (2 * (z * h)) by ring. lia.
Qed.

Lemma up_one d : up d 1 = d.
Proof. reflexivity. Qed.
Lemma up_two d : up d 2 = S d.
Proof. unfold up. cbn [Z.eqb Pos.eqb]. lia. Qed.
Definition RW (o o' : octree) (ne : bool) (dep : nat) (c : cell) (d : nat) (r : Z) (C : nat) (x x' : feat) : Prop := L o o' ne (within dep c r d) d C x x'.

Lemma enc_step w : forall l k j, (j < length l)%nat -> enc_reach w k (firstn (S j) l) = enc_reach w k (firstn j l) + Z.of_nat (nth j l O) * w * 2 ^ Z.of_nat (S (k + j)).
Proof.
  induction l as [|n l IH]; intros k j Hj; [cbn in Hj; lia|]. destruct j as [|j]; [cbn [firstn enc_reach nth]; rewrite Nat.add_0_r; lia|].
  cbn [length] in Hj. change (firstn (S (S j)) (n :: l)) with (n :: firstn (S j) l). change (firstn (S j) (n :: l)) with (n :: firstn j l). cbn [enc_reach nth].
  rewrite IH by lia. replace (S k + j)%nat with (k + S j)%nat by lia. ring.
Qed.
Lemma dec_step w : forall l k j, (j < length l)%nat -> dec_reach w k (firstn (S j) l) = dec_reach w k (firstn j l) + (1 + Z.of_nat (nth j l O) * w) * 2 ^ Z.of_nat (k - S j).
Proof.
  induction l as [|n l IH]; intros k j Hj; [cbn in Hj; lia|]. destruct j as [|j]; [cbn [firstn dec_reach nth]; lia|].
  cbn [length] in Hj. change (firstn (S (S j)) (n :: l)) with (n :: firstn (S j) l). change (firstn (S j) (n :: l)) with (n :: firstn j l). cbn [dec_reach nth].
  rewrite IH by lia. replace (k - 1 - S j)%nat with (k - S (S j))%nat by lia. ring.
Qed.
Lemma term_nonneg a w k : 0 <= a -> 0 <= w -> 0 <= a * w * 2 ^ Z.of_nat k.
Proof. intros A B. pose proof (side_pos k). apply Z.mul_nonneg_nonneg; [apply Z.mul_nonneg_nonneg; assumption|lia]. Qed.
Lemma enc_mono w l j i : 0 <= w -> (j <= i <= length l)%nat -> enc_reach w 0 (firstn j l) <= enc_reach w 0 (firstn i l).
Proof.
  intros Hw H. induction i as [|i IH]; [replace j with O by lia; lia|]. destruct (Nat.eq_dec j (S i)) as [->|N]; [lia|]. rewrite enc_step by lia.
  pose proof (term_nonneg (Z.of_nat (nth i l O)) w (S (0 + i)) ltac:(lia) Hw). specialize (IH ltac:(lia)). lia.
Qed.
Lemma dec_term_pos a w k : 0 <= a -> 0 <= w -> 2 ^ Z.of_nat k <= (1 + a * w) * 2 ^ Z.of_nat k.
Proof. intros A B. pose proof (term_nonneg a w k A B). lia. Qed.
Lemma dec_mono w l k j i : 0 <= w -> (j <= i <= length l)%nat -> dec_reach w k (firstn j l) <= dec_reach w k (firstn i l).
Proof.
  intros Hw H. induction i as [|i IH]; [replace j with O by lia; lia|]. destruct (Nat.eq_dec j (S i)) as [->|N]; [lia|]. rewrite dec_step by lia.
  pose proof (dec_term_pos (Z.of_nat (nth i l O)) w (k - S i) ltac:(lia) Hw). pose proof (side_pos (k - S i)). specialize (IH ltac:(lia)). lia.
Qed.

Section Unet.
  Variables (o o' : octree) (ne : bool) (dep : nat) (c : cell) (rho : Z) (lo : nat).
  Hypothesis HW : wf_octree o.
  Hypothesis HW' : wf_octree o'.
  Notation R := (RW o o' ne dep c).
  Variable P : params.
  Hypothesis HP : eval_mode P.
  Hypothesis Hdo : (dep <= depth o)%nat.
  Hypothesis Hdo' : (dep <= depth o')%nat.
  Hypothesis HN : forall d, (lo <= d <= dep)%nat -> (1 <= d)%nat -> has_neigh o d.
  Hypothesis HN' : forall d, (lo <= d <= dep)%nat -> (1 <= d)%nat -> has_neigh o' d.
  Hypothesis HS : forall d, (lo <= d <= dep)%nat -> nodes_agree o o' ne d (within dep c rho d) /\ (ne = false -> nodes_agree o o' true d (within dep c rho d)).

  Lemma nodes_in d r : (lo <= d <= dep)%nat -> r <= rho -> nodes_agree o o' ne d (within dep c r d) /\ (ne = false -> nodes_agree o o' true d (within dep c r d)).
  Proof.
    intros Hd Hr. destruct (HS d Hd) as [A B]. split; [|intros Hne; specialize (B Hne)]; intros cs cs' q E E' Hq; [apply (A cs cs' q E E')|apply (B cs cs' q E E')]; apply (within_mono dep c r rho); assumption.
  Qed.
  Lemma R_mono d r r' C x x' : r <= r' -> R d r' C x x' -> R d r C x x'.
  Proof. intros H. apply L_mono. intros q. apply within_mono. exact H. Qed.
  Lemma W_map d r C C' f x x' : (forall v, length v = C -> length (f v) = C') -> R d r C x x' -> R d r C' (map f x) (map f x').
  Proof.
    intros Hf ([L1 F1] & [L2 F2] & Hc). repeat split; try (rewrite map_length; assumption); try (apply Forall_map; eapply Forall_impl; [|eassumption]; intros v; apply Hf).
    intros cs cs' i j q E1 E2 Hi Hj Hq. rewrite !nth_error_map. rewrite (Hc cs cs' i j q E1 E2 Hi Hj Hq). reflexivity.
  Qed.
  Lemma W_relu d r C x x' : R d r C x x' -> R d r C (relu x) (relu x').
  Proof. apply W_map. intros v. rewrite map_length. auto. Qed.
  Lemma W_zip d r C D E (f : vec -> vec -> vec) x x' y y' : (forall u v, length u = C -> length v = D -> length (f u v) = E) -> R d r C x x' -> R d r D y y' ->
    R d r E (zip_with f x y) (zip_with f x' y').
  Proof.
    intros Hf ([A1 A2] & [B1 B2] & Hx) ([C1 C2] & [D1 D2] & Hy).
    assert (Sh : forall n a b, length a = n -> length b = n -> Forall (fun r => length r = C) a -> Forall (fun r => length r = D) b -> shape n E (zip_with f a b)).
    { intros n a b E1 E2 F1 F2. unfold zip_with. split; [rewrite map_length, combine_length; lia|]. apply Forall_map, Forall_forall. intros [u v] Hi. rewrite Forall_forall in F1, F2.
      apply Hf; [exact (F1 u (in_combine_l _ _ _ _ Hi))|exact (F2 v (in_combine_r _ _ _ _ Hi))]. }
    split; [apply Sh; assumption|]. split; [apply Sh; assumption|].
    intros cs cs' i j q E1 E2 Hi Hj Hq. unfold zip_with. rewrite !nth_error_map, !nth_error_combine. rewrite (Hx cs cs' i j q E1 E2 Hi Hj Hq), (Hy cs cs' i j q E1 E2 Hi Hj Hq). reflexivity.
  Qed.
  Lemma W_add d r C x x' y y' : R d r C x x' -> R d r C y y' -> run2 (R d r C) (add_feat x y) (add_feat x' y').
  Proof.
    intros HX HY. exists (zip_with vadd x y), (zip_with vadd x' y'). pose proof HX as ([A1 A2] & [B1 B2] & _). pose proof HY as ([C1 C2] & [D1 D2] & _).
    split; [apply (add_feat_ok _ _ C); [congruence|assumption..]|]. split; [apply (add_feat_ok _ _ C); [congruence|assumption..]|].
    apply (W_zip d r C C C); try assumption. intros u v Hu Hv. rewrite vadd_len; congruence.
  Qed.
  Lemma W_cat d r C D x x' y y' : R d r C x x' -> R d r D y y' -> run2 (R d r (C + D)%nat) (cat_cols [x; y]) (cat_cols [x'; y']).
  Proof.
    intros HX HY. exists (zip_with (@app Qc) x y), (zip_with (@app Qc) x' y'). pose proof HX as ([A1 A2] & [B1 B2] & _). pose proof HY as ([C1 C2] & [D1 D2] & _).
    split; [cbn [cat_cols foldM]; rewrite A1, C1, Nat.eqb_refl; reflexivity|]. split; [cbn [cat_cols foldM]; rewrite B1, D1, Nat.eqb_refl; reflexivity|].
    apply (W_zip d r C D (C + D)%nat); try assumption. intros u v Hu Hv. rewrite app_length. congruence.
  Qed.
  Lemma W_norm p d r C x x' : R d r C x x' -> run2 (R d r C) (p_norm P p C x) (p_norm P p C x').
  Proof.
    intros HX. pose proof HX as ([A1 A2] & [B1 B2] & H). destruct (proj1 HP p C) as (f & Hf). exists (map f x), (map f x'). destruct (Hf x A2) as [E1 F1]. destruct (Hf x' B2) as [E2 F2].
    split; [exact E1|]. split; [exact E2|]. split; [split; [rewrite map_length; exact A1|exact F1]|]. split; [split; [rewrite map_length; exact B1|exact F2]|].
    intros cs cs' i j q G1 G2 Hi Hj Hq. rewrite !nth_error_map. rewrite (H cs cs' i j q G1 G2 Hi Hj Hq). reflexivity.
  Qed.
  Lemma W_linear p d r ci co ub x x' : R d r ci x x' -> run2 (R d r co) (linear P p ci co ub x) (linear P p ci co ub x').
  Proof.
    intros HX. destruct (linear_rows P p ci co ub) as (f & Fl & Hf). exists (map f x), (map f x'). split; [apply Hf; apply HX|]. split; [apply Hf; apply (proj1 (proj2 HX))|].
    apply (W_map d r ci co f); assumption.
  Qed.
  Lemma lready d st k : (st = 1 \/ st = 2) -> (lo <= d <= dep)%nat -> (1 <= d)%nat -> In k kernels -> conv_ready o d k st /\ conv_ready o' d k st.
  Proof.
    intros Hs Hd H1 Hk.
    split; (split; [assumption|]; split; [lia|]; split; [first [apply HN; assumption|apply HN'; assumption]|]; split; [exact Hk|]; destruct Hs as [->| ->]; [left; reflexivity|right; split; [reflexivity|lia]]).
  Qed.
  Lemma W_conv3 p ci co d r x x' : (lo <= d <= dep)%nat -> (1 <= d)%nat -> Z.of_nat ci <= 5000000 -> r + 2 ^ Z.of_nat (dep - d) <= rho -> R d (r + 2 ^ Z.of_nat (dep - d)) ci x x' ->
    run2 (R d r co) (conv P p ci co [3%nat] 1 ne x o (Z.of_nat d)) (conv P p ci co [3%nat] 1 ne x' o' (Z.of_nat d)).
  Proof.
    intros Hd H1 Hc Hr HR. destruct (kdim_case [3%nat] ci co 1 ne true) as [[_ (m & E & _ & E1 & E2 & E3 & Hin & Hle)]|[[Y _]|[N _]]]; [|discriminate Y|contradiction].
    assert (G : forall z oo, conv P p ci co [3%nat] 1 ne z oo (Z.of_nat d) = OctreeConv (mkCfg ci co [3%nat] 1 ne 200000000 true) false (tensor3 (m_kdim m) (m_inconv m) (m_outconv m) (p_weight P p)) None z oo d).
    { intros z oo. unfold conv. rewrite E. cbn [bind]. unfold at_depth. replace (Z.of_nat d <? 0) with false by (symmetry; apply Z.ltb_ge; lia). rewrite Nat2Z.id. reflexivity. }
    rewrite !G. destruct (lready d 1 "333" (or_introl eq_refl) Hd H1 ltac:(cbn; tauto)) as [Q Q']. pose proof (side_pos (dep - d)).
    apply (local_conv o o' ne HW HW' 1 d [3%nat] "333" ci co 200000000 x x' _ None (within dep c (r + 2 ^ Z.of_nat (dep - d)) d) (within dep c r d)); rewrite ?up_one; try assumption; auto.
    - intros q q' A B. apply (near3 dep c r d q); assumption.
    - apply nodes_in; assumption.
    - intros _ Y. discriminate Y.
    - rewrite E1, E2, E3. apply tensor3_shape.
    - exact I.
    - rewrite <- E1. lia.
  Qed.
  Lemma W_conv2 p ci co d r x x' : (lo <= d)%nat -> (S d <= dep)%nat -> Z.of_nat ci <= 5000000 -> r <= rho -> R (S d) r ci x x' ->
    run2 (R d r co) (conv P p ci co [2%nat] 2 ne x o (Z.of_nat (S d))) (conv P p ci co [2%nat] 2 ne x' o' (Z.of_nat (S d))).
  Proof.
    intros Hd H1 Hc Hr HR. destruct (kdim_case [2%nat] ci co 2 ne true) as [[Y _]|[[_ (m & E & _ & E1 & E2 & E3 & Hin & Hle)]|[_ N]]]; [discriminate Y| |contradiction].
    assert (G : forall z oo, conv P p ci co [2%nat] 2 ne z oo (Z.of_nat (S d)) = OctreeConv (mkCfg ci co [2%nat] 2 ne 200000000 true) false (tensor3 (m_kdim m) (m_inconv m) (m_outconv m) (p_weight P p)) None z oo (up d 2)).
    { intros z oo. unfold conv. rewrite E. cbn [bind]. unfold at_depth. replace (Z.of_nat (S d) <? 0) with false by (symmetry; apply Z.ltb_ge; lia). rewrite Nat2Z.id, up_two. reflexivity. }
    rewrite !G. destruct (lready (S d) 2 "222" (or_intror eq_refl) ltac:(lia) ltac:(lia) ltac:(cbn; tauto)) as [Q Q'].
    apply (local_conv o o' ne HW HW' 2 d [2%nat] "222" ci co 200000000 x x' _ None (within dep c r (S d)) (within dep c r d)); rewrite ?up_two; try assumption; auto.
    - intros q q' A B. apply (near2 dep c r d q); assumption.
    - apply nodes_in; [lia|assumption].
    - intros Hne _. apply nodes_in; [lia|assumption..].
    - rewrite E1, E2, E3. apply tensor3_shape.
    - exact I.
    - rewrite <- E1. lia.
  Qed.
  Lemma W_deconv2 p ci co d r x x' : (lo <= d)%nat -> (S d <= dep)%nat -> Z.of_nat co <= 5000000 -> r + 2 ^ Z.of_nat (dep - S d) <= rho -> R d (r + 2 ^ Z.of_nat (dep - S d)) ci x x' ->
    run2 (R (S d) r co) (deconv P p ci co [2%nat] 2 ne x o (Z.of_nat d)) (deconv P p ci co [2%nat] 2 ne x' o' (Z.of_nat d)).
  Proof.
    intros Hd H1 Hc Hr HR. destruct (kdim_case [2%nat] ci co 2 ne false) as [[Y _]|[[_ (m & E & _ & E1 & E2 & E3 & Hin & Hle)]|[_ N]]]; [discriminate Y| |contradiction].
    assert (G : forall z oo, deconv P p ci co [2%nat] 2 ne z oo (Z.of_nat d) = OctreeDeconv (mkCfg ci co [2%nat] 2 ne 200000000 false) false (tensor3 (m_kdim m) (m_inconv m) (m_outconv m) (p_weight P p)) None z oo d).
    { intros z oo. unfold deconv. rewrite E. cbn [bind]. unfold at_depth. replace (Z.of_nat d <? 0) with false by (symmetry; apply Z.ltb_ge; lia). rewrite Nat2Z.id. reflexivity. }
    rewrite !G. destruct (lready (S d) 2 "222" (or_intror eq_refl) ltac:(lia) ltac:(lia) ltac:(cbn; tauto)) as [Q Q'].
    pose proof (local_deconv o o' ne HW HW' 2 d [2%nat] "222" co ci 200000000 x x' (tensor3 (m_kdim m) (m_inconv m) (m_outconv m) (p_weight P p)) (within dep c (r + 2 ^ Z.of_nat (dep - S d)) d) (within dep c r (S d))) as H. rewrite up_two in H. apply H; try assumption; auto.
    - intros q q' A B. apply (above2 dep c r d q); assumption.
    - apply nodes_in; [lia|assumption].
    - intros Hne _. apply nodes_in; [lia|assumption..].
    - rewrite E1, E2, E3. apply tensor3_shape.
    - rewrite <- E1. lia.
  Qed.
  Lemma W_conv3_bn p ci co d r x x' : (lo <= d <= dep)%nat -> (1 <= d)%nat -> Z.of_nat ci <= 5000000 -> r + 2 ^ Z.of_nat (dep - d) <= rho -> R d (r + 2 ^ Z.of_nat (dep - d)) ci x x' ->
    run2 (R d r co) (conv_bn P p ci co [3%nat] 1 ne x o (Z.of_nat d)) (conv_bn P p ci co [3%nat] 1 ne x' o' (Z.of_nat d)).
  Proof. intros. eapply run2_bind; [apply W_conv3; eassumption|]. intros y y' H'. apply W_norm. exact H'. Qed.
  Lemma W_conv3_bn_relu p ci co d r x x' : (lo <= d <= dep)%nat -> (1 <= d)%nat -> Z.of_nat ci <= 5000000 -> r + 2 ^ Z.of_nat (dep - d) <= rho -> R d (r + 2 ^ Z.of_nat (dep - d)) ci x x' ->
    run2 (R d r co) (conv_bn_relu P p ci co [3%nat] 1 ne x o (Z.of_nat d)) (conv_bn_relu P p ci co [3%nat] 1 ne x' o' (Z.of_nat d)).
  Proof. intros. eapply run2_bind; [apply W_conv3; eassumption|]. intros y y' H'. eapply run2_bind; [apply W_norm; exact H'|]. intros z z' Hz. apply run2_ret, W_relu, Hz. Qed.
  Lemma W_conv2_bn_relu p ci co d r x x' : (lo <= d)%nat -> (S d <= dep)%nat -> Z.of_nat ci <= 5000000 -> r <= rho -> R (S d) r ci x x' ->
    run2 (R d r co) (conv_bn_relu P p ci co [2%nat] 2 ne x o (Z.of_nat (S d))) (conv_bn_relu P p ci co [2%nat] 2 ne x' o' (Z.of_nat (S d))).
  Proof. intros. eapply run2_bind; [apply W_conv2; eassumption|]. intros y y' H'. eapply run2_bind; [apply W_norm; exact H'|]. intros z z' Hz. apply run2_ret, W_relu, Hz. Qed.
  Lemma W_deconv2_bn_relu p ci co d r x x' : (lo <= d)%nat -> (S d <= dep)%nat -> Z.of_nat co <= 5000000 -> r + 2 ^ Z.of_nat (dep - S d) <= rho -> R d (r + 2 ^ Z.of_nat (dep - S d)) ci x x' ->
    run2 (R (S d) r co) (deconv_bn_relu P p ci co [2%nat] 2 ne x o (Z.of_nat d)) (deconv_bn_relu P p ci co [2%nat] 2 ne x' o' (Z.of_nat d)).
  Proof. intros. eapply run2_bind; [apply W_deconv2; eassumption|]. intros y y' H'. eapply run2_bind; [apply W_norm; exact H'|]. intros z z' Hz. apply run2_ret, W_relu, Hz. Qed.
  Lemma W_conv1x1_bn p d r ci co x x' : R d r ci x x' -> run2 (R d r co) (conv1x1_bn P p ci co x) (conv1x1_bn P p ci co x').
  Proof. intros HR. eapply run2_bind; [apply W_linear; eassumption|]. intros y y' H. apply W_norm; assumption. Qed.
  Lemma W_conv1x1_bn_relu p d r ci co x x' : R d r ci x x' -> run2 (R d r co) (conv1x1_bn_relu P p ci co x) (conv1x1_bn_relu P p ci co x').
  Proof. intros HR. eapply run2_bind; [apply W_linear; eassumption|]. intros y y' H. eapply run2_bind; [apply W_norm; exact H|]. intros z z' Hz. apply run2_ret, W_relu, Hz. Qed.
  Lemma W_proj p d r ci co x x' : R d r ci x x' -> run2 (R d r co) (if Nat.eqb ci co then Ok x else conv1x1_bn P p ci co x) (if Nat.eqb ci co then Ok x' else conv1x1_bn P p ci co x').
  Proof. intros HR. destruct (Nat.eqb_spec ci co) as [->|]; [apply run2_ret; exact HR|apply W_conv1x1_bn; assumption]. Qed.
  Lemma W_res_block p d r ci co bk x x' : (lo <= d <= dep)%nat -> (1 <= d)%nat -> bk <> O -> channel_ok co -> r + 2 ^ Z.of_nat (dep - d) <= rho -> R d (r + 2 ^ Z.of_nat (dep - d)) ci x x' ->
    run2 (R d r co) (res_block P p ci co 1 bk ne x o (Z.of_nat d)) (res_block P p ci co 1 bk ne x' o' (Z.of_nat d)).
  Proof.
    intros Hd H1 Hb Hc Hr HR. unfold res_block, bottleneck_channels. rewrite (proj2 (Nat.eqb_neq bk 0) Hb). cbn [bind Z.eqb Pos.eqb].
    pose proof (Nat.div_le_upper_bound co bk co Hb ltac:(nia)) as Hcb. unfold channel_ok in Hc. pose proof (side_pos (dep - d)) as Hp.
    eapply run2_bind; [apply (W_conv1x1_bn_relu _ d); exact HR|]. intros y1 y1' K1.
    eapply run2_bind; [apply (W_conv3_bn_relu _ _ (co / bk) d r); [exact Hd|exact H1|lia|exact Hr|exact K1]|]. intros y2 y2' K2.
    eapply run2_bind; [apply (W_conv1x1_bn _ d); exact K2|]. intros y3 y3' K3.
    assert (HR' : R d r ci x x') by (apply (R_mono d r _ ci x x') in HR; [exact HR|lia]).
    eapply run2_bind; [apply W_proj; exact HR'|]. intros y4 y4' K4.
    eapply run2_bind; [apply (W_add d r co); [exact K3|exact K4]|]. intros y5 y5' K5. apply run2_ret, W_relu, K5.
  Qed.
  Lemma W_res_block2 p d r ci co bk x x' : (lo <= d <= dep)%nat -> (1 <= d)%nat -> bk <> O -> channel_ok co -> Z.of_nat ci <= 5000000 -> r + 2 * 2 ^ Z.of_nat (dep - d) <= rho -> R d (r + 2 * 2 ^ Z.of_nat (dep - d)) ci x x' ->
    run2 (R d r co) (res_block2 P p ci co 1 bk ne x o (Z.of_nat d)) (res_block2 P p ci co 1 bk ne x' o' (Z.of_nat d)).
  Proof.
    intros Hd H1 Hb Hc Hci Hr HR. unfold res_block2, bottleneck_channels. rewrite (proj2 (Nat.eqb_neq bk 0) Hb). cbn [bind Z.eqb Pos.eqb].
    pose proof (Nat.div_le_upper_bound co bk co Hb ltac:(nia)) as Hcb. unfold channel_ok in Hc. pose proof (side_pos (dep - d)) as Hp.
    replace (r + 2 * 2 ^ Z.of_nat (dep - d)) with (r + 2 ^ Z.of_nat (dep - d) + 2 ^ Z.of_nat (dep - d)) in * by lia.
    eapply run2_bind; [apply (W_conv3_bn_relu _ _ (co / bk) d (r + 2 ^ Z.of_nat (dep - d))); [exact Hd|exact H1|exact Hci|exact Hr|exact HR]|]. intros y2 y2' K2.
    eapply run2_bind; [apply (W_conv3_bn _ _ co d r); [exact Hd|exact H1|lia|lia|exact K2]|]. intros y3 y3' K3.
    assert (HR' : R d r ci x x') by (apply (R_mono d r _ ci x x') in HR; [exact HR|lia]).
    eapply run2_bind; [apply W_proj; exact HR'|]. intros y4 y4' K4.
    eapply run2_bind; [apply (W_add d r co); [exact K3|exact K4]|]. intros y5 y5' K5. apply run2_ret, W_relu, K5.
  Qed.
  Lemma fold2 {S} (I : nat -> S -> S -> Prop) (f g : S -> Z -> res S) m x x' : I O x x' ->
    (forall k x x', (k < m)%nat -> I k x x' -> run2 (I (Datatypes.S k)) (f x (Z.of_nat k)) (g x' (Z.of_nat k))) ->
    run2 (I m) (foldM f x (arange m)) (foldM g x' (arange m)).
  Proof.
    intros H0 H. induction m as [|m IH]; [apply (run2_ret (I O)); exact H0|]. rewrite arange_S, !foldM_app.
    destruct (IH ltac:(intros k y y' Hk; apply H; clear -Hk; lia)) as (y & y' & -> & -> & Hy). cbn [bind foldM].
    destruct (H m y y' ltac:(clear; lia) Hy) as (z & z' & -> & -> & Hz). cbn [bind]. apply run2_ret. exact Hz.
  Qed.
  Lemma W_res_blocks p d r ci co num bk (basic : bool) x x' : (lo <= d <= dep)%nat -> (1 <= d)%nat -> bk <> O -> channel_ok co -> Z.of_nat ci <= 5000000 -> (num <> O \/ ci = co) ->
    r + Z.of_nat num * (if basic : bool then 2 else 1) * 2 ^ Z.of_nat (dep - d) <= rho -> R d (r + Z.of_nat num * (if basic : bool then 2 else 1) * 2 ^ Z.of_nat (dep - d)) ci x x' ->
    run2 (R d r co) (res_blocks P p ci co num bk ne basic x o (Z.of_nat d)) (res_blocks P p ci co num bk ne basic x' o' (Z.of_nat d)).
  Proof.
    intros Hd H1 Hb Hc Hci Hnum Hr HR. set (w := if basic then 2 else 1) in *. pose proof (side_pos (dep - d)) as Hp. set (h := 2 ^ Z.of_nat (dep - d)) in *.
    assert (Hw : 1 <= w * h) by (unfold w; destruct basic; lia).
    assert (RK : forall k, (k <= num)%nat -> r + Z.of_nat (num - k) * w * h <= rho).
    { intros k Hk. assert (Z.of_nat (num - k) * w * h <= Z.of_nat num * w * h) by (rewrite <- !Z.mul_assoc; apply Z.mul_le_mono_nonneg_r; lia). lia. }
    assert (G : run2 (R d r (nth num (ci :: repeat co num) O)) (res_blocks P p ci co num bk ne basic x o (Z.of_nat d)) (res_blocks P p ci co num bk ne basic x' o' (Z.of_nat d))).
    { unfold res_blocks. replace r with (r + Z.of_nat (num - num) * w * h) by (rewrite Nat.sub_diag; lia).
      apply (fold2 (fun k => R d (r + Z.of_nat (num - k) * w * h) (nth k (ci :: repeat co num) O))); [rewrite Nat.sub_0_r; exact HR|]. intros k y y' Hk Hy.
      rewrite (tget_len _ k O) by (cbn [length]; rewrite repeat_length; lia). cbn [bind]. replace (Z.of_nat k + 1) with (Z.of_nat (S k)) by lia.
      rewrite (tget_len _ (S k) O) by (cbn [length]; rewrite repeat_length; lia). cbn [bind].
      replace (nth (S k) (ci :: repeat co num) O) with co by (cbn [nth]; symmetry; apply nth_repeat'; exact Hk).
      assert (E' : Z.of_nat (nth k (ci :: repeat co num) O) <= 5000000) by (destruct k as [|k]; cbn [nth]; [exact Hci|rewrite nth_repeat' by lia; unfold channel_ok in Hc; lia]).
      assert (ER : r + Z.of_nat (num - k) * w * h = r + Z.of_nat (num - S k) * w * h + w * h) by (replace (num - k)%nat with (S (num - S k)) by lia; rewrite Nat2Z.inj_succ; ring).
      rewrite ER in Hy. pose proof (RK k ltac:(lia)) as HK. rewrite ER in HK. clear ER. set (r1 := r + Z.of_nat (num - S k) * w * h) in *. unfold w in Hy, HK.
      destruct basic; [apply W_res_block2; assumption|rewrite Z.mul_1_l in Hy, HK; apply W_res_block; assumption]. }
    destruct num as [|m]; [destruct Hnum as [N|E]; [contradiction|cbn [nth] in G; rewrite <- E at 1; exact G]|]. cbn [nth] in G. rewrite nth_repeat' in G by lia. exact G.
  Qed.

  Section Net.
    Variables (g : unet_cfg) (cin cout : nat).
    Hypothesis G : unet_config g.
    Notation es := (length (u_enc_blk g)).
    Notation ds := (length (u_dec_blk g)).
    Notation enc j := (nth j (u_enc_ch g) O).
    Notation dec j := (nth j (u_dec_ch g) O).
    Hypothesis Hdep : (es < dep)%nat.
    Hypothesis Hlow : (lo <= dep - es)%nat.
    Hypothesis Hcin : channel_ok cin.
    Notation w := (block_reach g).
    Definition EJ (j : nat) : Z := 1 + enc_reach w 0 (firstn j (u_enc_blk g)).
    Definition DK (k : nat) : Z := EJ es + dec_reach w es (firstn k (u_dec_blk g)).
    Lemma w_pos : 1 <= w.
    Proof. unfold block_reach. destruct (u_basic g); clear; lia. Qed.
    Lemma EJ_pos j : (j <= es)%nat -> 1 <= EJ j.
    Proof. intros H. unfold EJ. pose proof (enc_mono w (u_enc_blk g) 0 j ltac:(pose proof w_pos; lia) ltac:(lia)) as M. cbn [firstn enc_reach] in M. lia. Qed.
    Lemma EJ_mono j i : (j <= i <= es)%nat -> EJ j <= EJ i.
    Proof. intros H. unfold EJ. pose proof (enc_mono w (u_enc_blk g) j i ltac:(pose proof w_pos; lia) ltac:(lia)). lia. Qed.
    Definition WD (k : nat) (m m' : ddict feat) : Prop := forall j, (j <= k)%nat -> run2 (R (dep - j) (rho - EJ j) (enc j)) (dfind m (Z.of_nat (dep - j))) (dfind m' (Z.of_nat (dep - j))).
    Lemma W_down k m m' : (k < es)%nat -> WD k m m' -> run2 (WD (S k)) (unet_down g P ne o (Z.of_nat dep) m (Z.of_nat k)) (unet_down g P ne o' (Z.of_nat dep) m' (Z.of_nat k)).
    Proof.
      intros Hk H. pose proof (uc_enc g G) as Hl. unfold unet_down. rewrite (tget_len _ k O) by lia. cbn [bind].
      replace (Z.of_nat k + 1) with (Z.of_nat (S k)) by lia. rewrite (tget_len _ (S k) O) by lia. cbn [bind]. rewrite (tget_len (u_enc_blk g) k O) by lia. cbn [bind].
      replace (Z.of_nat dep - Z.of_nat k) with (Z.of_nat (dep - k)) by lia. eapply run2_bind; [apply (H k); lia|]. intros x x' HX.
      replace (Z.of_nat (dep - k) - 1) with (Z.of_nat (dep - S k)) by lia. replace (dep - k)%nat with (S (dep - S k)) in HX |- * by lia.
      pose proof (EJ_pos k ltac:(lia)) as EP. pose proof (EJ_pos (S k) ltac:(lia)) as EP'.
      eapply run2_bind; [apply (W_conv2_bn_relu _ _ (enc (S k)) (dep - S k) (rho - EJ k)); [lia|lia|small; apply forall_nth_ok, G|lia|exact HX]|].
      intros y y' HY. assert (ER : rho - EJ k = rho - EJ (S k) + Z.of_nat (nth k (u_enc_blk g) O) * (if u_basic g then 2 else 1) * 2 ^ Z.of_nat (dep - (dep - S k))).
      { unfold EJ. rewrite enc_step by lia. change (if u_basic g then 2 else 1) with w. replace (dep - (dep - S k))%nat with (S (0 + k)) by lia. lia. }
      rewrite ER in HY.
      eapply run2_bind; [apply (W_res_blocks _ (dep - S k) (rho - EJ (S k)) (enc (S k)) (enc (S k))); [lia|lia|apply G|apply forall_nth_ok, G|small; apply forall_nth_ok, G|auto|rewrite <- ER; lia|exact HY]|].
      intros u u' HU. apply run2_ret. intros j Hj. rewrite !dfind_put. destruct (Nat.eq_dec j (S k)) as [->|N].
      - rewrite Z.eqb_refl. apply run2_ret. exact HU.
      - assert (E : (Z.of_nat (dep - j) =? Z.of_nat (dep - S k)) = false) by (apply Z.eqb_neq; lia). rewrite E. apply H. lia.
    Qed.
    Lemma W_encoder x x' : R dep rho cin x x' -> run2 (WD es) (unet_encoder g P cin ne x o (Z.of_nat dep)) (unet_encoder g P cin ne x' o' (Z.of_nat dep)).
    Proof.
      intros HX. pose proof (uc_enc g G) as Hl. unfold unet_encoder. change 0 with (Z.of_nat 0). rewrite (tget_len _ 0 O) by lia. cbn [bind].
      assert (ER : rho = rho - EJ 0 + 2 ^ Z.of_nat (dep - dep)) by (unfold EJ; cbn [firstn enc_reach]; rewrite Nat.sub_diag; change (2 ^ Z.of_nat 0) with 1; lia). rewrite ER in HX.
      eapply run2_bind; [apply (W_conv3_bn_relu _ cin (enc 0) dep (rho - EJ 0)); [lia|lia|small|lia|exact HX]|].
      intros y y' HY. apply (fold2 WD).
      - intros j Hj. assert (j = O) by lia. subst j. rewrite Nat.sub_0_r, !dfind_put, Z.eqb_refl. apply run2_ret. exact HY.
      - intros k m m' Hk HD. apply W_down; assumption.
    Qed.
    Lemma W_up m m' k x x' : WD es m m' -> (k < ds)%nat -> R (dep - es + k) (rho - DK k) (dec k) x x' ->
      run2 (R (dep - es + S k) (rho - DK (S k)) (dec (S k))) (unet_up g P ne o (Z.of_nat (dep - es)) m x (Z.of_nat k)) (unet_up g P ne o' (Z.of_nat (dep - es)) m' x' (Z.of_nat k)).
    Proof.
      intros H Hk HX. pose proof (uc_enc g G) as Hl. pose proof (uc_dec g G) as Hl2. pose proof (uc_stages g G) as Hst. unfold unet_up.
      rewrite (tget_len _ k O) by lia. cbn [bind]. replace (Z.of_nat k + 1) with (Z.of_nat (S k)) by lia. rewrite (tget_len _ (S k) O) by lia. cbn [bind].
      replace (- Z.of_nat k - 2) with (- Z.of_nat (k + 2)) by lia. rewrite (tget_neg _ (k + 2) O) by lia. cbn [bind]. rewrite (tget_len (u_dec_blk g) k O) by lia. cbn [bind].
      replace (Z.of_nat (dep - es) + Z.of_nat k) with (Z.of_nat (dep - es + k)) by lia. replace (Z.of_nat (dep - es + k) + 1) with (Z.of_nat (dep - es + S k)) by lia.
      replace (dep - es + S k)%nat with (S (dep - es + k)) by lia.
      pose proof (forall_nth_ok _ (S k) (uc_dec_small g G)) as Hc1. pose proof (forall_nth_ok _ (length (u_enc_ch g) - (k + 2)) (uc_enc_small g G)) as Hc2.
      set (hh := 2 ^ Z.of_nat (dep - S (dep - es + k))). set (nb := Z.of_nat (nth k (u_dec_blk g) O) * (if u_basic g then 2 else 1) * hh).
      assert (ER : rho - DK k = rho - DK (S k) + nb + hh).
      { unfold DK. rewrite dec_step by exact Hk. unfold nb. change (if u_basic g then 2 else 1) with w. unfold hh. replace (dep - S (dep - es + k))%nat with (es - S k)%nat by lia. lia. }
      assert (Hnb : 0 <= nb) by (unfold nb, hh; change (if u_basic g then 2 else 1) with w; apply term_nonneg; [lia|pose proof w_pos; lia]).
      assert (Hhh : 0 < hh) by apply side_pos.
      assert (DP : EJ es <= DK k) by (unfold DK; pose proof (dec_mono w (u_dec_blk g) es 0 k ltac:(pose proof w_pos; lia) ltac:(lia)) as M; cbn [firstn dec_reach] in M; lia).
      pose proof (EJ_pos es ltac:(lia)) as EP.
      rewrite ER in HX.
      eapply run2_bind; [apply (W_deconv2_bn_relu _ (dec k) (dec (S k)) (dep - es + k) (rho - DK (S k) + nb)); [lia|lia|small|fold hh; lia|exact HX]|].
      intros y y' HY. eapply run2_bind; [pose proof (H (es - S k)%nat ltac:(lia)) as Q; replace (dep - (es - S k))%nat with (S (dep - es + k)) in Q by lia; exact Q|]. intros u u' HU.
      assert (HU' : R (S (dep - es + k)) (rho - DK (S k) + nb) (enc (es - S k)) u u').
      { apply (R_mono (S (dep - es + k)) _ (rho - EJ (es - S k))); [|exact HU]. pose proof (EJ_mono (es - S k) es ltac:(lia)). lia. }
      eapply run2_bind; [apply (W_cat _ _ _ _ u u' y y' HU' HY)|]. intros v v' HV. replace (es - S k)%nat with (length (u_enc_ch g) - (k + 2))%nat in HV by lia. rewrite (Nat.add_comm (enc _)) in HV.
      apply W_res_blocks; [lia|lia|apply G|exact Hc1|unfold channel_ok in Hc1, Hc2; lia| |fold hh nb; lia|exact HV].
      left. intros E. pose proof (uc_blocks g G) as F. rewrite Forall_forall in F. apply (F (nth k (u_dec_blk g) O)); [apply nth_In; exact Hk|exact E].
    Qed.
    Lemma reach_DK : DK ds = unet_reach g.
    Proof. unfold DK, EJ, unet_reach. rewrite !firstn_all. reflexivity. Qed.
    Lemma W_backbone x x' : R dep rho cin x x' -> exists m m' y y', unet_encoder g P cin ne x o (Z.of_nat dep) = Ok m /\ unet_encoder g P cin ne x' o' (Z.of_nat dep) = Ok m' /\
      unet_decoder g P ne m o (Z.of_nat (dep - es)) = Ok y /\ unet_decoder g P ne m' o' (Z.of_nat (dep - es)) = Ok y' /\ R (dep - es + ds) (rho - unet_reach g) (dec ds) y y'.
    Proof.
      intros HX. pose proof (uc_enc g G) as Hl. destruct (W_encoder x x' HX) as (m & m' & E1 & E1' & HD).
      assert (DEC : run2 (R (dep - es + ds) (rho - DK ds) (dec ds)) (unet_decoder g P ne m o (Z.of_nat (dep - es))) (unet_decoder g P ne m' o' (Z.of_nat (dep - es)))).
      { unfold unet_decoder. eapply run2_bind; [apply (HD es); lia|]. intros y y' HY.
        apply (fold2 (fun k => R (dep - es + k) (rho - DK k) (dec k))).
        - rewrite Nat.add_0_r, (uc_joint g G), (last_nat (u_enc_ch g) es Hl). unfold DK. cbn [firstn dec_reach]. rewrite Z.add_0_r. exact HY.
        - intros k v v' Hk HV. apply W_up; assumption. }
      rewrite reach_DK in DEC. destruct DEC as (y & y' & E2 & E2' & HY). exists m, m', y, y'. auto.
    Qed.
  End Net.
End Unet.
