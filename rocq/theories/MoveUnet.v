(** Moving a shape: the segmentation network UNet. *)
From Coq Require Import String List ZArith Bool QArith Qcanon Lia Permutation.
From Verif Require Import Res Tensor Key Num NumFacts Points Octree NnBasic NnConv NnInterp Features Net Spec SpecGeo SpecBuild SpecNeigh SpecNN SpecInterp SpecNet SpecBatch SpecMove SpecMoveSeg
  WF ListFacts WFFacts SumFacts NnFacts ConvOct Deconv NetFacts NetLoops NetPool NetSeg NetBatch MoveFacts MoveNet MoveBuild MoveSeg MoveInterp DecodeBatch.
Import ListNotations.
Open Scope Z_scope.

Ltac small := apply chan_le; try assumption.

Lemma last_nat (l : list nat) n : length l = S n -> last l O = nth n l O.
Proof.
  revert n. induction l as [|a l IH]; intros n H; [discriminate|]. destruct l as [|b l]; [cbn in H; assert (n = O) by lia; subst; reflexivity|].
  destruct n as [|n]; [discriminate|]. change (last (b :: l) O = nth n (b :: l) O). apply IH. cbn in H |- *. lia.
Qed.

Lemma fair_keeps k P : fair_norms k P -> norms_keep k P.
Proof.
  intros H p C n x Hn [L F]. destruct (H p C) as (f & _ & Hf). destruct (Hf x ltac:(lia) F) as [E F']. exists (map (f x) x). split; [exact E|].
  split; [rewrite map_length; exact L|exact F'].
Qed.

Lemma linear_rows P p ci co ub : exists f, (forall r, length r = ci -> length (f r) = co) /\ forall x, Forall (fun r => length r = ci) x -> linear P p ci co ub x = Ok (map f x).
Proof.
  set (B := transpose ci (tensor2 co ci (p_weight P p 0%nat))). assert (HBl : length B = ci) by apply transpose_len.
  exists (fun r => match (if ub then Some (tensor1 co (p_bias P p)) else None) with None => vecmat co r B | Some b => vadd (vecmat co r B) b end). split.
  - intros r Hr. destruct ub.
    + rewrite vadd_len; unfold vecmat; rewrite map_length, seq_length; [reflexivity|]. symmetry. apply tensor1_len.
    + unfold vecmat. rewrite map_length, seq_length. reflexivity.
  - intros z Hz. unfold linear. fold B. rewrite (mm_ok co z B ci Hz HBl). cbn [bind]. unfold add_bias. destruct ub; [rewrite map_map|]; reflexivity.
Qed.
(** The head on rows in another order. *)
Lemma head_reordered k P p ci ch co n tau x x' : fair_norms k P -> (k <= n)%nat -> permutes tau n -> shape n ci x -> shape n ci x' -> reordered tau x x' ->
  exists y y', head P p ci ch co x = Ok y /\ head P p ci ch co x' = Ok y' /\ shape n co y /\ reordered tau y y'.
Proof.
  intros HP Hk HT [L F] [L' F'] HR. unfold head, conv1x1_bn_relu. destruct (linear_rows P (p ++ [("0"%string, 0)]) ci ch false) as (f & Fl & Hf).
  rewrite (Hf x F), (Hf x' F'). cbn [bind].
  assert (F1 : Forall (fun r => length r = ch) (map f x)) by (apply Forall_map; eapply Forall_impl; [|exact F]; exact Fl).
  assert (F1' : Forall (fun r => length r = ch) (map f x')) by (apply Forall_map; eapply Forall_impl; [|exact F']; exact Fl).
  destruct (HP (p ++ [("0"%string, 0)]) ch) as (f2 & Hs & Hf2).
  destruct (Hf2 (map f x) ltac:(rewrite map_length; lia) F1) as [-> F2]. destruct (Hf2 (map f x') ltac:(rewrite map_length; lia) F1') as [-> F2']. cbn [bind].
  assert (Q : reordered tau (map (f2 (map f x)) (map f x)) (map (f2 (map f x')) (map f x'))).
  { rewrite (map_ext (f2 (map f x')) (f2 (map f x))); [apply reordered_map, reordered_map, HR|]. apply Hs, Permutation_sym, (reordered_perm tau); [rewrite map_length, L; exact HT|apply reordered_map, HR]. }
  destruct (linear_rows P (p ++ [("1"%string, 0)]) ch co true) as (f3 & Fl3 & Hf3).
  assert (G : forall z, Forall (fun r => length r = ch) z -> Forall (fun r => length r = ch) (relu z)) by (intros z Hz; apply (relu_shape (length z)); split; [reflexivity|exact Hz]).
  rewrite (Hf3 _ (G _ F2)), (Hf3 _ (G _ F2')). eexists _, _. split; [reflexivity|]. split; [reflexivity|]. split.
  - split; [unfold relu; rewrite !map_length; exact L|]. apply Forall_map. eapply Forall_impl; [|apply (G _ F2)]. exact Fl3.
  - unfold relu. apply reordered_map, reordered_map, Q.
Qed.

Section Unet.
  Context {renum : Z -> Z}.
  Variables (e : nat) (t : Z -> Z * Z * Z) (o o' : octree).
  Variables (ne : bool) (lo : nat).
  Hypothesis Hlo : (e <= lo)%nat /\ (ne = false -> (S e <= lo)%nat).
  Notation s := (shift_to renum e t).
  Notation same := (fun v : Z * Z * Z => v).
  Hypothesis HM : motion_to renum e s same.
  Hypothesis HF : keeps_first e s.
  Hypothesis HO : moved e s o o'.
  Hypothesis HW : wf_octree o.
  Hypothesis HW' : wf_octree o'.
  Notation R := (R s o o' ne).
  Variable P : params.
  Variable mr : nat.
  Hypothesis HP : fair_norms mr P.
  Variable hi : nat.
  Hypothesis Hhi : (hi <= depth o)%nat.
  Hypothesis HN : forall d, (lo <= d <= hi)%nat -> (1 <= d)%nat -> has_neigh o d.
  Hypothesis HN' : forall d, (lo <= d <= hi)%nat -> (1 <= d)%nat -> has_neigh o' d.
  Hypothesis HK : forall d, (lo <= d <= hi)%nat -> (1 <= d)%nat -> (mr <= node_count o d ne)%nat.

  Lemma same_params : kernels_turned same P P.
  Proof. constructor; intros; try reflexivity. eauto. Qed.
  Lemma turned_self kernel (W : list (list (list Qc))) : turned same kernel W W.
  Proof. intros k v H. exists k. auto. Qed.
  Lemma ready d st k : (st = 1 \/ st = 2) -> (lo <= d <= hi)%nat -> (1 <= d)%nat -> In k kernels -> conv_ready o d k st /\ conv_ready o' d k st.
  Proof.
    intros Hs Hd H1 Hk. pose proof (proj1 HO) as D.
    split; (split; [assumption|]; split; [lia|]; split; [first [apply HN; assumption|apply HN'; assumption]|]; split; [exact Hk|]; destruct Hs as [->| ->]; [left; reflexivity|right; split; [reflexivity|lia]]).
  Qed.
  Lemma G_conv p ci co ks st d x x' : (ks = [3] \/ ks = [2])%nat -> (st = 1 \/ st = 2) -> (lo <= d)%nat -> (up d st <= hi)%nat -> (1 <= up d st)%nat -> Z.of_nat ci <= 5000000 ->
    R (up d st) ci x x' -> run2 (R d co) (conv P p ci co ks st ne x o (Z.of_nat (up d st))) (conv P p ci co ks st ne x' o' (Z.of_nat (up d st))).
  Proof.
    intros Hk Hs Hd Hu H1 Hc HR. assert (Hdu : (d <= up d st)%nat) by (unfold up; destruct (st =? 2); lia).
    destruct (std_kernel ks ci co st ne true Hk) as (m & k & E & E1 & E2 & E3 & Hin & Hk2 & Hle).
    assert (G : forall z oo, conv P p ci co ks st ne z oo (Z.of_nat (up d st)) = OctreeConv (mkCfg ci co ks st ne 200000000 true) false (tensor3 (m_kdim m) (m_inconv m) (m_outconv m) (p_weight P p)) None z oo (up d st)).
    { intros z oo. unfold conv. rewrite E. cbn [bind]. unfold at_depth. replace (Z.of_nat (up d st) <? 0) with false by (symmetry; apply Z.ltb_ge; lia). rewrite Nat2Z.id. reflexivity. }
    rewrite !G. destruct (ready (up d st) st k Hs ltac:(lia) H1 Hk2) as [Q Q'].
    apply (move_conv_any e s same o o' ne lo Hlo HM HF HO HW HW' st d ks k ci co 200000000 x x' _ _ None Hs Hd Q Q' Hin HR); rewrite ?E1, ?E2, ?E3; [apply tensor3_shape|apply tensor3_shape|apply turned_self|exact I|nia].
  Qed.
  Lemma G_deconv p ci co ks st d x x' : (ks = [3] \/ ks = [2])%nat -> (st = 1 \/ st = 2) -> (lo <= d)%nat -> (up d st <= hi)%nat -> (1 <= up d st)%nat -> Z.of_nat co <= 5000000 ->
    R d ci x x' -> run2 (R (up d st) co) (deconv P p ci co ks st ne x o (Z.of_nat d)) (deconv P p ci co ks st ne x' o' (Z.of_nat d)).
  Proof.
    intros Hk Hs Hd Hu H1 Hc HR. assert (Hdu : (d <= up d st)%nat) by (unfold up; destruct (st =? 2); lia).
    destruct (std_kernel ks ci co st ne false Hk) as (m & k & E & E1 & E2 & E3 & Hin & Hk2 & Hle).
    assert (G : forall z oo, deconv P p ci co ks st ne z oo (Z.of_nat d) = OctreeDeconv (mkCfg ci co ks st ne 200000000 false) false (tensor3 (m_kdim m) (m_inconv m) (m_outconv m) (p_weight P p)) None z oo d).
    { intros z oo. unfold deconv. rewrite E. cbn [bind]. unfold at_depth. replace (Z.of_nat d <? 0) with false by (symmetry; apply Z.ltb_ge; lia). rewrite Nat2Z.id. reflexivity. }
    rewrite !G. destruct (ready (up d st) st k Hs ltac:(lia) H1 Hk2) as [Q Q'].
    apply (move_deconv e s same o o' ne lo Hlo HM HF HO HW HW' st d ks k co ci 200000000 x x' _ _ Hs Hd Q Q' Hin HR); rewrite ?E1, ?E2, ?E3; [apply tensor3_shape|apply tensor3_shape|apply turned_self|nia].
  Qed.
  Lemma up_ge d st : (d <= up d st)%nat.
  Proof. unfold up. destruct (st =? 2); lia. Qed.
  Lemma G_norm p d C x x' : (lo <= d <= hi)%nat -> (1 <= d)%nat -> R d C x x' -> run2 (R d C) (p_norm P p C x) (p_norm P p C x').
  Proof. intros H1 H2 H. apply (R_norm e s same o o' ne lo Hlo HM HO HW HW' P P mr HP same_params); [split; [lia|apply HK; assumption]|exact H]. Qed.
  Lemma G_relu d C x x' : R d C x x' -> R d C (relu x) (relu x').
  Proof. apply R_relu. Qed.
  Lemma G_linear p d ci co ub x x' : R d ci x x' -> run2 (R d co) (linear P p ci co ub x) (linear P p ci co ub x').
  Proof.
    intros HR. set (B := transpose ci (tensor2 co ci (p_weight P p 0%nat))). assert (HBl : length B = ci) by apply transpose_len.
    set (f := fun r => match (if ub then Some (tensor1 co (p_bias P p)) else None) with None => vecmat co r B | Some b => vadd (vecmat co r B) b end).
    assert (Hf : forall x, Forall (fun r => length r = ci) x -> linear P p ci co ub x = Ok (map f x)).
    { intros z Hz. unfold linear. fold B. rewrite (mm_ok co z B ci Hz HBl). cbn [bind]. unfold add_bias, f. destruct ub; [rewrite map_map|]; reflexivity. }
    exists (map f x), (map f x'). split; [apply Hf; apply HR|]. split; [apply Hf; apply HR|]. apply (R_map s o o' ne d ci co f); [|exact HR].
    intros r Hr. unfold f. destruct ub.
    - rewrite vadd_len; unfold vecmat; rewrite map_length, seq_length; [reflexivity|]. symmetry. apply tensor1_len.
    - unfold vecmat. rewrite map_length, seq_length. reflexivity.
  Qed.
  Lemma G_conv_bn p ci co ks st d x x' : (ks = [3] \/ ks = [2])%nat -> (st = 1 \/ st = 2) -> (lo <= d)%nat -> (up d st <= hi)%nat -> (1 <= up d st)%nat -> (1 <= d)%nat -> Z.of_nat ci <= 5000000 ->
    R (up d st) ci x x' -> run2 (R d co) (conv_bn P p ci co ks st ne x o (Z.of_nat (up d st))) (conv_bn P p ci co ks st ne x' o' (Z.of_nat (up d st))).
  Proof. intros Hks Hs Hd Hu H1 H2 Hc HR. pose proof (up_ge d st). eapply run2_bind; [apply (G_conv _ ci co); eassumption|]. intros y y' H'. apply G_norm; [lia|lia|exact H']. Qed.
  Lemma G_conv_bn_relu p ci co ks st d x x' : (ks = [3] \/ ks = [2])%nat -> (st = 1 \/ st = 2) -> (lo <= d)%nat -> (up d st <= hi)%nat -> (1 <= up d st)%nat -> (1 <= d)%nat -> Z.of_nat ci <= 5000000 ->
    R (up d st) ci x x' -> run2 (R d co) (conv_bn_relu P p ci co ks st ne x o (Z.of_nat (up d st))) (conv_bn_relu P p ci co ks st ne x' o' (Z.of_nat (up d st))).
  Proof. intros Hks Hs Hd Hu H1 H2 Hc HR. pose proof (up_ge d st). eapply run2_bind; [apply (G_conv _ ci co); eassumption|]. intros y y' H'. eapply run2_bind; [apply (G_norm _ d); [lia|lia|exact H']|]. intros z z' Hz. apply run2_ret, G_relu, Hz. Qed.
  Lemma G_deconv_bn_relu p ci co ks st d x x' : (ks = [3] \/ ks = [2])%nat -> (st = 1 \/ st = 2) -> (lo <= d)%nat -> (up d st <= hi)%nat -> (1 <= up d st)%nat -> Z.of_nat co <= 5000000 ->
    R d ci x x' -> run2 (R (up d st) co) (deconv_bn_relu P p ci co ks st ne x o (Z.of_nat d)) (deconv_bn_relu P p ci co ks st ne x' o' (Z.of_nat d)).
  Proof. intros Hks Hs Hd Hu H1 Hc HR. pose proof (up_ge d st). eapply run2_bind; [apply (G_deconv _ ci co); eassumption|]. intros y y' H'. eapply run2_bind; [apply (G_norm _ (up d st)); [lia|lia|exact H']|]. intros z z' Hz. apply run2_ret, G_relu, Hz. Qed.
  Lemma G_conv1x1_bn p d ci co x x' : (lo <= d <= hi)%nat -> (1 <= d)%nat -> R d ci x x' -> run2 (R d co) (conv1x1_bn P p ci co x) (conv1x1_bn P p ci co x').
  Proof. intros H1 H2 HR. eapply run2_bind; [apply G_linear; eassumption|]. intros y y' H. apply G_norm; assumption. Qed.
  Lemma G_conv1x1_bn_relu p d ci co x x' : (lo <= d <= hi)%nat -> (1 <= d)%nat -> R d ci x x' -> run2 (R d co) (conv1x1_bn_relu P p ci co x) (conv1x1_bn_relu P p ci co x').
  Proof. intros H1 H2 HR. eapply run2_bind; [apply G_linear; eassumption|]. intros y y' H. eapply run2_bind; [apply (G_norm _ d); [assumption|assumption|exact H]|]. intros z z' Hz. apply run2_ret, G_relu, Hz. Qed.
  Lemma G_proj p d ci co x x' : (lo <= d <= hi)%nat -> (1 <= d)%nat -> R d ci x x' -> run2 (R d co) (if Nat.eqb ci co then Ok x else conv1x1_bn P p ci co x) (if Nat.eqb ci co then Ok x' else conv1x1_bn P p ci co x').
  Proof. intros H1 H2 HR. destruct (Nat.eqb_spec ci co) as [->|]; [apply run2_ret; exact HR|apply G_conv1x1_bn; assumption]. Qed.
  Lemma up1 d : up d 1 = d.
  Proof. reflexivity. Qed.
  Lemma up2 d : up d 2 = S d.
  Proof. unfold up. cbn [Z.eqb Pos.eqb]. lia. Qed.
  Lemma G_res_block p d ci co bk x x' : (lo <= d <= hi)%nat -> (1 <= d)%nat -> bk <> O -> channel_ok co -> R d ci x x' ->
    run2 (R d co) (res_block P p ci co 1 bk ne x o (Z.of_nat d)) (res_block P p ci co 1 bk ne x' o' (Z.of_nat d)).
  Proof.
    intros Hd H1 Hb Hc HR. unfold res_block, bottleneck_channels. rewrite (proj2 (Nat.eqb_neq bk 0) Hb). cbn [bind Z.eqb Pos.eqb].
    pose proof (Nat.div_le_upper_bound co bk co Hb ltac:(nia)) as Hcb. unfold channel_ok in Hc.
    eapply run2_bind; [apply (G_conv1x1_bn_relu _ d); [exact Hd|exact H1|exact HR]|]. intros y1 y1' K1.
    eapply run2_bind; [apply (G_conv_bn_relu _ _ (co / bk) [3%nat] 1 d); [auto|auto|lia|rewrite up1; lia|rewrite up1; lia|lia|lia|exact K1]|]. intros y2 y2' K2.
    eapply run2_bind; [apply (G_conv1x1_bn _ d); [exact Hd|exact H1|exact K2]|]. intros y3 y3' K3. eapply run2_bind; [apply G_proj; [exact Hd|exact H1|exact HR]|]. intros y4 y4' K4.
    eapply run2_bind; [apply (R_add e s o o' ne lo Hlo d co); [exact K3|exact K4]|]. intros y5 y5' K5. apply run2_ret, G_relu, K5.
  Qed.
  Lemma G_res_block2 p d ci co bk x x' : (lo <= d <= hi)%nat -> (1 <= d)%nat -> bk <> O -> channel_ok co -> Z.of_nat ci <= 5000000 -> R d ci x x' ->
    run2 (R d co) (res_block2 P p ci co 1 bk ne x o (Z.of_nat d)) (res_block2 P p ci co 1 bk ne x' o' (Z.of_nat d)).
  Proof.
    intros Hd H1 Hb Hc Hci HR. unfold res_block2, bottleneck_channels. rewrite (proj2 (Nat.eqb_neq bk 0) Hb). cbn [bind Z.eqb Pos.eqb].
    pose proof (Nat.div_le_upper_bound co bk co Hb ltac:(nia)) as Hcb. unfold channel_ok in Hc.
    eapply run2_bind; [apply (G_conv_bn_relu _ _ (co / bk) [3%nat] 1 d); [auto|auto|lia|rewrite up1; lia|rewrite up1; lia|lia|exact Hci|exact HR]|]. intros y2 y2' K2.
    eapply run2_bind; [apply (G_conv_bn _ _ co [3%nat] 1 d); [auto|auto|lia|rewrite up1; lia|rewrite up1; lia|lia|lia|exact K2]|]. intros y3 y3' K3.
    eapply run2_bind; [apply G_proj; [exact Hd|exact H1|exact HR]|]. intros y4 y4' K4.
    eapply run2_bind; [apply (R_add e s o o' ne lo Hlo d co); [exact K3|exact K4]|]. intros y5 y5' K5. apply run2_ret, G_relu, K5.
  Qed.
  Lemma G_res_blocks p d ci co num bk basic x x' : (lo <= d <= hi)%nat -> (1 <= d)%nat -> bk <> O -> channel_ok co -> Z.of_nat ci <= 5000000 -> (num <> O \/ ci = co) -> R d ci x x' ->
    run2 (R d co) (res_blocks P p ci co num bk ne basic x o (Z.of_nat d)) (res_blocks P p ci co num bk ne basic x' o' (Z.of_nat d)).
  Proof.
    intros Hd H1 Hb Hc Hci Hnum HR.
    assert (G : run2 (R d (nth num (ci :: repeat co num) O)) (res_blocks P p ci co num bk ne basic x o (Z.of_nat d)) (res_blocks P p ci co num bk ne basic x' o' (Z.of_nat d))).
    { unfold res_blocks. apply (run2_fold e ne lo Hlo (fun k => R d (nth k (ci :: repeat co num) O))); [exact HR|]. intros k y y' Hk Hy.
      rewrite (tget_len _ k O) by (cbn [length]; rewrite repeat_length; lia). cbn [bind]. replace (Z.of_nat k + 1) with (Z.of_nat (S k)) by lia.
      rewrite (tget_len _ (S k) O) by (cbn [length]; rewrite repeat_length; lia). cbn [bind].
      replace (nth (S k) (ci :: repeat co num) O) with co by (cbn [nth]; symmetry; apply nth_repeat'; exact Hk).
      assert (E' : Z.of_nat (nth k (ci :: repeat co num) O) <= 5000000) by (destruct k as [|k]; cbn [nth]; [exact Hci|rewrite nth_repeat' by lia; unfold channel_ok in Hc; lia]).
      destruct basic; [apply G_res_block2; assumption|apply G_res_block; assumption]. }
    destruct num as [|m]; [destruct Hnum as [N|E]; [contradiction|cbn [nth] in G; rewrite <- E at 1; exact G]|]. cbn [nth] in G. rewrite nth_repeat' in G by lia. exact G.
  Qed.
  Lemma G_cat d C D x x' y y' : R d C x x' -> R d D y y' -> run2 (R d (C + D)) (cat_cols [x; y]) (cat_cols [x'; y']).
  Proof.
    intros ([A1 A2] & [B1 B2] & Hx) ([C1 C2] & [D1 D2] & Hy). exists (zip_with (@app Qc) x y), (zip_with (@app Qc) x' y').
    split; [cbn [cat_cols foldM]; rewrite A1, C1, Nat.eqb_refl; reflexivity|]. split; [cbn [cat_cols foldM]; rewrite B1, D1, Nat.eqb_refl; reflexivity|].
    assert (Sh : forall n a b, length a = n -> length b = n -> Forall (fun r => length r = C) a -> Forall (fun r => length r = D) b -> shape n (C + D) (zip_with (@app Qc) a b)).
    { intros n a b E1 E2 F1 F2. unfold zip_with. split; [rewrite map_length, combine_length; lia|]. apply Forall_map, Forall_forall. intros [u v] Hi. rewrite Forall_forall in F1, F2.
      pose proof (F1 u (in_combine_l _ _ _ _ Hi)) as Hu. pose proof (F2 v (in_combine_r _ _ _ _ Hi)) as Hv. change (length (u ++ v) = (C + D)%nat). rewrite app_length. cbv beta in Hu, Hv. congruence. }
    split; [apply Sh; assumption|]. split; [apply Sh; assumption|].
    intros cs cs' i j q E1 E2 Hi Hj. unfold zip_with. rewrite !nth_error_map, !nth_error_combine. rewrite (Hx cs cs' i j q E1 E2 Hi Hj), (Hy cs cs' i j q E1 E2 Hi Hj). reflexivity.
  Qed.

  Section Net.
    Variables (g : unet_cfg) (cin cout dep : nat).
    Hypothesis G : unet_config g.
    Notation es := (length (u_enc_blk g)).
    Notation ds := (length (u_dec_blk g)).
    Notation enc j := (nth j (u_enc_ch g) O).
    Notation dec j := (nth j (u_dec_ch g) O).
    Hypothesis Hdep : (es < dep <= hi)%nat.
    Hypothesis Hlow : (lo <= dep - es)%nat.
    Hypothesis Hcin : channel_ok cin.
    Definition RD (k : nat) (c c' : ddict feat) : Prop := forall j, (j <= k)%nat -> run2 (R (dep - j) (enc j)) (dfind c (Z.of_nat (dep - j))) (dfind c' (Z.of_nat (dep - j))).
    Lemma G_down k c c' : (k < es)%nat -> RD k c c' -> run2 (RD (S k)) (unet_down g P ne o (Z.of_nat dep) c (Z.of_nat k)) (unet_down g P ne o' (Z.of_nat dep) c' (Z.of_nat k)).
    Proof.
      intros Hk H. pose proof (uc_enc g G) as Hl. unfold unet_down. rewrite (tget_len _ k O) by lia. cbn [bind].
      replace (Z.of_nat k + 1) with (Z.of_nat (S k)) by lia. rewrite (tget_len _ (S k) O) by lia. cbn [bind]. rewrite (tget_len (u_enc_blk g) k O) by lia. cbn [bind].
      replace (Z.of_nat dep - Z.of_nat k) with (Z.of_nat (dep - k)) by lia. eapply run2_bind; [apply (H k); lia|]. intros x x' HX.
      replace (Z.of_nat (dep - k) - 1) with (Z.of_nat (dep - S k)) by lia. assert (Hup : up (dep - S k) 2 = (dep - k)%nat) by (rewrite up2; lia).
      eapply run2_bind; [rewrite <- Hup in HX |- *; apply (G_conv_bn_relu _ _ (enc (S k)) [2%nat] 2 (dep - S k)); [auto|auto|lia|rewrite Hup; lia|rewrite Hup; lia|lia|small; apply forall_nth_ok, G|exact HX]|].
      intros y y' HY. eapply run2_bind; [apply (G_res_blocks _ (dep - S k) (enc (S k)) (enc (S k))); [lia|lia|apply G|apply forall_nth_ok, G|small; apply forall_nth_ok, G|auto|exact HY]|].
      intros u u' HU. apply run2_ret. intros j Hj. rewrite !dfind_put. destruct (Nat.eq_dec j (S k)) as [->|N].
      - rewrite Z.eqb_refl. apply run2_ret. exact HU.
      - assert (E : (Z.of_nat (dep - j) =? Z.of_nat (dep - S k)) = false) by (apply Z.eqb_neq; lia). rewrite E. apply H. lia.
    Qed.
    Lemma G_encoder x x' : R dep cin x x' -> run2 (RD es) (unet_encoder g P cin ne x o (Z.of_nat dep)) (unet_encoder g P cin ne x' o' (Z.of_nat dep)).
    Proof.
      intros HX. pose proof (uc_enc g G) as Hl. unfold unet_encoder. change 0 with (Z.of_nat 0). rewrite (tget_len _ 0 O) by lia. cbn [bind].
      eapply run2_bind; [apply (G_conv_bn_relu _ cin (enc 0) [3%nat] 1 dep); [auto|auto|lia|rewrite up1; lia|rewrite up1; lia|lia|small|exact HX]|].
      intros y y' HY. apply (run2_fold e ne lo Hlo RD).
      - intros j Hj. assert (j = O) by lia. subst j. rewrite Nat.sub_0_r, !dfind_put, Z.eqb_refl. apply run2_ret. exact HY.
      - intros k c c' Hk HD. apply G_down; assumption.
    Qed.
    Lemma G_up c c' k x x' : RD es c c' -> (k < ds)%nat -> R (dep - es + k) (dec k) x x' ->
      run2 (R (dep - es + S k) (dec (S k))) (unet_up g P ne o (Z.of_nat (dep - es)) c x (Z.of_nat k)) (unet_up g P ne o' (Z.of_nat (dep - es)) c' x' (Z.of_nat k)).
    Proof.
      intros H Hk HX. pose proof (uc_enc g G) as Hl. pose proof (uc_dec g G) as Hl2. pose proof (uc_stages g G) as Hst. unfold unet_up.
      rewrite (tget_len _ k O) by lia. cbn [bind]. replace (Z.of_nat k + 1) with (Z.of_nat (S k)) by lia. rewrite (tget_len _ (S k) O) by lia. cbn [bind].
      replace (- Z.of_nat k - 2) with (- Z.of_nat (k + 2)) by lia. rewrite (tget_neg _ (k + 2) O) by lia. cbn [bind]. rewrite (tget_len (u_dec_blk g) k O) by lia. cbn [bind].
      replace (Z.of_nat (dep - es) + Z.of_nat k) with (Z.of_nat (dep - es + k)) by lia. replace (Z.of_nat (dep - es + k) + 1) with (Z.of_nat (dep - es + S k)) by lia.
      assert (Hup : up (dep - es + k) 2 = (dep - es + S k)%nat) by (rewrite up2; lia).
      pose proof (forall_nth_ok _ (S k) (uc_dec_small g G)) as Hc1. pose proof (forall_nth_ok _ (length (u_enc_ch g) - (k + 2)) (uc_enc_small g G)) as Hc2.
      eapply run2_bind; [apply (G_deconv_bn_relu _ (dec k) (dec (S k)) [2%nat] 2 (dep - es + k)); [auto|auto|lia|rewrite Hup; lia|rewrite Hup; lia|small|exact HX]|]. rewrite Hup.
      intros y y' HY. eapply run2_bind; [pose proof (H (es - S k)%nat ltac:(lia)) as Q; replace (dep - (es - S k))%nat with (dep - es + S k)%nat in Q by lia; exact Q|]. intros u u' HU.
      eapply run2_bind; [apply (G_cat _ _ _ u u' y y' HU HY)|]. intros v v' HV. replace (es - S k)%nat with (length (u_enc_ch g) - (k + 2))%nat in HV by lia. rewrite (Nat.add_comm (enc _)) in HV.
      apply G_res_blocks; [lia|lia|apply G|exact Hc1|unfold channel_ok in Hc1, Hc2; lia| |exact HV].
      left. intros E. pose proof (uc_blocks g G) as F. rewrite Forall_forall in F. apply (F (nth k (u_dec_blk g) O)); [apply nth_In; exact Hk|exact E].
    Qed.
    Hypothesis HRI : forall b c, renum b = renum c -> b = c.
    Lemma G_unet_to tau lin x x' pts pts' : (mr <= length pts)%nat -> R dep cin x x' -> permutes tau (length pts) -> reordered tau (moved_points_to renum e t pts) pts' ->
      Forall (askable lin (dep - es + ds)) pts -> Forall (askable lin (dep - es + ds)) pts' ->
      exists y q y' q', UNet g P cin cout lin ne x o (Z.of_nat dep) pts = Ok (y, q) /\ UNet g P cin cout lin ne x' o' (Z.of_nat dep) pts' = Ok (y', q') /\ shape (length pts) cout y /\ reordered tau y y'.
    Proof.
      intros Hpts HX HTP HTR HA HA'. pose proof (uc_enc g G) as Hl. pose proof (uc_dec g G) as Hl2. pose proof (uc_stages g G) as Hst. unfold UNet.
      replace (Z.of_nat dep - zlen (u_enc_blk g)) with (Z.of_nat (dep - es)) by (unfold zlen; lia).
      replace (Z.of_nat (dep - es) + zlen (u_dec_blk g)) with (Z.of_nat (dep - es + ds)) by (unfold zlen; lia).
      destruct (G_encoder x x' HX) as (c & c' & E1 & E1' & HD). rewrite E1, E1'. cbn [bind].
      assert (DEC : run2 (R (dep - es + ds) (dec ds)) (unet_decoder g P ne c o (Z.of_nat (dep - es))) (unet_decoder g P ne c' o' (Z.of_nat (dep - es)))).
      { unfold unet_decoder. eapply run2_bind; [apply (HD es); lia|]. intros y y' HY.
        apply (run2_fold e ne lo Hlo (fun k => R (dep - es + k) (dec k))).
        - rewrite Nat.add_0_r, (uc_joint g G), (last_nat (u_enc_ch g) es Hl). exact HY.
        - intros k v v' Hk HV. apply G_up; assumption. }
      destruct DEC as (y & y' & E2 & E2' & HY). rewrite E2, E2'. cbn [bind]. change (-1) with (- Z.of_nat 1). rewrite (tget_neg _ 1 O) by lia. cbn [bind]. replace (length (u_dec_ch g) - 1)%nat with ds by lia.
      destruct (move_interp_to e t o o' ne lo Hlo HM HRI HO HW HW' tau lin (dec ds) (dep - es + ds) y y' pts pts' ltac:(lia) HY HTP HTR HA HA') as (z & q & z' & q' & E3 & E3' & Sz & Sz' & Hz). rewrite E3, E3'. cbn [bind].
      destruct (head_reordered mr P [("header"%string, 0)] (dec ds) (u_head g) cout (length pts) tau z z' HP Hpts HTP Sz Sz' Hz) as (l & l' & El & El' & Sl & Hl'). rewrite El, El'. cbn [bind]. exists l, q, l', q'. auto.
    Qed.
  End Net.
End Unet.
