(** Proofs about the elastic distortion of ScanNet. *)
From Coq Require Import String Ascii List ZArith Bool QArith Qround Qcanon Lia Lqa.
From Verif Require Import Res Tensor Num Points Octree PointsOps Spec SpecPoints
  ListFacts NumFacts SumFacts PoolFacts Dataset Project SpecNN SpecProject MetricFacts CropFacts Prep SpecPrep PrepFacts SpecAug AugFacts.
Import ListNotations.
Open Scope Z_scope.

Lemma in_dim_grid dim i : in_dim dim i = true <-> in_grid dim i.
Proof.
  destruct dim as [[a b] c], i as [[x y] z]. unfold in_dim, in_grid. rewrite !andb_true_iff, !Z.leb_le, !Z.ltb_lt. split.
  - intros H [|[|k]]; cbn; lia.
  - intros H. pose proof (H 0%nat). pose proof (H 1%nat). pose proof (H 2%nat). cbn in *. lia.
Qed.
Lemma in_dim_out dim i : in_dim dim i = false <-> ~ in_grid dim i.
Proof. rewrite <- in_dim_grid. destruct (in_dim dim i); split; congruence. Qed.
Lemma channel_zero k : channel k v3zero = 0%Qc.
Proof. destruct k as [|[|k]]; reflexivity. Qed.

Definition zero_out (dim : v3 Z) (n : grid) : Prop := forall i, ~ in_grid dim i -> n i = v3zero.
Lemma blur_zero dim axis n : zero_out dim (blur dim axis n).
Proof. intros i Hi. unfold blur. rewrite (proj2 (in_dim_out _ _) Hi). reflexivity. Qed.
Lemma shift_next axis s i j : (axis < 3)%nat -> next_to axis s i j -> j = shift axis s i.
Proof.
  intros Ha H. destruct i as [[x y] z], j as [[x' y'] z']. pose proof (H 0%nat ltac:(lia)) as h0. pose proof (H 1%nat ltac:(lia)) as h1. pose proof (H 2%nat ltac:(lia)) as h2. clear H.
  destruct axis as [|[|[|axis]]]; [| | |lia]; cbn in *; f_equal; [f_equal| |f_equal| |f_equal|]; lia.
Qed.
Lemma blur_average dim axis n n' : (axis < 3)%nat -> zero_out dim n -> (forall i, in_grid dim i -> n i = n' i) -> moving_average dim axis n' (blur dim axis n).
Proof.
  intros Ha Hz He i ch j k a b Hi Hj Hk [a1 a2] [b1 b2]. apply (shift_next _ _ _ _ Ha) in Hj. apply (shift_next _ _ _ _ Ha) in Hk. subst j k.
  unfold blur. rewrite (proj2 (in_dim_grid _ _) Hi). unfold v3times, v3add. rewrite channel_map, !channel_zip.
  assert (Ea : channel ch (n (shift axis (-1) i)) = a).
  { destruct (in_dim dim (shift axis (-1) i)) eqn:E; [apply in_dim_grid in E; rewrite (He _ E); symmetry; apply a1; exact E|apply in_dim_out in E; rewrite (Hz _ E), channel_zero; symmetry; apply a2; exact E]. }
  assert (Eb : channel ch (n (shift axis 1 i)) = b).
  { destruct (in_dim dim (shift axis 1 i)) eqn:E; [apply in_dim_grid in E; rewrite (He _ E); symmetry; apply b1; exact E|apply in_dim_out in E; rewrite (Hz _ E), channel_zero; symmetry; apply b2; exact E]. }
  rewrite Ea, Eb, (He i Hi). ring.
Qed.
Lemma smooth_smoothed dim n : smoothed dim n (smooth dim n).
Proof.
  unfold smooth. set (n0 := fun i => if in_dim dim i then n i else v3zero).
  assert (Z0 : zero_out dim n0) by (intros i Hi; unfold n0; rewrite (proj2 (in_dim_out _ _) Hi); reflexivity).
  exists (blur dim 0 n0), (blur dim 1 (blur dim 0 n0)), (blur dim 2 (blur dim 1 (blur dim 0 n0))),
    (blur dim 0 (blur dim 2 (blur dim 1 (blur dim 0 n0)))), (blur dim 1 (blur dim 0 (blur dim 2 (blur dim 1 (blur dim 0 n0))))).
  split; [apply blur_average; [lia|exact Z0|intros i Hi; unfold n0; rewrite (proj2 (in_dim_grid _ _) Hi); reflexivity]|].
  repeat split; apply blur_average; try lia; try apply blur_zero; reflexivity.
Qed.

(** Bounds. *)
Lemma third_bound b x y z : (- b <= x <= b)%Qc -> (- b <= y <= b)%Qc -> (- b <= z <= b)%Qc -> (- b <= Q2Qc (1 # 3) * (x + y + z) <= b)%Qc.
Proof.
  intros [x1 x2] [y1 y2] [z1 z2]. replace b with (Q2Qc (1 # 3) * (b + b + b))%Qc by (replace (b + b + b)%Qc with (qz 3 * b)%Qc by (replace (qz 3) with (1 + 1 + 1)%Qc by (apply Qc_is_canon; reflexivity); ring); rewrite Qcmult_assoc; replace (Q2Qc (1 # 3) * qz 3)%Qc with 1%Qc by (apply Qc_is_canon; reflexivity); ring).
  replace (- (Q2Qc (1 # 3) * (b + b + b)))%Qc with (Q2Qc (1 # 3) * (- b + - b + - b))%Qc by ring.
  rewrite !(Qcmult_comm (Q2Qc (1 # 3))). split; apply Qcmult_le_compat_r; try discriminate; qclra.
Qed.
Lemma blur_bound dim axis n b : (0 <= b)%Qc -> (forall i, bounded b (n i)) -> forall i, bounded b (blur dim axis n i).
Proof.
  intros Hb H i ch. unfold blur. destruct (in_dim dim i).
  - unfold v3times, v3add. rewrite channel_map, !channel_zip. apply third_bound; apply H.
  - rewrite channel_zero. split; [qclra|exact Hb].
Qed.
Lemma smooth_bound dim n b : (0 <= b)%Qc -> (forall i, bounded b (n i)) -> forall i, bounded b (smooth dim n i).
Proof.
  intros Hb H. unfold smooth. repeat apply (blur_bound _ _ _ _ Hb). intros i. destruct (in_dim dim i); [apply H|]. intros ch. rewrite channel_zero. split; [qclra|exact Hb].
Qed.
Lemma lerp_bound b t x y : (0 <= t <= 1)%Qc -> (- b <= x <= b)%Qc -> (- b <= y <= b)%Qc -> (- b <= lerp t x y <= b)%Qc.
Proof.
  intros [t1 t2] [x1 x2] [y1 y2]. unfold lerp. assert (Hs : (0 <= 1 - t)%Qc) by qclra. set (s := (1 - t)%Qc) in *.
  assert (E : forall c, (c = s * c + t * c)%Qc) by (intros c; unfold s; ring).
  assert (A1 : (s * - b <= s * x)%Qc) by (rewrite !(Qcmult_comm s); apply Qcmult_le_compat_r; assumption). assert (A2 : (s * x <= s * b)%Qc) by (rewrite !(Qcmult_comm s); apply Qcmult_le_compat_r; assumption).
  assert (A3 : (t * - b <= t * y)%Qc) by (rewrite !(Qcmult_comm t); apply Qcmult_le_compat_r; assumption). assert (A4 : (t * y <= t * b)%Qc) by (rewrite !(Qcmult_comm t); apply Qcmult_le_compat_r; assumption).
  split; [eapply Qcle_trans; [|apply Qcplus_le_compat; [exact A1|exact A3]]; rewrite <- E; apply Qcle_refl|eapply Qcle_trans; [apply Qcplus_le_compat; [exact A2|exact A4]|]; rewrite <- E; apply Qcle_refl].
Qed.

Lemma qceil_lt q : (qz (qceil q - 1) < q)%Qc.
Proof. unfold qceil. unfold Qclt, qz. rewrite q2qc_red. apply Qceiling_lt. Qed.
Lemma cell_in (size : Z) u : 2 <= size -> (0 <= u)%Qc -> (u <= qz (size - 1))%Qc ->
  let i := cell_below size u in 0 <= i /\ i + 1 < size /\ (0 <= u - qz i <= 1)%Qc.
Proof.
  intros Hs H0 H1. cbv zeta. unfold cell_below.
  assert (C1 : qceil u <= size - 1). { destruct (Z_le_gt_dec (qceil u) (size - 1)) as [L|L]; [exact L|exfalso]. pose proof (qceil_lt u) as X. assert (Y : (qz (size - 1) <= qz (qceil u - 1))%Qc) by (apply qz_le; lia). apply (Qclt_not_le _ _ X). eapply Qcle_trans; eassumption. }
  assert (C0 : 0 <= qceil u). { apply (proj1 (qz_le _ _)). eapply Qcle_trans; [exact H0|apply qceil_ge]. }
  pose proof (qceil_lt u) as X. pose proof (qceil_ge u) as Y.
  destruct (Z.eq_dec (qceil u) 0) as [E|E].
  - rewrite E in *. replace (Z.min (Z.max (0 - 1) 0) (size - 2)) with 0 by lia. split; [lia|]. split; [lia|]. rewrite qz_0 in *. split; qclra.
  - replace (Z.min (Z.max (qceil u - 1) 0) (size - 2)) with (qceil u - 1) by lia. split; [lia|]. split; [lia|]. rewrite qz_sub, qz_1 in *. split; qclra.
Qed.

Lemma interp_field dim n u g lo v : (0 < g)%Qc -> (forall k, 2 <= channel k dim) -> (forall k, (0 <= channel k u <= qz (channel k dim - 1))%Qc) ->
  (forall k, channel k v = channel k lo + g * (channel k u - 1))%Qc -> field_at g lo dim n v (interp3 dim n u).
Proof.
  intros Hg Hd Hu Hv. destruct dim as [[a b] c], u as [[x y] z]. unfold interp3.
  pose proof (Hu 0%nat) as [u0 u0']. pose proof (Hu 1%nat) as [u1 u1']. pose proof (Hu 2%nat) as [u2 u2']. cbn [channel] in *.
  assert (O : forall s t, (0 <= t)%Qc -> (t <= qz (s - 1))%Qc -> qltb t 0 || qltb (qz (s - 1)) t = false) by (intros s t h1 h2; rewrite (proj2 (qltb_ge _ _) h1), (proj2 (qltb_ge _ _) h2); reflexivity).
  rewrite !O by assumption. cbn [orb].
  set (i := cell_below a x). set (j := cell_below b y). set (k := cell_below c z).
  destruct (cell_in a x (Hd 0%nat) u0 u0') as (i0 & i1 & i2). destruct (cell_in b y (Hd 1%nat) u1 u1') as (j0 & j1 & j2). destruct (cell_in c z (Hd 2%nat) u2 u2') as (k0 & k1 & k2). fold i in i0, i1, i2. fold j in j0, j1, j2. fold k in k0, k1, k2.
  exists i, j, k, (x - qz i)%Qc, (y - qz j)%Qc, (z - qz k)%Qc. unfold in_cell. cbn [channel].
  split; [split; [exact i0|split; [exact i1|split; [exact i2|]]]; etransitivity; [apply (Hv 0%nat)|cbn [channel]; ring]|].
  split; [split; [exact j0|split; [exact j1|split; [exact j2|]]]; etransitivity; [apply (Hv 1%nat)|cbn [channel]; ring]|].
  split; [split; [exact k0|split; [exact k1|split; [exact k2|]]]; etransitivity; [apply (Hv 2%nat)|cbn [channel]; ring]|].
  intros ch. cbv zeta. set (fx := (x - qz i)%Qc). set (fy := (y - qz j)%Qc). set (fz := (z - qz k)%Qc). cbn [fold_left Z.eqb]. unfold v3add, v3times. rewrite !channel_zip, !channel_map, channel_zero, !Z.add_0_r. unfold lerp. ring.
Qed.

Lemma minus_box lo hi m vs : bounding_box lo hi vs -> bounding_box (v3zip Qcminus lo m) (v3zip Qcminus hi m) (map (fun v => v3zip Qcminus v m) vs).
Proof.
  intros [H1 H2]. split.
  - apply Forall_forall. intros w Hw. apply in_map_iff in Hw. destruct Hw as (v & <- & Hv). rewrite Forall_forall in H1. destruct (H1 v Hv) as [a b]. rewrite !v3le_channel in *.
    split; intros k; rewrite !channel_zip; specialize (a k); specialize (b k); qclra.
  - intros lo' hi' H. destruct (H2 (v3zip Qcplus lo' m) (v3zip Qcplus hi' m)) as [a b].
    + apply Forall_forall. intros v Hv. rewrite Forall_forall in H. destruct (H _ (in_map (fun v => v3zip Qcminus v m) _ _ Hv)) as [a b]. rewrite !v3le_channel in *. split; intros k; rewrite !channel_zip in *; specialize (a k); specialize (b k); rewrite channel_zip in a, b; qclra.
    + rewrite !v3le_channel in *. split; intros k; rewrite !channel_zip in *; specialize (a k); specialize (b k); rewrite channel_zip in a, b; qclra.
Qed.

Theorem thm_elastic_round : forall noise g magnitude coords, (0 < g)%Qc -> coords <> [] ->
  exists lo hi dim n f, bounding_box lo hi coords /\ (forall k, grid_size g (channel k hi - channel k lo)%Qc (channel k dim)) /\ smoothed dim noise n /\
    elastic_round noise g magnitude coords = Ok (map f coords) /\
    forall v, In v coords -> exists d, field_at g lo dim n v d /\ (forall ch, channel ch (f v) = channel ch v + magnitude * channel ch d)%Qc.
Proof.
  intros noise g mag coords Hg Hne. destruct (rows_fold_box coords Hne) as (lo & hi & E1 & E2 & Box).
  assert (Hne' : map (fun v => v3zip Qcminus v lo) coords <> []) by (destruct coords; [congruence|discriminate]).
  destruct (rows_fold_box _ Hne') as (slo & ext & E3 & E4 & Box2). destruct (box_unique _ _ _ _ _ Box2 (minus_box _ _ lo _ Box)) as [_ Ee].
  set (dim := v3map (fun e => qfloor (e / g)%Qc + 3) ext).
  assert (Nn : forall k, (0 <= channel k ext)%Qc).
  { intros k. rewrite Ee, channel_zip. destruct coords as [|v vs]; [congruence|]. destruct Box as [B _]. inversion B as [|? ? [b1 b2] _]; subst. rewrite v3le_channel in b1, b2. specialize (b1 k). specialize (b2 k). assert (X : (channel k lo <= channel k hi)%Qc) by (eapply Qcle_trans; eassumption). qclra. }
  assert (G : forall k, grid_size g (channel k hi - channel k lo)%Qc (channel k dim)).
  { intros k. unfold dim. rewrite channel_map. replace (channel k hi - channel k lo)%Qc with (channel k ext) by (rewrite Ee, channel_zip; reflexivity). unfold grid_size.
    destruct (qfloor_le (channel k ext / g)%Qc) as [q1 q2]. split.
    - replace (qfloor (channel k ext / g)%Qc + 3 - 3) with (qfloor (channel k ext / g)%Qc) by lia. apply mul_le_div; assumption.
    - replace (qfloor (channel k ext / g)%Qc + 3 - 2) with (qfloor (channel k ext / g)%Qc + 1) by lia. apply div_lt_mul; assumption. }
  assert (D : forall k, 3 <= channel k dim).
  { intros k. destruct (G k) as [_ g2]. assert (X : (0 < qz (channel k dim - 2) * g)%Qc) by (eapply Qcle_lt_trans; [|exact g2]; specialize (Nn k); rewrite Ee, channel_zip in Nn; exact Nn).
    assert (Y : (qz 0 < qz (channel k dim - 2))%Qc) by (apply (Qcmult_lt_r _ _ g Hg); rewrite qz_0, Qcmult_0_l; exact X). apply (proj1 (qz_lt _ _)) in Y. lia. }
  set (n := smooth dim noise).
  set (unit := fun (c m : Qc) (d : Z) => let lo := (m - g)%Qc in let hi := (m + g * qz (d - 2))%Qc in ((c - lo) / ((hi - lo) / qz (d - 1)))%Qc).
  set (f := fun v : v3 Qc => let '(x, y, z) := v in let '(mx, my, mz) := lo in let '(dx, dy, dz) := dim in
      v3add v (v3map (fun t => (t * mag)%Qc) (interp3 dim n (unit x mx dx, unit y my dy, unit z mz dz)))).
  assert (Hu : forall c m d, 3 <= d -> unit c m d = ((c - m) / g + 1)%Qc).
  { intros c m d Hd. unfold unit. cbv zeta. assert (Ng : (g <> 0)%Qc) by (intros E; rewrite E in Hg; discriminate Hg). assert (Nd : (qz (d - 1) <> 0)%Qc) by (apply qz_neq0; lia).
    replace (m + g * qz (d - 2) - (m - g))%Qc with (g * qz (d - 1))%Qc by (rewrite !qz_sub, qz_1, qz_2; ring). field. split; assumption. }
  exists lo, hi, dim, n, f. split; [exact Box|]. split; [exact G|]. split; [apply smooth_smoothed|]. split.
  - unfold elastic_round. rewrite E1. cbn [bind]. rewrite E4. cbn [bind]. reflexivity.
  - intros v Hv. eexists (interp3 dim n (v3zip (fun h d => h d) (v3zip unit v lo) dim)). split.
    + apply interp_field; [exact Hg|intros k; specialize (D k); lia| |].
      * intros k. rewrite !channel_zip. rewrite (Hu _ _ _ (D k)). destruct Box as [B _]. rewrite Forall_forall in B. destruct (B v Hv) as [b1 b2]. rewrite v3le_channel in b1, b2. specialize (b1 k). specialize (b2 k). destruct (G k) as [g1 g2].
        assert (A : (0 <= (channel k v - channel k lo) / g)%Qc) by (apply le_div; [exact Hg|rewrite Qcmult_0_l; qclra]).
        assert (A' : ((channel k v - channel k lo) / g < qz (channel k dim - 2))%Qc) by (apply div_lt; [exact Hg|]; eapply Qcle_lt_trans; [|exact g2]; qclra).
        set (w := ((channel k v - channel k lo) / g)%Qc) in *. clearbody w. replace (channel k dim - 2) with (channel k dim - 1 - 1) in A' by lia. rewrite qz_sub, qz_1 in A'. split; qclra.
      * intros k. rewrite !channel_zip, (Hu _ _ _ (D k)). field. intros E. rewrite E in Hg. discriminate Hg.
    + intros ch. unfold f. destruct v as [[x y] z], lo as [[mx my] mz]. destruct dim as [[dx dy] dz]. unfold v3add. rewrite channel_zip, channel_map. cbn [v3zip]. rewrite (Qcmult_comm mag). reflexivity.
Qed.

Lemma field_bound g lo dim n v d b : field_at g lo dim n v d -> (forall i, bounded b (n i)) -> bounded b d.
Proof.
  intros (i & j & k & fx & fy & fz & (_ & _ & hx & _) & (_ & _ & hy & _) & (_ & _ & hz & _) & H) Hn ch. rewrite H. cbv zeta. repeat apply lerp_bound; try assumption; apply Hn.
Qed.
Lemma average_bound dim axis n m b : (axis < 3)%nat -> (0 <= b)%Qc -> moving_average dim axis n m -> (forall i, in_grid dim i -> bounded b (n i)) -> forall i, in_grid dim i -> bounded b (m i).
Proof.
  intros Ha Hb Hm Hn i Hi ch.
  assert (N : forall s, next_to axis s i (shift axis s i)).
  { intros s k Hk. destruct i as [[x y] z]. destruct axis as [|[|[|axis]]]; [| | |lia]; destruct k as [|[|[|k]]]; try lia; cbn; lia. }
  assert (Pd : forall j, exists a, padded dim n ch j a /\ (- b <= a <= b)%Qc).
  { intros j. destruct (in_dim dim j) eqn:E.
    - apply in_dim_grid in E. exists (channel ch (n j)). split; [split; [reflexivity|contradiction]|apply Hn; exact E].
    - apply in_dim_out in E. exists 0%Qc. split; [split; [contradiction|reflexivity]|]. split; [qclra|exact Hb]. }
  destruct (Pd (shift axis (-1) i)) as (a & a1 & a2). destruct (Pd (shift axis 1 i)) as (c & c1 & c2).
  rewrite (Hm i ch _ _ _ _ Hi (N (-1)) (N 1) a1 c1). rewrite Qcmult_comm. apply third_bound; [exact a2|apply Hn; exact Hi|exact c2].
Qed.

Lemma elastic_rounds B noise : forall params k points, points <> [] -> Forall (fun p => (0 < fst p)%Qc) params ->
  exists f, foldM (fun pts kp => elastic_round (noise (fst kp)) (fst (snd kp)) (snd (snd kp)) pts) points (combine (seq k (List.length params)) params) = Ok (map f points) /\
    ((0 <= B)%Qc -> (forall r i, bounded B (noise r i)) -> Forall (fun p => (0 <= snd p)%Qc) params -> forall v, In v points -> bounded (B * total (map snd params))%Qc (v3zip Qcminus (f v) v)).
Proof.
  induction params as [|[g m] params IH]; intros k points Hne Hg.
  - exists (fun v => v). cbn [combine seq List.length foldM]. rewrite map_id. split; [reflexivity|]. intros HB _ _ v _ ch. rewrite channel_zip. cbn [map total fold_right]. replace (channel ch v - channel ch v)%Qc with 0%Qc by ring. rewrite Qcmult_0_r. split; discriminate.
  - inversion Hg as [|? ? G1 G2]; subst. cbn [fst] in G1.
    pose proof (thm_elastic_round (noise k) g m points G1 Hne) as (lo & hi & dim & n & f & Box & Gs & Sm & Er & Hf).
    assert (Hne' : map f points <> []) by (destruct points; [congruence|discriminate]).
    destruct (IH (S k) (map f points) Hne' G2) as (f' & Ef & Bf).
    exists (fun v => f' (f v)). cbn [combine seq List.length foldM fst snd]. rewrite Er. cbn [bind]. rewrite Ef, map_map. split; [reflexivity|].
    intros HB Hn Hm v Hv ch. inversion Hm as [|? ? m1 m2]; subst. cbn [snd] in m1. specialize (Bf HB Hn m2 (f v) (in_map f _ _ Hv) ch). rewrite channel_zip in *.
    destruct (Hf v Hv) as (d & Fd & Ed).
    assert (Bd : (- B <= channel ch d <= B)%Qc).
    { destruct Sm as (s1 & s2 & s3 & s4 & s5 & M1 & M2 & M3 & M4 & M5 & M6).
      assert (Bn : forall i, in_grid dim i -> bounded B (n i)).
      { eapply average_bound; [|exact HB|exact M6|]; [lia|]. eapply average_bound; [|exact HB|exact M5|]; [lia|]. eapply average_bound; [|exact HB|exact M4|]; [lia|]. eapply average_bound; [|exact HB|exact M3|]; [lia|]. eapply average_bound; [|exact HB|exact M2|]; [lia|]. eapply average_bound; [|exact HB|exact M1|]; [lia|]. intros i _. apply Hn. }
      destruct Fd as (i & j & k' & fx & fy & fz & (x0 & x1 & hx & _) & (y0 & y1 & hy & _) & (z0 & z1 & hz & _) & H). rewrite H. cbv zeta.
      repeat apply lerp_bound; try assumption; apply Bn; intros [|[|q]]; destruct dim as [[? ?] ?]; cbn in *; lia. }
    rewrite Ed in Bf. cbn [map total fold_right snd]. change (fold_right Qcplus 0%Qc (map snd params)) with (total (map snd params)). set (w := channel ch (f' (f v))) in *. set (x := channel ch v) in *.
    assert (A1 : (m * - B <= m * channel ch d)%Qc) by (rewrite !(Qcmult_comm m); apply Qcmult_le_compat_r; [apply Bd|exact m1]). assert (A2 : (m * channel ch d <= m * B)%Qc) by (rewrite !(Qcmult_comm m); apply Qcmult_le_compat_r; [apply Bd|exact m1]).
     replace (m * - B)%Qc with (- (m * B))%Qc in A1 by ring. rewrite Qcmult_plus_distr_r, (Qcmult_comm B m). set (t := (m * channel ch d)%Qc) in *. set (mb := (m * B)%Qc) in *. set (tb := (B * total (map snd params))%Qc) in *. clearbody w x t mb tb. destruct Bf as [B1 B2]. split; qclra.
Qed.
Theorem thm_elastic : forall draw noise params points, points <> [] -> Forall (fun p => (0 < fst p)%Qc) params ->
  exists f, elastic_distort draw noise params points = Ok (map f points) /\
    ((Q2Qc (95 # 100) <= draw)%Qc -> map f points = points) /\
    forall b, (0 <= b)%Qc -> (forall r i, bounded b (noise r i)) -> Forall (fun p => (0 <= snd p)%Qc) params ->
      forall v, In v points -> bounded (b * total (map snd params))%Qc (v3zip Qcminus (f v) v).
Proof.
  intros draw noise params points Hne Hp. unfold elastic_distort. destruct (qltb draw (Q2Qc (95 # 100))) eqn:L.
  - destruct (elastic_rounds 0 noise params 0 points Hne Hp) as (f & Ef & _). exists f. split; [exact Ef|]. split.
    + intros H. apply qltb_lt in L. exfalso. apply (Qclt_not_le _ _ L). exact H.
    + intros b Hb Hn Hm v Hv. destruct (elastic_rounds b noise params 0 points Hne Hp) as (f' & Ef' & Bf'). rewrite Ef in Ef'. injection Ef' as Em.
      assert (Ev : f v = f' v). { clear - Em Hv. induction points as [|a l IH]; [destruct Hv|]. cbn in Em. injection Em as E1 E2. destruct Hv as [<-|Hv]; [exact E1|apply IH; assumption]. }
      rewrite Ev. apply Bf'; assumption.
  - exists (fun v => v). rewrite map_id. split; [reflexivity|]. split; [reflexivity|]. intros b Hb _ Hm v _ ch. rewrite channel_zip. replace (channel ch v - channel ch v)%Qc with 0%Qc by ring.
    assert (T : (0 <= b * total (map snd params))%Qc). { rewrite <- (Qcmult_0_l (total (map snd params))). apply Qcmult_le_compat_r; [exact Hb|]. induction Hm as [|p l Hp' Hm IH]; [discriminate|]. cbn [map total fold_right]. change (fold_right Qcplus 0%Qc (map snd l)) with (total (map snd l)). inversion Hp; subst. specialize (IH ltac:(assumption)). qclra. }
    set (t := (b * total (map snd params))%Qc) in *. clearbody t. split; qclra.
Qed.
