(** Proofs about linear interpolation at given positions in single precision. *)
From Coq Require Import List ZArith Bool Reals Lra Lia QArith Qcanon Qreals.
From Flocq Require Import Core.Core IEEE754.BinarySingleNaN.
From Flocq Require Import Sterbenz.
From Verif Require Import Res Tensor Key Spec Num KeyFacts NumFacts ListFacts Points Octree NnBasic NnInterp
  Float32 FloatMean SpecSingle FloatFacts FloatMeanFacts BuildFloat SpecNudge NudgeFacts LinearFloat SpecLinear32 LinearFloatFacts SpecRaw32.
Import ListNotations.
Open Scope R_scope.
Local Existing Instances p24 fex_valid fex_mono.

Section Raw.
  Variables (c : f32) (q : Qc).
  Hypothesis Hf : is_finite c = true.
  Hypothesis Hq : same_number q c.
  Hypothesis Hr : 0 <= B2R c <= 2 ^ 22.
  Let n : Z := qfloor (q - half)%Qc.
  Let u := bpow radix2 (-26).
  Let Hu : bpow radix2 (-25) = 2 * u.
  Proof. unfold u. change (-25)%Z with (1 + -26)%Z. rewrite bpow_plus. reflexivity. Qed.
  Let Hu0 : 0 < u.
  Proof. apply bpow_gt_0. Qed.
  Let p22 : 2 ^ 22 = bpow radix2 22.
  Proof. apply pow_bpow. Qed.

  Lemma raw_exact : / 4 <= B2R c -> generic_format radix2 fex (B2R c - / 2).
  Proof.
    intros H4. pose proof (generic_format_B2R 24 128 c) as G. change (SpecFloat.fexp 24 128) with fex in G.
    destruct (Rle_lt_dec (B2R c) 1) as [H1|H1].
    - apply sterbenz; auto with typeclass_instances; [change (/ 2) with (bpow radix2 (-1)); apply fmt_bpow; lia|]. split; lra.
    - pose proof (IZR_lt 0 1 eq_refl).
      assert (M1 : (1 <= mag radix2 (B2R c))%Z) by (apply mag_ge_bpow; rewrite Rabs_pos_eq by lra; change (bpow radix2 (1 - 1)) with 1; lra).
      assert (M2 : (mag radix2 (B2R c) <= 23)%Z).
      { apply mag_le_bpow; [lra|]. rewrite Rabs_pos_eq by lra. rewrite p22 in Hr. eapply Rle_lt_trans; [apply Hr|]. apply bpow_lt. lia. }
      set (e := cexp radix2 fex (B2R c)) in *. assert (He : (-23 <= e <= -1)%Z) by (unfold e, cexp, fex, FLT_exp; lia).
      unfold generic_format, F2R in G. cbn [Fnum Fexp] in G. fold e in G. set (m := Ztrunc (scaled_mantissa radix2 fex (B2R c))) in *.
      assert (HP : / 2 = IZR (2 ^ (-1 - e)) * bpow radix2 e).
      { rewrite IZR_pow by lia. rewrite <- bpow_plus. replace (-1 - e + e)%Z with (-1)%Z by lia. reflexivity. }
      rewrite G, HP, <- Rmult_minus_distr_r, <- minus_IZR. apply fmt_scaled; [|lia].
      assert (Hm : (0 <= m < 2 ^ 24)%Z).
      { pose proof (bpow_gt_0 radix2 e) as Hp. split.
        - apply le_IZR. apply Rmult_le_reg_r with (1 := Hp). rewrite <- G. lra.
        - apply lt_IZR. apply Rmult_lt_reg_r with (1 := Hp). rewrite <- G, IZR_pow by lia. rewrite <- bpow_plus.
          assert (Hlt : Rabs (B2R c) < bpow radix2 (mag radix2 (B2R c))) by (apply bpow_mag_gt). rewrite Rabs_pos_eq in Hlt by lra.
          eapply Rlt_le_trans; [exact Hlt|]. apply bpow_le. unfold e, cexp, fex, FLT_exp. lia. }
      assert (1 <= 2 ^ (-1 - e) <= 2 ^ 22)%Z by (split; [apply (Z.pow_le_mono_r 2 0 (-1 - e)); lia|apply Z.pow_le_mono_r; lia]).
      change (2 ^ 24)%Z with 16777216%Z in *. change (2 ^ 22)%Z with 4194304%Z in *. lia.
  Qed.
  Lemma raw_centred : let f := fsub c fhalf in is_finite f = true /\ Rabs (B2R f - (B2R c - / 2)) <= u /\
    Zfloor (B2R f) = Zfloor (B2R c - / 2) /\ (-1 <= Zfloor (B2R c - / 2) <= 2 ^ 22)%Z.
  Proof.
    cbn zeta. destruct fhalf_val as [Eh Fh].
    assert (HB : Rabs (B2R c - B2R fhalf) <= bpow radix2 100).
    { rewrite Eh. apply Rle_trans with (bpow radix2 22); [|apply bpow_le; lia]. rewrite <- p22. apply Rabs_le.
      assert (1 <= 2 ^ 22) by (rewrite p22; change 1 with (bpow radix2 0); apply bpow_le; lia). lra. }
    destruct (fsub_val c fhalf Hf Fh HB) as [E F]. rewrite Eh in E. split; [exact F|]. rewrite E.
    assert (Hfl : (-1 <= Zfloor (B2R c - / 2) <= 2 ^ 22)%Z).
    { split; [apply Zfloor_lub; change (IZR (-1)) with (-1); lra|]. apply le_IZR. rewrite IZR_pow by lia. rewrite <- p22.
      eapply Rle_trans; [apply Zfloor_lb|]. lra. }
    destruct (Rle_lt_dec (/ 4) (B2R c)) as [H4|H4].
    - rewrite rne_id by (apply raw_exact; exact H4). rewrite Rminus_diag_eq by reflexivity. rewrite Rabs_R0. repeat split; try lra; apply Hfl.
    - assert (HH : Rabs (B2R c - / 2) <= bpow radix2 (-1)) by (change (bpow radix2 (-1)) with (/ 2); apply Rabs_le; lra).
      pose proof (rne_half_ulp _ (-1) ltac:(lia) HH) as H1. change (bpow radix2 (-1 - 25)) with u in H1. split; [exact H1|]. split; [|exact Hfl].
      pose proof (rne_bound _ (-1) ltac:(lia) HH) as H2. change (bpow radix2 (-1)) with (/ 2) in H2. apply Rabs_le_inv in H2.
      assert (H3 : rne (B2R c - / 2) <= - / 4).
      { change (/ 4) with (bpow radix2 (-2)). rewrite <- (rne_id (- bpow radix2 (-2))) by (apply generic_format_opp, fmt_bpow; lia). apply rne_le.
        change (bpow radix2 (-2)) with (/ 4). lra. }
      transitivity (-1)%Z; [|symmetry]; apply Zfloor_imp; change (IZR (-1)) with (-1); change (IZR (-1 + 1)) with 0; lra.
  Qed.
  Lemma raw_floor : n = Zfloor (B2R c - / 2).
  Proof. apply floor_q. rewrite Q2R_minus', half_val, Hq. reflexivity. Qed.
  Lemma raw_base : B2R (base32 c) = IZR n /\ is_finite (base32 c) = true.
  Proof.
    destruct raw_centred as (F & _ & E & _). unfold base32. destruct (ffloor_val _ F) as [E1 F1]. rewrite E1, E, <- raw_floor. auto.
  Qed.
  Lemma raw_corner g : (0 <= g <= 1)%Z -> same_int (corner32 c g) (qz (n + g)).
  Proof.
    intros Hg. destruct raw_base as [E1 F]. destruct raw_centred as (_ & _ & _ & Hn). rewrite <- raw_floor in Hn. change (2 ^ 22)%Z with 4194304%Z in Hn.
    destruct (fcount_val g) as [Eg Fg]; [change (2 ^ 24)%Z with 16777216%Z; lia|].
    assert (Hm : (Z.abs (n + g) <= 2 ^ 24)%Z) by (change (2 ^ 24)%Z with 16777216%Z; lia).
    destruct (fadd_exact _ _ (IZR (n + g)) F Fg) as [E2 F2].
    { rewrite E1, Eg, plus_IZR. reflexivity. }
    { apply fmt_int; exact Hm. }
    { rewrite <- (Rmult_1_r (IZR (n + g))). apply (small_abs _ 0); [exact Hm|lia]. }
    exists (n + g)%Z. auto.
  Qed.
  Lemma raw_side g : (0 <= g <= 1)%Z -> let e := Q2R ((1 - qz g) - ((q - half) - qz n))%Qc in
    is_finite (side32 c g) = true /\ Rabs (B2R (side32 c g)) <= 1 /\ Rabs e <= 1 /\ Rabs (B2R (side32 c g) - e) <= 5 * u.
  Proof.
    intros Hg e. destruct raw_centred as (F & Hu1 & Efl & Hn). destruct raw_base as [Eb Fb]. cbn zeta in F, Hu1, Efl.
    set (f := fsub c fhalf) in *. assert (EF : Q2R ((q - half) - qz n)%Qc = B2R c - / 2 - IZR n).
    { rewrite (Q2R_minus' (q - half)), (Q2R_minus' q), half_val, Q2R_qz, Hq. reflexivity. }
    assert (Hx : 0 <= B2R c - / 2 - IZR n < 1).
    { rewrite raw_floor. pose proof (Zfloor_lb (B2R c - / 2)). pose proof (Zfloor_ub (B2R c - / 2)). lra. }
    assert (Hy : 0 <= B2R f - IZR n <= 1).
    { rewrite raw_floor, <- Efl. pose proof (Zfloor_lb (B2R f)). pose proof (Zfloor_ub (B2R f)). lra. }
    assert (H01 : Rabs (B2R f - IZR n) <= bpow radix2 0) by (change (bpow radix2 0) with 1; apply Rabs_le; lra).
    destruct (fsub_val f (base32 c) F Fb) as [E3 F3]; [rewrite Eb; eapply Rle_trans; [exact H01|apply bpow_le; lia]|]. rewrite Eb in E3.
    change (fsub f (base32 c)) with (frac32 c) in E3, F3.
    pose proof (rne_half_ulp _ 0 ltac:(lia) H01) as R1. rewrite <- E3 in R1. change (bpow radix2 (0 - 25)) with (bpow radix2 (-25)) in R1. rewrite Hu in R1.
    assert (R2 : 0 <= B2R (frac32 c) <= 1).
    { rewrite E3. split; [rewrite <- (rne_id 0 fmt_0); apply rne_le; lra|]. change 1 with (bpow radix2 0). rewrite <- (rne_id (bpow radix2 0)) by (apply fmt_bpow; lia). apply rne_le. change (bpow radix2 0) with 1. lra. }
    destruct (fcount_val g) as [Eg Fg]; [change (2 ^ 24)%Z with 16777216%Z; lia|].
    assert (H1g : (Z.abs (1 - g) <= 2 ^ 24)%Z) by (change (2 ^ 24)%Z with 16777216%Z; lia).
    destruct (fsub_exact fone (fcount g) (IZR (1 - g)) fone_fin Fg) as [E4 F4].
    { rewrite fone_val, Eg, minus_IZR. reflexivity. }
    { apply fmt_int; exact H1g. }
    { rewrite <- (Rmult_1_r (IZR (1 - g))). apply (small_abs _ 0); [exact H1g|lia]. }
    assert (HG : IZR (1 - g) = 0 \/ IZR (1 - g) = 1) by (assert (g = 0 \/ g = 1)%Z as [-> | ->] by lia; [right|left]; reflexivity).
    assert (H02 : Rabs (IZR (1 - g) - B2R (frac32 c)) <= bpow radix2 0) by (change (bpow radix2 0) with 1; apply Rabs_le; destruct HG as [-> | ->]; lra).
    destruct (fsub_val (fsub fone (fcount g)) (frac32 c) F4 F3) as [E5 F5]; [rewrite E4; eapply Rle_trans; [exact H02|apply bpow_le; lia]|]. rewrite E4 in E5.
    change (fsub (fsub fone (fcount g)) (frac32 c)) with (side32 c g) in E5, F5.
    pose proof (rne_half_ulp _ 0 ltac:(lia) H02) as R3. rewrite <- E5 in R3. change (bpow radix2 (0 - 25)) with (bpow radix2 (-25)) in R3. rewrite Hu in R3.
    pose proof (rne_bound _ 0 ltac:(lia) H02) as R4. rewrite <- E5 in R4. change (bpow radix2 0) with 1 in R4.
    assert (Ee : e = IZR (1 - g) - (B2R c - / 2 - IZR n)).
    { unfold e. rewrite (Q2R_minus' (1 - qz g)), (Q2R_minus' 1), Q2R_one, Q2R_qz, EF, minus_IZR. reflexivity. }
    split; [exact F5|]. split; [exact R4|]. rewrite Ee. split; [apply Rabs_le; destruct HG as [-> | ->]; lra|].
    apply Rabs_le_inv in R1, R3, Hu1. apply Rabs_le. lra.
  Qed.
End Raw.

Lemma prod_diff a a' b b' x y : Rabs a <= 1 -> Rabs b' <= 1 -> Rabs (a' - a) <= x -> Rabs (b' - b) <= y -> Rabs (a' * b' - a * b) <= x + y.
Proof.
  intros Ha Hb Hx Hy. replace (a' * b' - a * b) with ((a' - a) * b' + a * (b' - b)) by ring. eapply Rle_trans; [apply Rabs_triang|]. rewrite !Rabs_mult.
  assert (Rabs (a' - a) * Rabs b' <= x * 1) by (apply Rmult_le_compat; auto using Rabs_pos).
  assert (Rabs a * Rabs (b' - b) <= 1 * y) by (apply Rmult_le_compat; auto using Rabs_pos). lra.
Qed.
Lemma abs_mul_1 a b : Rabs a <= 1 -> Rabs b <= 1 -> Rabs (a * b) <= 1.
Proof. intros Ha Hb. rewrite Rabs_mult, <- (Rmult_1_r 1). apply Rmult_le_compat; auto using Rabs_pos. Qed.
Lemma fmul_abs x y : is_finite x = true -> is_finite y = true -> Rabs (B2R x) <= 1 -> Rabs (B2R y) <= 1 ->
  is_finite (fmul x y) = true /\ Rabs (B2R (fmul x y)) <= 1 /\ Rabs (B2R (fmul x y) - B2R x * B2R y) <= bpow radix2 (-25).
Proof.
  intros Fx Fy Bx By. pose proof (abs_mul_1 _ _ Bx By) as B. change 1 with (bpow radix2 0) in B.
  destruct (fmul_val x y Fx Fy) as [E F]; [eapply Rle_trans; [exact B|apply bpow_le; lia]|]. split; [exact F|]. rewrite E. split.
  - exact (rne_bound _ 0 ltac:(lia) B).
  - exact (rne_half_ulp _ 0 ltac:(lia) B).
Qed.
Lemma raw_weight p q g : raw_point p q -> In g corner_grid ->
  is_finite (weight32 p g) = true /\ Rabs (B2R (weight32 p g) - Q2R (corner_weight q g)) <= / 2 ^ 21.
Proof.
  intros Hp Hg. apply in_grid in Hg. destruct g as [[gx gy] gz]. destruct Hg as (Gx & Gy & Gz).
  destruct p as [[x y] z], q as [[u v] w]. destruct Hp as ((Fx & Rx & Qx) & (Fy & Ry & Qy) & (Fz & Rz & Qz)).
  unfold corner_weight, weight32, frac_of. cbn [v3map].
  destruct (raw_side x u Fx Qx Rx gx Gx) as (Ax & Bx & Cx & Dx). destruct (raw_side y v Fy Qy Ry gy Gy) as (Ay & By & Cy & Dy).
  destruct (raw_side z w Fz Qz Rz gz Gz) as (Az & Bz & Cz & Dz). rewrite Q2R_qabs, !Q2R_mult, is_finite_Babs, B2R_Babs.
  match type of Cx with Rabs ?e <= 1 => set (ex := e) in * end. match type of Cy with Rabs ?e <= 1 => set (ey := e) in * end. match type of Cz with Rabs ?e <= 1 => set (ez := e) in * end.
  set (a := side32 x gx) in *. set (b := side32 y gy) in *. set (c := side32 z gz) in *.
  destruct (fmul_abs a b Ax Ay Bx By) as (F1 & B1 & D1). destruct (fmul_abs (fmul a b) c F1 Az B1 Bz) as (F2 & B2 & D2). split; [exact F2|].
  eapply Rle_trans; [apply Rabs_triang_inv2|].
  set (U := bpow radix2 (-26)) in *. assert (HU : bpow radix2 (-25) = 2 * U) by (unfold U; change (-25)%Z with (1 + -26)%Z; rewrite bpow_plus; reflexivity). rewrite HU in *.
  assert (P1 : Rabs (B2R a * B2R b - ex * ey) <= 5 * U + 5 * U) by (apply prod_diff; assumption).
  assert (P2 : Rabs (B2R (fmul a b) - ex * ey) <= 12 * U) by (apply Rabs_le_inv in P1, D1; apply Rabs_le; lra).
  assert (P3 : Rabs (B2R (fmul a b) * B2R c - ex * ey * ez) <= 12 * U + 5 * U) by (apply prod_diff; auto using abs_mul_1).
  assert (HB : 32 * U = / 2 ^ 21) by (rewrite pow_bpow, <- bpow_opp; unfold U; change 32 with (bpow radix2 5); rewrite <- bpow_plus; reflexivity).
  assert (0 < U) by apply bpow_gt_0. rewrite <- HB. apply Rabs_le_inv in P3, D2. apply Rabs_le. lra.
Qed.

Definition raw_row (pb : v3 f32 * Z) (qb : qpoint) : Prop := raw_point (fst pb) (fst qb) /\ snd pb = snd qb.
Lemma raw_cells pts qts : Forall2 raw_row pts qts -> Forall2 same_cell
    (flat_map (fun '((x, y, z), b) => map (fun '(gx, gy, gz) => ((corner32 x gx, corner32 y gy, corner32 z gz), b)) corner_grid) pts)
    (flat_map (fun '(p, b) => let '(x, y, z) := base_of p in
       map (fun '(gx, gy, gz) => ((qz (x + gx), qz (y + gy), qz (z + gz)), b)) corner_grid) qts).
Proof.
  apply Forall2_flat. intros [[[x y] z] b] [[[u v] w] b'] [((Fx & Rx & Qx) & (Fy & Ry & Qy) & (Fz & Rz & Qz)) E]. cbn [snd] in E. subst b'.
  cbn [v3map base_of]. apply Forall2_maps. intros [[gx gy] gz] Hg. apply in_grid in Hg. destruct Hg as (Gx & Gy & Gz). cbn [same_cell].
  split; [apply raw_corner; assumption|]. split; [apply raw_corner; assumption|]. split; [apply raw_corner; assumption|reflexivity].
Qed.
Lemma raw_weights pts qts : Forall2 raw_row pts qts -> Forall2 (fun (w32 : f32) (w : Qc) => is_finite w32 = true /\ Rabs (B2R w32 - Q2R w) <= / 2 ^ 21)
    (flat_map (fun '(p, _) => map (weight32 p) corner_grid) pts) (flat_map (fun '(p, _) => map (corner_weight p) corner_grid) qts).
Proof.
  apply Forall2_flat. intros [p b] [q b'] [H _]. apply Forall2_maps. intros g Hg. apply raw_weight; assumption.
Qed.
Lemma thm_raw32 : forall nempty bound_check o d pts qts, (d <= 62)%nat -> Forall2 (fun pb qb => raw_point (fst pb) (fst qb) /\ snd pb = snd qb) pts qts ->
  match linear_matrix o d qts nempty bound_check with
  | Ok m => exists m32, linear_matrix32 o d pts nempty bound_check = Ok m32 /\
      Forall2 close_entry m m32
  | Err e => linear_matrix32 o d pts nempty bound_check = Err e
  end.
Proof.
  intros ne bc o d pts qts Hd HR. unfold linear_matrix, linear_matrix32.
  pose proof (raw_cells pts qts HR) as HC. pose proof (raw_weights pts qts HR) as HW.
  match type of HC with Forall2 _ ?a ?b => set (A := a) in *; set (B := b) in * end.
  rewrite (search_same o A B d ne HC). destruct (search_pts o B d ne) as [idx|e]; [|reflexivity]. cbn [bind].
  rewrite (bound_same d A B Hd HC). set (v := valid_mask _ _ _).
  destruct (mask_get idx v) as [j|e]; [|reflexivity]. cbn [bind].
  rewrite (Forall2_length _ _ _ HR).
  destruct (mask_get (flat_map _ (arange _)) v) as [i|e]; [|reflexivity]. cbn [bind].
  unfold mask_get. rewrite (Forall2_length _ _ _ HW). destruct (Nat.eqb _ _); [|reflexivity]. cbn [bind].
  eexists. split; [reflexivity|]. apply (Forall2_select _ _ _ v) in HW. revert HW. generalize (combine i j).
  generalize (select v (flat_map (fun '(p, _) => map (weight32 p) corner_grid) pts)).
  generalize (select v (flat_map (fun '(p, _) => map (corner_weight p) corner_grid) qts)).
  intros w w32 ij HW. revert ij. induction HW as [|a b l m H F IH]; intros [|c ij]; cbn [combine]; constructor; [|apply IH].
  split; [reflexivity|exact H].
Qed.

(** ** nearest neighbours *)
Lemma raw_long c q : raw_coord c q -> flong c = Some (qtrunc q).
Proof.
  intros (F & R & Q). destruct (flong_val c F) as (t & -> & ->).
  - split; [lra|]. eapply Rle_lt_trans; [apply R|]. rewrite pow_bpow. apply bpow_lt. lia.
  - f_equal. symmetry. apply floor_qtrunc; [exact Q|lra].
Qed.
Lemma raw_search o pts qts d ne : Forall2 raw_row pts qts -> search_pts32 o pts d ne = search_pts o qts d ne.
Proof.
  intros H. unfold search_pts32, search_pts. replace (mapM long_row32 pts) with (Ok (map (fun '((x, y, z), b) => (qtrunc x, qtrunc y, qtrunc z, b)) qts)); [reflexivity|].
  induction H as [|p q a b [Hr Hb] F IH]; [reflexivity|]. cbn [map mapM]. rewrite <- IH. destruct p as [[[x y] z] c], q as [[[u v] w] c'].
  cbn [fst snd] in Hr, Hb. subst c'. destruct Hr as (Hx & Hy & Hz). cbn [long_row32 v3map]. rewrite (raw_long _ _ Hx), (raw_long _ _ Hy), (raw_long _ _ Hz). reflexivity.
Qed.
Lemma raw_bound d pts qts : (d <= 62)%nat -> Forall2 raw_row pts qts -> map (fun p => in_bound32 d (fst p)) pts = map (fun p => in_bound d (fst p)) qts.
Proof.
  intros Hd H. induction H as [|p q a b [Hr _] F IH]; [reflexivity|]. cbn [map]. rewrite IH. f_equal.
  destruct p as [[[x y] z] c], q as [[[u v] w] c']. cbn [fst] in *. destruct Hr as ((F1 & _ & E1) & (F2 & _ & E2) & (F3 & _ & E3)).
  unfold same_number in E1, E2, E3. symmetry in E1, E2, E3. cbn [in_bound32 in_bound].
  rewrite (leb_zero _ _ F1 E1), (leb_zero _ _ F2 E2), (leb_zero _ _ F3 E3), (ltb_pow _ _ d Hd F1 E1), (ltb_pow _ _ d Hd F2 E2), (ltb_pow _ _ d Hd F3 E3). reflexivity.
Qed.
Lemma thm_raw_nearest : forall nempty bound_check C data o d pts qts, (d <= 62)%nat -> Forall2 (fun pb qb => raw_point (fst pb) (fst qb) /\ snd pb = snd qb) pts qts ->
  octree_nearest_pts32 C data o d pts nempty bound_check = octree_nearest_pts C data o d qts nempty bound_check.
Proof.
  intros ne bc C data o d pts qts Hd H. unfold octree_nearest_pts32, octree_nearest_pts.
  rewrite (raw_search o pts qts d ne H), (raw_bound d pts qts Hd H), (Forall2_length _ _ _ H). reflexivity.
Qed.
