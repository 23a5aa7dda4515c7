(** Proofs about the random augmentation. *)
From Coq Require Import String Ascii List ZArith Bool QArith Qcanon Lqa Lia.
From Verif Require Import Res Tensor Num Points Octree PointsOps NumFacts Dataset SpecDataset TransformFacts Random SpecRandom.
Import ListNotations.
Open Scope Z_scope.

Lemma angle_range g k a i : gen_ok g -> 0 <= a -> 0 < i -> exists x, rnd_angle g k a i = Ok x /\ rotation_of a i x.
Proof.
  intros [Hg _] Ha Hi. unfold rnd_angle, randint. destruct (i =? 0) eqn:E; [apply Z.eqb_eq in E; lia|].
  pose proof (Z.div_pos a i Ha Hi). destruct (- (a / i) <? a / i + 1) eqn:L; [|apply Z.ltb_ge in L; lia].
  specialize (Hg k (- (a / i)) (a / i + 1) ltac:(lia)). set (r := g_int g k _ _) in *. cbn [bind].
  eexists. split; [reflexivity|]. exists r. split; [rewrite qz_mul; reflexivity|].
  rewrite Z.abs_mul, (Z.abs_eq i) by lia. pose proof (Z.mul_div_le a i Hi). assert (Z.abs r <= a / i) by lia.
  apply Z.le_trans with (a / i * i); [apply Z.mul_le_mono_nonneg_r; lia|lia].
Qed.
Lemma angle_sur a i x : 0 <= a -> 0 < i -> rotation_of a i x -> exists r, - (a / i) <= r < a / i + 1 /\ (qz r * qz i * deg2rad)%Qc = x.
Proof.
  intros Ha Hi (k & -> & Hk). exists k. split; [|rewrite qz_mul; reflexivity].
  rewrite Z.abs_mul, (Z.abs_eq i) in Hk by lia. assert (Z.abs k <= a / i) by (apply Z.div_le_lower_bound; lia). lia.
Qed.
Lemma near_rand c e u : (0 <= e)%Qc -> (0 <= u)%Qc -> (u < 1)%Qc -> near c e (u * (qz 2 * e) - e + c)%Qc.
Proof.
  intros He H0 H1. destruct (Qc_eq_dec e 0) as [->|N]; [left; split; [reflexivity|ring]|right].
  assert (Hp : (0 < e)%Qc) by (apply Qcle_lt_or_eq in He; destruct He as [He|He]; [exact He|congruence]).
  assert (A : (0 <= u * e)%Qc) by (apply Qcmult_nonneg; assumption).
  assert (B : (u * e < 1 * e)%Qc) by (apply (proj2 (Qcmult_lt_r _ _ _ Hp)); exact H1).
  change (qz 2) with (1 + 1)%Qc. replace (u * ((1 + 1) * e))%Qc with (u * e + u * e)%Qc by ring. set (w := (u * e)%Qc) in *. split; qclra.
Qed.
Lemma near_sur c e x : (0 <= e)%Qc -> near c e x -> exists u, (0 <= u)%Qc /\ (u < 1)%Qc /\ (u * (qz 2 * e) - e + c)%Qc = x.
Proof.
  intros He [[-> ->]|[H1 H2]].
  - exists 0%Qc. split; [qclra|]. split; [qclra|ring].
  - assert (Hp : (0 < e)%Qc) by qclra. assert (Hn : e <> 0%Qc) by (intros ->; qclra).
    exists ((x - c + e) / (qz 2 * e))%Qc.
    assert (H2e : (0 < qz 2 * e)%Qc) by (change (qz 2) with (1 + 1)%Qc; replace ((1 + 1) * e)%Qc with (e + e)%Qc by ring; qclra).
    assert (Hn2 : (qz 2 * e)%Qc <> 0%Qc) by (intros E; rewrite E in H2e; qclra).
    split; [|split].
    + apply (proj1 (Qcmult_le_r 0 _ _ H2e)). unfold Qcdiv. rewrite <- Qcmult_assoc, (Qcmult_comm (/ _)), Qcmult_inv_r, Qcmult_1_r, Qcmult_0_l by exact Hn2. qclra.
    + apply (proj1 (Qcmult_lt_r _ 1 _ H2e)). unfold Qcdiv. rewrite <- Qcmult_assoc, (Qcmult_comm (/ _)), Qcmult_inv_r, Qcmult_1_r, Qcmult_1_l by exact Hn2.
      change (qz 2) with (1 + 1)%Qc. replace ((1 + 1) * e)%Qc with (e + e)%Qc by ring. qclra.
    + unfold Qcdiv. rewrite <- (Qcmult_assoc (x - c + e)%Qc), (Qcmult_comm (/ _)), Qcmult_inv_r, Qcmult_1_r by exact Hn2. ring.
Qed.
Lemma flip_rand u f : (0 <= u)%Qc -> (u < 1)%Qc -> may_flip f (qltb u f).
Proof.
  intros H0 H1. destruct (qltb u f) eqn:E; unfold may_flip.
  - apply qltb_true in E. qclra.
  - destruct (Qclt_le_dec u f) as [H|H]; [exfalso; apply qltb_true in H; congruence|qclra].
Qed.
Lemma flip_sur f b : may_flip f b -> exists u, (0 <= u)%Qc /\ (u < 1)%Qc /\ qltb u f = b.
Proof.
  destruct b; cbn [may_flip]; intros H.
  - exists 0%Qc. split; [qclra|]. split; [qclra|]. apply qltb_true. exact H.
  - destruct (Qclt_le_dec f 0) as [Hf|Hf].
    + exists 0%Qc. split; [qclra|]. split; [qclra|]. destruct (qltb 0 f) eqn:E; [apply qltb_true in E; qclra|reflexivity].
    + exists f. split; [exact Hf|]. split; [exact H|]. destruct (qltb f f) eqn:E; [apply qltb_true in E; qclra|reflexivity].
Qed.

Theorem thm_rnd : forall c angle scale jitter flip, rnd_ok c ->
  ((exists g, gen_ok g /\ rnd_parameters c g = Ok (angle, scale, jitter, flip)) <-> admissible c angle scale jitter flip).
Proof.
  intros c angle scale jitter flip Hc. unfold rnd_ok in Hc. unfold rnd_parameters, admissible.
  destruct (r_angle c) as [[a0 a1] a2]. destruct (r_interval c) as [[i0 i1] i2]. destruct (r_flip c) as [[f0 f1] f2].
  destruct Hc as ((A0 & A1 & A2) & (I0 & I1 & I2) & Hs & Hj). split.
  - intros (g & Hg & E).
    destruct (angle_range g 0 a0 i0 Hg A0 I0) as (x & Ex & Rx). destruct (angle_range g 1 a1 i1 Hg A1 I1) as (y & Ey & Ry).
    destruct (angle_range g 2 a2 i2 Hg A2 I2) as (z & Ez & Rz). rewrite Ex, Ey, Ez in E. cbn [bind] in E.
    assert (Eq : forall A (x y : A), Ok x = Ok y -> x = y) by congruence. apply Eq in E. clear Eq.
    assert (E1 := f_equal (fun t => fst (fst (fst t))) E). assert (E2 := f_equal (fun t => snd (fst (fst t))) E).
    assert (E3 := f_equal (fun t => snd (fst t)) E). assert (E4 := f_equal snd E). clear E. cbn [fst snd] in *. subst angle jitter.
    destruct Hg as [_ Hr].
    assert (NS : forall k, near 1 (r_scale c) (g_rand g k * (qz 2 * r_scale c) - r_scale c + 1)%Qc) by (intros k; apply near_rand; [exact Hs|apply Hr|apply Hr]).
    assert (NJ : forall k, near 0 (r_jitter c) (g_rand g k * (qz 2 * r_jitter c) - r_jitter c)%Qc).
    { intros k. replace (g_rand g k * (qz 2 * r_jitter c) - r_jitter c)%Qc with (g_rand g k * (qz 2 * r_jitter c) - r_jitter c + 0)%Qc by ring.
      apply near_rand; [exact Hj|apply Hr|apply Hr]. }
    split; [auto|]. split.
    { subst scale. destruct (r_uniform c).
      - split; [apply NS|]. split; [apply NS|]. split; [apply NS|]. auto.
      - split; [apply NS|]. split; [apply NS|]. split; [apply NS|]. discriminate. }
    split; [split; [apply NJ|split; apply NJ]|].
    exists (qltb (g_rand g 3) f0), (qltb (g_rand g 4) f1), (qltb (g_rand g 5) f2).
    split; [apply flip_rand; apply Hr|]. split; [apply flip_rand; apply Hr|]. split; [apply flip_rand; apply Hr|].
    rewrite <- E4. destruct (qltb (g_rand g 3) f0), (qltb (g_rand g 4) f1), (qltb (g_rand g 5) f2); reflexivity.
  - destruct angle as [[x y] z]. destruct scale as [[sx sy] sz]. destruct jitter as [[jx jy] jz].
    intros ((Rx & Ry & Rz) & (Sx & Sy & Sz & Su) & (Jx & Jy & Jz) & b0 & b1 & b2 & B0 & B1 & B2 & Ef).
    destruct (angle_sur _ _ _ A0 I0 Rx) as (k0 & K0 & <-). destruct (angle_sur _ _ _ A1 I1 Ry) as (k1 & K1 & <-). destruct (angle_sur _ _ _ A2 I2 Rz) as (k2 & K2 & <-).
    destruct (near_sur _ _ _ Hs Sx) as (u0 & U0 & V0 & W0). destruct (near_sur _ _ _ Hs Sy) as (u1 & U1 & V1 & W1). destruct (near_sur _ _ _ Hs Sz) as (u2 & U2 & V2 & W2).
    destruct (flip_sur _ _ B0) as (u3 & U3 & V3 & W3). destruct (flip_sur _ _ B1) as (u4 & U4 & V4 & W4). destruct (flip_sur _ _ B2) as (u5 & U5 & V5 & W5).
    destruct (near_sur _ _ _ Hj Jx) as (u6 & U6 & V6 & W6). destruct (near_sur _ _ _ Hj Jy) as (u7 & U7 & V7 & W7). destruct (near_sur _ _ _ Hj Jz) as (u8 & U8 & V8 & W8).
    exists (mkGen (fun k lo hi => let r := nth k [k0; k1; k2] 0 in if (lo <=? r) && (r <? hi) then r else lo) (fun k => nth k [u0; u1; u2; u3; u4; u5; u6; u7; u8] 0%Qc)).
    split.
    + split; cbn [g_int g_rand].
      * intros k lo hi H. cbv zeta. destruct ((lo <=? nth k [k0; k1; k2] 0) && (nth k [k0; k1; k2] 0 <? hi)) eqn:E; [|lia].
        apply andb_true_iff in E. destruct E as [E1 E2]. apply Z.leb_le in E1. apply Z.ltb_lt in E2. lia.
      * intros k. do 9 (destruct k as [|k]; [cbn [nth]; split; assumption|]). cbn [nth]. destruct k; split; qclra.
    + assert (RA : forall k a i r, 0 <= a -> 0 < i -> nth k [k0; k1; k2] 0 = r -> - (a / i) <= r < a / i + 1 ->
        rnd_angle (mkGen (fun k lo hi => let r := nth k [k0; k1; k2] 0 in if (lo <=? r) && (r <? hi) then r else lo) (fun k => nth k [u0; u1; u2; u3; u4; u5; u6; u7; u8] 0%Qc)) k a i
        = Ok (qz r * qz i * deg2rad)%Qc).
      { intros k a i r Ha Hi E Hr. unfold rnd_angle, randint. destruct (i =? 0) eqn:Ei; [apply Z.eqb_eq in Ei; lia|].
        destruct (- (a / i) <? a / i + 1) eqn:L; [|apply Z.ltb_ge in L; lia]. cbn [bind g_int]. cbv zeta. rewrite E.
        replace (- (a / i) <=? r) with true by (symmetry; apply Z.leb_le; lia). replace (r <? a / i + 1) with true by (symmetry; apply Z.ltb_lt; lia). reflexivity. }
      rewrite (RA 0%nat _ _ k0), (RA 1%nat _ _ k1), (RA 2%nat _ _ k2) by (assumption || reflexivity). cbn [bind g_rand nth].
      rewrite W0, W1, W2, W3, W4, W5. rewrite !Qcplus_0_r in *.
      rewrite W6, W7, W8. rewrite Ef.
      assert (ES : (if r_uniform c then (sx, sx, sx) else (sx, sy, sz)) = (sx, sy, sz)) by (destruct (r_uniform c); [destruct (Su eq_refl) as [-> ->]|]; reflexivity).
      rewrite ES. destruct b0, b1, b2; reflexivity.
Qed.

(** The parameters are always defined. *)
Lemma rnd_total c g : rnd_ok c -> gen_ok g -> exists angle scale jitter flip, rnd_parameters c g = Ok (angle, scale, jitter, flip).
Proof.
  intros Hc Hg. unfold rnd_ok in Hc. unfold rnd_parameters. destruct (r_angle c) as [[a0 a1] a2]. destruct (r_interval c) as [[i0 i1] i2].
  destruct Hc as ((A0 & A1 & A2) & (I0 & I1 & I2) & _). destruct (r_flip c) as [[f0 f1] f2].
  destruct (angle_range g 0 a0 i0 Hg A0 I0) as (x & -> & _). destruct (angle_range g 1 a1 i1 Hg A1 I1) as (y & -> & _).
  destruct (angle_range g 2 a2 i2 Hg A2 I2) as (z & -> & _). cbn [bind]. do 4 eexists. reflexivity.
Qed.
Lemma near_nonzero e x : (0 <= e)%Qc -> (e < 1)%Qc -> near 1 e x -> x <> 0%Qc.
Proof. intros H0 H1 [[_ ->]|[H _]]; [discriminate|]. intros ->. qclra. Qed.

Theorem thm_transform_random : forall nrm rot c rc g, cfg_ok c -> rnd_ok rc -> gen_ok g -> (r_scale rc < 1)%Qc ->
  forall s xyz normals, sample_ok s xyz normals ->
  exists angle scale jitter flip out, rnd_parameters rc g = Ok (angle, scale, jitter, flip) /\ admissible rc angle scale jitter flip /\
    transform_random nrm rot c rc g s = Ok out /\
    transform_call nrm c (if t_distort c then mkDraw flip (rot angle) jitter scale else mkDraw "" (rot (0, 0, 0)%Qc) (0, 0, 0)%Qc (1, 1, 1)%Qc) s = Ok out /\
    draw_ok (mkDraw flip (rot angle) jitter scale).
Proof.
  intros nrm rot c rc g Hc Hrc Hg Hs s xyz normals Hsam.
  destruct (rnd_total rc g Hrc Hg) as (angle & scale & jitter & flip & E).
  assert (HA : admissible rc angle scale jitter flip) by (apply thm_rnd; [exact Hrc|exists g; auto]).
  exists angle, scale, jitter, flip.
  assert (D : draw_ok (mkDraw flip (rot angle) jitter scale)).
  { unfold admissible in HA. unfold rnd_ok in Hrc. unfold draw_ok. cbn [d_flip d_scale].
    destruct (r_angle rc) as [[a0 a1] a2]. destruct (r_interval rc) as [[i0 i1] i2]. destruct (r_flip rc) as [[f0 f1] f2].
    destruct HA as (_ & HS & _ & b0 & b1 & b2 & _ & _ & _ & ->). destruct Hrc as (_ & _ & Hs0 & _). split.
    - destruct b0, b1, b2; cbn; repeat apply Forall_cons; try apply Forall_nil; cbn; auto.
    - destruct scale as [[sx sy] sz]. destruct HS as (X & Y & W & _). split; [|split]; eapply near_nonzero; eassumption. }
  assert (G : forall r, (t_distort c = true -> draw_ok r) -> exists out, preprocess s <> Err TypeError /\ (exists t, preprocess s = Ok t) /\ transform_call nrm c r s = Ok out).
  { intros r Hr. destruct (thm_transform nrm c r Hc Hr s xyz normals Hsam) as (out & _ & _ & _ & _ & _ & Eo & _). exists out.
    assert (P : exists t, preprocess s = Ok t). { unfold transform_call in Eo. destruct (preprocess s) as [t|]; [exists t; reflexivity|discriminate]. }
    destruct P as (t & P). split; [rewrite P; discriminate|]. split; [exists t; exact P|exact Eo]. }
  unfold transform_random, drawn. destruct (t_distort c) eqn:Ed.
  - destruct (G (mkDraw flip (rot angle) jitter scale) (fun _ => D)) as (out & _ & (t & P) & Eo). exists out.
    rewrite P, E. cbn [bind]. auto.
  - destruct (G (mkDraw "" (rot (0, 0, 0)%Qc) (0, 0, 0)%Qc (1, 1, 1)%Qc) ltac:(congruence)) as (out & _ & (t & P) & Eo). exists out.
    rewrite P. cbn [bind]. auto.
Qed.

(** Flags for which no angle can be drawn: an interval of zero, or of the sign opposite to the angle's. *)
Lemma angle_err g k a i : (exists e, rnd_angle g k a i = Err e) <-> i = 0 \/ a * i < 0.
Proof.
  unfold rnd_angle, randint. destruct (i =? 0) eqn:E; [apply Z.eqb_eq in E; split; [auto|intros; eexists; reflexivity]|]. apply Z.eqb_neq in E.
  assert (D : a / i < 0 <-> a * i < 0).
  { destruct (Z_lt_le_dec 0 i) as [Hi|Hi].
    - split; intros H.
      + destruct (Z_lt_le_dec a 0) as [Ha|Ha]; [apply Z.mul_neg_pos; lia|]. pose proof (Z.div_pos a i Ha Hi). lia.
      + destruct (Z_lt_le_dec a 0) as [Ha|Ha]; [apply Z.div_lt_upper_bound; lia|]. pose proof (Z.mul_nonneg_nonneg a i Ha ltac:(lia)). lia.
    - rewrite <- (Z.div_opp_opp a i) by lia. split; intros H.
      + destruct (Z_lt_le_dec 0 a) as [Ha|Ha]; [apply Z.mul_pos_neg; lia|]. pose proof (Z.div_pos (- a) (- i) ltac:(lia) ltac:(lia)). lia.
      + destruct (Z_lt_le_dec 0 a) as [Ha|Ha]; [apply Z.div_lt_upper_bound; lia|]. pose proof (Z.mul_nonneg_nonneg (- a) (- i) ltac:(lia) ltac:(lia)). lia. }
  destruct (- (a / i) <? a / i + 1) eqn:L; cbn [bind].
  - apply Z.ltb_lt in L. split; [intros (e & H); discriminate|]. intros [H|H]; [contradiction|]. apply D in H. lia.
  - apply Z.ltb_ge in L. split; [|intros; eexists; reflexivity]. intros _. right. apply D. lia.
Qed.
Theorem thm_rnd_raises : forall c g a0 a1 a2 i0 i1 i2, r_angle c = (a0, a1, a2) -> r_interval c = (i0, i1, i2) ->
  ((exists e, rnd_parameters c g = Err e) <-> Exists (fun '(a, i) => i = 0 \/ a * i < 0) [(a0, i0); (a1, i1); (a2, i2)]).
Proof.
  intros c g a0 a1 a2 i0 i1 i2 Ea Ei. unfold rnd_parameters. rewrite Ea, Ei. destruct (r_flip c) as [[f0 f1] f2].
  pose proof (angle_err g 0 a0 i0) as H0. pose proof (angle_err g 1 a1 i1) as H1. pose proof (angle_err g 2 a2 i2) as H2.
  destruct (rnd_angle g 0 a0 i0) as [x|e] eqn:E0; cbn [bind].
  2:{ split; [intros _; apply Exists_cons_hd; apply H0; eauto|intros; eauto]. }
  destruct (rnd_angle g 1 a1 i1) as [y|e] eqn:E1; cbn [bind].
  2:{ split; [intros _; apply Exists_cons_tl, Exists_cons_hd; apply H1; eauto|intros; eauto]. }
  destruct (rnd_angle g 2 a2 i2) as [z|e] eqn:E2; cbn [bind].
  2:{ split; [intros _; apply Exists_cons_tl, Exists_cons_tl, Exists_cons_hd; apply H2; eauto|intros; eauto]. }
  split; [intros (e & H); discriminate|]. intros H.
  assert (N : forall A (v : A), ~ exists e, Ok v = Err e) by (intros A v (e & H'); discriminate).
  inversion H as [? ? Hh|? ? Ha]; subst; [exfalso; apply (N _ x), H0, Hh|].
  inversion Ha as [? ? Hh|? ? Hb]; subst; [exfalso; apply (N _ y), H1, Hh|].
  inversion Hb as [? ? Hh|? ? Hc]; subst; [exfalso; apply (N _ z), H2, Hh|]. inversion Hc.
Qed.

(** All flags zero: nothing changes. *)
Theorem thm_rnd_neutral : forall rot c g r v, rnd_ok c -> gen_ok g ->
  r_angle c = (0, 0, 0) -> r_scale c = 0%Qc -> r_jitter c = 0%Qc -> r_flip c = (0, 0, 0)%Qc ->
  rot (0, 0, 0)%Qc = ((1, 0, 0), (0, 1, 0), (0, 0, 1))%Qc -> drawn rot c g = Ok r -> augmented r v = v.
Proof.
  intros rot c g r v Hc Hg Ea Es Ej Ef Er E. unfold drawn in E. destruct (rnd_total c g Hc Hg) as (angle & scale & jitter & flip & EP).
  assert (HA : admissible c angle scale jitter flip) by (apply thm_rnd; [exact Hc|exists g; auto]).
  rewrite EP in E. cbn [bind] in E. assert (Eq : forall A (x y : A), Ok x = Ok y -> x = y) by congruence. apply Eq in E. subst r.
  unfold admissible in HA. rewrite Ea, Es, Ej, Ef in HA. destruct (r_interval c) as [[i0 i1] i2]. destruct angle as [[x y] z]. destruct scale as [[sx sy] sz]. destruct jitter as [[jx jy] jz].
  assert (R0 : forall i x, rotation_of 0 i x -> x = 0%Qc).
  { intros i w (k & -> & H). assert (k * i = 0) as -> by lia. change (qz 0) with 0%Qc. ring. }
  assert (N0 : forall cc w, near cc 0 w -> w = cc) by (intros cc w [[_ H]|[H1 H2]]; [exact H|exfalso; qclra]).
  destruct HA as ((X & Y & W) & (S1 & S2 & S3 & _) & (J1 & J2 & J3) & b0 & b1 & b2 & B0 & B1 & B2 & ->).
  apply R0 in X, Y, W. apply N0 in S1, S2, S3, J1, J2, J3. subst.
  assert (F0 : forall b, may_flip 0 b -> b = false) by (intros [|] H; [cbn in H; exfalso; qclra|reflexivity]).
  apply F0 in B0, B1, B2. subst. cbn [append]. destruct v as [[vx vy] vz]. unfold augmented. cbn [d_flip d_rot d_jitter d_scale]. rewrite Er.
  change (sign_of "" "x") with (qz 1). change (sign_of "" "y") with (qz 1). change (sign_of "" "z") with (qz 1). rewrite qz_1.
  f_equal; [f_equal|]; ring.
Qed.

(** A scale of one can draw the factor zero, which raises. *)
Definition ex_rcfg : rnd_cfg := mkRnd (0, 180, 5) (1, 45, 5) (qz 1) true (Q2Qc (1 # 8)) (0, Q2Qc (1 # 2), 0)%Qc.
Definition ex_rcfg4 : rnd_cfg := mkRnd (0, 180, 5) (1, 45, 5) (Q2Qc (1 # 4)) true (Q2Qc (1 # 8)) (0, Q2Qc (1 # 2), 0)%Qc.
Definition ex_gen : gen := mkGen (fun _ lo hi => lo) (fun k => if Nat.even k then 0%Qc else Q2Qc (3 # 4)).
Lemma ex_gen_ok : gen_ok ex_gen.
Proof. split; cbn [g_int g_rand ex_gen]; [intros; lia|]. intros k. destruct (Nat.even k); split; qclra. Qed.
Lemma ex_rcfg_ok : rnd_ok ex_rcfg /\ rnd_ok ex_rcfg4.
Proof. split; (split; [lia|split; [lia|split; cbn; qclra]]). Qed.
Lemma thm_scale_one : exists nrm rot c rc g s xyz normals, cfg_ok c /\ rnd_ok rc /\ gen_ok g /\ r_scale rc = 1%Qc /\ sample_ok s xyz normals /\
  transform_random nrm rot c rc g s = Err AssertionError.
Proof.
  exists (fun v => v), (fun _ => ((1, 0, 0), (0, 1, 0), (0, 0, 1))%Qc), (mkTransform 5 2 true ""), ex_rcfg, ex_gen,
    [("points"%string, VArr [(qz 0, qz 0, qz 0)]); ("normals"%string, VArr [(qz 0, qz 0, qz 1)])], [(qz 0, qz 0, qz 0)], [(qz 0, qz 0, qz 1)].
  split; [split; [cbn; lia|split; [cbn; lia|cbn; auto]]|]. split; [apply ex_rcfg_ok|]. split; [exact ex_gen_ok|]. split; [reflexivity|].
  split; [split; [repeat constructor; cbn; intuition discriminate|split; [reflexivity|split; reflexivity]]|]. vm_compute. reflexivity.
Qed.
