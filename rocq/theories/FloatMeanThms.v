(** The statements about the averaged points in single precision. *)
From Coq Require Import List ZArith Bool Reals Lra Lia.
From Flocq Require Import Core.Core IEEE754.BinarySingleNaN.
From Verif Require Import Res Tensor Key Spec Num KeyFacts ListFacts ScatterFacts Points Octree SpecGeo Float32 SpecSingle FloatFacts
  FloatMean SpecMean FloatMeanFacts.
Import ListNotations.
Open Scope R_scope.
Local Instance p24 : Prec_gt_0 24 := eq_refl.
Local Instance fex_valid : Valid_exp fex := FLT_exp_valid (-149) 24.

Lemma Forall2_rev_len {A B} (P : A -> B -> Prop) l m : Forall2 P l m -> length m = length l.
Proof. induction 1; cbn; congruence. Qed.

Theorem thm_node_points : forall dep pts batch,
  (dep <= 16)%nat -> Forall safe_point32 pts -> good_ids (length pts) batch ->
  exists keys nodes avgs, keys32 dep pts batch = Ok keys /\ node_points32 dep pts batch = Ok (nodes, avgs) /\
    (forall k, In k nodes <-> In k keys) /\ NoDup nodes /\ length avgs = length nodes /\
    forall i k a, nth_error nodes i = Some k -> nth_error avgs i = Some a ->
      rows_at keys k pts <> [] /\
      exists x y z b, key2xyz k dep = Ok (x, y, z, b) /\ in_cube dep x y z /\
        (forall p, In p (rows_at keys k pts) -> near_cell (/ 2 ^ 24) dep x y z p) /\
        ((Z.of_nat (length (rows_at keys k pts)) * 2 ^ Z.of_nat dep <= 2 ^ 24)%Z -> in_unit_cell x y z a) /\
        (forall j, (j <= 24)%nat -> (Z.of_nat (length (rows_at keys k pts)) <= 2 ^ Z.of_nat j)%Z ->
           near_mean dep ((2 ^ j + 2) * 2 ^ dep / 2 ^ 25) (rows_at keys k pts) a).
Proof.
  intros dep pts batch Hd Hs Hg.
  destruct (keys32_ok dep pts batch Hd Hs Hg) as (keys & Ek & Ft).
  pose proof (Forall2_rev_len _ _ _ Ft) as Hl.
  exists keys. do 2 eexists. split; [exact Ek|]. split; [exact (node_points32_ok dep pts batch keys Hl Ek)|].
  split; [intros k; apply sort_uniq_In|]. split; [apply sorted_NoDup, sort_uniq_sorted|]. split; [apply map_length|].
  intros i k a Hi Ha. rewrite nth_error_map, Hi in Ha. cbn [option_map] in Ha. injection Ha as <-.
  assert (Hin : In k keys) by (apply sort_uniq_In; eapply nth_error_In; exact Hi).
  assert (Hne : rows_at keys k pts <> []) by (apply rows_nonempty; congruence). split; [exact Hne|].
  pose proof (rows_tagged (tagged dep) keys k pts Ft) as Hr.
  assert (Hsr : Forall safe_point32 (rows_at keys k pts)).
  { apply Forall_forall. intros p Hp. rewrite Forall_forall in Hs. apply Hs. eapply NormFacts.rows_at_in; exact Hp. }
  destruct (rows_at keys k pts) as [|p0 rest] eqn:Erows; [congruence|]. rewrite <- Erows in *.
  assert (Hp0 : In p0 (rows_at keys k pts)) by (rewrite Erows; left; reflexivity).
  rewrite Forall_forall in Hr. destruct (Hr p0 Hp0) as (x & y & z & b & Hc & Hk & _).
  exists x, y, z, b. rewrite Hk at 1. rewrite key2xyz_key_of by (assumption || lia).
  split; [reflexivity|]. split; [exact Hc|].
  assert (Hall : Forall (fun p => safe_point32 p /\ v3map (cell32 dep) p = (Some x, Some y, Some z)) (rows_at keys k pts)).
  { apply Forall_forall. intros p Hp. rewrite Forall_forall in Hsr. split; [apply Hsr; exact Hp|].
    destruct (Hr p Hp) as (x' & y' & z' & b' & Hc' & Hk' & Hv). rewrite Hk in Hk'.
    apply key_of_inj in Hk'; [|lia|assumption..]. destruct Hk' as (_ & -> & -> & ->). exact Hv. }
  clear Erows Hp0 Hr Hsr. set (rows := rows_at keys k pts) in *.
  assert (Hx : Forall (fun p => safe32 (fst (fst p)) /\ cell32 dep (fst (fst p)) = Some x) rows).
  { eapply Forall_impl; [|exact Hall]. intros [[px py] pz] ((H1 & H2 & H3) & E). cbn [v3map] in E. injection E as E1 E2 E3. auto. }
  assert (Hy : Forall (fun p => safe32 (snd (fst p)) /\ cell32 dep (snd (fst p)) = Some y) rows).
  { eapply Forall_impl; [|exact Hall]. intros [[px py] pz] ((H1 & H2 & H3) & E). cbn [v3map] in E. injection E as E1 E2 E3. auto. }
  assert (Hz : Forall (fun p => safe32 (snd p) /\ cell32 dep (snd p) = Some z) rows).
  { eapply Forall_impl; [|exact Hall]. intros [[px py] pz] ((H1 & H2 & H3) & E). cbn [v3map] in E. injection E as E1 E2 E3. auto. }
  assert (Ea : avg32 (map (rescale32 dep) rows)
    = (favg (map (fun p => frescale dep (fst (fst p))) rows), favg (map (fun p => frescale dep (snd (fst p))) rows),
       favg (map (fun p => frescale dep (snd p)) rows))).
  { unfold avg32. rewrite !map_map.
    f_equal; [f_equal|]; f_equal; apply map_ext; intros [[px py] pz]; reflexivity. }
  rewrite Ea. destruct Hc as (Cx & Cy & Cz). split; [|split].
  - rewrite Forall_forall in Hall. intros p Hp. destruct (Hall p Hp) as [Hsp Hv]. destruct p as [[px py] pz].
    destruct Hsp as (S1 & S2 & S3). cbn [v3map] in Hv. injection Hv as E1 E2 E3. cbn [near_cell].
    destruct (cell32_range dep px ltac:(lia) S1) as (? & F1 & _ & N1).
    destruct (cell32_range dep py ltac:(lia) S2) as (? & F2 & _ & N2).
    destruct (cell32_range dep pz ltac:(lia) S3) as (? & F3 & _ & N3).
    rewrite E1 in F1. rewrite E2 in F2. rewrite E3 in F3. injection F1 as <-. injection F2 as <-. injection F3 as <-. auto.
  - intros Hn. cbn [in_unit_cell]. split; [|split]; apply (axis_slab dep); assumption.
  - intros j Hj Hn. cbn [near_mean].
    pose proof (axis_error dep (fun p => fst (fst p)) rows x Hd Hne Hx j Hj Hn) as A1.
    pose proof (axis_error dep (fun p => snd (fst p)) rows y Hd Hne Hy j Hj Hn) as A2.
    pose proof (axis_error dep (fun p => snd p) rows z Hd Hne Hz j Hj Hn) as A3.
    split; [|split].
    + erewrite (map_ext _ (fun p => units dep (fst (fst p)))); [exact A1|intros [[px py] pz]; reflexivity].
    + erewrite (map_ext _ (fun p => units dep (snd (fst p)))); [exact A2|intros [[px py] pz]; reflexivity].
    + erewrite (map_ext _ (fun p => units dep (snd p))); [exact A3|intros [[px py] pz]; reflexivity].
Qed.

(** ** the local coordinates *)
Lemma frac_fmt (a : f32) : is_finite a = true -> 0 <= B2R a ->
  generic_format radix2 fex (B2R a - IZR (Zfloor (B2R a))).
Proof.
  intros Hf H0.
  assert (G : FLT_format radix2 (-149) 24 (B2R a)).
  { apply FLT_format_generic; [reflexivity|]. apply (generic_format_B2R 24 128 a). }
  destruct G as [[m e] E Hm He]. cbn [Fnum Fexp] in *. unfold F2R in E. cbn [Fnum Fexp] in E.
  destruct (Z.le_gt_cases 0 e) as [Hp|Hn].
  - assert (Ei : B2R a = IZR (m * 2 ^ e)) by (rewrite mult_IZR, IZR_pow by lia; exact E).
    rewrite Ei, Zfloor_IZR. replace (IZR (m * 2 ^ e) - IZR (m * 2 ^ e)) with 0 by ring. apply fmt_0.
  - set (f := Zfloor (B2R a)).
    assert (Hfl : 0 <= B2R a - IZR f) by (pose proof (Zfloor_lb (B2R a)); unfold f; lra).
    assert (Hf0 : (0 <= f)%Z) by (apply Zfloor_lub; exact H0).
    assert (Ed : B2R a - IZR f = IZR (m - f * 2 ^ (- e)) * bpow radix2 e).
    { rewrite minus_IZR, mult_IZR, IZR_pow by lia. rewrite Rmult_minus_distr_r, <- E.
      rewrite Rmult_assoc, <- bpow_plus. replace (- e + e)%Z with 0%Z by lia. cbn [bpow]. ring. }
    rewrite Ed. apply fmt_scaled; [|lia]. change (radix_val radix2 ^ 24)%Z with (2 ^ 24)%Z in Hm.
    assert (H1 : (0 <= m - f * 2 ^ (- e))%Z).
    { apply le_IZR. apply Rmult_le_reg_r with (bpow radix2 e); [apply bpow_gt_0|]. rewrite <- Ed, Rmult_0_l. exact Hfl. }
    assert (0 <= f * 2 ^ (- e))%Z by (apply Z.mul_nonneg_nonneg; [exact Hf0|apply Z.pow_nonneg; lia]). lia.
Qed.

Lemma ffrac_val (a : f32) : is_finite a = true -> 0 <= B2R a <= bpow radix2 24 ->
  B2R (ffrac a) = B2R a - IZR (Zfloor (B2R a)) /\ is_finite (ffrac a) = true.
Proof.
  intros Hf Hb. unfold ffrac, ftrunc. rewrite Hf.
  assert (Ht : Btrunc a = Zfloor (B2R a)).
  { apply eq_IZR. rewrite Btrunc_correct by exact f32_emax. rewrite round_FIX_IZR, Ztrunc_floor by lra. reflexivity. }
  rewrite Ht. set (f := Zfloor (B2R a)) in *.
  assert (Hf0 : (0 <= f)%Z) by (apply Zfloor_lub; lra).
  assert (Hfl : IZR f <= B2R a) by apply Zfloor_lb.
  assert (Hf24 : (f <= 2 ^ 24)%Z) by (apply le_IZR; rewrite IZR_pow by lia; lra).
  assert (Hfu : B2R a < IZR f + 1) by apply Zfloor_ub.
  destruct (fnormal_val f (Bsign a) ltac:(lia)) as [E F].
  destruct (fsub_val a _ Hf F) as [E2 F2].
  - rewrite E, Rabs_pos_eq by lra. apply Rle_trans with (bpow radix2 0); [cbn; lra|apply bpow_le; lia].
  - split; [|exact F2]. rewrite E2, E. apply rne_id. apply frac_fmt; [exact Hf|lra].
Qed.

Lemma fhalf_val : B2R fhalf = / 2 /\ is_finite fhalf = true.
Proof.
  split; [|vm_compute; reflexivity]. rewrite <- SF2R_B2SF.
  replace (B2SF fhalf) with (SpecFloat.S754_finite false 8388608 (-24)) by (vm_compute; reflexivity).
  cbn [SF2R]. unfold F2R. cbn [Fnum Fexp SpecFloat.cond_Zopp]. change (bpow radix2 (-24)) with (/ 16777216). cbn. lra.
Qed.

Lemma frac_top (r : R) : generic_format radix2 fex r -> r < 1 -> r <= 1 - / 2 ^ 24.
Proof.
  intros Hg H1. rewrite <- ftop_val.
  destruct (Rle_or_lt r (B2R ftop)) as [H|H]; [exact H|exfalso].
  assert (Hs : succ radix2 fex (B2R ftop) <= r).
  { apply succ_le_lt; [auto with typeclass_instances|apply (generic_format_B2R 24 128 ftop)|exact Hg|exact H]. }
  rewrite ftop_val, inv24 in Hs.
  assert (E : succ radix2 fex (1 - bpow radix2 (-24)) = 1 - bpow radix2 (-24) + bpow radix2 (-24)).
  { rewrite succ_eq_pos by (change (bpow radix2 (-24)) with (/ 16777216); lra). f_equal.
    rewrite ulp_neq_0 by (change (bpow radix2 (-24)) with (/ 16777216); lra). unfold cexp.
    rewrite (mag_unique radix2 _ 0).
    - reflexivity.
    - rewrite Rabs_pos_eq by (change (bpow radix2 (-24)) with (/ 16777216); lra).
      change (bpow radix2 (-24)) with (/ 16777216). change (bpow radix2 (0 - 1)) with (/ 2). change (bpow radix2 0) with 1. lra. }
  rewrite E in Hs. lra.
Qed.

Theorem thm_local32 : forall a : f32, is_finite a = true -> 0 <= B2R a <= 2 ^ 24 ->
  is_finite (flocal a) = true /\ - / 2 <= B2R (flocal a) < / 2 /\
  Rabs (B2R (flocal a) - (B2R a - IZR (Zfloor (B2R a)) - / 2)) <= / 2 ^ 26.
Proof.
  intros a Hf Hb. rewrite pow_bpow in Hb.
  destruct (ffrac_val a Hf Hb) as [E F]. destruct fhalf_val as [Eh Fh].
  pose proof (Zfloor_lb (B2R a)) as Hl. pose proof (Zfloor_ub (B2R a)) as Hu.
  pose proof (frac_fmt a Hf ltac:(lra)) as Hg.
  set (r := B2R a - IZR (Zfloor (B2R a))) in *.
  assert (Hr : 0 <= r < 1) by (unfold r; lra).
  pose proof (frac_top r Hg ltac:(lra)) as Ht.
  destruct (fsub_val (ffrac a) fhalf F Fh) as [E2 F2].
  - rewrite E, Eh. apply Rle_trans with (bpow radix2 0); [|apply bpow_le; lia]. cbn. apply Rabs_le. lra.
  - unfold flocal. split; [exact F2|]. rewrite E2, E, Eh. split; [split|].
    + assert (Hm : rne (- / 2) = - / 2) by (apply rne_id, generic_format_opp; apply (fmt_bpow (-1)); lia).
      rewrite <- Hm at 1. apply rne_le; lra.
    + apply Rle_lt_trans with (rne (/ 2 - / 2 ^ 24)); [apply rne_le; lra|].
      rewrite rne_id.
      * rewrite inv24. change (bpow radix2 (-24)) with (/ 16777216). lra.
      * replace (/ 2 - / 2 ^ 24) with (IZR 8388607 * bpow radix2 (-24)); [apply fmt_scaled; lia|].
        rewrite inv24. change (bpow radix2 (-24)) with (/ 16777216). lra.
    + replace (/ 2 ^ 26) with (bpow radix2 (-1 - 25)) by (rewrite pow_bpow, <- bpow_opp; reflexivity).
      apply rne_half_ulp; [lia|]. change (bpow radix2 (-1)) with (/ 2). apply Rabs_le. lra.
Qed.

(** ** the global coordinates *)
Theorem thm_global32 : forall dep (a : f32), (dep <= 16)%nat -> is_finite a = true -> 0 <= B2R a <= 2 ^ dep ->
  is_finite (fglobal dep a) = true /\ -1 <= B2R (fglobal dep a) <= 1 /\
  Rabs (B2R (fglobal dep a) - (2 * B2R a / 2 ^ dep - 1)) <= / 2 ^ 23.
Proof.
  intros dep a Hd Hf Hb.
  assert (Hsc : B2R (@Bldexp 24 128 f32_prec f32_emax mode_NE fone (1 - Z.of_nat dep)) = bpow radix2 (1 - Z.of_nat dep) /\
     is_finite (@Bldexp 24 128 f32_prec f32_emax mode_NE fone (1 - Z.of_nat dep)) = true).
  { pose proof (@Bldexp_correct 24 128 f32_prec f32_emax mode_NE fone (1 - Z.of_nat dep)) as H.
    rewrite fone_val, Rmult_1_l, fex_eq in H. change (round radix2 fex (round_mode mode_NE)) with rne in H.
    rewrite rne_id in H by (apply fmt_bpow; lia).
    rewrite (big_bound _ (1 - Z.of_nat dep)) in H; [|lia|rewrite Rabs_pos_eq by apply bpow_ge_0; lra].
    destruct H as (H1 & H2 & _). split; [exact H1|]. rewrite H2. exact fone_fin. }
  destruct Hsc as [Es Fs]. rewrite pow_bpow in *.
  set (sc := @Bldexp 24 128 f32_prec f32_emax mode_NE fone (1 - Z.of_nat dep)) in *.
  set (w := bpow radix2 (Z.of_nat dep)) in *. assert (Hw : 0 < w) by apply bpow_gt_0.
  assert (Ew : bpow radix2 (1 - Z.of_nat dep) = 2 / w).
  { unfold Zminus. rewrite bpow_plus, bpow_opp. reflexivity. }
  assert (Hp : 0 <= B2R a * B2R sc <= 2).
  { rewrite Es, Ew. split; [apply Rmult_le_pos; [lra|]; apply Rmult_le_pos; [lra|]; left; apply Rinv_0_lt_compat; lra|].
    apply Rmult_le_reg_r with w; [lra|]. replace (B2R a * (2 / w) * w) with (2 * B2R a) by (field; lra). lra. }
  destruct (fmul_val a sc Hf Fs) as [Em Fm].
  { rewrite Rabs_pos_eq by lra. apply Rle_trans with (bpow radix2 1); [change (bpow radix2 1) with 2; lra|apply bpow_le; lia]. }
  assert (Hm : 0 <= rne (B2R a * B2R sc) <= 2).
  { split; [rewrite <- (rne_id 0 fmt_0); apply rne_le; lra|].
    assert (H2 : rne 2 = 2) by (apply rne_id; apply (fmt_int 2); lia). apply Rle_trans with (rne 2); [apply rne_le; lra|lra]. }
  destruct (fsub_val (fmul a sc) fone Fm fone_fin) as [E2 F2].
  { rewrite Em, fone_val. apply Rle_trans with (bpow radix2 0); [|apply bpow_le; lia]. change (bpow radix2 0) with 1. apply Rabs_le. lra. }
  unfold fglobal. fold sc. split; [exact F2|]. rewrite E2, Em, fone_val.
  pose proof (rne_half_ulp (B2R a * B2R sc) 1 ltac:(lia)) as He1.
  specialize (He1 ltac:(rewrite Rabs_pos_eq by lra; change (bpow radix2 1) with 2; lra)).
  assert (Hab : Rabs (rne (B2R a * B2R sc) - 1) <= bpow radix2 0) by (change (bpow radix2 0) with 1; apply Rabs_le; lra).
  pose proof (rne_half_ulp (rne (B2R a * B2R sc) - 1) 0 ltac:(lia) Hab) as He2.
  pose proof (rne_bound (rne (B2R a * B2R sc) - 1) 0 ltac:(lia) Hab) as He3.
  change (bpow radix2 0) with 1 in He3. apply Rabs_le_inv in He3. split; [lra|].
  replace (2 * B2R a / w) with (B2R a * B2R sc) by (rewrite Es, Ew; field; lra).
  change (bpow radix2 (1 - 25)) with (/ 16777216) in He1. change (bpow radix2 (0 - 25)) with (/ 33554432) in He2.
  replace (/ 2 ^ 23) with (bpow radix2 (-23)) by (rewrite pow_bpow, <- bpow_opp; reflexivity).
  change (bpow radix2 (-23)) with (/ 8388608).
  apply Rabs_le_inv in He1. apply Rabs_le_inv in He2. apply Rabs_le. lra.
Qed.

(** ** the theorems of P_FloatMean *)
Lemma mapM_at {A B} (f : A -> res B) l m : mapM f l = Ok m ->
  length m = length l /\ forall i a b, nth_error l i = Some a -> nth_error m i = Some b -> f a = Ok b.
Proof.
  intros E. apply DecodeBatch.mapM_Forall2 in E. split; [eapply Forall2_rev_len; exact E|].
  induction E as [|a b l m H E IH]; intros [|i] a' b' Ha Hb; cbn [nth_error] in *; try discriminate.
  - congruence.
  - eapply IH; eassumption.
Qed.
Lemma keys32_at dep pts batch keys : keys32 dep pts batch = Ok keys ->
  length keys = length pts /\
  forall i p k, nth_error pts i = Some p -> nth_error keys i = Some k ->
    point_key32 dep p (match batch with None => None | Some ids => nth_error ids i end) = Ok k.
Proof.
  intros E. destruct batch as [ids|]; cbn [keys32] in E.
  - destruct (Nat.eqb_spec (length ids) (length pts)) as [Hl|]; [|discriminate].
    apply mapM_at in E. destruct E as [El E]. rewrite combine_length, Hl, Nat.min_id in El.
    split; [exact El|]. intros i p k Hp Hk.
    destruct (nth_error ids i) as [b|] eqn:Eb.
    + apply (E i (p, b) k); [|exact Hk].
      clear - Hp Eb. revert pts ids Hp Eb. induction i as [|i IH]; intros [|q pts] [|j ids] Hp Eb; cbn [nth_error combine] in *; try discriminate.
      * congruence.
      * apply IH; assumption.
    + apply nth_error_None in Eb. assert (nth_error pts i <> None) by congruence. apply nth_error_Some in H. lia.
  - apply mapM_at in E. destruct E as [El E]. split; [exact El|]. intros i p k Hp Hk. apply (E i p k Hp Hk).
Qed.
Theorem thm_mean_cell : forall dep pts batch,
  (dep <= 16)%nat -> Forall safe_point32 pts -> good_ids (length pts) batch ->
  exists keys nodes avgs, keys32 dep pts batch = Ok keys /\ node_points32 dep pts batch = Ok (nodes, avgs) /\
    length keys = length pts /\
    (forall i p k, nth_error pts i = Some p -> nth_error keys i = Some k ->
       point_key32 dep p (match batch with None => None | Some ids => nth_error ids i end) = Ok k) /\
    (forall k, In k nodes <-> In k keys) /\ NoDup nodes /\ length avgs = length nodes /\
    forall i k a, nth_error nodes i = Some k -> nth_error avgs i = Some a ->
      (Z.of_nat (length (rows_at keys k pts)) * 2 ^ Z.of_nat dep <= 2 ^ 24)%Z ->
      exists x y z b, key2xyz k dep = Ok (x, y, z, b) /\ in_cube dep x y z /\ in_unit_cell x y z a.
Proof.
  intros dep pts batch Hd Hs Hg.
  destruct (thm_node_points dep pts batch Hd Hs Hg) as (keys & nodes & avgs & E1 & E2 & E3 & E4 & E5 & E6).
  destruct (keys32_at dep pts batch keys E1) as [K1 K2].
  exists keys, nodes, avgs. do 7 (split; [assumption|]). intros i k a Hi Ha Hn.
  destruct (E6 i k a Hi Ha) as (_ & x & y & z & b & F1 & F2 & _ & F3 & _). exists x, y, z, b. auto.
Qed.

Theorem thm_mean_error : forall dep pts batch keys nodes avgs,
  (dep <= 16)%nat -> Forall safe_point32 pts -> good_ids (length pts) batch ->
  keys32 dep pts batch = Ok keys -> node_points32 dep pts batch = Ok (nodes, avgs) ->
  forall i k a j, nth_error nodes i = Some k -> nth_error avgs i = Some a ->
    (j <= 24)%nat -> (Z.of_nat (length (rows_at keys k pts)) <= 2 ^ Z.of_nat j)%Z ->
    near_mean dep ((2 ^ j + 2) * 2 ^ dep / 2 ^ 25) (rows_at keys k pts) a.
Proof.
  intros dep pts batch keys nodes avgs Hd Hs Hg K1 K2 i k a j Hi Ha Hj Hn.
  destruct (thm_node_points dep pts batch Hd Hs Hg) as (keys' & nodes' & avgs' & E1 & E2 & _ & _ & _ & E6).
  rewrite K1 in E1. injection E1 as <-. rewrite K2 in E2. injection E2 as <- <-.
  destruct (E6 i k a Hi Ha) as (_ & x & y & z & b & _ & _ & _ & _ & F). apply F; assumption.
Qed.

Theorem thm_mean_local : forall (k : Z) (a : f32), (0 <= k < 2 ^ 24)%Z -> in_slab k a ->
  is_finite (flocal a) = true /\ - / 2 <= B2R (flocal a) < / 2 /\
  Rabs (B2R (flocal a) - (B2R a - IZR k - / 2)) <= / 2 ^ 26.
Proof.
  intros k a Hk (Hf & H1 & H2).
  assert (E : Zfloor (B2R a) = k) by (apply Zfloor_imp; rewrite plus_IZR; lra).
  assert (IZR (k + 1) <= 2 ^ 24) by (rewrite pow_bpow; change (Z.of_nat 24) with 24%Z; rewrite <- IZR_pow by lia; apply IZR_le; lia).
  assert (0 <= IZR k) by (apply (IZR_le 0); lia). rewrite plus_IZR in *.
  destruct (thm_local32 a Hf ltac:(lra)) as (A & B & C). rewrite E in C. auto.
Qed.

(** 1024 copies of one point at depth 16 *)
Definition crowd_c : f32 := @B754_finite 24 128 false 16776194 (-24) eq_refl.
Lemma crowd_run : match node_points32 16 (repeat (crowd_c, fzero, fzero) (Nat.pow 2 10)) None with
  | Ok ([k], [(x, y, z)]) => key2xyz k 16 = Ok (65534, 32768, 32768, 0)%Z /\ flong x = Some 65535%Z
  | _ => False
  end.
Proof. vm_compute. split; reflexivity. Qed.
Lemma crowd_safe : safe_point32 (crowd_c, fzero, fzero).
Proof.
  unfold safe_point32, safe32. rewrite inv24. change (bpow radix2 (-24)) with (/ 16777216).
  split; [|split]; (split; [reflexivity|]); cbn; unfold F2R; cbn; lra.
Qed.
Theorem thm_mean_crowd : exists p n k x y z, safe_point32 p /\
  node_points32 16 (repeat p n) None = Ok ([k], [(x, y, z)]) /\
  exists kx ky kz b, key2xyz k 16 = Ok (kx, ky, kz, b) /\ ~ in_slab kx x.
Proof.
  pose proof crowd_run as H.
  destruct (node_points32 16 (repeat (crowd_c, fzero, fzero) (Nat.pow 2 10)) None) as [[nodes avgs]|] eqn:E; [|contradiction].
  destruct nodes as [|k [|]]; [contradiction| |contradiction].
  destruct avgs as [|[[x y] z] [|]]; [contradiction| |contradiction]. destruct H as [H1 H2].
  exists (crowd_c, fzero, fzero), (Nat.pow 2 10), k, x, y, z. split; [exact crowd_safe|]. split; [exact E|].
  exists 65534%Z, 32768%Z, 32768%Z, 0%Z. split; [exact H1|]. intros (Hf & L & U).
  destruct (flong_val x Hf) as (t & Ht & Hv).
  { split; [lra|]. apply Rlt_trans with (1 := U). apply Rlt_trans with (bpow radix2 17); [cbn; lra|apply bpow_lt; lia]. }
  rewrite H2 in Ht. injection Ht as <-.
  assert (Zfloor (B2R x) = 65534%Z) by (apply Zfloor_imp; rewrite plus_IZR; lra). congruence.
Qed.
