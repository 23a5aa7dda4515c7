(** Proofs about linear interpolation in single precision: the effect of the rounded
    weights on the result. *)
From Coq Require Import List ZArith Bool Reals Lra Lia QArith Qcanon Qreals.
From Flocq Require Import Core.Core IEEE754.BinarySingleNaN.
From Flocq Require Import Relative.
From Verif Require Import Res Tensor Key Spec Num KeyFacts NumFacts ListFacts Points Octree NnBasic NnInterp
  Float32 FloatMean SpecSingle FloatFacts FloatMeanFacts BuildFloat SpecNudge NudgeFacts LinearFloat SpecLinear32 LinearFloatFacts.
Import ListNotations.
Open Scope R_scope.
Local Existing Instances p24 fex_valid fex_mono.

(** ** the weights and the result *)
Definition d24 : R := 2 * / 2 ^ 24 + / 2 ^ 24 * / 2 ^ 24.
Lemma d24_small : 0 <= d24 /\ 2 * d24 <= (1 - d24) * / 2 ^ 21.
Proof.
  unfold d24. assert (E : / 2 ^ 24 = / 16777216) by (rewrite inv24; reflexivity). rewrite E.
  replace (/ 2 ^ 21) with (/ 2097152) by (f_equal; lra). split; lra.
Qed.
Definition close_entry (e e' : Z * Z * Qc) : Prop := fst e' = fst e /\ 0 <= Q2R (snd e) /\ Rabs (Q2R (snd e') - Q2R (snd e)) <= d24 * Q2R (snd e).
Lemma near_close e e32 e' : near_entry e e32 -> fst e' = fst e32 -> same_number (snd e') (snd e32) -> close_entry e e'.
Proof.
  intros (E1 & _ & H) E2 Hs. unfold same_number in Hs. rewrite <- Hs in H. split; [congruence|].
  assert (E : / 2 ^ 24 = / 16777216) by (rewrite inv24; reflexivity). unfold d24. rewrite E in *.
  set (w := Q2R (snd e)) in *. set (w' := Q2R (snd e')) in *. clearbody w w'.
  assert (0 <= w) by (cbn [pow] in H; lra). split; [assumption|]. cbn [pow] in H. apply Rabs_le. lra.
Qed.
Lemma eps12_pos : 0 < Q2R eps12.
Proof. unfold eps12, Q2R. cbn. lra. Qed.
Lemma Q2R_inv' (b : Qc) : Q2R b <> 0 -> Q2R (/ b)%Qc = / Q2R b.
Proof.
  intros H. unfold Qcinv. rewrite Q2R_Q2Qc. apply Q2R_inv. intros E. apply H. apply Qeq_eqR in E. rewrite RMicromega.Q2R_0 in E. exact E.
Qed.
Lemma quotient_close X X' s N' M e : 0 <= s -> 0 <= M -> 0 < e -> Rabs X <= s * M -> Rabs (X' - X) <= d24 * s * M -> Rabs (N' - s) <= d24 * s ->
  0 < s + e /\ 0 < N' + e /\ Rabs (X' * / (N' + e) - X * / (s + e)) <= M * / 2 ^ 21.
Proof.
  intros Hs HM He HX HX' HN. destruct d24_small as [Hd0 Hd]. set (k := / 2 ^ 21) in *.
  assert (Hk : 0 < k) by (apply Rinv_0_lt_compat; lra).
  assert (Hd1 : 0 <= 1 - d24) by (apply Rnot_lt_le; intros Hlt; assert ((1 - d24) * k < 0) by (apply Rmult_lt_reg_r with (/ k); [apply Rinv_0_lt_compat; exact Hk|]; rewrite Rmult_assoc, Rinv_r by lra; lra); lra).
  pose proof (Rabs_le_inv _ _ HN) as HN'.
  assert (HN0 : (1 - d24) * s <= N') by lra.
  assert (0 <= (1 - d24) * s) by (apply Rmult_le_pos; assumption).
  split; [lra|]. split; [lra|].
  assert (HP : 0 < s + e) by lra. assert (HP' : 0 < N' + e) by lra.
  replace (X' * / (N' + e) - X * / (s + e)) with (((X' - X) * (s + e) + X * (s - N')) * / ((s + e) * (N' + e))) by (field; split; lra).
  rewrite Rabs_mult, (Rabs_pos_eq (/ _)) by (left; apply Rinv_0_lt_compat, Rmult_lt_0_compat; assumption).
  apply Rmult_le_reg_r with ((s + e) * (N' + e)); [apply Rmult_lt_0_compat; assumption|]. rewrite Rmult_assoc, Rinv_l, Rmult_1_r by (apply Rgt_not_eq, Rmult_lt_0_compat; assumption).
  eapply Rle_trans; [apply Rabs_triang|]. rewrite !Rabs_mult, (Rabs_pos_eq (s + e)) by lra. rewrite (Rabs_minus_sym s N').
  assert (A1 : Rabs (X' - X) * (s + e) <= d24 * s * M * (s + e)) by (apply Rmult_le_compat_r; lra).
  assert (A2 : Rabs X * Rabs (N' - s) <= (s * M) * (d24 * s)) by (apply Rmult_le_compat; auto using Rabs_pos).
  assert (A3 : (s * M) * (d24 * s) <= d24 * s * M * (s + e)).
  { replace (s * M * (d24 * s)) with (d24 * s * M * s) by ring. apply Rmult_le_compat_l; [|lra]. repeat apply Rmult_le_pos; assumption. }
  assert (A4 : 2 * d24 * s <= k * (N' + e)).
  { apply Rle_trans with (k * ((1 - d24) * s)).
    - replace (k * ((1 - d24) * s)) with (((1 - d24) * k) * s) by ring. apply Rmult_le_compat_r; assumption.
    - apply Rmult_le_compat_l; lra. }
  assert (A5 : (2 * d24 * s) * (M * (s + e)) <= (k * (N' + e)) * (M * (s + e))) by (apply Rmult_le_compat_r; [apply Rmult_le_pos; lra|exact A4]).
  replace (M * k * ((s + e) * (N' + e))) with ((k * (N' + e)) * (M * (s + e))) by ring.
  eapply Rle_trans; [|exact A5]. replace (2 * d24 * s * (M * (s + e))) with (d24 * s * M * (s + e) + d24 * s * M * (s + e)) by ring. lra.
Qed.

Definition row_weight (i : Z) (m : list (Z * Z * Qc)) : R :=
  fold_right (fun (e : Z * Z * Qc) s => let '(r, _, w) := e in (if (r =? i)%Z then Q2R w else 0) + s) 0 m.
Definition row_step (data : feat) (i : Z) (acc : vec) (e : Z * Z * Qc) : res vec :=
  let '(r, j, w) := e in if (r =? i)%Z then row <- tget data j ;; Ok (vadd acc (vscale w row)) else Ok acc.
Definition near_acc (M s : R) (a a' : Qc) : Prop := Rabs (Q2R a) <= s * M /\ Rabs (Q2R a' - Q2R a) <= d24 * s * M.
Lemma near_acc_more M s t a a' : 0 <= M -> 0 <= t -> near_acc M s a a' -> near_acc M (t + s) a a'.
Proof.
  intros HM Ht [H1 H2]. destruct d24_small as [Hd _]. assert (0 <= t * M) by (apply Rmult_le_pos; assumption).
  assert (0 <= d24 * t * M) by (repeat apply Rmult_le_pos; assumption). split.
  - replace ((t + s) * M) with (t * M + s * M) by ring. lra.
  - replace (d24 * (t + s) * M) with (d24 * t * M + d24 * s * M) by ring. lra.
Qed.
Lemma near_acc_add M s (w w' a a' v : Qc) : 0 <= M -> 0 <= Q2R w -> Rabs (Q2R w' - Q2R w) <= d24 * Q2R w -> Rabs (Q2R v) <= M ->
  near_acc M s a a' -> near_acc M (Q2R w + s) (a + w * v)%Qc (a' + w' * v)%Qc.
Proof.
  intros HM Hw Hw' Hv [H1 H2]. destruct d24_small as [Hd _]. unfold near_acc. rewrite !Q2R_plus, !Q2R_mult.
  set (W := Q2R w) in *. set (W' := Q2R w') in *. set (V := Q2R v) in *. split.
  - eapply Rle_trans; [apply Rabs_triang|]. rewrite Rabs_mult, (Rabs_pos_eq W) by assumption.
    assert (W * Rabs V <= W * M) by (apply Rmult_le_compat_l; assumption). replace ((W + s) * M) with (W * M + s * M) by ring. lra.
  - replace (Q2R a' + W' * V - (Q2R a + W * V)) with ((Q2R a' - Q2R a) + (W' - W) * V) by ring. eapply Rle_trans; [apply Rabs_triang|]. rewrite Rabs_mult.
    assert (Rabs (W' - W) * Rabs V <= (d24 * W) * M) by (apply Rmult_le_compat; auto using Rabs_pos).
    replace (d24 * (W + s) * M) with (d24 * W * M + d24 * s * M) by ring. lra.
Qed.
Lemma near_vadd M s (w w' : Qc) acc acc' (row : vec) : 0 <= M -> 0 <= Q2R w -> Rabs (Q2R w' - Q2R w) <= d24 * Q2R w -> Forall (fun v : Qc => Rabs (Q2R v) <= M) row ->
  Forall2 (near_acc M s) acc acc' -> Forall2 (near_acc M (Q2R w + s)) (vadd acc (vscale w row)) (vadd acc' (vscale w' row)).
Proof.
  intros HM Hw Hw' Hr F. revert row Hr. induction F as [|a a' l l' H F IH]; intros [|v row] Hr; cbn; try constructor.
  - inversion Hr; subst. apply near_acc_add; assumption.
  - inversion Hr; subst. apply IH; assumption.
Qed.
Lemma tget_in {A} (l : list A) j a : tget l j = Ok a -> In a l.
Proof.
  unfold tget. destruct (norm_index _ _) as [n|]; [|discriminate]. destruct (nth_error l n) as [x|] eqn:E; [|discriminate]. intros [= <-]. eapply nth_error_In; exact E.
Qed.
Lemma row_weight_nonneg i m m' : Forall2 close_entry m m' -> 0 <= row_weight i m.
Proof.
  intros F. induction F as [|[[r j] w] e' m m' (_ & H & _) F IH]; cbn [row_weight fold_right]; [lra|]. cbn [snd] in H. unfold row_weight in IH. destruct (r =? i)%Z; lra.
Qed.
Lemma fold_near data M i m m' : 0 <= M -> Forall (Forall (fun v : Qc => Rabs (Q2R v) <= M)) data -> Forall2 close_entry m m' ->
  forall s acc acc', Forall2 (near_acc M s) acc acc' ->
  match foldM (row_step data i) acc m with
  | Ok r => exists r', foldM (row_step data i) acc' m' = Ok r' /\ Forall2 (near_acc M (row_weight i m + s)) r r'
  | Err e => foldM (row_step data i) acc' m' = Err e
  end.
Proof.
  intros HM HD F. induction F as [|[[r j] w] [[r' j'] w'] m m' (E & Hw & Hw') F IH]; intros s acc acc' HA.
  - cbn [foldM row_weight fold_right]. exists acc'. rewrite Rplus_0_l. auto.
  - cbn [fst snd] in *. injection E as -> ->. cbn [foldM row_step]. cbn [row_weight fold_right]. fold (row_weight i m).
    destruct (r =? i)%Z.
    + destruct (tget data j) as [row|e] eqn:Er; [|reflexivity]. cbn [bind].
      assert (Hr : Forall (fun v : Qc => Rabs (Q2R v) <= M) row) by (rewrite Forall_forall in HD; apply HD; eapply tget_in; exact Er).
      specialize (IH _ _ _ (near_vadd M s w w' acc acc' row HM Hw Hw' Hr HA)). replace (Q2R w + row_weight i m + s) with (row_weight i m + (Q2R w + s)) by ring. exact IH.
    + cbn [bind]. rewrite Rplus_0_l. apply IH. exact HA.
Qed.
Lemma fold_ones (data : feat) i m m' : Forall2 close_entry m m' -> forall a a' : Qc, Rabs (Q2R a' - Q2R a) <= d24 * Q2R a -> 
  match foldM (row_step (map (fun _ => [1%Qc]) data) i) [a] m with
  | Ok r => exists b b' : Qc, r = [b] /\ foldM (row_step (map (fun _ => [1%Qc]) data) i) [a'] m' = Ok [b'] /\ Q2R b = row_weight i m + Q2R a /\ Rabs (Q2R b' - Q2R b) <= d24 * Q2R b
  | Err e => foldM (row_step (map (fun _ => [1%Qc]) data) i) [a'] m' = Err e
  end.
Proof.
  intros F. induction F as [|[[r j] w] [[r' j'] w'] m m' (E & Hw & Hw') F IH]; intros a a' HA.
  - cbn [foldM row_weight fold_right]. exists a, a'. rewrite Rplus_0_l. auto.
  - cbn [fst snd] in *. injection E as -> ->. cbn [foldM row_step]. cbn [row_weight fold_right]. fold (row_weight i m).
    destruct (r =? i)%Z.
    + destruct (tget _ j) as [row|e] eqn:Er; [|reflexivity]. cbn [bind]. apply tget_in, in_map_iff in Er. destruct Er as (x & <- & _).
      change (vadd [a] (vscale w [1%Qc])) with [(a + w * 1)%Qc]. change (vadd [a'] (vscale w' [1%Qc])) with [(a' + w' * 1)%Qc]. rewrite !Qcmult_1_r.
      specialize (IH (a + w)%Qc (a' + w')%Qc). rewrite !Q2R_plus in IH.
      replace (Q2R w + row_weight i m + Q2R a) with (row_weight i m + (Q2R a + Q2R w)) by ring. apply IH.
      replace (Q2R a' + Q2R w' - (Q2R a + Q2R w)) with ((Q2R a' - Q2R a) + (Q2R w' - Q2R w)) by ring. eapply Rle_trans; [apply Rabs_triang|]. lra.
    + cbn [bind]. rewrite Rplus_0_l. apply IH. exact HA.
Qed.
Lemma sparse_mm_rows n C m data : sparse_mm n C m data = mapM (fun i => foldM (row_step data i) (vzero C) m) (arange n).
Proof. reflexivity. Qed.

Definition near_out (M : R) (a a' : Qc) : Prop := Rabs (Q2R a' - Q2R a) <= M * / 2 ^ 21.
Lemma zero_near M C : Forall2 (near_acc M 0) (vzero C) (vzero C).
Proof.
  unfold vzero. induction C as [|C IH]; cbn [repeat]; constructor; [|exact IH]. unfold near_acc. rewrite Q2R_zero. rewrite Rminus_0_r, Rabs_R0. lra.
Qed.
Lemma rows_near C data M m m' : 0 <= M -> Forall (Forall (fun v : Qc => Rabs (Q2R v) <= M)) data -> Forall2 close_entry m m' -> forall is,
  match mapM (fun i => foldM (row_step data i) (vzero C) m) is with
  | Ok r => exists r', mapM (fun i => foldM (row_step data i) (vzero C) m') is = Ok r' /\
      Forall2 (fun '(i, x) x' => Forall2 (near_acc M (row_weight i m)) x x') (combine is r) r' /\ length r = length is
  | Err e => mapM (fun i => foldM (row_step data i) (vzero C) m') is = Err e
  end.
Proof.
  intros HM HD F is. induction is as [|i is IH]; cbn [mapM].
  - exists []. repeat split; constructor.
  - pose proof (zero_near M C) as HZ.
    pose proof (fold_near data M i m m' HM HD F 0 _ _ HZ) as H. rewrite Rplus_0_r in H.
    destruct (foldM (row_step data i) (vzero C) m) as [x|e]; [|rewrite H; reflexivity]. destruct H as (x' & -> & Hx). cbn [bind].
    destruct (mapM _ is) as [r|e]; [|rewrite IH; reflexivity]. destruct IH as (r' & -> & Hr & Hl). cbn [bind].
    exists (x' :: r'). split; [reflexivity|]. cbn [combine length]. split; [constructor; assumption|congruence].
Qed.
Lemma ones_near (data : feat) m m' : Forall2 close_entry m m' -> forall is,
  match mapM (fun i => foldM (row_step (map (fun _ => [1%Qc]) data) i) (vzero 1) m) is with
  | Ok r => exists r', mapM (fun i => foldM (row_step (map (fun _ => [1%Qc]) data) i) (vzero 1) m') is = Ok r' /\
      Forall2 (fun '(i, x) x' => exists b b' : Qc, x = [b] /\ x' = [b'] /\ Q2R b = row_weight i m /\ Rabs (Q2R b' - Q2R b) <= d24 * Q2R b) (combine is r) r' /\ length r = length is
  | Err e => mapM (fun i => foldM (row_step (map (fun _ => [1%Qc]) data) i) (vzero 1) m') is = Err e
  end.
Proof.
  intros F is. induction is as [|i is IH]; cbn [mapM].
  - exists []. repeat split; constructor.
  - pose proof (fold_ones data i m m' F 0%Qc 0%Qc) as H. rewrite Q2R_zero, Rminus_0_r, Rabs_R0, Rmult_0_r, Rplus_0_r in H. specialize (H (Rle_refl 0)).
    change (vzero 1) with [0%Qc] in *.
    destruct (foldM (row_step _ i) [0%Qc] m) as [x|e]; [|rewrite H; reflexivity]. destruct H as (b & b' & -> & -> & Hx). cbn [bind].
    destruct (mapM _ is) as [r|e]; [|rewrite IH; reflexivity]. destruct IH as (r' & -> & Hr & Hl). cbn [bind].
    exists ([b'] :: r'). split; [reflexivity|]. cbn [combine length]. split; [constructor; [exists b, b'; tauto|exact Hr]|congruence].
Qed.
Lemma divide_near M m m' : 0 <= M -> Forall2 close_entry m m' -> forall is out out' norm norm', length out = length is -> length norm = length is ->
  Forall2 (fun '(i, x) x' => Forall2 (near_acc M (row_weight i m)) x x') (combine is out) out' ->
  Forall2 (fun '(i, x) x' => exists b b' : Qc, x = [b] /\ x' = [b'] /\ Q2R b = row_weight i m /\ Rabs (Q2R b' - Q2R b) <= d24 * Q2R b) (combine is norm) norm' ->
  let f := (fun r n => map (fun v => v / (nth 0 n 0 + eps12))%Qc r) in
  Forall2 (Forall2 (near_out M)) (zip_with f out norm) (zip_with f out' norm').
Proof.
  intros HM F is. induction is as [|i is IH]; intros out out' norm norm' Hl Hl' H H' f.
  - destruct out; [|discriminate]. inversion H; subst. constructor.
  - destruct out as [|x out]; [discriminate|]. destruct norm as [|n norm]; [discriminate|]. cbn [combine] in H, H'.
    inversion H as [|? x' ? out1 Hx Ho]; subst. inversion H' as [|? n' ? norm1 Hn Hno]; subst.
    unfold zip_with. cbn [combine map fst snd]. constructor.
    + destruct Hn as (b & b' & -> & -> & Eb & Hb). unfold f. cbn [nth]. clear - HM F Hx Eb Hb.
      induction Hx as [|a a' x x' [H1 H2] Hx IHx]; cbn [map]; constructor; [|exact IHx].
      pose proof (row_weight_nonneg i m m' F) as Hs. rewrite Eb in Hb.
      destruct (quotient_close (Q2R a) (Q2R a') (row_weight i m) (Q2R b') M (Q2R eps12) Hs HM eps12_pos H1 H2 Hb) as (P & P' & Q).
      unfold near_out, Qcdiv. rewrite !Q2R_mult, !Q2R_inv', !Q2R_plus, Eb by (rewrite Q2R_plus; lra). exact Q.
    + apply (IH out out1 norm norm1); [cbn [length] in Hl; lia|cbn [length] in Hl'; lia|exact Ho|exact Hno].
Qed.
Lemma apply_near C data M n m m' : 0 <= M -> Forall (Forall (fun v : Qc => Rabs (Q2R v) <= M)) data -> Forall2 close_entry m m' ->
  match linear_apply C data n m with
  | Ok out => exists out', linear_apply C data n m' = Ok out' /\ Forall2 (Forall2 (near_out M)) out out'
  | Err e => linear_apply C data n m' = Err e
  end.
Proof.
  intros HM HD F. unfold linear_apply. rewrite !sparse_mm_rows.
  pose proof (rows_near C data M m m' HM HD F (arange n)) as H1. destruct (mapM _ (arange n)) as [out|e]; [|rewrite H1; reflexivity].
  destruct H1 as (out' & -> & Ho & Hol). cbn [bind].
  pose proof (ones_near data m m' F (arange n)) as H2. destruct (mapM _ (arange n)) as [norm|e]; [|rewrite H2; reflexivity].
  destruct H2 as (norm' & -> & Hn & Hnl). cbn [bind]. eexists. split; [reflexivity|]. eapply divide_near; eassumption.
Qed.
Lemma thm_linear_output : forall C data M n m m32 m', 0 <= M -> Forall (Forall (fun v : Qc => Rabs (Q2R v) <= M)) data ->
  Forall2 near_entry m m32 -> Forall2 (fun e32 e => fst e = fst e32 /\ same_number (snd e) (snd e32)) m32 m' ->
  match linear_apply C data n m with
  | Ok out => exists out', linear_apply C data n m' = Ok out' /\ Forall2 (Forall2 (fun a a' : Qc => Rabs (Q2R a' - Q2R a) <= M * / 2 ^ 21)) out out'
  | Err e => linear_apply C data n m' = Err e
  end.
Proof.
  intros C data M n m m32 m' HM HD H1 H2. apply apply_near; [exact HM|exact HD|]. revert m' H2.
  induction H1 as [|e e32 m m32 He F IH]; intros m' H2; inversion H2 as [|? e' ? t' [Ha Hb] Ht]; subst; constructor; [|apply IH; exact Ht].
  eapply near_close; eassumption.
Qed.
