(** Moving a shape: interpolation at moved points and the segmentation network. *)
From Coq Require Import String List ZArith Bool QArith Qcanon Lia Permutation Lqa.
From Verif Require Import Res Tensor Key Num NumFacts Points Octree NnBasic NnConv NnInterp Features Net Spec SpecGeo SpecBuild SpecNeigh SpecNN SpecInterp SpecNet SpecBatch SpecMove SpecMoveSeg
  WF ListFacts WFFacts SumFacts NnFacts ConvOct Deconv BuildThms InterpFacts LinearThms Unpool VoxelThm NetFacts NetLoops NetSeg NetBatch MoveFacts MoveNet MoveBuild MoveSeg.
Import ListNotations.
Open Scope Z_scope.

Definition to_units (d : nat) (p : qpoint) : qpoint := (in_cell_units d (fst p), snd p).
Lemma interp_units lin ne C x o d pts : interp lin ne C x o (Z.of_nat d) pts =
  (out <- (if lin then octree_linear_pts C x o d (map (to_units d) pts) ne false
           else octree_nearest_pts C x o d (map (to_units d) pts) ne false) ;;
   Ok (out, map (to_units d) pts)).
Proof.
  unfold interp, at_depth. replace (Z.of_nat d <? 0) with false by (symmetry; apply Z.ltb_ge; lia). rewrite Nat2Z.id. unfold interp_forward.
  replace (map (fun '(p, b) => (v3map (fun c => (c + 1) * q2pow (Z.of_nat d - 1))%Qc p, b)) pts) with (map (to_units d) pts); [reflexivity|].
  apply map_ext. intros [p b]. unfold to_units. cbn [fst snd]. rewrite <- rescale_units. reflexivity.
Qed.

Lemma floor_move k c : qfloor (qz k + c) = k + qfloor c.
Proof. apply qfloor_spec. destruct (proj1 (qfloor_spec c (qfloor c)) eq_refl) as [A B]. rewrite !qz_add in *. split; qclra. Qed.
Lemma hat_move k x X : hat (qz k + x) (X + k) = hat x X.
Proof. unfold hat. rewrite qz_add. replace (qz k + x - (qz X + qz k + Q2Qc (1 # 2)))%Qc with (x - (qz X + Q2Qc (1 # 2)))%Qc by ring. reflexivity. Qed.
Lemma cell_at_move (renum : Z -> Z) d e t p b : (e <= d)%nat -> cell_at (v3add (units d e (t b)) p) (renum b) = shift_to renum e t d (cell_at p b).
Proof.
  intros H. destruct p as [[x y] z]. unfold shift_to. cbn [cell_at]. destruct (t b) as [[u v] w]. unfold units, v3add. cbn [v3zip cell_at]. rewrite !floor_move. apply quad; try reflexivity; lia.
Qed.
Lemma trilinear_move (renum : Z -> Z) d e t p b q : (forall b c, renum b = renum c -> b = c) -> (e <= d)%nat -> trilinear (v3add (units d e (t b)) p) (renum b) (shift_to renum e t d q) = trilinear p b q.
Proof.
  intros RI H. destruct p as [[x y] z], q as [[[X Y] Z0] b']. unfold shift_to. destruct (Z.eqb_spec b' b) as [->|N].
  - destruct (t b) as [[u v] w]. unfold units, v3add, trilinear. cbn [v3zip]. rewrite !Z.eqb_refl, !hat_move. reflexivity.
  - destruct (t b') as [[u v] w], (t b) as [[u' v'] w']. unfold units, v3add, trilinear. cbn [v3zip]. rewrite (proj2 (Z.eqb_neq _ _) N).
    rewrite (proj2 (Z.eqb_neq (renum b') (renum b))) by (intros E; apply N, RI, E). reflexivity.
Qed.
Lemma qz2_nz : qz 2 <> 0%Qc.
Proof. apply qz_neq0. lia. Qed.
Lemma pow_pos_q d : (0 < qz (2 ^ Z.of_nat d))%Qc.
Proof. change 0%Qc with (qz 0). apply (proj2 (qz_lt _ _)). apply Z.pow_pos_nonneg; lia. Qed.
Lemma scale_le (a b k : Qc) : (0 < k)%Qc -> (a <= b)%Qc -> (a * k <= b * k)%Qc.
Proof. intros H1 H2. apply Qcmult_le_compat_r; [exact H2|apply Qclt_le_weak; exact H1]. Qed.
Lemma box_range d p : in_box p -> in_range d (in_cell_units d p).
Proof.
  destruct p as [[x y] z]. intros (U1 & U2 & U3). unfold in_cell_units. cbn [v3map in_range].
  assert (G : forall c, in_unit c -> (0 <= (c + qz 1) / qz 2 * qz (2 ^ Z.of_nat d))%Qc /\ ((c + qz 1) / qz 2 * qz (2 ^ Z.of_nat d) < qz (2 ^ Z.of_nat d))%Qc).
  { intros c [A B]. set (k := qz (2 ^ Z.of_nat d)). assert (Hk : (0 < k)%Qc) by apply pow_pos_q. change (qz (-1)) with (- (1))%Qc in A. change (qz 1) with 1%Qc in *.
    replace ((c + 1) / qz 2 * k)%Qc with ((c + 1) * (k * / qz 2))%Qc by (field; apply qz2_nz). set (h := (k * / qz 2)%Qc).
    assert (Ek : (k = h + h)%Qc) by (unfold h; replace (k * / qz 2 + k * / qz 2)%Qc with (k * (qz 2 * / qz 2))%Qc by (change (qz 2) with (1 + 1)%Qc; ring); rewrite Qcmult_inv_r by apply qz2_nz; ring).
    assert (Hh : (0 < h)%Qc) by (destruct (Qclt_le_dec 0 h) as [Y|Y]; [exact Y|exfalso; clear -Y Hk Ek; rewrite Ek in Hk; qclra]). rewrite Ek. clearbody h. split.
    - replace 0%Qc with (0 * h)%Qc by ring. apply scale_le; [exact Hh|qclra].
    - replace (h + h)%Qc with ((1 + 1) * h)%Qc by ring. apply Qcmult_lt_compat_r; [exact Hh|qclra]. }
  auto.
Qed.
Lemma border_interior d p : off_border d p -> interior d (in_cell_units d p).
Proof.
  destruct p as [[x y] z]. intros (U1 & U2 & U3). unfold in_cell_units. cbn [v3map interior].
  assert (G : forall c, (qz (-1) + / qz (2 ^ Z.of_nat d) <= c)%Qc /\ (c <= qz 1 - / qz (2 ^ Z.of_nat d))%Qc ->
    (Q2Qc (1 # 2) <= (c + qz 1) / qz 2 * qz (2 ^ Z.of_nat d))%Qc /\ ((c + qz 1) / qz 2 * qz (2 ^ Z.of_nat d) <= qz (2 ^ Z.of_nat d) - Q2Qc (1 # 2))%Qc).
  { intros c [A B]. set (k := qz (2 ^ Z.of_nat d)) in *. assert (Hk : (0 < k)%Qc) by apply pow_pos_q. change (qz (-1)) with (- (1))%Qc in A. change (qz 1) with 1%Qc in *.
    assert (N : k <> 0%Qc) by (intros E; rewrite E in Hk; apply (Qclt_not_eq _ _ Hk); reflexivity).
    replace ((c + 1) / qz 2 * k)%Qc with ((c + 1) * (k * / qz 2))%Qc by (field; apply qz2_nz). set (h := (k * / qz 2)%Qc).
    assert (Ek : (k = h + h)%Qc) by (unfold h; replace (k * / qz 2 + k * / qz 2)%Qc with (k * (qz 2 * / qz 2))%Qc by (change (qz 2) with (1 + 1)%Qc; ring); rewrite Qcmult_inv_r by apply qz2_nz; ring).
    assert (Hh : (0 < h)%Qc) by (destruct (Qclt_le_dec 0 h) as [Y|Y]; [exact Y|exfalso; clear -Y Hk Ek; rewrite Ek in Hk; qclra]).
    assert (Em : (/ k * h = Q2Qc (1 # 2))%Qc). { unfold h. replace (/ k * (k * / qz 2))%Qc with (k * / k * / qz 2)%Qc by ring. rewrite Qcmult_inv_r by exact N. apply Qc_is_canon. vm_compute. reflexivity. }
    rewrite <- Em. split.
    - apply scale_le; [exact Hh|qclra].
    - replace (k - / k * h)%Qc with ((1 + 1 - / k) * h)%Qc by (rewrite Ek at 2; ring). apply scale_le; [exact Hh|]. qclra. }
  auto.
Qed.

Lemma nth_map_inv {A B} (f : A -> B) l i y : nth_error (map f l) i = Some y -> exists x, nth_error l i = Some x /\ f x = y.
Proof. rewrite nth_error_map. destruct (nth_error l i) as [x|]; cbn [option_map]; [|discriminate]. intros H. exists x. split; [reflexivity|congruence]. Qed.

Lemma same_rows {A} (l m : list A) : length l = length m -> (forall q, (q < length l)%nat -> nth_error l q = nth_error m q) -> l = m.
Proof.
  revert m. induction l as [|a l IH]; intros [|b m] L H; try discriminate; [reflexivity|]. pose proof (H O ltac:(cbn; lia)) as H0. cbn in H0. injection H0 as ->. f_equal.
  apply IH; [cbn in L; lia|]. intros q Hq. apply (H (S q)). cbn. lia.
Qed.

Section Shifted.
  Context {renum : Z -> Z}.
  Variables (e : nat) (t : Z -> Z * Z * Z) (o o' : octree).
  Variables (ne : bool) (lo : nat).
  Hypothesis Hlo : (e <= lo)%nat /\ (ne = false -> (S e <= lo)%nat).
  Notation s := (shift_to renum e t).
  Notation same := (fun v : Z * Z * Z => v).
  Hypothesis HM : motion_to renum e s same.
  Hypothesis HRI : forall b c, renum b = renum c -> b = c.
  Hypothesis HO : moved e s o o'.
  Hypothesis HW : wf_octree o.
  Hypothesis HW' : wf_octree o'.
  Notation R := (R s o o' ne).

  Lemma move_interp_to tau lin C d x x' (pts pts' : list qpoint) : (lo <= d <= depth o)%nat -> R d C x x' -> permutes tau (length pts) -> reordered tau (moved_points_to renum e t pts) pts' ->
    Forall (askable lin d) pts -> Forall (askable lin d) pts' ->
    exists y q y' q', interp lin ne C x o (Z.of_nat d) pts = Ok (y, q) /\ interp lin ne C x' o' (Z.of_nat d) pts' = Ok (y', q') /\ shape (length pts) C y /\ shape (length pts) C y' /\ reordered tau y y'.
  Proof.
    intros Hd HR HTP HTR HA HA'. pose proof HR as (Hx & Hx' & Hc). pose proof (proj1 HO) as D. assert (Hel : (e <= d)%nat) by (pose proof (proj1 Hlo); lia).
    rewrite !interp_units. set (u := to_units d).
    pose (mv := fun p : qpoint => (v3add (units d e (t (snd p))) (fst p), renum (snd p)) : qpoint).
    assert (EM : map u (moved_points_to renum e t pts) = map mv (map u pts)).
    { unfold moved_points_to. rewrite !map_map. apply map_ext. intros [p b]. unfold u, mv, to_units. cbn [fst snd]. rewrite units_move by exact Hel. reflexivity. }
    destruct (cells e s same o o' ne lo Hlo HM HO HW HW' d Hd) as (cs & cs' & Ec & Ec' & L1 & L2 & N1 & N2 & Hq).
    assert (B1 : Forall (fun p => -32768 <= snd p < 32768) (map u pts)) by (apply Forall_map; eapply Forall_impl; [|exact HA]; intros p [H _]; exact H).
    assert (B2 : Forall (fun p => -32768 <= snd p < 32768) (map u pts')) by (apply Forall_map; eapply Forall_impl; [|exact HA']; intros p [H _]; exact H).
    assert (LP : length (map u pts') = length pts) by (pose proof (proj1 HTR) as LL; unfold moved_points_to in LL; rewrite map_length in LL; rewrite map_length; exact LL).
    assert (PT : forall i p b, nth_error (map u pts) i = Some (p, b) -> nth_error (map u pts') (tau i) = Some (v3add (units d e (t b)) p, renum b)).
    { intros i p b H. pose proof (map_nth_error mv i _ H) as H1. rewrite <- EM in H1. unfold mv in H1. cbn [fst snd] in H1.
      assert (Hi : (i < length pts)%nat) by (apply nth_error_Some; rewrite nth_error_map in H; destruct (nth_error pts i); [discriminate|discriminate H]).
      etransitivity; [|exact H1]. rewrite !nth_error_map. f_equal. apply (proj2 HTR). unfold moved_points_to. rewrite map_length. exact Hi. }
    assert (OK : forall i p b, nth_error (map u pts) i = Some (p, b) -> if lin then interior d p /\ interior d (v3add (units d e (t b)) p) else in_range d p /\ in_range d (v3add (units d e (t b)) p)).
    { intros i p b H. pose proof (PT i p b H) as H'. apply nth_map_inv in H as (p1 & E1 & H). apply nth_map_inv in H' as (p2 & E2 & H'). unfold u, to_units in H, H'.
      assert (F1 : in_cell_units d (fst p1) = p) by congruence. assert (F2 : in_cell_units d (fst p2) = v3add (units d e (t b)) p) by congruence.
      rewrite Forall_forall in HA, HA'. destruct (HA p1 (nth_error_In _ _ E1)) as [_ G1]. destruct (HA' p2 (nth_error_In _ _ E2)) as [_ G2]. rewrite <- F2, <- F1.
      destruct lin; split; first [apply border_interior; assumption|apply box_range; assumption]. }
    destruct lin.
    - destruct (thm_linear_interior o d ne C x (map u pts) HW ltac:(lia) Hx B1) as (k1 & y & E1 & Ey & Sy & Hy). rewrite Ec in E1. injection E1 as <-.
      destruct (thm_linear_interior o' d ne C x' (map u pts') HW' ltac:(lia) Hx' B2) as (k2 & y' & E2 & Ey' & Sy' & Hy'). rewrite Ec' in E2. injection E2 as <-.
      rewrite map_length in Sy. rewrite LP in Sy'. eexists y, _, y', _. rewrite Ey, Ey'. cbn [bind]. split; [reflexivity|]. split; [reflexivity|]. split; [exact Sy|]. split; [exact Sy'|].
      split; [rewrite (proj1 Sy), (proj1 Sy'); reflexivity|]. intros i Hi. rewrite (proj1 Sy) in Hi. pose proof (proj1 HTP i Hi) as Hti.
      rewrite (nth_error_nth' y []) by (rewrite (proj1 Sy); exact Hi). rewrite (nth_error_nth' y' []) by (rewrite (proj1 Sy'); exact Hti). f_equal.
      apply nth_ext with 0%Qc 0%Qc; [rewrite (shape_nth _ _ _ _ Sy Hi), (shape_nth _ _ _ _ Sy' Hti); reflexivity|]. intros c Hcc. rewrite (shape_nth _ _ _ _ Sy' Hti) in Hcc. change (at2 y' (tau i) c = at2 y i c).
      destruct (nth_error (map u pts) i) as [[p b]|] eqn:Ei; [|apply nth_error_None in Ei; rewrite map_length in Ei; lia].
      destruct (OK i p b Ei) as [I1 I2]. rewrite (Hy i p b c Ei I1 Hcc), (Hy' (tau i) _ (renum b) c (PT i p b Ei) I2 Hcc).
      assert (SW : weighted_sum cs' x' c (v3add (units d e (t b)) p) (renum b) = weighted_sum cs x c p b).
      { symmetry. unfold weighted_sum. rewrite L1, L2. apply (sum_rows e s same o o' ne lo Hlo HM HO HW HW' d); [exact Hd|]. intros a a' i0 j0 q A A' Hi0 Hj0.
        rewrite Ec in A. injection A as <-. rewrite Ec' in A'. injection A' as <-. rewrite (nth_of_error _ _ _ (0, 0, 0, 0) Hi0), (nth_of_error _ _ _ (0, 0, 0, 0) Hj0), trilinear_move by assumption.
        unfold at2. rewrite (nth_error_nth_eq x x' i0 j0 (Hc cs cs' i0 j0 q Ec Ec' Hi0 Hj0)). reflexivity. }
      assert (SV : weight_sum cs' (v3add (units d e (t b)) p) (renum b) = weight_sum cs p b).
      { symmetry. unfold weight_sum. rewrite L1, L2. apply (sum_rows e s same o o' ne lo Hlo HM HO HW HW' d); [exact Hd|]. intros a a' i0 j0 q A A' Hi0 Hj0.
        rewrite Ec in A. injection A as <-. rewrite Ec' in A'. injection A' as <-. rewrite (nth_of_error _ _ _ (0, 0, 0, 0) Hi0), (nth_of_error _ _ _ (0, 0, 0, 0) Hj0), trilinear_move by assumption. reflexivity. }
      rewrite SW, SV. reflexivity.
    - destruct (thm_nearest o d ne false C x (map u pts) HW ltac:(lia) Hx B1) as (k1 & y & E1 & Ey & Sy & Hy). rewrite Ec in E1. injection E1 as <-.
      destruct (thm_nearest o' d ne false C x' (map u pts') HW' ltac:(lia) Hx' B2) as (k2 & y' & E2 & Ey' & Sy' & Hy'). rewrite Ec' in E2. injection E2 as <-.
      rewrite map_length in Sy. rewrite LP in Sy'. eexists y, _, y', _. rewrite Ey, Ey'. cbn [bind]. split; [reflexivity|]. split; [reflexivity|]. split; [exact Sy|]. split; [exact Sy'|].
      split; [rewrite (proj1 Sy), (proj1 Sy'); reflexivity|]. intros i Hi. rewrite (proj1 Sy) in Hi.
      destruct (nth_error (map u pts) i) as [[p b]|] eqn:Ei; [|apply nth_error_None in Ei; rewrite map_length in Ei; lia].
      destruct (OK i p b Ei) as [I1 I2]. destruct (Hy i p b Ei) as [G _]. destruct (Hy' (tau i) _ (renum b) (PT i p b Ei)) as [G' _]. destruct (G I1) as [G1 G2]. destruct (G' I2) as [G1' G2']. clear G G'.
      rewrite cell_at_move in G1', G2' by exact Hel. destruct (in_dec MoveFacts.cell_dec (cell_at p b) cs) as [Hin|Hn].
      + pose proof (proj2 (Hq _) Hin) as Hin'. apply In_nth_error in Hin as (j & Hj). apply In_nth_error in Hin' as (j' & Hj'). rewrite (G1 j Hj), (G1' j' Hj'). symmetry. apply (Hc cs cs' j j' (cell_at p b)); assumption.
      + rewrite (G2 Hn). apply G2'. intros H. apply Hn, Hq, H.
  Qed.
End Shifted.

Lemma move_interp e t o o' ne lo : (e <= lo)%nat /\ (ne = false -> (S e <= lo)%nat) -> motion e (shift e t) (fun v => v) -> moved e (shift e t) o o' -> wf_octree o -> wf_octree o' ->
  forall lin C d x x' (pts : list qpoint), (lo <= d <= depth o)%nat -> R (shift e t) o o' ne d C x x' -> Forall (askable lin d) pts -> Forall (askable lin d) (moved_points e t pts) ->
  exists y q q', interp lin ne C x o (Z.of_nat d) pts = Ok (y, q) /\ interp lin ne C x' o' (Z.of_nat d) (moved_points e t pts) = Ok (y, q') /\ shape (length pts) C y.
Proof.
  intros Hlo HM HO HW HW' lin C d x x' pts Hd HR HA HA'.
  destruct (move_interp_to (renum := fun b => b) e t o o' ne lo Hlo HM (fun b c E => E) HO HW HW' (fun i => i) lin C d x x' pts (moved_points e t pts) Hd HR (permutes_id _)) as (y & q & y' & q' & E & E' & Sy & _ & H); try assumption.
  - split; reflexivity.
  - apply reordered_id in H. subst y'. eauto 6.
Qed.
