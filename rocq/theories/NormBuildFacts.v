(** bbox, normalize, build_octree and the search in single precision, one after the other. *)
From Coq Require Import List ZArith Bool Reals Lra Lia QArith Qcanon Qreals.
From Flocq Require Import Core.Core IEEE754.BinarySingleNaN.
From Verif Require Import Res Tensor Num ListFacts Points PointsOps Octree NnInterp SpecGeo SpecBuild Float32 FloatMean SpecSingle FloatFacts BuildFloat SpecNudge NudgeFacts
  ClipFloatFacts NormFloat SpecNorm32 NormFloatFacts.
Import ListNotations.
Open Scope R_scope.

Lemma within_coord k p : point_within (powerRZ 2 k) p ->
  within (powerRZ 2 k) (fst (fst p)) /\ within (powerRZ 2 k) (snd (fst p)) /\ within (powerRZ 2 k) (snd p).
Proof. destruct p as [[x y] z]. intros H. exact H. Qed.
Lemma thm_norm_found : forall o k s2 pts, (full_depth o <= depth o <= 16)%nat -> batch_size o = 1%nat -> length (layers o) = S (depth o) ->
  (-60 <= k <= 60)%Z -> bounded_cloud k pts -> wide (powerRZ 2 (k - 10)) pts -> is_finite s2 = true -> 0 <= B2R s2 <= 2 * (998 / 1000) ->
  exists bbmin bbmax o32 idx, bbox32 pts = Ok (bbmin, bbmax) /\ build_tree32 o (bare (normalize32 bbmin bbmax s2 pts)) = Ok (o32, idx) /\
    let query d := map (fun p => (rescale32 d p, 0%Z)) (normalize32 bbmin bbmax s2 pts) in
    search_pts32 o32 (query (depth o)) (depth o) true = Ok idx /\
    forall d, (full_depth o <= d <= depth o)%nat ->
      exists found, search_pts32 o32 (query d) d true = Ok found /\ length found = length pts /\ Forall (fun j => (0 <= j)%Z) found.
Proof.
  intros o k s2 pts Hd HB Hl Hk Hc Hw Fs Bs. unfold bounded_cloud in Hc.
  assert (Hne : pts <> []) by (intros ->; destruct Hw as (p & q & [] & _)).
  assert (Hfin : Forall finite_point pts) by (eapply Forall_impl; [|exact Hc]; intros [[x y] z] ((A & _) & (B & _) & (C & _)); repeat split; assumption).
  destruct (thm_bbox32 pts Hne Hfin) as (bbmin & bbmax & Ebb & Hin & Ht).
  assert (Hok : box_ok k bbmin bbmax).
  { destruct bbmin as [[x0 y0] z0], bbmax as [[x1 y1] z1]. cbn [tight] in Ht.
    destruct Ht as ((p1 & I1 & <-) & (p2 & I2 & <-) & (p3 & I3 & <-) & (p4 & I4 & <-) & (p5 & I5 & <-) & (p6 & I6 & <-)).
    rewrite Forall_forall in Hc. pose proof (within_coord k _ (Hc _ I1)) as [[? ?] _]. pose proof (within_coord k _ (Hc _ I2)) as [_ [[? ?] _]]. pose proof (within_coord k _ (Hc _ I3)) as [_ [_ [? ?]]].
    pose proof (within_coord k _ (Hc _ I4)) as [[? ?] _]. pose proof (within_coord k _ (Hc _ I5)) as [_ [[? ?] _]]. pose proof (within_coord k _ (Hc _ I6)) as [_ [_ [? ?]]].
    cbn [box_ok]. unfold axis_ok. auto 10. }
  assert (Hlong : box_long (powerRZ 2 (k - 10)) bbmin bbmax).
  { destruct Hw as (p & q & Ip & Iq & H). rewrite Forall_forall in Hin. pose proof (Hin _ Ip) as A. pose proof (Hin _ Iq) as B.
    destruct bbmin as [[x0 y0] z0], bbmax as [[x1 y1] z1], p as [[x y] z], q as [[u v] w]. destruct A as ((_ & A1) & (_ & A2) & (_ & A3)), B as ((_ & B1) & (_ & B2) & (_ & B3)).
    cbn [box_long]. destruct H as [H|[H|H]]; [left|right; left|right; right]; lra. }
  set (qs := normalize32 bbmin bbmax s2 pts).
  assert (Hsafe : Forall safe_point32 qs) by (apply (thm_normal_safe k); assumption).
  assert (Hlen : length qs = length pts) by (unfold qs, normalize32; destruct bbmin as [[? ?] ?], bbmax as [[? ?] ?]; apply map_length).
  assert (Hi : build_input o (move_points nudge (bare qs))).
  { constructor; try lia. constructor; cbn [move_points bare p_batch_size p_batch_id p_points p_normals p_features]; try discriminate; try lia. }
  destruct (thm_tree32 (fun v => v) o (bare qs) Hi) as (o' & idx & o32 & _ & E32 & _).
  { eapply Forall_impl; [|exact Hsafe]. apply safe_unit. }
  exists bbmin, bbmax, o32, idx. split; [exact Ebb|]. split; [exact E32|]. cbn zeta. fold qs.
  assert (HQ : forall d, map (fun p => (rescale32 d p, 0%Z)) qs = combine (map (rescale32 d) qs) (repeat 0%Z (length qs))).
  { intros d. clear. induction qs as [|p l IH]; [reflexivity|]. cbn [map length repeat combine]. rewrite IH. reflexivity. }
  destruct (thm_points_found o (bare qs) (repeat 0%Z (length qs)) o32 idx Hd ltac:(lia) Hl) as [S1 S2]; cbn [bare p_batch_size p_points]; try lia; try assumption.
  - apply repeat_length.
  - rewrite HB. cbn. rewrite repeat_length. reflexivity.
  - cbn [bare p_points] in S1, S2. rewrite HQ. split; [exact S1|]. intros d Hdd. rewrite HQ. rewrite <- Hlen. apply S2; exact Hdd.
Qed.
