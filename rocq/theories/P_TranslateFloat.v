(** Property C136: translate in single precision. *)
From Coq Require Import List ZArith Bool Reals Lra QArith Qcanon.
From Flocq Require Import Core.Core IEEE754.BinarySingleNaN.
From Verif Require Import Num Points PointsOps Float32 SpecNorm32 TranslateFloat SpecTranslate32 TranslateFloatFacts.
Import ListNotations.

(** C136: every coordinate becomes a binary32 number nearest to the exact sum, the order of
    the points along each axis is kept, and nothing but the coordinates changes. *)
Theorem C136_translate : forall d p, point_within (powerRZ 2 60) d -> bounded_cloud 60 (p_points p) ->
  exists f, translate32 d p = mkPoints (map f (p_points p)) (p_normals p) (p_features p) (p_labels p) (p_batch_id p) (p_batch_size p) (p_batch_npt p) (p_device p) /\
    Forall (fun v => moved_by d v (f v)) (p_points p) /\
    (forall v w, In v (p_points p) -> In w (p_points p) -> implied (below v w) (below (f v) (f w))).
Proof. exact thm_translate32. Qed.
Print Assumptions C136_translate.

(** C136: in exact arithmetic the opposite displacement restores the cloud, since (x + a) - a = x;
    in single precision it need not. *)
Theorem C136_back_refuted : exists d p, point_within (powerRZ 2 60) d /\ bounded_cloud 60 (p_points p) /\
  p_points (translate32 (let '(x, y, z) := d in (Bopp x, Bopp y, Bopp z)) (translate32 d p)) <> p_points p.
Proof. exact thm_translate_back. Qed.
Print Assumptions C136_back_refuted.

Example C136_case : let half : f32 := @B754_finite 24 128 false 8388608 (-24) eq_refl in
  let p := bare [(half, half, fone); (fone, half, half)] in
  point_within (powerRZ 2 60) (half, fone, half) /\ bounded_cloud 60 (p_points p) /\
  map (fun v => let '(x, y, z) := v in (Beqb x fone, Beqb y fone, Beqb z fone)) (p_points (translate32 (half, fone, half) p)) =
    [(true, false, false); (false, false, true)].
Proof.
  cbn zeta. set (half := @B754_finite 24 128 false 8388608 (-24) eq_refl : f32).
  assert (H : within (powerRZ 2 60) half).
  { apply within_one; [reflexivity|]. unfold half, B2R, F2R; cbn; lra. }
  assert (O : within (powerRZ 2 60) fone).
  { apply within_one; [reflexivity|]. rewrite FloatFacts.fone_val; lra. }
  split; [exact (conj H (conj O H))|]. split; [|vm_compute; reflexivity].
  apply Forall_cons; [exact (conj H (conj H O))|]. apply Forall_cons; [exact (conj O (conj H H))|apply Forall_nil].
Qed.
