(** Property C132: normalisation in single precision. *)
From Coq Require Import List ZArith Bool Reals Lra Lia QArith Qcanon Qreals.
From Flocq Require Import Core.Core IEEE754.BinarySingleNaN.
From Verif Require Import Res Num Points PointsOps Float32 FloatMean SpecSingle FloatFacts NormFloat SpecNorm32 NormFloatFacts.
Import ListNotations.
Open Scope R_scope.

(** C132: if the box has coordinates of magnitude at most 2^k and a side of at least
    2^(k-10), every point of the box is mapped to coordinates of magnitude at most
    scale + 2^-10.  [s2] is 2 * scale. *)
Theorem C132_within : forall k bbmin bbmax s2 pts, (-60 <= k <= 60)%Z -> box_ok k bbmin bbmax -> box_long (powerRZ 2 (k - 10)) bbmin bbmax ->
  is_finite s2 = true -> 0 <= B2R s2 <= 2 -> Forall (in_box32 bbmin bbmax) pts ->
  Forall (point_within (B2R s2 / 2 + / 2 ^ 10)) (normalize32 bbmin bbmax s2 pts).
Proof. exact thm_normalize32. Qed.
Print Assumptions C132_within.

(** C132: under the same conditions each coordinate differs by at most 2^-10 from what
    normalize gives in exact arithmetic (the function C64 is about). *)
Theorem C132_near : forall k bbmin bbmax s2 pts, (-60 <= k <= 60)%Z -> box_ok k bbmin bbmax -> box_long (powerRZ 2 (k - 10)) bbmin bbmax ->
  is_finite s2 = true -> 0 <= B2R s2 <= 2 -> Forall (in_box32 bbmin bbmax) pts ->
  Forall2 (near_point (/ 2 ^ 10))
    (p_points (normalize (v3map (fun c : f32 => B2R c) bbmin) (v3map (fun c : f32 => B2R c) bbmax) (B2R s2 / 2) (bare (map (v3map (fun c : f32 => B2R c)) pts))))
    (normalize32 bbmin bbmax s2 pts).
Proof. exact thm_normal_near. Qed.
Print Assumptions C132_near.

(** C132: with a scale of at most 0.998 the points are safe for build_octree (C75, C126). *)
Theorem C132_safe : forall k bbmin bbmax s2 pts, (-60 <= k <= 60)%Z -> box_ok k bbmin bbmax -> box_long (powerRZ 2 (k - 10)) bbmin bbmax ->
  is_finite s2 = true -> 0 <= B2R s2 <= 2 * (998 / 1000) -> Forall (in_box32 bbmin bbmax) pts -> Forall safe_point32 (normalize32 bbmin bbmax s2 pts).
Proof. exact thm_normal_safe. Qed.
Print Assumptions C132_safe.

(** C132: bbox returns the tight box of the points, so they meet the condition above. *)
Theorem C132_bbox : forall pts, pts <> [] -> Forall finite_point pts ->
  exists bbmin bbmax, bbox32 pts = Ok (bbmin, bbmax) /\ Forall (in_box32 bbmin bbmax) pts /\ tight bbmin bbmax pts.
Proof. exact thm_bbox32. Qed.
Print Assumptions C132_bbox.

(** C132: without a condition on the side the claim is false.  The box [2^24, 2^24 + 2] on the
    x axis has its rounded centre at 2^24, and its upper end is mapped beyond 1.9. *)
Theorem C132_far_refuted : exists bbmin bbmax p s2, in_box32 bbmin bbmax p /\ box_ok 25 bbmin bbmax /\ B2R s2 = 2 /\
  ~ Forall (point_within (19 / 10)) (normalize32 bbmin bbmax s2 [p]).
Proof.
  set (a := @B754_finite 24 128 false 8388608 1 eq_refl : f32). set (b := @B754_finite 24 128 false 8388609 1 eq_refl : f32). set (z := B754_zero false : f32).
  set (t := @B754_finite 24 128 false 8388608 (-22) eq_refl : f32). set (w := @B754_finite 24 128 false 15938356 (-23) eq_refl : f32).
  exists (a, z, z), (b, z, z), (b, z, z), t.
  assert (P25 : powerRZ 2 25 = 33554432) by (change (powerRZ 2 25) with (2 ^ 25); ring).
  split; [|split; [|split]].
  - unfold in_box32, between, a, b, z, B2R, F2R. cbn. repeat split; lra.
  - unfold box_ok, axis_ok. rewrite P25. unfold a, b, z, B2R, F2R. cbn. repeat split; apply Rabs_le; lra.
  - unfold t, B2R, F2R. cbn. lra.
  - intros H. apply Forall_inv in H. destruct H as [[Fx Bx] _].
    assert (C : Bltb w (fnorm (fbox (a, z, z) (b, z, z)) t a b b) = true) by (vm_compute; reflexivity).
    rewrite Bltb_correct in C by (exact eq_refl || exact Fx). revert C. case Rlt_bool_spec; [|discriminate]. intros C _.
    assert (W : 19 / 10 <= B2R w) by (unfold w, B2R, F2R; cbn; lra). apply Rabs_le_inv in Bx. lra.
Qed.
Print Assumptions C132_far_refuted.

(** A box from (-1/2, 1/2, 0) to (1/2, 1, 0), scale 1/2, with two of its corners. *)
Example C132_case : let half : f32 := @B754_finite 24 128 false 8388608 (-24) eq_refl in
  let mhalf : f32 := @B754_finite 24 128 true 8388608 (-24) eq_refl in
  let one : f32 := @B754_finite 24 128 false 8388608 (-23) eq_refl in
  let zero : f32 := B754_zero false in
  let bbmin := (mhalf, half, zero) in let bbmax := (half, one, zero) in
  box_ok 0 bbmin bbmax /\ box_long (powerRZ 2 (0 - 10)) bbmin bbmax /\ Forall (in_box32 bbmin bbmax) [bbmin; bbmax] /\
  0 <= B2R one <= 2 * (998 / 1000) /\ bbox32 [(half, half, zero); (mhalf, one, zero)] = Ok (bbmin, bbmax) /\
  forallb (fun '(x, _, _) => Bltb (@B754_finite 24 128 false 16777180 (-25) eq_refl) (Babs x) && Bltb (Babs x) half) (normalize32 bbmin bbmax one [bbmin; bbmax]) = true.
Proof.
  cbn zeta. split; [|split; [|split; [|split; [|split]]]].
  - unfold box_ok, axis_ok, B2R, F2R. cbn. repeat split; apply Rabs_le; lra.
  - left. change (powerRZ 2 (0 - 10)) with (/ 2 ^ 10). replace (2 ^ 10) with 1024 by ring. unfold B2R, F2R. cbn. lra.
  - apply Forall_cons; [|apply Forall_cons; [|apply Forall_nil]]; unfold in_box32, between, B2R, F2R; cbn; repeat split; lra.
  - unfold B2R, F2R. cbn. lra.
  - reflexivity.
  - vm_compute. reflexivity.
Qed.
