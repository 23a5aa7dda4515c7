(** Property C131: clipping makes any cloud safe in single precision. *)
From Coq Require Import List ZArith Bool Reals Lra Lia QArith Qcanon Qreals.
From Flocq Require Import Core.Core IEEE754.BinarySingleNaN.
From Verif Require Import Res Tensor Num Points PointsOps Octree NnInterp Float32 FloatMean SpecSingle BuildFloat SpecNudge ClipFloat SpecClip32 ClipFloatFacts.
Import ListNotations.
Open Scope R_scope.

(** C131: the mask holds true exactly for the points whose coordinates are numbers strictly
    between the bounds, so infinities and NaN are removed; the result is the masked
    cloud. *)
Theorem C131_kept : forall (lo hi : f32) pc, is_finite lo = true -> is_finite hi = true -> aligned32 pc ->
  exists mask q, clip32 lo hi pc = Ok (mask, q) /\ Forall2 (fun p b => b = true <-> point_inside32 lo hi p) (p_points pc) mask /\
    p_points q = select mask (p_points pc) /\ p_normals q = option_map (select mask) (p_normals pc) /\
    p_features q = option_map (select mask) (p_features pc) /\ p_labels q = option_map (select mask) (p_labels pc) /\
    p_batch_id q = option_map (select mask) (p_batch_id pc) /\ p_batch_size q = p_batch_size pc.
Proof. exact thm_clip_mask. Qed.
Print Assumptions C131_kept.

(** C131: clipping any cloud of binary32 values to bounds with -1 <= lo and hi <= 1 - 2^-24
    and building an octree from the result succeeds, and every point that was kept is found
    in it at every depth from full_depth on; at the last depth the search returns the map of
    build_octree. *)
Theorem C131_clipped_found : forall o (lo hi : f32) pc ids, (full_depth o <= depth o <= 16)%nat -> (0 < Z.of_nat (batch_size o) <= 32768)%Z ->
  length (layers o) = S (depth o) -> p_batch_size pc = batch_size o -> length ids = length (p_points pc) ->
  (if Nat.eqb (batch_size o) 1 then ids = repeat 0%Z (length ids)
   else p_batch_id pc = Some ids /\ Forall (fun b => (0 <= b < Z.of_nat (batch_size o))%Z) ids) ->
  aligned32 pc -> is_finite lo = true -> is_finite hi = true -> -1 <= B2R lo -> B2R hi <= 1 - / 2 ^ 24 ->
  exists mask q o32 idx, clip32 lo hi pc = Ok (mask, q) /\ build_tree32 o q = Ok (o32, idx) /\
    let query d := combine (map (rescale32 d) (p_points q)) (select mask ids) in
    search_pts32 o32 (query (depth o)) (depth o) true = Ok idx /\
    forall d, (full_depth o <= d <= depth o)%nat ->
      exists found, search_pts32 o32 (query d) d true = Ok found /\ length found = length (p_points q) /\ Forall (fun j => (0 <= j)%Z) found.
Proof. exact thm_clip_build. Qed.
Print Assumptions C131_clipped_found.

(** The default bounds -0.99 and 0.99 as binary32 numbers, and a cloud with a NaN, an
    infinity, a point outside and two points inside. *)
Example C131_case : let hi : f32 := @B754_finite 24 128 false 16609444 (-24) eq_refl in
  let lo : f32 := @B754_finite 24 128 true 16609444 (-24) eq_refl in
  let half : f32 := @B754_finite 24 128 false 8388608 (-24) eq_refl in
  let one : f32 := @B754_finite 24 128 false 8388608 (-23) eq_refl in
  let third : f32 := @B754_finite 24 128 true 11184811 (-25) eq_refl in
  let pc := mkPoints [(half, B754_nan, half); (half, third, half); (B754_infinity true, half, half); (half, half, one); (third, half, half)]
              None None None (Some [0; 0; 1; 1; 1]%Z) 2 None 0 in
  aligned32 pc /\ -1 <= B2R lo /\ B2R hi <= 1 - / 2 ^ 24 /\
  match clip32 lo hi pc with Ok (mask, q) => mask = [false; true; false; false; true] /\ p_batch_id q = Some [0; 1]%Z | Err _ => False end.
Proof.
  cbn zeta. split; [|split; [|split]].
  - repeat split; cbn; intros l H; inversion H; reflexivity.
  - unfold B2R, F2R; cbn; lra.
  - unfold B2R, F2R; cbn; lra.
  - vm_compute. split; reflexivity.
Qed.

(** With esp = 0 the upper bound is 1, and the largest number below 1 is kept; C75 shows that
    it wraps to the opposite cell. *)
Example C131_no_margin : let one : f32 := @B754_finite 24 128 false 8388608 (-23) eq_refl in
  let minus_one : f32 := @B754_finite 24 128 true 8388608 (-23) eq_refl in
  let top : f32 := @B754_finite 24 128 false 16777215 (-24) eq_refl in
  match clip32 minus_one one (mkPoints [(top, top, top)] None None None None 1 None 0) with Ok (mask, _) => mask = [true] | Err _ => False end.
Proof. vm_compute. reflexivity. Qed.
