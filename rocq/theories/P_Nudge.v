(** Property C126: octrees in single precision. *)
From Coq Require Import List ZArith Bool Reals Lra Lia QArith Qcanon Qreals.
From Flocq Require Import Core.Core IEEE754.BinarySingleNaN.
From Verif Require Import Res Num Points Octree NnBasic NnInterp SpecGeo SpecBuild Float32 FloatMean SpecSingle BuildFloat SpecNudge NudgeFacts.
Import ListNotations.
Open Scope R_scope.

(** C126: computed in binary32, build_octree gives the tree and the map that exact
    arithmetic gives for a cloud moved by at most 2^-24 per coordinate, and
    nearest-neighbour interpolation at any depth gives what exact arithmetic gives for
    points moved in the same way.  The displacement of a coordinate does not depend on
    the cloud, the depth or the batch; coordinates below 1 - 2^-24 stay below 1. *)
Theorem C126_nearby_cloud : exists move : f32 -> Qc,
  (forall c, in_unit32 c -> Rabs (Q2R (move c) - B2R c) <= / 2 ^ 24 /\ -1 <= Q2R (move c) <= 1 /\
     (safe32 c -> Q2R (move c) < 1) /\ (B2R c < 1 -> on_grid c -> Q2R (move c) = B2R c)) /\
  (forall normalize o pc, build_input o (move_points move pc) -> Forall point_in_unit32 (p_points pc) ->
     exists o' idx o32, build_octree normalize o (move_points move pc) = Ok (o', idx) /\ build_tree32 o pc = Ok (o32, idx) /\
       no_signals o32 = no_signals o') /\
  (forall nempty bound_check C data o d pts, (d <= 62)%nat -> Forall (fun pb => point_in_unit32 (fst pb)) pts ->
     interp_nearest32 nempty bound_check C data o d pts =
     (r <- interp_forward false nempty bound_check true C data o d (map (fun pb => (v3map move (fst pb), snd pb)) pts) ;; Ok (fst r))).
Proof.
  exact (ex_intro _ nudge (conj thm_nudge (conj thm_tree32 thm_interp32))).
Qed.
Print Assumptions C126_nearby_cloud.

(** C126: in binary32 every point of the cloud is found in the octree built from it, at
    every depth from full_depth on; at the last depth the search returns the map that
    build_octree returned.  [ids] are the batch indices. *)
Theorem C126_points_found : forall o pc ids o32 idx, (full_depth o <= depth o <= 16)%nat -> (0 < Z.of_nat (batch_size o) <= 32768)%Z ->
  length (layers o) = S (depth o) -> p_batch_size pc = batch_size o -> length ids = length (p_points pc) ->
  (if Nat.eqb (batch_size o) 1 then ids = repeat 0%Z (length ids)
   else p_batch_id pc = Some ids /\ Forall (fun b => (0 <= b < Z.of_nat (batch_size o))%Z) ids) ->
  Forall safe_point32 (p_points pc) -> build_tree32 o pc = Ok (o32, idx) ->
  let query d := combine (map (rescale32 d) (p_points pc)) ids in
  search_pts32 o32 (query (depth o)) (depth o) true = Ok idx /\
  forall d, (full_depth o <= d <= depth o)%nat ->
    exists found, search_pts32 o32 (query d) d true = Ok found /\ length found = length (p_points pc) /\ Forall (fun j => (0 <= j)%Z) found.
Proof. exact thm_points_found. Qed.
Print Assumptions C126_points_found.

(** C126: a cloud of another batch size is rejected as in exact arithmetic. *)
Theorem C126_batch_size : forall normalize (o : octree) (pc : pcloud f32) (move : f32 -> Qc), p_batch_size pc <> batch_size o ->
  build_octree normalize o (move_points move pc) = Err AssertionError /\ build_tree32 o pc = Err AssertionError.
Proof. exact thm_batch_size. Qed.
Print Assumptions C126_batch_size.

(** Three points of two samples, one of them on the lower faces of the cube. *)
Example C126_case : let half : f32 := @B754_finite 24 128 false 8388608 (-24) eq_refl in
  let minus_one : f32 := @B754_finite 24 128 true 8388608 (-23) eq_refl in
  let third : f32 := @B754_finite 24 128 false 11184811 (-25) eq_refl in
  let pc := mkPoints [(half, minus_one, third); (minus_one, minus_one, minus_one); (half, minus_one, third)] None None None (Some [0; 1; 1]%Z) 2 None 0 in
  let o := octree_new 3 1 2 0 in
  Forall safe_point32 (p_points pc) /\ length (layers o) = 4%nat /\
  match build_tree32 o pc with Ok (o32, idx) => idx = [0; 2; 1]%Z \/ idx = [0; 1; 2]%Z | Err _ => False end.
Proof.
  cbn zeta. split.
  - repeat constructor; cbn; unfold F2R; cbn; lra.
  - split; [reflexivity|]. vm_compute. tauto.
Qed.
