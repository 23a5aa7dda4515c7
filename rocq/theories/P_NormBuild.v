(** Property C133: from any cloud to an octree that holds every point, in single precision. *)
From Coq Require Import List ZArith Bool Reals Lra Lia QArith Qcanon Qreals.
From Flocq Require Import Core.Core IEEE754.BinarySingleNaN.
From Verif Require Import Res Num Points Octree NnInterp Float32 FloatMean SpecSingle BuildFloat NormFloat SpecNorm32 NormBuildFacts.
Import ListNotations.
Open Scope R_scope.

(** C133: bbox, normalize with a scale of at most 0.998, and build_octree, all in binary32,
    succeed on every cloud of numbers of magnitude at most 2^k two points of which are at least
    2^(k-10) apart along an axis; every point is found in the octree at every depth from
    full_depth on, and at the last depth the search returns the map of build_octree.
    [s2] is 2 * scale. *)
Theorem C133_normalized_found : forall o k s2 pts, (full_depth o <= depth o <= 16)%nat -> batch_size o = 1%nat -> length (layers o) = S (depth o) ->
  (-60 <= k <= 60)%Z -> bounded_cloud k pts -> wide (powerRZ 2 (k - 10)) pts -> is_finite s2 = true -> 0 <= B2R s2 <= 2 * (998 / 1000) ->
  exists bbmin bbmax o32 idx, bbox32 pts = Ok (bbmin, bbmax) /\ build_tree32 o (bare (normalize32 bbmin bbmax s2 pts)) = Ok (o32, idx) /\
    let query d := map (fun p => (rescale32 d p, 0%Z)) (normalize32 bbmin bbmax s2 pts) in
    search_pts32 o32 (query (depth o)) (depth o) true = Ok idx /\
    forall d, (full_depth o <= d <= depth o)%nat ->
      exists found, search_pts32 o32 (query d) d true = Ok found /\ length found = length pts /\ Forall (fun j => (0 <= j)%Z) found.
Proof. exact thm_norm_found. Qed.
Print Assumptions C133_normalized_found.

(** Three points with coordinates up to 100, scale 1/2, an octree of depth 3. *)
Example C133_case : let hundred : f32 := @B754_finite 24 128 false 13107200 (-17) eq_refl in
  let one : f32 := @B754_finite 24 128 false 8388608 (-23) eq_refl in
  let zero : f32 := B754_zero false in
  let pts := [(hundred, one, zero); (zero, one, hundred); (one, one, one)] in
  let o := octree_new 3 1 1 0 in
  bounded_cloud 7 pts /\ wide (powerRZ 2 (7 - 10)) pts /\ length (layers o) = S (depth o) /\
  match bbox32 pts with
  | Ok (a, b) => match build_tree32 o (bare (normalize32 a b one pts)) with
                 | Ok (o32, idx) => Nat.eqb (length idx) 3 && forallb (fun i => Z.leb 0 i) idx
                 | Err _ => false
                 end
  | Err _ => false
  end = true.
Proof.
  cbn zeta. assert (P7 : powerRZ 2 7 = 128) by (change (powerRZ 2 7) with (2 ^ 7); ring).
  split; [|split; [|split]].
  - unfold bounded_cloud. rewrite P7.
    apply Forall_cons; [|apply Forall_cons; [|apply Forall_cons; [|apply Forall_nil]]]; unfold point_within, within, B2R, F2R; cbn; repeat split; apply Rabs_le; lra.
  - eexists _, _. split; [left; reflexivity|]. split; [right; left; reflexivity|]. left.
    change (powerRZ 2 (7 - 10)) with (/ 2 ^ 3). replace (2 ^ 3) with 8 by ring. unfold B2R, F2R. cbn. lra.
  - reflexivity.
  - vm_compute. reflexivity.
Qed.
