(** Property C122: the stored points in single precision. *)
From Coq Require Import List ZArith Bool Reals Lra Lia.
From Flocq Require Import Core.Core IEEE754.BinarySingleNaN.
From Verif Require Import Res Tensor Key Spec Num Points Octree SpecGeo Float32 SpecSingle FloatMean SpecMean
  FloatMeanThms.
Import ListNotations.
Open Scope R_scope.

(** C122: computed in binary32, build_octree gives one point to each occupied cell of
    each sample (the keys are those of C75); the point of a cell that holds n points with n * 2^depth <= 2^24 lies in this cell,
    whatever the order in which its points are added. *)
Theorem C122_cell : forall dep pts batch,
  (dep <= 16)%nat -> Forall safe_point32 pts -> good_ids (length pts) batch ->
  exists keys nodes avgs, keys32 dep pts batch = Ok keys /\ node_points32 dep pts batch = Ok (nodes, avgs) /\
    length keys = length pts /\
    (forall i p k, nth_error pts i = Some p -> nth_error keys i = Some k ->
       point_key32 dep p (match batch with None => None | Some ids => nth_error ids i end) = Ok k) /\
    (forall k, In k nodes <-> In k keys) /\ NoDup nodes /\ length avgs = length nodes /\
    forall i k a, nth_error nodes i = Some k -> nth_error avgs i = Some a ->
      (Z.of_nat (length (rows_at keys k pts)) * 2 ^ Z.of_nat dep <= 2 ^ 24)%Z ->
      exists x y z b, key2xyz k dep = Ok (x, y, z, b) /\ in_cube dep x y z /\ in_unit_cell x y z a.
Proof. exact thm_mean_cell. Qed.
Print Assumptions C122_cell.

(** C122: the point of a cell that holds at most 2^j points is at most
    (2^j + 2) * 2^-25 * 2^depth cells, that is (2^j + 2) * 2^-24, away from the exact
    mean of these points. *)
Theorem C122_mean : forall dep pts batch keys nodes avgs,
  (dep <= 16)%nat -> Forall safe_point32 pts -> good_ids (length pts) batch ->
  keys32 dep pts batch = Ok keys -> node_points32 dep pts batch = Ok (nodes, avgs) ->
  forall i k a j, nth_error nodes i = Some k -> nth_error avgs i = Some a ->
    (j <= 24)%nat -> (Z.of_nat (length (rows_at keys k pts)) <= 2 ^ Z.of_nat j)%Z ->
    near_mean dep ((2 ^ j + 2) * 2 ^ dep / 2 ^ 25) (rows_at keys k pts) a.
Proof. exact thm_mean_error. Qed.
Print Assumptions C122_mean.

(** Two samples; the cell (6, 0, 5) of sample 0 holds two points. *)
Example C122_case : let half : f32 := @B754_finite 24 128 false 8388608 (-24) eq_refl in
  let minus_one : f32 := @B754_finite 24 128 true 8388608 (-23) eq_refl in
  let third : f32 := @B754_finite 24 128 false 11184811 (-25) eq_refl in
  let x : f32 := @B754_finite 24 128 false 10066330 (-24) eq_refl in
  let pts := [(half, minus_one, third); (third, third, half); (x, minus_one, third)] in
  Forall safe_point32 pts /\ good_ids 3 (Some [0; 1; 0]%Z) /\
  match keys32 3 pts (Some [0; 1; 0]%Z), node_points32 3 pts (Some [0; 1; 0]%Z) with
  | Ok keys, Ok (nodes, avgs) =>
      map (fun k => length (rows_at keys k pts)) nodes = [2; 1]%nat /\
      map (v3map flong) avgs = [(Some 6, Some 0, Some 5); (Some 5, Some 5, Some 6)]%Z
  | _, _ => False
  end.
Proof.
  cbn zeta. split; [|split].
  - apply Forall_cons; [|apply Forall_cons; [|apply Forall_cons; [|apply Forall_nil]]];
      (split; [|split]); (split; [reflexivity|]); cbn; unfold F2R; cbn; lra.
  - split; [reflexivity|]. apply Forall_cons; [lia|apply Forall_cons; [lia|apply Forall_cons; [lia|apply Forall_nil]]].
  - vm_compute. split; reflexivity.
Qed.

(** C122: the local coordinate of such a point ('L' of get_input_feature) lies in
    [-1/2, 1/2) and is its position in the cell up to 2^-26. *)
Theorem C122_local : forall (k : Z) (a : f32), (0 <= k < 2 ^ 24)%Z -> in_slab k a ->
  is_finite (flocal a) = true /\ - / 2 <= B2R (flocal a) < / 2 /\
  Rabs (B2R (flocal a) - (B2R a - IZR k - / 2)) <= / 2 ^ 26.
Proof. exact thm_mean_local. Qed.
Print Assumptions C122_local.

(** C122: its global coordinate ('P' of get_input_feature) lies in [-1, 1], within 2^-23
    of the exact value. *)
Theorem C122_global : forall dep (a : f32), (dep <= 16)%nat -> is_finite a = true -> 0 <= B2R a <= 2 ^ dep ->
  is_finite (fglobal dep a) = true /\ -1 <= B2R (fglobal dep a) <= 1 /\
  Rabs (B2R (fglobal dep a) - (2 * B2R a / 2 ^ dep - 1)) <= / 2 ^ 23.
Proof. exact thm_global32. Qed.
Print Assumptions C122_global.

Example C122_features : let a : f32 := @B754_finite 24 128 false 13421773 (-21) eq_refl in
  in_slab 6 a /\ 0 <= B2R a <= 2 ^ 3 /\
  B2SF (flocal a) = SpecFloat.S754_finite true 13421760 (-27) /\
  B2SF (fglobal 3 a) = SpecFloat.S754_finite false 10066330 (-24).
Proof.
  cbn zeta. repeat split; try (cbn; unfold F2R; cbn; lra); vm_compute; reflexivity.
Qed.

(** C122: without the limit on the number of points the claim fails: 1024 copies of one
    point at depth 16 are stored as a point of another cell. *)
Theorem C122_crowded_refuted : exists p n k x y z, safe_point32 p /\
  node_points32 16 (repeat p n) None = Ok ([k], [(x, y, z)]) /\
  exists kx ky kz b, key2xyz k 16 = Ok (kx, ky, kz, b) /\ ~ in_slab kx x.
Proof. exact thm_mean_crowd. Qed.
Print Assumptions C122_crowded_refuted.
