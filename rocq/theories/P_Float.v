(** Property C75: coordinates in single precision. *)
From Coq Require Import List ZArith Bool Reals Lra Lia QArith Qcanon Qreals.
From Flocq Require Import Core.Core IEEE754.BinarySingleNaN.
From Verif Require Import Res Tensor Key Spec Num Points Octree SpecGeo Float32 SpecSingle FloatFacts.
Import ListNotations.
Open Scope R_scope.

(** C75: computed in binary32, a point with -1 <= c < 1 - 2^-24 on each axis gets the
    key of a cell of the grid, and lies at most 2^-24 outside of that cell. *)
Theorem C75_single_precision_range : forall dep p b,
  (dep <= 16)%nat -> (-32768 <= b < 32768)%Z -> safe_point32 p ->
  exists x y z k, in_cube dep x y z /\ point_key32 dep p (Some b) = Ok k /\ xyz2key x y z (Some b) dep = Ok k /\
    near_cell (/ 2 ^ 24) dep x y z p.
Proof. exact thm_single_range. Qed.
Print Assumptions C75_single_precision_range.

Example C75_case : let half : f32 := @B754_finite 24 128 false 8388608 (-24) eq_refl in
  let minus_one : f32 := @B754_finite 24 128 true 8388608 (-23) eq_refl in
  let third : f32 := @B754_finite 24 128 false 11184811 (-25) eq_refl in
  safe_point32 (half, minus_one, third) /\
  (cell32 3 half, cell32 3 minus_one, cell32 3 third) = (Some 6%Z, Some 0%Z, Some 5%Z).
Proof.
  cbn zeta. split; [|vm_compute; reflexivity].
  repeat split; cbn; unfold F2R; cbn; lra.
Qed.

(** C75: rounding keeps the order of the points along each axis. *)
Theorem C75_single_precision_monotone : forall dep c c',
  (dep <= 62)%nat -> is_finite c = true -> is_finite c' = true ->
  -1 <= B2R c -> B2R c <= B2R c' -> B2R c' <= 1 ->
  exists x x', cell32 dep c = Some x /\ cell32 dep c' = Some x' /\ (x <= x')%Z.
Proof. exact thm_single_mono. Qed.
Print Assumptions C75_single_precision_monotone.

(** C75: on the grid of step 2^-23 the keys are those of the exact model, so what is
    proved of build_octree over exact numbers holds for such clouds in binary32. *)
Theorem C75_single_precision_exact : forall dep q p b, (dep <= 16)%nat -> safe_point32 p ->
  (let '(x, y, z) := p in on_grid x /\ on_grid y /\ on_grid z) -> same_point q p ->
  point_key32 dep p b = point_key dep q b.
Proof. exact thm_single_exact. Qed.
Print Assumptions C75_single_precision_exact.

Example C75_exact_case : let half : f32 := @B754_finite 24 128 false 8388608 (-24) eq_refl in
  let q : Qc := Q2Qc (1 # 2) in
  safe_point32 (half, half, half) /\ on_grid half /\ same_point (q, q, q) (half, half, half).
Proof.
  cbn zeta. repeat split; try (cbn; unfold F2R; cbn; lra).
  - exists 4194304%Z. cbn; unfold F2R; cbn; lra.
  - unfold same_number, Q2R. cbn; unfold F2R; cbn; lra.
  - unfold same_number, Q2R. cbn; unfold F2R; cbn; lra.
  - unfold same_number, Q2R. cbn; unfold F2R; cbn; lra.
Qed.

(** C75: the value 1 - 2^-24, a binary32 number below 1, is rounded up to 1 (as is 1
    itself): the point gets the key of the cell at the opposite face, whatever the other
    coordinates. *)
Theorem C75_largest_below_one_refuted : forall dep c y z b, (dep <= 16)%nat -> (-32768 <= b < 32768)%Z ->
  is_finite c = true -> 1 - / 2 ^ 24 <= B2R c <= 1 -> safe32 y -> safe32 z ->
  exists y' z' k, in_cube dep 0 y' z' /\ near_slab (/ 2 ^ 24) dep y' (B2R y) /\ near_slab (/ 2 ^ 24) dep z' (B2R z) /\
    point_key32 dep (c, y, z) (Some b) = Ok k /\ xyz2key 0 y' z' (Some b) dep = Ok k.
Proof. exact thm_single_top. Qed.
Print Assumptions C75_largest_below_one_refuted.

Example C75_top_case : is_finite ftop = true /\ B2R ftop = 1 - / 2 ^ 24 /\ cell32 16 ftop = Some 65536%Z /\
  ~ near_slab (/ 2 ^ 24) 16 0 (B2R ftop).
Proof.
  split; [reflexivity|]. split; [exact ftop_val|]. split; [vm_compute; reflexivity|].
  rewrite ftop_val. unfold near_slab. intros [_ H]. cbn in H. lra.
Qed.
