(** Specification vocabulary: a shape moved to another place of the grid. *)
From Coq Require Import String List ZArith Bool QArith Qcanon Permutation.
From Verif Require Import Res Num Points Octree NnBasic Net SpecGeo SpecBuild SpecNeigh SpecNN.
Import ListNotations.
Open Scope Z_scope.

(** A cell is (x, y, z, sample). *)
Definition sample_of (q : Z * Z * Z * Z) : Z := snd q.
Definition step (q : Z * Z * Z * Z) (v : Z * Z * Z) : Z * Z * Z * Z :=
  let '(x, y, z, b) := q in let '(dx, dy, dz) := v in (x + dx, y + dy, z + dz, b).

(** A motion of the grids of the layers from [e] on: it permutes the cells of every layer,
    keeps samples apart, turns the step [v] into the step [turn v], and moves the parent of
    a cell to the parent of the moved cell.  Sample [b] becomes sample [renum b]. *)
Record motion_to (renum : Z -> Z) (e : nat) (s : nat -> Z * Z * Z * Z -> Z * Z * Z * Z) (turn : Z * Z * Z -> Z * Z * Z) : Prop := {
  mo_onto : forall d q', (e <= d)%nat -> exists q, s d q = q';
  mo_inj : forall d q r, (e <= d)%nat -> s d q = s d r -> q = r;
  mo_sample : forall d q, (e <= d)%nat -> sample_of (s d q) = renum (sample_of q);
  mo_step : forall d q v, (e <= d)%nat -> s d (step q v) = step (s d q) (turn v);
  mo_parent : forall d q, (e <= d)%nat -> parent_cell (s (S d) q) = s d (parent_cell q)
}.
(** The samples keep their numbers. *)
Notation motion := (motion_to (fun b => b)).
(** The motions of a sample [b] by [t b] cells of layer [e], the mirror image in x, and the
    exchange of two axes. *)
Definition shift (e : nat) (t : Z -> Z * Z * Z) (d : nat) (q : Z * Z * Z * Z) : Z * Z * Z * Z :=
  let '(x, y, z, b) := q in let '(u, v, w) := t b in
  let p := 2 ^ Z.of_nat (d - e) in (x + u * p, y + v * p, z + w * p, b).
(** The same motion when sample [b] becomes sample [renum b]. *)
Definition shift_to (renum : Z -> Z) (e : nat) (t : Z -> Z * Z * Z) (d : nat) (q : Z * Z * Z * Z) : Z * Z * Z * Z :=
  let '(x, y, z, b) := q in let '(u, v, w) := t b in
  let p := 2 ^ Z.of_nat (d - e) in (x + u * p, y + v * p, z + w * p, renum b).
Definition mirror_x (d : nat) (q : Z * Z * Z * Z) : Z * Z * Z * Z :=
  let '(x, y, z, b) := q in (2 ^ Z.of_nat d - 1 - x, y, z, b).
Definition turn_x (v : Z * Z * Z) : Z * Z * Z := let '(dx, dy, dz) := v in (- dx, dy, dz).
Definition swap_xy (d : nat) (q : Z * Z * Z * Z) : Z * Z * Z * Z := let '(x, y, z, b) := q in (y, x, z, b).
Definition turn_xy (v : Z * Z * Z) : Z * Z * Z := let '(dx, dy, dz) := v in (dy, dx, dz).
Definition swap_yz (d : nat) (q : Z * Z * Z * Z) : Z * Z * Z * Z := let '(x, y, z, b) := q in (x, z, y, b).
Definition turn_yz (v : Z * Z * Z) : Z * Z * Z := let '(dx, dy, dz) := v in (dx, dz, dy).

(** The non-empty cells of [o'] are those of [o], moved. *)
Definition moved (e : nat) (s : nat -> Z * Z * Z * Z -> Z * Z * Z * Z) (o o' : octree) : Prop :=
  depth o' = depth o /\ batch_size o' = batch_size o /\
  forall d cs cs', (e <= d <= depth o)%nat -> octree_xyzb o d true = Ok cs -> octree_xyzb o' d true = Ok cs' ->
    forall q, In (s d q) cs' <-> In q cs.
(** A moved cell has the features of the cell; [ne] tells if the features belong to the
    non-empty cells or to all cells of the layer. *)
Definition carried {A} (ne : bool) (s : nat -> Z * Z * Z * Z -> Z * Z * Z * Z) (o o' : octree) (d : nat) (x x' : list A) : Prop :=
  forall cs cs' i j q, octree_xyzb o d ne = Ok cs -> octree_xyzb o' d ne = Ok cs' ->
    nth_error cs i = Some q -> nth_error cs' j = Some (s d q) -> nth_error x i = nth_error x' j.
(** The first layer whose cells all move: with the empty cells it is one layer deeper. *)
Definition lowest (ne : bool) (e : nat) : nat := if ne then e else S e.
(** The weights [W'] of a kernel are the turned weights [W]. *)
Definition turned (turn : Z * Z * Z -> Z * Z * Z) (kernel : string) (W W' : list (list (list Qc))) : Prop :=
  forall k v, nth_error (box kernel) k = Some v ->
    exists k', nth_error (box kernel) k' = Some (turn v) /\ nth_error W' k' = nth_error W k.
(** Two sets of parameters that differ in that the 3x3x3 kernels are turned. *)
Definition is_conv3 (p : path) : Prop := In (fst (last p (EmptyString, 0))) ["conv1"; "conv3x3"]%string.
Record params_turned (turn : Z * Z * Z -> Z * Z * Z) (P P' : params) : Prop := {
  pt_conv : forall p, is_conv3 p -> forall k v, nth_error (box "333") k = Some v ->
    exists k', nth_error (box "333") k' = Some (turn v) /\ forall c o, p_weight P' p k' c o = p_weight P p k c o;
  pt_rest : forall p, ~ is_conv3 p -> forall k c o, p_weight P' p k c o = p_weight P p k c o;
  pt_bias : forall p c, p_bias P' p c = p_bias P p c;
  pt_norm : forall p C x, p_norm P' p C x = p_norm P p C x;
  pt_mask : forall p i c, p_mask P' p i c = p_mask P p i c
}.

(** Batch normalisation in evaluation or training mode: tensors with at least [k] rows are
    normalised row by row with a function that depends on the rows of the tensor (their mean
    and variance) but not on their order.  k = 0 in evaluation mode and k = 2 in training
    mode, where torch rejects a single row.  Nothing is said about dropout. *)
Definition fair_norms (k : nat) (P : params) : Prop :=
  forall p C, exists f : feat -> vec -> vec, (forall x x', Permutation x x' -> forall r, f x r = f x' r) /\
    forall x, (k <= List.length x)%nat -> Forall (fun r => List.length r = C) x ->
      p_norm P p C x = Ok (map (f x) x) /\ Forall (fun r => List.length r = C) (map (f x) x).

(** Every point of sample [b] moved by [t b] cells of layer [e]; these cells have sides of
    length 2/2^e.  Everything else of the cloud stays. *)
Definition move_coord (e : nat) (k : Z) (c : Qc) : Qc := (c + qz (2 * k) / qz (2 ^ Z.of_nat e))%Qc.
Definition move_point (e : nat) (v : Z * Z * Z) (p : v3 Qc) : v3 Qc :=
  let '(a, b, c) := v in let '(x, y, z) := p in (move_coord e a x, move_coord e b y, move_coord e c z).
Definition moved_cloud (e : nat) (t : Z -> Z * Z * Z) (pc : pcloud Qc) : pcloud Qc :=
  mkPoints (map (fun '(p, b) => move_point e (t b) p) (located pc)) (p_normals pc) (p_features pc) (p_labels pc)
    (p_batch_id pc) (p_batch_size pc) (p_batch_npt pc) (p_device pc).

(** [sigma] permutes the places below [n]; [l'] is [l] in the order in which the element at
    place [i] comes to place [sigma i]. *)
Definition permutes (sigma : nat -> nat) (n : nat) : Prop :=
  (forall i, (i < n)%nat -> (sigma i < n)%nat) /\ (forall i j, (i < n)%nat -> (j < n)%nat -> sigma i = sigma j -> i = j).
Definition reordered {A} (sigma : nat -> nat) (l l' : list A) : Prop :=
  List.length l' = List.length l /\ forall i, (i < List.length l)%nat -> nth_error l' (sigma i) = nth_error l i.
