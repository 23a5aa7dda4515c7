(** Specification vocabulary for point clouds. *)
From Coq Require Import String Ascii List ZArith Bool Sorted QArith Qcanon Reals.
From Verif Require Import Num Points.
Import ListNotations.
Open Scope R_scope.

(** Every attribute has one row per point, as the constructor of Points checks. *)
Definition rows_ok {A} (n : nat) (o : option (list A)) : Prop := match o with Some l => List.length l = n | None => True end.
Definition cloud_ok {T} (p : pcloud T) : Prop :=
  rows_ok (npt p) (p_normals p) /\ rows_ok (npt p) (p_features p) /\ rows_ok (npt p) (p_labels p) /\ rows_ok (npt p) (p_batch_id p).

(** [l'] are the images under [f] of the rows of [l] with the numbers [keep]. *)
Definition rows_at {A B} (keep : list nat) (f : A -> B) (l : list A) (l' : list B) : Prop :=
  Forall2 (fun i b => option_map f (nth_error l i) = Some b) keep l'.
Definition attr_at {A B} (keep : list nat) (f : A -> B) (o : option (list A)) (o' : option (list B)) : Prop :=
  match o, o' with Some l, Some l' => rows_at keep f l l' | None, None => True | _, _ => False end.
(** [q] consists of some of the points of [p], in order, moved by [f], with normals
    turned by [g], and with their own features, labels and batch indices. *)
Definition carried {T} (keep : list nat) (f g : v3 T -> v3 T) (p q : pcloud T) : Prop :=
  StronglySorted lt keep /\
  rows_at keep f (p_points p) (p_points q) /\ attr_at keep g (p_normals p) (p_normals q) /\
  attr_at keep (fun x => x) (p_features p) (p_features q) /\ attr_at keep (fun x => x) (p_labels p) (p_labels q) /\
  attr_at keep (fun x => x) (p_batch_id p) (p_batch_id q).

(** Vectors. *)
Definition vsub (u v : v3 R) : v3 R := let '(a, b, c) := u in let '(d, e, f) := v in (a - d, b - e, c - f).
Definition dot (u v : v3 R) : R := let '(a, b, c) := u in let '(d, e, f) := v in a * d + b * e + c * f.
Definition norm (u : v3 R) : R := sqrt (dot u u).
Definition dist (u v : v3 R) : R := norm (vsub u v).
(** The signed volume spanned by three vectors: its sign is their orientation. *)
Definition volume (u v w : v3 R) : R :=
  let '(a, b, c) := u in let '(d, e, f) := v in let '(g, h, i) := w in
  a * (e * i - f * h) - b * (d * i - f * g) + c * (d * h - e * g).
(** Anti-clockwise rotations about the axes. *)
Definition turn_x (t : R) (v : v3 R) : v3 R := let '(x, y, z) := v in (x, y * cos t - z * sin t, y * sin t + z * cos t).
Definition turn_y (t : R) (v : v3 R) : v3 R := let '(x, y, z) := v in (x * cos t + z * sin t, y, z * cos t - x * sin t).
Definition turn_z (t : R) (v : v3 R) : v3 R := let '(x, y, z) := v in (x * cos t - y * sin t, x * sin t + y * cos t, z).
Definition coord (i : nat) (v : v3 R) : R := let '(x, y, z) := v in match i with O => x | S O => y | _ => z end.
(** A change of points and normals, nothing else. *)
Definition moved (f g : v3 R -> v3 R) (p q : pcloud R) : Prop :=
  q = mkPoints (map f (p_points p)) (option_map (map g) (p_normals p)) (p_features p) (p_labels p)
               (p_batch_id p) (p_batch_size p) (p_batch_npt p) (p_device p).
(** The axis names and their coordinates. *)
Definition axis_no (a : ascii) : option nat :=
  if Ascii.eqb a "x" then Some 0%nat else if Ascii.eqb a "y" then Some 1%nat else if Ascii.eqb a "z" then Some 2%nat else None.
(** The number of times a coordinate is named. *)
Definition named (i : nat) (axes : list ascii) : nat :=
  List.length (filter (fun a => match axis_no a with Some j => Nat.eqb i j | None => false end) axes).
Definition flip_sign (n : nat) (x : R) : R := if Nat.even n then x else - x.
(** The mirror image given by a string of axis names. *)
Definition mirror (axes : list ascii) (v : v3 R) : v3 R :=
  let '(x, y, z) := v in (flip_sign (named 0 axes) x, flip_sign (named 1 axes) y, flip_sign (named 2 axes) z).
(** Inside a box. *)
Definition between (a b v : v3 R) : Prop :=
  forall i, (i < 3)%nat -> coord i a <= coord i v <= coord i b.
(** Strictly inside the cube with the given bounds. *)
Definition inside (lo hi : Qc) (v : v3 Qc) : Prop :=
  let '(x, y, z) := v in (lo < x < hi /\ lo < y < hi /\ lo < z < hi)%Qc.
