(** Specification vocabulary for normalisation in single precision. *)
From Coq Require Import List ZArith Reals.
From Flocq Require Import Core.Core IEEE754.BinarySingleNaN.
From Verif Require Import Num Points Float32.
Open Scope R_scope.

(** Bounds of one axis: numbers of magnitude at most 2^k. *)
Definition axis_ok (k : Z) (m M : f32) : Prop :=
  is_finite m = true /\ is_finite M = true /\ Rabs (B2R m) <= powerRZ 2 k /\ Rabs (B2R M) <= powerRZ 2 k.
Definition box_ok (k : Z) (bbmin bbmax : v3 f32) : Prop :=
  let '(x0, y0, z0) := bbmin in let '(x1, y1, z1) := bbmax in axis_ok k x0 x1 /\ axis_ok k y0 y1 /\ axis_ok k z0 z1.
(** Some side of the box has at least the length [l]. *)
Definition box_long (l : R) (bbmin bbmax : v3 f32) : Prop :=
  let '(x0, y0, z0) := bbmin in let '(x1, y1, z1) := bbmax in
  l <= B2R x1 - B2R x0 \/ l <= B2R y1 - B2R y0 \/ l <= B2R z1 - B2R z0.
(** A point of the box, faces included. *)
Definition between (m M c : f32) : Prop := is_finite c = true /\ B2R m <= B2R c <= B2R M.
Definition in_box32 (bbmin bbmax p : v3 f32) : Prop :=
  let '(x0, y0, z0) := bbmin in let '(x1, y1, z1) := bbmax in let '(x, y, z) := p in
  between x0 x1 x /\ between y0 y1 y /\ between z0 z1 z.
(** A number of magnitude at most [b]. *)
Definition within (b : R) (c : f32) : Prop := is_finite c = true /\ Rabs (B2R c) <= b.
Definition point_within (b : R) (p : v3 f32) : Prop := let '(x, y, z) := p in within b x /\ within b y /\ within b z.
(** A point of real numbers and a point of binary32 numbers that differ by at most [b] per coordinate. *)
Definition near_point (b : R) (r : v3 R) (p : v3 f32) : Prop :=
  let '(u, v, w) := r in let '(x, y, z) := p in
  Rabs (B2R x - u) <= b /\ Rabs (B2R y - v) <= b /\ Rabs (B2R z - w) <= b.
(** A cloud of the given points without attributes. *)
Definition bare {T} (pts : list (v3 T)) : pcloud T := mkPoints pts None None None None 1 None 0.
(** A point without NaN and infinities. *)
Definition finite_point (p : v3 f32) : Prop := let '(x, y, z) := p in is_finite x = true /\ is_finite y = true /\ is_finite z = true.
(** Each face of the box holds a coordinate of one of the points. *)
Definition tight (bbmin bbmax : v3 f32) (pts : list (v3 f32)) : Prop :=
  let '(x0, y0, z0) := bbmin in let '(x1, y1, z1) := bbmax in
  let on (f : v3 f32 -> f32) (c : f32) := exists p, List.In p pts /\ f p = c in
  let px := fun p : v3 f32 => fst (fst p) in let py := fun p : v3 f32 => snd (fst p) in let pz := fun p : v3 f32 => snd p in
  on px x0 /\ on py y0 /\ on pz z0 /\ on px x1 /\ on py y1 /\ on pz z1.
(** All coordinates are numbers of magnitude at most 2^k, and two points are at least [l] apart along some axis. *)
Definition bounded_cloud (k : Z) (pts : list (v3 f32)) : Prop := List.Forall (point_within (powerRZ 2 k)) pts.
Definition wide (l : R) (pts : list (v3 f32)) : Prop :=
  exists p q, List.In p pts /\ List.In q pts /\
    let '(x, y, z) := p in let '(u, v, w) := q in l <= B2R x - B2R u \/ l <= B2R y - B2R v \/ l <= B2R z - B2R w.
