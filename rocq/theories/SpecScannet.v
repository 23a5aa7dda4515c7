(** Specification vocabulary for the preparation and the scores of ScanNet. *)
From Coq Require Import String List ZArith Bool QArith Qcanon Reals.
From Verif Require Import Num SpecProject SpecPoints.
Import ListNotations.
Open Scope Z_scope.

(** The pairs of prediction and label of all points, of all files, that have a label in [cls]. *)
Definition labelled (cls : list Z) (fs : list (list Z * list Z)) : list (Z * Z) :=
  filter (fun pg => existsb (Z.eqb (snd pg)) cls) (flat_map (fun f => combine (fst f) (snd f)) fs).
(** The points of a list of pairs that are predicted and labelled as [k]; or either; right. *)
Definition n_both (k : Z) (l : list (Z * Z)) : nat := List.length (filter (fun pg => (fst pg =? k) && (snd pg =? k)) l).
Definition n_either (k : Z) (l : list (Z * Z)) : nat := List.length (filter (fun pg => (fst pg =? k) || (snd pg =? k)) l).
Definition n_right (l : list (Z * Z)) : nat := List.length (filter (fun pg => fst pg =? snd pg) l).
Definition qsum (xs : list Qc) : Qc := fold_right Qcplus 0%Qc xs.
(** The classes of [cls] that occur among the labels. *)
Definition seen_classes (cls : list Z) (l : list (Z * Z)) : nat :=
  List.length (filter (fun k => existsb (fun pg => snd pg =? k) l) cls).

(** The class of a category name: the id in the first row of the table with that name, 0
    if there is none or if the id is not one of [cls]. *)
Definition class_of (cls : list Z) (table : list (string * Z)) (name : string) (c : Z) : Prop :=
  (exists a id b, table = a ++ (name, id) :: b /\ ~ In name (map fst a) /\ ((In id cls /\ c = id) \/ (~ In id cls /\ c = 0))) \/
  (~ In name (map fst table) /\ c = 0).

(** Vectors: the sum of those normals, of length twice the area, of the faces that have the
    vertex [v] as a corner. *)
Open Scope R_scope.
Definition vplus (u v : v3 R) : v3 R := let '(a, b, c) := u in let '(d, e, f) := v in (a + d, b + e, c + f).
Definition vtimes (c : R) (u : v3 R) : v3 R := let '(x, y, z) := u in (c * x, c * y, c * z).
Definition is_corner (v : nat) (f : nat * nat * nat) : bool := let '(i, j, k) := f in Nat.eqb v i || Nat.eqb v j || Nat.eqb v k.
(** The vector orthogonal to a face; its length is twice the area of the face. *)
Definition face_vec (vs : list (v3 R)) (f : nat * nat * nat) : v3 R :=
  let '(i, j, k) := f in
  let '(a, b, c) := vsub (nth j vs (0, 0, 0)) (nth i vs (0, 0, 0)) in
  let '(d, e, g) := vsub (nth k vs (0, 0, 0)) (nth i vs (0, 0, 0)) in
  (b * g - c * e, c * d - a * g, a * e - b * d).
Definition around (vs : list (v3 R)) (fs : list (nat * nat * nat)) (v : nat) : v3 R :=
  fold_right vplus (0, 0, 0) (map (fun f => vtimes (1 / 2) (face_vec vs f)) (filter (is_corner v) fs)).
(** All corners exist. *)
Definition mesh_ok (vs : list (v3 R)) (fs : list (nat * nat * nat)) : Prop :=
  Forall (fun f => let '(i, j, k) := f in (i < List.length vs /\ j < List.length vs /\ k < List.length vs)%nat) fs.
(** The rows of a rotation matrix: orthonormal and right-handed. *)
Definition is_rotation (m : v3 (v3 R)) : Prop :=
  let '(r, s, t) := m in dot r r = 1 /\ dot s s = 1 /\ dot t t = 1 /\ dot r s = 0 /\ dot r t = 0 /\ dot s t = 0 /\ volume r s t = 1.
Definition rotated (m : v3 (v3 R)) (v : v3 R) : v3 R := let '(r, s, t) := m in (dot r v, dot s v, dot t v).
(** The same face, its corners named from another one on; a face turned over. *)
Definition turned (f g : nat * nat * nat) : Prop := let '(i, j, k) := f in g = (i, j, k) \/ g = (j, k, i) \/ g = (k, i, j).
Definition flipped (f g : nat * nat * nat) : Prop := let '(i, j, k) := f in g = (i, k, j).
