(** Specification vocabulary for the segmentation projects. *)
From Coq Require Import String List ZArith Bool QArith Qcanon.
From Verif Require Import Num SpecNN.
Import ListNotations.
Open Scope Z_scope.

(** Number of points predicted and labelled as class [k]; predicted or labelled as [k]. *)
Definition both (k : Z) (pred label : list Z) : nat :=
  List.length (filter (fun pl => (fst pl =? k) && (snd pl =? k)) (combine pred label)).
Definition either (k : Z) (pred label : list Z) : nat :=
  List.length (filter (fun pl => (fst pl =? k) || (snd pl =? k)) (combine pred label)).
Definition qn (n : nat) : Qc := qz (Z.of_nat n).
(** The guard 1e-10 of the divisions. *)
Definition guard : Qc := (/ qz 10000000000)%Qc.
(** Intersection over union of a class, zero for a class without labelled points. *)
Definition present (k : Z) (label : list Z) : bool := existsb (Z.eqb k) label.
Definition class_iou (pred label : list Z) (k : nat) : Qc :=
  if present (Z.of_nat k) label
  then (qn (both (Z.of_nat k) pred label) / (qn (either (Z.of_nat k) pred label) + guard))%Qc else 0%Qc.

(** What a sample adds to the votes for point [j] of its file: the row of the point
    among the points that were kept, nothing if it was clipped. *)
Definition vote (C : nat) (mask : list bool) (rows : list (list Qc)) (j : nat) : list Qc :=
  if nth j mask false then nth (List.length (filter (fun b => b) (firstn j mask))) rows (vzero C) else vzero C.
(** Sum of rows of [C] columns. *)
Definition vsum (C : nat) (rows : list (list Qc)) : list Qc := fold_left vadd rows (vzero C).

(** A sample is the name of a file, which of the points of the file were kept, and one
    row for each kept point.  [occ f items]: the samples of the file [f], in order. *)
Definition occ (f : string) (items : list (string * list bool * list (list Qc))) : list (list bool * list (list Qc)) :=
  map (fun it => (snd (fst it), snd it)) (filter (fun it => String.eqb (fst (fst it)) f) items).
(** Total of the votes of the samples of the file [f] for its point [j]. *)
Definition votes (C : nat) (f : string) (items : list (string * list bool * list (list Qc))) (j : nat) : list Qc :=
  vsum C (map (fun mr => vote C (fst mr) (snd mr) j) (occ f items)).
(** [k] is the first column that holds the largest entry of the row. *)
Definition best_col (r : list Qc) (k : nat) : Prop := exists x, nth_error r k = Some x /\
  forall i y, nth_error r i = Some y -> (y <= x)%Qc /\ ((i < k)%nat -> (y < x)%Qc).
(** The classes predicted by rows of logits. *)
Definition predicts (logit : list (list Qc)) (pred : list Z) : Prop :=
  Forall2 (fun r p => exists k, p = Z.of_nat k /\ best_col r k) logit pred.

(** Position of a point in a box of side [side] whose lowest corner is [c]. *)
Definition in_box (side : Qc) (c v : v3 Qc) : Prop :=
  let '(cx, cy, cz) := c in let '(x, y, z) := v in
  ((cx <= x)%Qc /\ (x <= cx + side)%Qc) /\ ((cy <= y)%Qc /\ (y <= cy + side)%Qc) /\ ((cz <= z)%Qc /\ (z <= cz + side)%Qc).
(** Order of triples, axis by axis. *)
Definition v3le (a b : v3 Qc) : Prop := let '(x, y, z) := a in let '(x', y', z') := b in (x <= x')%Qc /\ (y <= y')%Qc /\ (z <= z')%Qc.
(** Corner number [n] of the grid of step [s] that starts in [lo]. *)
Definition corner (lo : v3 Qc) (s : Qc) (n : Z * Z * Z) : v3 Qc :=
  let '(x, y, z) := lo in let '(i, j, k) := n in ((x + qz i * s)%Qc, (y + qz j * s)%Qc, (z + qz k * s)%Qc).

(** ScanNet: class numbers 1, 2, ... of the benchmark and their raw labels; 0 is unlabelled.
    The 20 classes: *)
Definition scannet20 : list (string * Z) :=
  [("wall", 1); ("floor", 2); ("cabinet", 3); ("bed", 4); ("chair", 5); ("sofa", 6); ("table", 7); ("door", 8); ("window", 9);
   ("bookshelf", 10); ("picture", 11); ("counter", 12); ("desk", 14); ("curtain", 16); ("refrigerator", 24);
   ("shower curtain", 28); ("toilet", 33); ("sink", 34); ("bathtub", 36); ("other furniture", 39)]%string.
(** and the 200 classes, as ranges of raw labels: *)
Definition scannet200 : list (Z * Z) :=
  [(1, 11); (13, 19); (21, 24); (26, 29); (31, 36); (38, 42); (44, 52); (54, 59); (62, 80); (82, 82);
   (84, 84); (86, 90); (93, 93); (95, 107); (110, 110); (112, 112); (115, 116); (118, 118); (120, 122);
   (125, 125); (128, 128); (130, 132); (134, 134); (136, 136); (138, 141); (145, 145); (148, 148);
   (154, 157); (159, 159); (161, 161); (163, 163); (165, 166); (168, 170); (177, 177); (180, 180);
   (185, 185); (188, 188); (191, 191); (193, 193); (195, 195); (202, 202); (208, 208); (213, 214);
   (221, 221); (229, 230); (232, 233); (242, 242); (250, 250); (261, 261); (264, 264); (276, 276);
   (283, 283); (286, 286); (300, 300); (304, 304); (312, 312); (323, 323); (325, 325); (331, 331);
   (342, 342); (356, 356); (370, 370); (392, 392); (395, 395); (399, 399); (408, 408); (417, 417);
   (488, 488); (540, 540); (562, 562); (570, 570); (572, 572); (581, 581); (609, 609); (748, 748);
   (776, 776); (1156, 1156); (1163, 1176); (1178, 1191)].
Definition scannet_classes (two_hundred : bool) : list Z :=
  0 :: if two_hundred then flat_map (fun ab => map (fun i => fst ab + Z.of_nat i) (seq 0 (Z.to_nat (snd ab - fst ab + 1)))) scannet200 else map snd scannet20.

(** SemanticKITTI: the raw labels that are trained on and their classes, in the order
    road, sidewalk, parking, other ground, building, car, truck, bicycle, motorcycle,
    other vehicle, vegetation, trunk, terrain, person, bicyclist, motorcyclist, fence,
    pole, traffic sign.  252-259 are the moving variants. *)
Definition kitti_table : list (Z * Z) :=
  [(40, 1); (48, 2); (44, 3); (49, 4); (50, 5); (10, 6); (252, 6); (18, 7); (258, 7); (11, 8); (15, 9); (20, 10); (259, 10);
   (70, 11); (71, 12); (72, 13); (30, 14); (254, 14); (31, 15); (253, 15); (32, 16); (255, 16); (51, 17); (80, 18); (81, 19)].
Definition kitti_class (l : Z) : Z := match find (fun iv => fst iv =? l) kitti_table with Some iv => snd iv | None => 0 end.

(** Centre of a cell of depth [d] in the cube [-1, 1]^3; one edge of a cell is 2 / 2^d. *)
Definition cell_centre (d : nat) (c : Z * Z * Z * Z) : v3 Qc :=
  let '(x, y, z, _) := c in
  let at1 a := ((qz a + Q2Qc (1 # 2)) * (qz 2 / qz (2 ^ Z.of_nat d)) - 1)%Qc in (at1 x, at1 y, at1 z).
Definition dot3 (a b : v3 Qc) : Qc := let '(x, y, z) := a in let '(x', y', z') := b in (x * x' + y * y' + z * z')%Qc.
(** The point at distance [e] edges of a cell from the centre, in direction [n]. *)
Definition offset_point (d : nat) (c : Z * Z * Z * Z) (n : v3 Qc) (e : Qc) : v3 Qc :=
  let '(x, y, z) := cell_centre d c in let '(nx, ny, nz) := n in
  let s := (e * (qz 2 / qz (2 ^ Z.of_nat d)))%Qc in ((x + s * nx)%Qc, (y + s * ny)%Qc, (z + s * nz)%Qc).
(** The point and the normal made from the row [r] (direction and displacement) of a cell. *)
Definition pt_of (nrm : v3 Qc -> v3 Qc) (d : nat) (c : Z * Z * Z * Z) (r : list Qc) : v3 Qc * v3 Qc :=
  let n := nrm (nth 0 r 0%Qc, nth 1 r 0%Qc, nth 2 r 0%Qc) in (offset_point d c n (nth 3 r 0%Qc), n).
