(** Model of more of projects/tools/seg_scannet.py: the scores of calc_iou, the labels of
    generate_point_labels200, the normals of a mesh and its alignment to the axes. *)
From Coq Require Import String List ZArith Bool QArith Qcanon Reals.
From Verif Require Import Res Tensor Num Octree NnBasic Project PointsOps.
Import ListNotations.
Open Scope Z_scope.

(** ** calc_iou *)
(** seg_scannet.py:314-316: np.isin *)
Definition isin (cls : list Z) (l : Z) : bool := existsb (Z.eqb l) cls.
(** The state of the loop over the files: intsc, union (one entry per class), accu, where
    [None] is nan, the mean of no element. *)
Definition iou_state : Type := list Qc * list Qc * option Qc.
(** seg_scannet.py:309-325: the body for one file of predictions and labels, which hold at
    least two points (np.loadtxt of a single one gives an array without rows) *)
Definition iou_file (cls : list Z) (st : iou_state) (f : list Z * list Z) : res iou_state :=
  let '(intsc, union, accu) := st in
  let mask := map (isin cls) (snd f) in
  pred <- mask_get (fst f) mask ;;
  gt <- mask_get (snd f) mask ;;
  let ac := match gt with [] => None | _ => Some (qcount (zip_with Z.eqb gt pred) / qz (zlen gt))%Qc end in
  let accu := match accu, ac with Some a, Some b => Some (a + b)%Qc | _, _ => None end in
  let count op k := qcount (zip_with op (map (Z.eqb k) pred) (map (Z.eqb k) gt)) in
  Ok (zip_with (fun k x => (x + count andb k)%Qc) cls intsc, zip_with (fun k x => (x + count orb k)%Qc) cls union, accu).
(** seg_scannet.py:299-333, calc_iou: the accuracy and the IoU it prints; [cls] stands for
    class_ids[1:].  With no file accu / 0 raises. *)
Definition calc_iou (cls : list Z) (fs : list (list Z * list Z)) : res (option Qc * Qc) :=
  st <- foldM (iou_file cls) (repeat 0%Qc (List.length cls), repeat 0%Qc (List.length cls), Some 0%Qc) fs ;;
  let '(intsc, union, accu) := st in
  let iou := (fold_left (fun acc iu => acc + fst iu / (snd iu + esp10)) (combine intsc union) 0 / qz (zlen cls))%Qc in
  if Nat.eqb (List.length fs) 0 then Err ZeroDivisionError
  else Ok (option_map (fun a => a / qz (zlen fs))%Qc accu, iou).

(** ** generate_point_labels200 *)
Record seg_group := mkGroup { g_label : string; g_segments : list Z }.
(** seg_scannet.py:170-172: the id of the first row of the table with that category, if it
    is one of the 200 classes *)
Definition group_label (table : list (string * Z)) (name : string) : Z :=
  match find (fun r => String.eqb (fst r) name) table with
  | Some r => if isin class_ids200 (snd r) then snd r else 0
  | None => 0
  end.
(** seg_scannet.py:168-175: label[point_idx] = label_group for every group in turn *)
Definition point_labels200 (table : list (string * Z)) (seg_indices : list Z) (groups : list seg_group) : list Z :=
  fold_left (fun label g => zip_with (fun s l => if isin (g_segments g) s then group_label table (g_label g) else l) seg_indices label)
    groups (repeat 0 (List.length seg_indices)).

(** ** The normals of a mesh; real numbers, faces as triples of vertex numbers *)
Open Scope R_scope.
Definition vminus (u v : v3 R) : v3 R := v3zip Rminus u v.
(** np.cross *)
Definition cross (u v : v3 R) : v3 R :=
  let '(a, b, c) := u in let '(d, e, f) := v in (b * f - c * e, c * d - a * f, a * e - b * d).
(** seg_scannet.py:90, 104: np.sqrt(np.sum(vec**2, ...)) + 1.0e-8 *)
Definition length_of (u : v3 R) : R := let '(a, b, c) := u in sqrt (a * a + b * b + c * c) + / 100000000.
Definition vmulc (c : R) (u : v3 R) : v3 R := v3map (fun x => x * c) u.
Definition vdiv (u : v3 R) (c : R) : v3 R := v3map (fun x => x / c) u.
(** vertex[face[:, i]] *)
Definition vertex_at (vertex : list (v3 R)) (i : nat) : res (v3 R) :=
  match nth_error vertex i with Some v => Ok v | None => Err IndexError end.
(** seg_scannet.py:86-93, face_normal for one face *)
Definition face_normal (vertex : list (v3 R)) (f : nat * nat * nat) : res (v3 R * R) :=
  let '(i, j, k) := f in
  v1 <- vertex_at vertex j ;; v0 <- vertex_at vertex i ;; v2 <- vertex_at vertex k ;;
  let vec := cross (vminus v1 v0) (vminus v2 v0) in
  let length := length_of vec in
  Ok (vdiv vec length, length * (1 / 2)).
(** seg_scannet.py:100-102: nv[face[i]] += nf[i]; a vertex that a face names twice gets the
    normal once *)
Definition in_face (v : nat) (f : nat * nat * nat) : bool :=
  let '(i, j, k) := f in Nat.eqb v i || Nat.eqb v j || Nat.eqb v k.
Definition add_face (nv : list (v3 R)) (fn : (nat * nat * nat) * v3 R) : list (v3 R) :=
  map (fun vn => if in_face (fst vn) (fst fn) then v3zip Rplus (snd vn) (snd fn) else snd vn) (combine (seq 0 (List.length nv)) nv).
(** seg_scannet.py:96-106, vertex_normal *)
Definition vertex_normal (vertex : list (v3 R)) (face : list (nat * nat * nat)) : res (list (v3 R)) :=
  nfa <- mapM (face_normal vertex) face ;;
  let nf := map (fun na => vmulc (snd na) (fst na)) nfa in
  let nv := fold_left add_face (combine face nf) (repeat (0, 0, 0) (List.length vertex)) in
  Ok (map (fun u => vdiv u (length_of u)) nv).
(** seg_scannet.py:146: np.matmul(vertex, rot[:3, :3].T) + rot[:3, 3]; the matrix [rot] by
    rows and the shift [t] *)
Definition turn_by (rot : v3 (v3 R)) (v : v3 R) : v3 R :=
  v3map (fun row => let '(a, b, c) := row in let '(x, y, z) := v in x * a + y * b + z * c) rot.
Definition align_to_axis (rot : v3 (v3 R)) (t : v3 R) (vertex : list (v3 R)) : list (v3 R) :=
  map (fun v => v3zip Rplus (turn_by rot v) t) vertex.
