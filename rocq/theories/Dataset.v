(** Model of /repo/ocnn/dataset.py: Transform and CollateBatch. *)
From Coq Require Import String Ascii List ZArith Bool QArith Qcanon.
From Verif Require Import Res Tensor Key Num Points Octree PointsOps.
Import ListNotations.
Open Scope Z_scope.

(** ** Python dictionaries, in insertion order *)
Definition dict (A : Type) := list (string * A).
Fixpoint dlookup {A} (d : dict A) (k : string) : option A :=
  match d with [] => None | (k', v) :: t => if String.eqb k k' then Some v else dlookup t k end.
Definition dget {A} (d : dict A) (k : string) : res A :=
  match dlookup d k with Some v => Ok v | None => Err KeyError end.
(** d[k] = v: keeps the place of an existing key *)
Fixpoint dset {A} (d : dict A) (k : string) (v : A) : dict A :=
  match d with
  | [] => [(k, v)]
  | (k', v') :: t => if String.eqb k k' then (k', v) :: t else (k', v') :: dset t k v
  end.
(** d.pop(k) *)
Fixpoint dpop {A} (d : dict A) (k : string) : res (A * dict A) :=
  match d with
  | [] => Err KeyError
  | (k', v) :: t => if String.eqb k k' then Ok (v, t) else '(a, t') <- dpop t k ;; Ok (a, (k', v) :: t')
  end.
(** [sub in s] for strings *)
Fixpoint contains (sub s : string) : bool :=
  String.prefix sub s || match s with EmptyString => false | String _ t => contains sub t end.

(** The values a sample may hold: an octree, a point cloud, a boolean mask, an (N,3)
    array, a number, or any other object (a file name, ...). *)
Inductive value : Type :=
  | VOct (o : octree) | VPts (p : pcloud Qc) | VMask (m : list bool) | VArr (a : list (v3 Qc)) | VNum (z : Z) | VObj (id : nat).
(** The values of a collated batch: the list of the samples' values, one merged value,
    or a tensor of labels. *)
Inductive out_value : Type := OList (vs : list value) | OOne (v : value) | OTensor (zs : list Z).

Definition as_oct (v : value) : res octree := match v with VOct o => Ok o | _ => Err AttributeError end.
Definition as_pts (v : value) : res (pcloud Qc) := match v with VPts p => Ok p | _ => Err AttributeError end.
(** torch.tensor of a list of numbers.  Simplified: anything else raises ValueError
    (torch raises ValueError, TypeError or RuntimeError depending on the object). *)
Definition as_num (v : value) : res Z := match v with VNum z => Ok z | _ => Err ValueError end.

(** dataset.py:143-159, the body of the loop *)
Definition collate_key (mp : bool) (batch : list (dict value)) (outputs : dict out_value) (key : string) : res (dict out_value) :=
  vs <- mapM (fun b => dget b key) batch ;;
  let outputs := dset outputs key (OList vs) in
  outputs <- (if contains "octree" key then
                os <- mapM as_oct vs ;;
                o <- merge_octrees os ;;
                o <- construct_all_neigh o ;;
                Ok (dset outputs key (OOne (VOct o)))
              else Ok outputs) ;;
  outputs <- (if contains "points" key && mp then
                v <- dget outputs key ;;
                match v with
                | OList vs => ps <- mapM as_pts vs ;; p <- merge_points ps true ;; Ok (dset outputs key (OOne (VPts p)))
                | _ => Err TypeError   (* an octree is not iterable *)
                end
              else Ok outputs) ;;
  if contains "label" key then
    v <- dget outputs key ;;
    match v with
    | OList vs => zs <- mapM as_num vs ;; Ok (dset outputs "label" (OTensor zs))
    | OTensor zs => Ok (dset outputs "label" (OTensor zs))
    | OOne _ => Err RuntimeError
    end
  else Ok outputs.

(** dataset.py:138-160, CollateBatch.__call__; batch[0] of an empty list raises *)
Definition collate (mp : bool) (batch : list (dict value)) : res (dict out_value) :=
  match batch with
  | [] => Err IndexError
  | b0 :: _ => foldM (collate_key mp batch) [] (map fst b0)
  end.

(** ** Transform *)
(** The random parameters of one call, dataset.py:105-129: a string of axes, the rotation
    matrix of the drawn angles, a jitter and a scale.  The matrix has arbitrary rational
    entries (cos and sin are not rational; what is proved holds for every matrix). *)
Record draw : Type := mkDraw { d_flip : string; d_rot : v3 (v3 Qc); d_jitter : v3 Qc; d_scale : v3 Qc }.
Definition on_rows (f g : v3 Qc -> v3 Qc) (p : pcloud Qc) : pcloud Qc := set_pnormals (set_points p f) g.

(** points.py:144-156, flip *)
Definition qneg_at (idx : nat) (v : v3 Qc) : v3 Qc :=
  let '(x, y, z) := v in
  match idx with O => (x * qz (-1), y, z)%Qc | S O => (x, y * qz (-1), z)%Qc | _ => (x, y, z * qz (-1))%Qc end.
Definition qflip (axis : string) (p : pcloud Qc) : res (pcloud Qc) :=
  foldM (fun p c => idx <- axis_of c ;; Ok (on_rows (qneg_at idx) (qneg_at idx) p)) p (list_ascii_of_string axis).
(** points.py:115-132, rotate *)
Definition qvecmat (v : v3 Qc) (m : v3 (v3 Qc)) : v3 Qc :=
  let '(x, y, z) := v in
  let '((a, b, c), (d, e, f), (g, h, i)) := m in
  (x * a + y * d + z * g, x * b + y * e + z * h, x * c + y * f + z * i)%Qc.
Definition qrotate (m : v3 (v3 Qc)) (p : pcloud Qc) : pcloud Qc := on_rows (fun v => qvecmat v m) (fun v => qvecmat v m) p.
(** points.py:134-142, translate *)
Definition qtranslate (dis : v3 Qc) (p : pcloud Qc) : pcloud Qc := set_points p (fun v => v3zip Qcplus v dis).
(** points.py:94-113, scale.  [nrm] is the normalisation of a vector (a square root). *)
Definition qscale (nrm : v3 Qc -> v3 Qc) (factor : v3 Qc) (p : pcloud Qc) : res (pcloud Qc) :=
  let '(fx, fy, fz) := factor in
  let isz (a b : Qc) := if Qc_eq_dec a b then true else false in
  let non_zero := negb (isz fx 0%Qc) && negb (isz fy 0%Qc) && negb (isz fz 0%Qc) in
  let all_ones := isz fx 1%Qc && isz fy 1%Qc && isz fz 1%Qc in
  let non_uniform := negb (isz fx fx) || negb (isz fy fx) || negb (isz fz fx) in
  _ <- assert_ non_zero ;;
  if all_ones then Ok p
  else Ok (set_pnormals (set_points p (fun v => v3zip Qcmult v factor))
             (if non_uniform then (fun n => nrm (v3zip Qcmult n (v3map Qcinv factor))) else (fun n => n))).
(** points.py:74-92, orient_normal *)
Definition qorient_row (idx : nat) (n : v3 Qc) : v3 Qc :=
  let '(x, y, z) := n in
  let c := match idx with O => x | S O => y | _ => z end in
  let flag := if qltb 0%Qc c then qz 1 else qz (-1) in
  (x * flag, y * flag, z * flag)%Qc.
Definition qabs (c : Qc) : Qc := if qltb c 0%Qc then (- c)%Qc else c.
Definition qorient (axis : string) (p : pcloud Qc) : res (pcloud Qc) :=
  match p_normals p with
  | None => Ok p
  | Some _ =>
      if String.eqb axis "x" then Ok (set_pnormals p (qorient_row 0))
      else if String.eqb axis "y" then Ok (set_pnormals p (qorient_row 1))
      else if String.eqb axis "z" then Ok (set_pnormals p (qorient_row 2))
      else if String.eqb axis "xyz" then Ok (set_pnormals p (v3map qabs))
      else Err KeyError
  end.

(** dataset.py:38-58 *)
Record transform_cfg : Type := mkTransform { t_cdepth : nat; t_cfull : nat; t_distort : bool; t_orient : string }.

(** dataset.py:68-76, preprocess *)
Definition preprocess (sample : dict value) : res (dict value) :=
  '(xyz, sample) <- dpop sample "points" ;;
  xyz <- (match xyz with VArr a => Ok a | _ => Err TypeError end) ;;
  '(normals, sample) <- dpop sample "normals" ;;
  normals <- (match normals with VArr a => Ok a | _ => Err TypeError end) ;;
  p <- points_new 0 xyz (Some normals) None None None 1 ;;
  Ok (dset sample "points" (VPts p)).

(** dataset.py:78-97, transform *)
Definition transform (nrm : v3 Qc -> v3 Qc) (c : transform_cfg) (r : draw) (sample : dict value) : res (dict value) :=
  v <- dget sample "points" ;;
  points <- as_pts v ;;
  points <- (if t_distort c then
               points <- qflip (d_flip r) points ;;
               let points := qrotate (d_rot r) points in
               let points := qtranslate (d_jitter r) points in
               qscale nrm (d_scale r) points
             else Ok points) ;;
  points <- (if String.eqb (t_orient c) "" then Ok points else qorient (t_orient c) points) ;;
  '(mask, points) <- clip qltb Qcplus Qcminus (qz (-1)) (qz 1) (Q2Qc (1 # 100)) points ;;
  Ok (dset (dset sample "points" (VPts points)) "inbox_mask" (VMask mask)).

(** dataset.py:60-66 and 99-103, __call__ and points2octree *)
Definition transform_call (nrm : v3 Qc -> v3 Qc) (c : transform_cfg) (r : draw) (sample : dict value) : res (dict value) :=
  output <- preprocess sample ;;
  output <- transform nrm c r output ;;
  v <- dget output "points" ;;
  p <- as_pts v ;;
  '(o, _) <- build_octree nrm (octree_new (t_cdepth c) (t_cfull c) 1 0) p ;;
  Ok (dset output "octree" (VOct o)).
