(** Model of the transforms of the datasets in /repo/projects/datascts. *)
From Coq Require Import String Ascii List ZArith Bool QArith Qcanon.
From Verif Require Import Res Tensor Num Points Octree PointsOps NnBasic Dataset Project.
Import ListNotations.
Open Scope Z_scope.

(** dataset.py:60-66, __call__ of Transform after preprocess: [output] is what an
    overriding preprocess has returned. *)
Definition call_after (nrm : v3 Qc -> v3 Qc) (c : transform_cfg) (r : draw) (output : dict value) : res (dict value) :=
  output <- transform nrm c r output ;;
  v <- dget output "points" ;;
  p <- as_pts v ;;
  '(o, _) <- build_octree nrm (octree_new (t_cdepth c) (t_cfull c) 1 0) p ;;
  Ok (dset output "octree" (VOct o)).
Definition column (labels : list Z) : option (lab_arg Qc) := Some (Lab2 (map (fun l => [qz l]) labels)).

(** ** semantic_kitti.py *)

(** semantic_kitti.py:57-74, preprocess *)
Definition kitti_preprocess (xyz : list (v3 Qc)) (density : feat) (labels : list Z) : res (pcloud Qc) :=
  xyz <- kitti_normalize xyz ;;
  labels <- kitti_labels labels ;;
  points_new 0 xyz None (Some density) (column labels) None 1.
Definition kitti_call (nrm : v3 Qc -> v3 Qc) (c : transform_cfg) (r : draw) (xyz : list (v3 Qc)) (density : feat) (labels : list Z) : res (dict value) :=
  p <- kitti_preprocess xyz density labels ;;
  call_after nrm c r [("points"%string, VPts p)].

(** ** seg_shapenet.py *)

(** points.py:201-222, bbox and normalize, over the rationals *)
Definition qbbox (p : pcloud Qc) : res (v3 Qc * v3 Qc) :=
  match p_points p with
  | [] => Err IndexError
  | v :: vs => Ok (fold_left (v3zip qmin) vs v, fold_left (v3zip qmax) vs v)
  end.
Definition qnormalize (bbmin bbmax : v3 Qc) (scale : Qc) (p : pcloud Qc) : pcloud Qc :=
  let center := v3map (fun c => (c * Q2Qc (1 # 2))%Qc) (v3zip Qcplus bbmin bbmax) in
  let '(sx, sy, sz) := v3zip Qcminus bbmax bbmin in
  let box_size := (qmax (qmax sx sy) sz + Q2Qc (1 # 1000000))%Qc in
  set_points p (fun v => v3map (fun c => (c * (qz 2 * scale / box_size))%Qc) (v3zip Qcminus v center)).
(** seg_shapenet.py:18-29, preprocess *)
Definition segshape_preprocess (xyz normals : list (v3 Qc)) (labels : list Z) : res (pcloud Qc) :=
  points <- points_new 0 xyz (Some normals) None (column labels) None 1 ;;
  '(bbmin, bbmax) <- qbbox points ;;
  Ok (qnormalize bbmin bbmax (Q2Qc (8 # 10)) points).
Definition segshape_call (nrm : v3 Qc -> v3 Qc) (c : transform_cfg) (r : draw) (xyz normals : list (v3 Qc)) (labels : list Z) : res (dict value) :=
  p <- segshape_preprocess xyz normals labels ;;
  call_after nrm c r [("points"%string, VPts p)].

(** ** ae_shapenet.py *)

(** ae_shapenet.py:23-29, preprocess; a division by a zero scale is not followed *)
Definition aeshape_call (nrm : v3 Qc -> v3 Qc) (c : transform_cfg) (r : draw) (scale : Qc) (xyz normals : list (v3 Qc)) : res (dict value) :=
  p <- points_new 0 (map (v3map (fun a => (a / scale)%Qc)) xyz) (Some normals) None None None 1 ;;
  call_after nrm c r [("points"%string, VPts p)].

(** ** completion.py *)

(** completion.py:26-57, Transform.__call__.  [noise] are the 3000 rows of
    np.random.randn, [idx] the 3000 rows drawn by np.random.choice. *)
Definition completion_call (nrm : v3 Qc -> v3 Qc) (dep full : nat) (points normals noise : list (v3 Qc)) (idx : list Z)
  : res (octree * pcloud Qc * octree * pcloud Qc) :=
  bbmin <- rows_fold qmin points ;;
  bbmax <- rows_fold qmax points ;;
  let center := v3zip (fun a b => (a + b) / qz 2)%Qc bbmin bbmax in
  let '(sx, sy, sz) := v3zip Qcminus bbmax bbmin in
  let radius := (qz 2 / (qmax (qmax sx sy) sz + Q2Qc (1 # 1000000)))%Qc in
  let points := map (fun v => v3map (fun a => (a * radius * Q2Qc (95 # 100))%Qc) (v3zip Qcminus v center)) points in
  let noise := map (v3map (fun a => (Q2Qc (1 # 100) * Q2Qc (95 # 100) * a)%Qc)) noise in
  chosen <- gather points idx ;;
  let points_noise := zip_with (v3zip Qcplus) chosen noise in
  points_gt <- points_new 0 points (Some normals) None None None 1 ;;
  '(_, points_gt) <- clip qltb Qcplus Qcminus (qz (-1)) (qz 1) (Q2Qc (1 # 100)) points_gt ;;
  '(octree_gt, _) <- build_octree nrm (octree_new dep full 1 0) points_gt ;;
  points_in <- points_new 0 points_noise None None None None 1 ;;
  '(_, points_in) <- clip qltb Qcplus Qcminus (qz (-1)) (qz 1) (Q2Qc (1 # 100)) points_in ;;
  '(octree_in, _) <- build_octree nrm (octree_new dep full 1 0) points_in ;;
  Ok (octree_in, points_in, octree_gt, points_gt).

(** ** scannet.py *)

(** A colour value; None is not a number. *)
Notation cnum := (option Qc).
(** np.clip(a, 0, 255) *)
Definition clip255 (a : Qc) : Qc := if qltb a 0 then 0%Qc else if qltb (qz 255) a then qz 255 else a.
(** The random numbers of color_distort. *)
Record cdraw : Type := mkCdraw { c_blend : Qc; c_do_tr : Qc; c_tr : v3 Qc; c_do_jit : Qc; c_noise : nat -> v3 Qc }.
(** scannet.py:24-36, _color_autocontrast.  scale = 255 / (hi - lo) is infinite on a
    channel with one value only, and zero times infinity is not a number. *)
Definition autocontrast (blend : Qc) (color : list (v3 Qc)) : res (list (v3 cnum)) :=
  lo <- rows_fold qmin color ;;
  hi <- rows_fold qmax color ;;
  let '(hx, hy, hz) := hi in
  _ <- assert_ (qltb 1 (qmax (qmax hx hy) hz)) ;;
  let one (c l h : Qc) : cnum :=
    if Qc_eq_dec (h - l)%Qc 0%Qc then None
    else Some ((1 - blend) * c + blend * ((c - l) * (qz 255 / (h - l))))%Qc in
  Ok (map (fun v => let '(x, y, z) := v in let '(lx, ly, lz) := lo in (one x lx hx, one y ly hy, one z lz hz)) color).
(** scannet.py:38-43, _color_translation *)
Definition color_translation (do : Qc) (tr : v3 Qc) (ratio : Qc) (color : list (v3 cnum)) : list (v3 cnum) :=
  if qltb do (Q2Qc (95 # 100))
  then let tr := v3map (fun t => ((t - Q2Qc (1 # 2)) * qz 255 * qz 2 * ratio)%Qc) tr in
       map (fun v => v3zip (fun t c => option_map (fun c => clip255 (t + c)%Qc) c) tr v) color
  else color.
(** scannet.py:45-50, _color_jiter *)
Definition color_jitter (do : Qc) (noise : nat -> v3 Qc) (std : Qc) (color : list (v3 cnum)) : list (v3 cnum) :=
  if qltb do (Q2Qc (95 # 100))
  then map (fun iv => v3zip (fun n c => option_map (fun c => clip255 (n * (std * qz 255) + c)%Qc) c) (noise (fst iv)) (snd iv)) (combine (seq 0 (List.length color)) color)
  else color.
(** scannet.py:22-57, color_distort *)
Definition color_distort (g : cdraw) (ratio std : Qc) (color : list (v3 Qc)) : res (list (v3 cnum)) :=
  let color := map (v3map (fun c => (c * qz 255)%Qc)) color in
  color <- autocontrast (c_blend g) color ;;
  let color := color_translation (c_do_tr g) (c_tr g) ratio color in
  let color := color_jitter (c_do_jit g) (c_noise g) std color in
  Ok (map (v3map (option_map (fun c => (c / qz 255)%Qc))) color).

(** scannet.py:62-75: the noise of a grid of [dim] nodes, zero outside, is blurred along
    the three axes, twice.  A grid is a function of the node. *)
Definition grid : Type := v3 Z -> v3 Qc.
Definition in_dim (dim i : v3 Z) : bool :=
  let '(a, b, c) := dim in let '(x, y, z) := i in
  (0 <=? x) && (x <? a) && (0 <=? y) && (y <? b) && (0 <=? z) && (z <? c).
Definition v3zero : v3 Qc := (0, 0, 0)%Qc.
Definition v3add (a b : v3 Qc) : v3 Qc := v3zip Qcplus a b.
Definition v3times (k : Qc) (a : v3 Qc) : v3 Qc := v3map (fun c => (k * c)%Qc) a.
Definition shift (axis : nat) (k : Z) (i : v3 Z) : v3 Z :=
  let '(x, y, z) := i in match axis with O => (x + k, y, z) | S O => (x, y + k, z) | _ => (x, y, z + k) end.
Definition blur (dim : v3 Z) (axis : nat) (n : grid) : grid := fun i =>
  if in_dim dim i then v3times (Q2Qc (1 # 3)) (v3add (v3add (n (shift axis (-1) i)) (n i)) (n (shift axis 1 i))) else v3zero.
Definition smooth (dim : v3 Z) (n : grid) : grid :=
  let n : grid := fun i => if in_dim dim i then n i else v3zero in
  let once n := blur dim 2 (blur dim 1 (blur dim 0 n)) in once (once n).
(** scipy's RegularGridInterpolator on one axis: the cell below a coordinate [u] in units
    of the grid, searchsorted(...) - 1 kept between 0 and size - 2. *)
Definition cell_below (size : Z) (u : Qc) : Z := Z.min (Z.max (qceil u - 1) 0) (size - 2).
(** scannet.py:78-85: interp(coords); out of the grid the value is zero *)
Definition interp3 (dim : v3 Z) (n : grid) (u : v3 Qc) : v3 Qc :=
  let '(a, b, c) := dim in let '(x, y, z) := u in
  let outside (s : Z) (t : Qc) := qltb t 0 || qltb (qz (s - 1)) t in
  if outside a x || outside b y || outside c z then v3zero else
  let i := cell_below a x in let j := cell_below b y in let k := cell_below c z in
  let fx := (x - qz i)%Qc in let fy := (y - qz j)%Qc in let fz := (z - qz k)%Qc in
  fold_left (fun acc e => let '(di, dj, dk) := e in
      let w (d : Z) (f : Qc) := if d =? 0 then (1 - f)%Qc else f in
      v3add acc (v3times (w di fx * w dj fy * w dk fz)%Qc (n (i + di, j + dj, k + dk))))
    [(0, 0, 0); (0, 0, 1); (0, 1, 0); (0, 1, 1); (1, 0, 0); (1, 0, 1); (1, 1, 0); (1, 1, 1)] v3zero.
(** scannet.py:62-87, _elastic_distort with the noise drawn for this round *)
Definition elastic_round (noise : grid) (granularity magnitude : Qc) (coords : list (v3 Qc)) : res (list (v3 Qc)) :=
  mn <- rows_fold qmin coords ;;
  ext <- rows_fold qmax (map (fun v => v3zip Qcminus v mn) coords) ;;
  let dim := v3map (fun e => qfloor (e / granularity)%Qc + 3) ext in
  let n := smooth dim noise in
  (* np.linspace(mn - granularity, mn + granularity * (dim - 2), dim) *)
  let unit (c m : Qc) (d : Z) := let lo := (m - granularity)%Qc in let hi := (m + granularity * qz (d - 2))%Qc in ((c - lo) / ((hi - lo) / qz (d - 1)))%Qc in
  Ok (map (fun v => let '(x, y, z) := v in let '(mx, my, mz) := mn in let '(dx, dy, dz) := dim in
      v3add v (v3map (fun t => (t * magnitude)%Qc) (interp3 dim n (unit x mx dx, unit y my dy, unit z mz dz)))) coords).
(** scannet.py:89-93 *)
Definition elastic_distort (do : Qc) (noise : nat -> grid) (params : list (Qc * Qc)) (points : list (v3 Qc)) : res (list (v3 Qc)) :=
  if qltb do (Q2Qc (95 # 100))
  then foldM (fun pts kp => elastic_round (noise (fst kp)) (fst (snd kp)) (snd (snd kp)) pts) points (combine (seq 0 (List.length params)) params)
  else Ok points.

(** scannet.py:98-135, ScanNetTransform.__call__.  With a colour channel of one value only
    the features are not numbers and are not followed (None). *)
Definition scannet_normalize (xyz : list (v3 Qc)) : res (list (v3 Qc)) :=
  mn <- rows_fold qmin xyz ;;
  mx <- rows_fold qmax xyz ;;
  let '(cx, cy, _) := v3zip (fun a b => (a + b) / qz 2)%Qc mn mx in
  Ok (map (fun v => v3map (fun a => (a / Q2Qc (1024 # 100))%Qc) (v3zip Qcminus v (cx, cy, Q2Qc (1 # 2)))) xyz).
Definition all_numbers (rows : list (v3 cnum)) : option feat :=
  fold_right (fun r acc => match r, acc with ((Some a, Some b), Some c), Some t => Some ([a; b; c] :: t) | _, _ => None end) (Some []) rows.
Definition scannet_call (nrm : v3 Qc -> v3 Qc) (c : transform_cfg) (r : draw) (g : cdraw) (edo : Qc) (enoise : nat -> grid)
    (xyz normals colors : list (v3 Qc)) (labels : list Z) : res (option (dict value)) :=
  xyz <- scannet_normalize xyz ;;
  let color := map (v3map (fun a => (a / qz 255)%Qc)) colors in
  color <- (if t_distort c then color_distort g (Q2Qc (1 # 10)) (Q2Qc (5 # 100)) color else Ok (map (v3map Some) color)) ;;
  xyz <- (if t_distort c then elastic_distort edo enoise [(Q2Qc (1 # 10), Q2Qc (2 # 10)); (Q2Qc (4 # 10), Q2Qc (8 # 10))] xyz else Ok xyz) ;;
  match all_numbers color with
  | None => Ok None
  | Some f =>
      points <- points_new 0 xyz (Some normals) (Some f) (column labels) None 1 ;;
      out <- transform nrm c r [("points"%string, VPts points)] ;;
      Ok (Some out)
  end.
