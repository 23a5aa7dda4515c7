(** Single-precision model of the sparse matrix of linear interpolation.  Continues
    BuildFloat.v; the integer part of the code is that of NnInterp.v. *)
From Coq Require Import List ZArith Bool QArith Qcanon.
From Flocq Require Import Core.Core IEEE754.BinarySingleNaN.
From Verif Require Import Res Tensor Key Num Points Octree NnBasic NnInterp Float32 FloatMean BuildFloat.
Import ListNotations.
Open Scope Z_scope.

(** torch.floor on one number *)
Definition ffloor (x : f32) : f32 := @Bnearbyint 24 128 f32_emax mode_DN x.
(** octree_interp.py:67-69, one coordinate: the integer and the fractional part of the
    position relative to the cell centres *)
Definition base32 (c : f32) : f32 := ffloor (fsub c fhalf).
Definition frac32 (c : f32) : f32 := fsub (fsub c fhalf) (base32 c).
(** octree_interp.py:71, [xyzi.unsqueeze(1) + grid], one coordinate; grid holds 0 and 1
    as int64 *)
Definition corner32 (c : f32) (g : Z) : f32 := fadd (base32 c) (fcount g).
(** octree_interp.py:87, [(1.0 - grid) - frac], one coordinate *)
Definition side32 (c : f32) (g : Z) : f32 := fsub (fsub fone (fcount g)) (frac32 c).
(** octree_interp.py:88, [frac.prod(dim=2).abs()].  The three factors are multiplied from
    left to right; the order is that of the library. *)
Definition weight32 (p : v3 f32) (g : Z * Z * Z) : f32 :=
  let '(x, y, z) := p in
  let '(gx, gy, gz) := g in
  Babs (fmul (fmul (side32 x gx) (side32 y gy)) (side32 z gz)).

(** octree_interp.py:61-92: the entries (row, column, weight) of the matrix [mat] *)
Definition linear_matrix32 (o : octree) (d : nat) (pts : list (v3 f32 * Z)) (nempty bound_check : bool)
    : res (list (Z * Z * f32)) :=
  let xyzn : list (v3 f32 * Z) := flat_map (fun '((x, y, z), b) =>
    map (fun '(gx, gy, gz) => ((corner32 x gx, corner32 y gy, corner32 z gz), b)) corner_grid) pts in
  idx <- search_pts32 o xyzn d nempty ;;
  let valid := valid_mask idx bound_check (map (fun p => in_bound32 d (fst p)) xyzn) in
  idx <- mask_get idx valid ;;
  ids <- mask_get (flat_map (fun i => repeat i 8) (arange (List.length pts))) valid ;;
  weight <- mask_get (flat_map (fun '(p, _) => map (weight32 p) corner_grid) pts) valid ;;
  Ok (combine (combine ids idx) weight).
(** octree_interp.py:118-126 with rescale_pts=True: the matrix of a query in [-1,1] *)
Definition interp_matrix32 (nempty bound_check : bool) (o : octree) (d : nat) (pts : list (v3 f32 * Z))
    : res (list (Z * Z * f32)) :=
  linear_matrix32 o d (map (fun '(p, b) => (rescale32 d p, b)) pts) nempty bound_check.

(** The same lines of the exact model: octree_interp.py:61-92 ... *)
Definition linear_matrix (o : octree) (d : nat) (pts : list qpoint) (nempty bound_check : bool)
    : res (list (Z * Z * Qc)) :=
  let xyzn : list qpoint := flat_map (fun '(p, b) =>
    let '(x, y, z) := base_of p in
    map (fun '(gx, gy, gz) => ((qz (x + gx), qz (y + gy), qz (z + gz)), b)) corner_grid) pts in
  idx <- search_pts o xyzn d nempty ;;
  let valid := valid_mask idx bound_check (map (fun p => in_bound d (fst p)) xyzn) in
  idx <- mask_get idx valid ;;
  ids <- mask_get (flat_map (fun i => repeat i 8) (arange (List.length pts))) valid ;;
  weight <- mask_get (flat_map (fun '(p, _) => map (corner_weight p) corner_grid) pts) valid ;;
  Ok (combine (combine ids idx) weight).
(** ... and octree_interp.py:94-99 *)
Definition linear_apply (C : nat) (data : feat) (npt : nat) (mat : list (Z * Z * Qc)) : res feat :=
  output <- sparse_mm npt C mat data ;;
  norm <- sparse_mm npt 1 mat (map (fun _ => [1%Qc]) data) ;;
  Ok (zip_with (fun r n => map (fun v => v / (nth 0 n 0 + eps12))%Qc r) output norm).

(** octree_interp.py:187-190, OctreeUpsample.forward with method 'linear' from depth [d]
    to depth [t]: the matrix.  The factor 2**(depth - target_depth) is a power of two and
    exact. *)
Definition fcentre (d t : nat) (x : Z) : f32 :=
  fmul (fadd (fcount x) fhalf) (@Bldexp 24 128 f32_prec f32_emax mode_NE fone (Z.of_nat d - Z.of_nat t)).
Definition upsample_matrix32 (o : octree) (d t : nat) (nempty : bool) : res (list (Z * Z * f32)) :=
  xyzb <- octree_xyzb o t nempty ;;
  linear_matrix32 o d (map (fun '(x, y, z, b) => (v3map (fcentre d t) (x, y, z), b)) xyzb) nempty false.
(** The same lines of the exact model *)
Definition upsample_matrix (o : octree) (d t : nat) (nempty : bool) : res (list (Z * Z * Qc)) :=
  xyzb <- octree_xyzb o t nempty ;;
  linear_matrix o d (map (fun '(x, y, z, b) =>
    (v3map (fun c => (c + half) * q2pow (Z.of_nat d - Z.of_nat t))%Qc (qz x, qz y, qz z), b)) xyzb) nempty false.
(** octree_interp.py:187-190 with method 'nearest' *)
Definition upsample_nearest32 (C : nat) (data : feat) (o : octree) (d t : nat) (nempty : bool) : res feat :=
  xyzb <- octree_xyzb o t nempty ;;
  octree_nearest_pts32 C data o d (map (fun '(x, y, z, b) => (v3map (fcentre d t) (x, y, z), b)) xyzb) nempty false.
