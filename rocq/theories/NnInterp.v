(** Model of ocnn/nn/octree_interp.py and ocnn/nn/octree_align.py. *)
From Coq Require Import String List ZArith Bool QArith Qcanon.
From Verif Require Import Res Tensor Key Num Points Octree NnBasic.
Import ListNotations.
Open Scope Z_scope.

(** A row (x, y, z, batch) of a query tensor.  The batch column is a float tensor
    in the code; it holds integers, which [.long()] leaves as they are. *)
Definition qpoint : Type := (v3 Qc * Z)%type.

(** octree.py:355-369, search_xyzb for a float query: xyz2key (shuffled_key.py:60-90)
    applies [.long()] to every column. *)
Definition search_pts (o : octree) (pts : list qpoint) (d : nat) (nempty : bool) : res (list Z) :=
  search_xyzb o (map (fun '((x, y, z), b) => (qtrunc x, qtrunc y, qtrunc z, b)) pts) d nempty.

(** octree_interp.py:33-34, 57-58, 149-150: data.shape[0] == nnum *)
Definition check_rows {A} (data : list A) (o : octree) (d : nat) (nempty : bool) : res unit :=
  l <- get_layer o (Z.of_nat d) ;;
  assert_ (zlen data =? (if nempty then nnum_nempty l else nnum l)).

(** octree_interp.py:39 and 75: torch.logical_and(p >= 0, p < 2**depth).all(1) *)
Definition in_bound (d : nat) (p : v3 Qc) : bool :=
  let '(x, y, z) := p in
  let ok c := qleb 0 c && qltb c (qz (2 ^ Z.of_nat d)) in
  ok x && ok y && ok z.

(** octree_interp.py:36-40 / 70-76 *)
Definition valid_mask (idx : list Z) (bound_check : bool) (bound : list bool) : list bool :=
  let valid := map (fun i => -1 <? i) idx in
  if bound_check then zip_with andb valid bound else valid.

(** octree_interp.py:16-45.  [C] is data.shape[1]. *)
Definition octree_nearest_pts (C : nat) (data : feat) (o : octree) (d : nat) (pts : list qpoint)
    (nempty bound_check : bool) : res feat :=
  _ <- check_rows data o d nempty ;;
  idx <- search_pts o pts d nempty ;;
  let valid := valid_mask idx bound_check (map (fun p => in_bound d (fst p)) pts) in
  let out := repeat (vzero C) (List.length pts) in
  idx <- mask_get idx valid ;;
  rows <- gather data idx ;;
  mask_put out valid rows.

(** octree_interp.py:61-63 *)
Definition corner_grid : list (Z * Z * Z) := range_grid 0 1.
(** octree_interp.py:66-68: integer and fractional part of the position relative to
    the cell centres *)
Definition half : Qc := Q2Qc (1 # 2).
Definition base_of (p : v3 Qc) : v3 Z := v3map (fun c => qfloor (c - half)%Qc) p.
Definition frac_of (p : v3 Qc) : v3 Qc := v3map (fun c => (c - half) - qz (qfloor (c - half)))%Qc p.
(** octree_interp.py:89-90: the product of (1 - grid) - frac, absolute value *)
Definition qabs (q : Qc) : Qc := if qleb 0 q then q else (- q)%Qc.
Definition corner_weight (p : v3 Qc) (g : Z * Z * Z) : Qc :=
  let '(fx, fy, fz) := frac_of p in
  let '(gx, gy, gz) := g in
  let f g fr := ((1 - qz g) - fr)%Qc in
  qabs (f gx fx * f gy fy * f gz fz)%Qc.

(** torch.sparse.mm of a COO matrix (entries with the same position add up) with a
    dense (h, C) matrix *)
Definition sparse_mm (n C : nat) (mat : list (Z * Z * Qc)) (data : feat) : res feat :=
  mapM (fun i => foldM (fun acc e =>
    let '(r, j, w) := e in
    if r =? i then row <- tget data j ;; Ok (vadd acc (vscale w row)) else Ok acc) (vzero C) mat)
  (arange n).

(** octree_interp.py:98, the guard 1e-12 *)
Definition eps12 : Qc := (/ qz 1000000000000)%Qc.

(** octree_interp.py:48-99 *)
Definition octree_linear_pts (C : nat) (data : feat) (o : octree) (d : nat) (pts : list qpoint)
    (nempty bound_check : bool) : res feat :=
  _ <- check_rows data o d nempty ;;
  let xyzn : list qpoint := flat_map (fun '(p, b) =>
    let '(x, y, z) := base_of p in
    map (fun '(gx, gy, gz) => ((qz (x + gx), qz (y + gy), qz (z + gz)), b)) corner_grid) pts in
  idx <- search_pts o xyzn d nempty ;;
  let valid := valid_mask idx bound_check (map (fun p => in_bound d (fst p)) xyzn) in
  idx <- mask_get idx valid ;;
  ids <- mask_get (flat_map (fun i => repeat i 8) (arange (List.length pts))) valid ;;
  weight <- mask_get (flat_map (fun '(p, _) => map (corner_weight p) corner_grid) pts) valid ;;
  let mat := combine (combine ids idx) weight in
  output <- sparse_mm (List.length pts) C mat data ;;
  norm <- sparse_mm (List.length pts) 1 mat (map (fun _ => [1%Qc]) data) ;;
  Ok (zip_with (fun r n => map (fun v => v / (nth 0 n 0 + eps12))%Qc r) output norm).

(** octree_interp.py:102-126, OctreeInterp.forward.  The result is the output and
    the query tensor after the call: line 123 assigns into the caller's tensor. *)
Definition interp_forward (linear nempty bound_check rescale_pts : bool)
    (C : nat) (data : feat) (o : octree) (d : nat) (pts : list qpoint) : res (feat * list qpoint) :=
  let pts := if rescale_pts
             then map (fun '(p, b) => (v3map (fun c => (c + 1) * q2pow (Z.of_nat d - 1))%Qc p, b)) pts
             else pts in
  out <- (if linear then octree_linear_pts C data o d pts nempty bound_check
          else octree_nearest_pts C data o d pts nempty bound_check) ;;
  Ok (out, pts).

(** octree_interp.py:136-158 *)
Definition octree_nearest_upsample (data : feat) (o : octree) (d : nat) (nempty : bool) : res feat :=
  _ <- check_rows data o d nempty ;;
  out <- (if nempty then Ok data else octree_depad data o (Z.of_nat d)) ;;
  let out := flat_map (fun r => repeat r 8) out in
  if nempty then octree_depad out o (Z.of_nat d + 1) else Ok out.

(** octree_interp.py:173-190, OctreeUpsample.forward *)
Definition octree_upsample (method : string) (nempty : bool) (C : nat) (data : feat) (o : octree) (d : nat)
    (target : option nat) : res feat :=
  let t := match target with None => S d | Some t => t end in
  if Nat.eqb t d then Ok data
  else
    _ <- assert_ (Nat.leb d t) ;;
    if Nat.eqb t (S d) && String.eqb method "nearest" then octree_nearest_upsample data o d nempty
    else
      xyzb <- octree_xyzb o t nempty ;;
      let pts := map (fun '(x, y, z, b) =>
        (v3map (fun c => (c + half) * q2pow (Z.of_nat d - Z.of_nat t))%Qc (qz x, qz y, qz z), b)) xyzb in
      if String.eqb method "linear" then octree_linear_pts C data o d pts nempty false
      else octree_nearest_pts C data o d pts nempty false.

(** octree_align.py:13-36 *)
Definition search_value (C : nat) (value : feat) (key query : list Z) : res feat :=
  last <- tget key (-1) ;;
  let out_of_bound := map (fun q => last <? q) query in
  let idx := map (bucketize key) query in
  let idx := mask_fill idx out_of_bound (-1) in
  k <- gather key idx ;;
  let found := zip_with Z.eqb k query in
  idx <- mask_get idx found ;;
  rows <- gather value idx ;;
  mask_put (repeat (vzero C) (List.length query)) found rows.

(** octree_align.py:39-46 *)
Definition octree_align (C : nat) (value : feat) (o oq : octree) (d : nat) (nempty : bool) : res feat :=
  key <- octree_key o (Z.of_nat d) nempty ;;
  query <- octree_key oq (Z.of_nat d) nempty ;;
  _ <- assert_ (Nat.eqb (List.length key) (List.length value)) ;;
  search_value C value key query.

(** A caller that applies OctreeInterp modules with a common [rescale_pts] one after
    the other to one query tensor [pts] (octree_interp.py:115-126); an exception ends
    the sequence. *)
Definition icall : Type := (bool * bool * bool * nat * feat * octree * nat)%type.
Definition icall_run (rescale : bool) (c : icall) (pts : list qpoint) : res (feat * list qpoint) :=
  let '(linear, nempty, bc, C, data, o, d) := c in interp_forward linear nempty bc rescale C data o d pts.
Fixpoint interp_calls (rescale : bool) (calls : list icall) (pts : list qpoint) : list (res feat) :=
  match calls with
  | [] => []
  | c :: calls =>
      match icall_run rescale c pts with
      | Ok (out, pts') => Ok out :: interp_calls rescale calls pts'
      | Err e => [Err e]
      end
  end.
