(** Model of /repo/ocnn/nn: octree_pad.py, octree2col.py, octree_pool.py,
    octree2vox.py, octree_drop.py.  A feature tensor of shape (N, C) is a list of
    N rows of length C; [C] (the Python [data.shape[1]]) is passed explicitly
    because a list of zero rows does not determine it. *)
From Coq Require Import String List ZArith Bool QArith Qcanon.
From Verif Require Import Res Tensor Key Num Points Octree.
Import ListNotations.
Open Scope Z_scope.

Notation feat := (list (list Qc)) (only parsing).

(** torch.full((n, C), val): a negative size raises. *)
Definition full_rows {A} (n : Z) (C : nat) (val : A) : res (list (list A)) :=
  if n <? 0 then Err RuntimeError else Ok (repeat (repeat val C) (Z.to_nat n)).

(** octree_pad.py:13-29 *)
Definition octree_pad {A} (C : nat) (data : list (list A)) (o : octree) (d : Z) (val : A)
  : res (list (list A)) :=
  mask <- nempty_mask o d ;;
  l <- get_layer o d ;;
  out <- full_rows (nnum l) C val ;;
  mask_put out mask data.

(** octree_pad.py:32-39 *)
Definition octree_depad {A} (data : list A) (o : octree) (d : Z) : res (list A) :=
  mask <- nempty_mask o d ;;
  mask_get data mask.

(** ** octree2col.py *)

(** octree2col.py:35-39: out = zeros(N, K, C); out[valid] = data[neigh[valid]],
    computed entry by entry. *)
Definition gather_cols (C : nat) (data : feat) (neigh : list (list Z)) : res (list feat) :=
  mapM (mapM (fun n => if 0 <=? n then tget data n else Ok (vzero C))) neigh.
(** octree2col.py:15-40 *)
Definition octree2col (C : nat) (data : feat) (o : octree) (d : nat) (kernel : string) (stride : Z) (nempty : bool)
  : res (list feat) :=
  neigh <- get_neigh o d kernel stride nempty ;;
  gather_cols C data neigh.

(** data[valid] and neigh[valid] for a mask with the leading shape of data *)
Definition valid_rows (data : list feat) (neigh : list (list Z)) : res (list vec * list Z) :=
  if Nat.eqb (length data) (length neigh) &&
     forallb (fun rn => Nat.eqb (length (fst rn)) (length (snd rn))) (combine data neigh)
  then Ok (map fst (filter (fun vn => 0 <=? snd vn) (combine (concat data) (concat neigh))),
           filter (Z.leb 0) (concat neigh))
  else Err IndexError.
(** octree2col.py:43-53 *)
Definition col2octree (C : nat) (data : list feat) (o : octree) (d : nat) (kernel : string) (stride : Z) (nempty : bool)
  : res feat :=
  neigh <- get_neigh o d kernel stride nempty ;;
  l <- get_layer o (Z.of_nat d) ;;
  let dim_size := if nempty then nnum_nempty l else nnum l in
  '(src, idx) <- valid_rows data neigh ;;
  out <- full_rows dim_size C (0%Qc) ;;
  scatter_add_into vadd out idx src.

(** ** octree_pool.py *)

(** Numbers extended with -infinity, [None]. *)
Notation xnum := (option Qc) (only parsing).
Definition xltb (a b : xnum) : bool :=
  match a, b with
  | _, None => false
  | None, Some _ => true
  | Some x, Some y => qltb x y
  end.
(** torch.max over a dimension: the value and the position of the first maximum *)
Fixpoint max_from (best : xnum) (bi : Z) (i : Z) (l : list xnum) : xnum * Z :=
  match l with
  | [] => (best, bi)
  | a :: t => if xltb best a then max_from a i (i + 1) t else max_from best bi (i + 1) t
  end.
Definition max_first (l : list xnum) : xnum * Z :=
  match l with [] => (None, 0) | a :: t => max_from a 0 1 t end.
(** Column [c] of a block of rows. *)
Definition column {A} (dflt : A) (c : nat) (rows : list (list A)) : list A :=
  map (fun r => nth c r dflt) rows.

(** octree_pool.py:17-38, with the indices *)
Definition octree_max_pool (C : nat) (data : feat) (o : octree) (d : nat) (nempty : bool)
  : res (list (list xnum) * list (list Z)) :=
  let data := map (map (@Some Qc)) data in
  data <- (if nempty then octree_pad C data o (Z.of_nat d) None else Ok data) ;;
  blocks <- view_rows 8 data ;;
  let best := map (fun rows => map (fun c => max_first (column None c rows)) (seq 0 C)) blocks in
  let out := map (map fst) best in
  let indices := map (map snd) best in
  out <- (if nempty then Ok out else octree_pad C out o (Z.of_nat d - 1) (Some (0%Qc))) ;;
  Ok (out, indices).

(** octree_pool.py:57-62: out = zeros(num, 8, C); out[i, indices, k] = data *)
Definition unpool_row (row : vec) (idx : list Z) : res (list vec) :=
  js <- mapM (fun i => match norm_index 8 i with Some j => Ok j | None => Err IndexError end) idx ;;
  Ok (map (fun s => map (fun xj => if Nat.eqb (snd xj) s then fst xj else 0%Qc) (combine row js)) (seq 0 8)).
(** octree_pool.py:41-65 *)
Definition octree_max_unpool (data : feat) (indices : list (list Z)) (o : octree) (d : nat) (nempty : bool)
  : res feat :=
  data <- (if nempty then Ok data else octree_depad data o (Z.of_nat d)) ;;
  blocks <- (if Nat.eqb (length indices) (length data) &&
                forallb (fun ri => Nat.eqb (length (fst ri)) (length (snd ri))) (combine data indices)
             then mapM (fun ri => unpool_row (fst ri) (snd ri)) (combine data indices)
             else Err IndexError) ;;
  let out := concat blocks in
  if nempty then octree_depad out o (Z.of_nat d + 1) else Ok out.

(** octree_pool.py:86-101, one row of the sparse matrix product *)
Definition eps8 : Qc := (/ qz 100000000)%Qc.
Definition avg_row (C : nat) (data : feat) (row : list Z) : res vec :=
  let cnt := zlen (filter (Z.leb 0) row) in
  let val := (1 / (qz cnt + eps8))%Qc in
  foldM (fun acc n => if 0 <=? n
                      then if n <? zlen data then r <- tget data n ;; Ok (vadd acc (vscale val r)) else Err RuntimeError
                      else Ok acc) (vzero C) row.
(** octree_pool.py:68-101 *)
Definition octree_avg_pool (C : nat) (data : feat) (o : octree) (d : nat) (kernel : string) (stride : Z) (nempty : bool)
  : res feat :=
  neigh <- get_neigh o d kernel stride nempty ;;
  mapM (avg_row C data) neigh.

(** octree_pool.py:104-124 *)
Definition octree_global_pool (C : nat) (data : feat) (o : octree) (d : nat) (nempty : bool) : res feat :=
  bid <- octree_batch_id o (Z.of_nat d) nempty ;;
  count <- scatter_add Qcplus 0%Qc (map (fun _ => 1%Qc) data) bid (Some (batch_size o)) ;;
  let count := map (fun c => if qltb c 1 then 1%Qc else c) count in
  out <- scatter_add vadd (vzero C) data bid (Some (batch_size o)) ;;
  Ok (zip_with (fun r c => map (fun x => x / c)%Qc r) out count).

(** ** octree2vox.py:13-31.  The tensor of shape (B, n, n, n, C) is stored flat,
    entry (b, x, y, z) at ((b*n + x)*n + y)*n + z. *)
Definition vox_addr (B n : Z) (c : Z * Z * Z * Z) : res Z :=
  let '(x, y, z, b) := c in
  match norm_index B b, norm_index n x, norm_index n y, norm_index n z with
  | Some b, Some x, Some y, Some z =>
      Ok (((Z.of_nat b * n + Z.of_nat x) * n + Z.of_nat y) * n + Z.of_nat z)
  | _, _, _, _ => Err IndexError
  end.
Definition octree2voxel (C : nat) (data : feat) (o : octree) (d : nat) (nempty : bool) : res feat :=
  xyzb <- octree_xyzb o d nempty ;;
  let n := Z.shiftl 1 (Z.of_nat d) in
  addr <- mapM (vox_addr (Z.of_nat (batch_size o)) n) xyzb ;;
  index_put (repeat (vzero C) (Z.to_nat (Z.of_nat (batch_size o) * n * n * n))) addr data.

(** ** octree_drop.py:33-51.  [rnd] is the outcome of torch.rand(batch_size, 1). *)
Definition drop_path (drop_prob : Qc) (scale_by_keep training nempty : bool) (rnd : list Qc)
    (data : feat) (o : octree) (d : nat) (batch_id : option (list Z)) : res feat :=
  if qleb drop_prob 0 || negb training then Ok data
  else
    let keep := (1 - drop_prob)%Qc in
    let rnd := map (fun r => qz (qfloor (r + keep)%Qc)) rnd in
    let rnd := if qltb 0 keep && scale_by_keep then map (fun r => r / keep)%Qc rnd else rnd in
    bid <- (match batch_id with Some b => Ok b | None => octree_batch_id o (Z.of_nat d) nempty end) ;;
    mask <- gather rnd bid ;;
    if Nat.eqb (length mask) (length data)
    then Ok (zip_with (fun r m => map (fun x => x * m)%Qc r) data mask)
    else Err RuntimeError.
