(** Model of /repo/ocnn/nn: octree_conv.py, octree_dwconv.py, octree_gconv.py. *)
From Coq Require Import String List ZArith Bool QArith Qcanon.
From Coq Require DecimalString.
From Verif Require Import Res Tensor Key Num Points Octree NnBasic.
Import ListNotations.
Open Scope Z_scope.

(** ** dense matrix primitives *)

Definition qsum_list (l : list Qc) : Qc := fold_right Qcplus 0%Qc l.
(** row * B for a matrix B with [n] columns *)
Definition vecmat (n : nat) (r : vec) (B : list vec) : vec :=
  map (fun j => qsum_list (map (fun xr => fst xr * nth j (snd xr) 0)%Qc (combine r B))) (seq 0 n).
(** torch.mm(A, B) for B with [n] columns *)
Definition mm (n : nat) (A B : list vec) : res (list vec) :=
  if forallb (fun r => Nat.eqb (length r) (length B)) A
  then Ok (map (fun r => vecmat n r B) A) else Err RuntimeError.
(** B.t() for a matrix with [n] columns *)
Definition transpose (n : nat) (B : list vec) : list vec :=
  map (fun j => map (fun r => nth j r 0%Qc) B) (seq 0 n).
(** l[s:e] for 0 <= s; Python clips both ends *)
Definition tslice {A} (l : list A) (s e : Z) : list A :=
  firstn (Z.to_nat (e - s)) (skipn (Z.to_nat s) l).
(** l[s:e] = v *)
Definition slice_put {A} (l : list A) (s e : Z) (v : list A) : res (list A) :=
  if Nat.eqb (length (tslice l s e)) (length v)
  then Ok (firstn (Z.to_nat s) l ++ v ++ skipn (Z.to_nat s + length v) l)
  else Err RuntimeError.
(** Python [a // b] *)
Definition floordiv (a b : Z) : res Z := if b =? 0 then Err ZeroDivisionError else Ok (a / b).

(** ** kernel sizes *)

(** utils.py:169-178; the caller's list is extended in place, the result is the
    same list *)
Definition resize_with_last_val (l : list nat) : res (list nat) :=
  _ <- assert_ (Nat.ltb (length l) 4) ;;
  match rev l with
  | [] => Err IndexError
  | a :: _ => Ok (l ++ repeat a (3 - length l))
  end.
(** utils.py:181-186 *)
Definition str_int (n : nat) : string := DecimalString.NilEmpty.string_of_uint (Nat.to_uint n).
Definition list2str (l : list nat) : string := fold_right String.append EmptyString (map str_int l).

(** octree_conv.py:21-36, the constructor arguments *)
Record conv_cfg := mkCfg {
  c_in : nat; c_out : nat;
  c_ksize : list nat;
  c_stride : Z;
  c_nempty : bool;
  c_maxbuf : Z;
  c_isconv : bool
}.
(** octree_conv.py:27-35 *)
Record conv_dims := mkDims { m_kernel : string; m_kdim : nat; m_inconv : nat; m_outconv : nat }.
Definition conv_init (g : conv_cfg) : res conv_dims :=
  ks <- resize_with_last_val (c_ksize g) ;;
  Ok (mkDims (list2str ks) (nth 0 ks O * nth 1 ks O * nth 2 ks O)%nat
        (if c_isconv g then c_in g else c_out g) (if c_isconv g then c_out g else c_in g)).

(** octree_conv.py:44-93, what [setup] computes *)
Record conv_geo := mkGeo { g_in_h : Z; g_out_h : Z; g_neigh : list (list Z); g_n : Z; g_h : Z }.
Definition buffer_plan (rows kdim in_conv max_buffer : Z) : res (Z * Z) :=
  let ideal := rows * kdim * in_conv in
  if max_buffer <? ideal then
    let kc := kdim * in_conv in
    q <- floordiv max_buffer kc ;;
    let mb := q * kc in
    n <- floordiv (ideal + mb - 1) mb ;;
    h <- floordiv (rows + n - 1) n ;;
    Ok (n, h)
  else Ok (1, rows).
Definition conv_setup (g : conv_cfg) (m : conv_dims) (o : octree) (d : nat) : res conv_geo :=
  let out_d := if c_stride g =? 2 then if c_isconv g then Z.of_nat d - 1 else Z.of_nat d + 1 else Z.of_nat d in
  let neigh_d := if (c_stride g =? 2) && negb (c_isconv g) then (d + 1)%nat else d in
  li <- get_layer o (Z.of_nat d) ;;
  lo <- get_layer o out_d ;;
  let in_h := if c_nempty g then nnum_nempty li
              else if (c_stride g =? 2) && negb (c_isconv g) then nnum_nempty li else nnum li in
  let out_h := if c_nempty g then nnum_nempty lo
               else if (c_stride g =? 2) && c_isconv g then nnum_nempty lo else nnum lo in
  neigh <- get_neigh o neigh_d (m_kernel m) (c_stride g) (c_nempty g) ;;
  '(n, h) <- buffer_plan (zlen neigh) (Z.of_nat (m_kdim m)) (Z.of_nat (m_inconv m)) (c_maxbuf g) ;;
  Ok (mkGeo in_h out_h neigh n h).

(** octree_conv.py:95-105 *)
Definition has_shape (n : Z) (C : nat) (x : feat) : bool :=
  (zlen x =? n) && forallb (fun r => Nat.eqb (length r) C) x.
Definition check_and_init (g : conv_cfg) (s : conv_geo) (data : feat) : res feat :=
  _ <- assert_ (has_shape (g_in_h s) (c_in g) data) ;;
  full_rows (g_out_h s) (c_out g) (0%Qc).

(** octree_conv.py:122-130: bounds of sub-matrix [i]; [b] is the number of rows of
    the current buffer, which [split] shortens in the boundary case. *)
Definition chunk_bounds (s : conv_geo) (b i : Z) : res (Z * Z * Z) :=
  let start := i * g_h s in
  let end_ := (i + 1) * g_h s in
  if zlen (g_neigh s) <? end_ then
    let dis := end_ - zlen (g_neigh s) in
    if (0 <=? g_h s - dis) && (g_h s - dis + dis =? b)
    then Ok (start, zlen (g_neigh s), g_h s - dis)
    else Err RuntimeError
  else Ok (start, end_, b).
(** octree_conv.py:132-136: the neighbourhood rows of the sub-matrix and the buffer *)
Definition fill_buffer (C : nat) (s : conv_geo) (data : feat) (start end_ b : Z) : res (list feat) :=
  let neigh_i := tslice (g_neigh s) start end_ in
  if zlen neigh_i =? b then gather_cols C data neigh_i else Err IndexError.

(** octree_conv.py:107-141; [prod] is the product of the buffer with the weights *)
Definition forward_loop (C : nat) (prod : list feat -> res feat) (s : conv_geo) (out data : feat) : res feat :=
  r <- foldM (fun st i =>
         let '(out, b) := st in
         '(start, end_, b) <- chunk_bounds s b i ;;
         buf <- fill_buffer C s data start end_ b ;;
         p <- prod buf ;;
         out <- slice_put out start end_ p ;;
         Ok (out, b)) (out, g_h s) (arange (Z.to_nat (g_n s))) ;;
  Ok (fst r).
Definition forward_gemm (m : conv_dims) (s : conv_geo) (out data : feat) (W : list feat) : res feat :=
  forward_loop (m_inconv m) (fun buf => mm (m_outconv m) (map (@concat Qc) buf) (concat W)) s out data.

(** octree_conv.py:143-173; [spread] is the product of the gradient rows with the
    transposed weights, as (rows, kdim, in_conv) *)
Definition backward_loop (spread : feat -> res (list feat)) (s : conv_geo) (out grad : feat) : res feat :=
  foldM (fun out i =>
    let start := i * g_h s in
    let end_ := Z.min ((i + 1) * g_h s) (zlen (g_neigh s)) in
    buf <- spread (tslice grad start end_) ;;
    '(src, idx) <- valid_rows buf (tslice (g_neigh s) start end_) ;;
    scatter_add_into vadd out idx src) out (arange (Z.to_nat (g_n s))).
Definition backward_gemm (m : conv_dims) (s : conv_geo) (out grad : feat) (W : list feat) : res feat :=
  backward_loop (fun gr =>
    p <- mm (m_kdim m * m_inconv m) gr (transpose (m_outconv m) (concat W)) ;;
    Ok (map (chunk_rows (m_kdim m) (m_inconv m)) p)) s out grad.

(** octree_conv.py:175-213; [acc] adds the product of one buffer and its gradient rows *)
Definition weight_loop (C : nat) (acc : list vec -> list feat -> feat -> res (list vec)) (s : conv_geo)
    (out : list vec) (data grad : feat) : res (list vec) :=
  r <- foldM (fun st i =>
         let '(out, b) := st in
         '(start, end_, b) <- chunk_bounds s b i ;;
         buf <- fill_buffer C s data start end_ b ;;
         out <- acc out buf (tslice grad start end_) ;;
         Ok (out, b)) (out, g_h s) (arange (Z.to_nat (g_n s))) ;;
  Ok (fst r).
Definition weight_gemm (m : conv_dims) (s : conv_geo) (out : list feat) (data grad : feat) : res (list feat) :=
  r <- weight_loop (m_inconv m) (fun out buf gr =>
         p <- mm (m_outconv m) (transpose (m_kdim m * m_inconv m) (map (@concat Qc) buf)) gr ;;
         if Nat.eqb (length p) (length out) then Ok (zip_with vadd out p) else Err RuntimeError)
       s (concat out) data grad ;;
  Ok (chunk_rows (m_kdim m) (m_inconv m) r).

(** octree_conv.py:234-247, OctreeConvFunction.forward *)
Definition conv_forward (g : conv_cfg) (o : octree) (d : nat) (data : feat) (W : list feat) : res feat :=
  m <- conv_init g ;; s <- conv_setup g m o d ;;
  out <- check_and_init g s data ;;
  forward_gemm m s out data W.
(** octree_conv.py:249-264, OctreeConvFunction.backward (both gradients requested) *)
Definition zeros_like (x : feat) : feat := map (map (fun _ => 0%Qc)) x.
Definition conv_backward (g : conv_cfg) (o : octree) (d : nat) (data : feat) (W : list feat) (grad : feat)
  : res (feat * list feat) :=
  m <- conv_init g ;; s <- conv_setup g m o d ;;
  gd <- backward_gemm m s (zeros_like data) grad W ;;
  gw <- weight_gemm m s (map zeros_like W) data grad ;;
  Ok (gd, gw).
(** octree_conv.py:271-284, OctreeDeconvFunction.forward *)
Definition deconv_forward (g : conv_cfg) (o : octree) (d : nat) (data : feat) (W : list feat) : res feat :=
  m <- conv_init g ;; s <- conv_setup g m o d ;;
  out <- check_and_init g s data ;;
  backward_gemm m s out data W.
(** octree_conv.py:286-301, OctreeDeconvFunction.backward *)
Definition deconv_backward (g : conv_cfg) (o : octree) (d : nat) (data : feat) (W : list feat) (grad : feat)
  : res (feat * list feat) :=
  m <- conv_init g ;; s <- conv_setup g m o d ;;
  gd <- forward_gemm m s (zeros_like data) grad W ;;
  gw <- weight_gemm m s (map zeros_like W) grad data ;;
  Ok (gd, gw).

(** octree_conv.py:380-381: out += self.bias *)
Definition add_bias (bias : option vec) (out : feat) : feat :=
  match bias with None => out | Some b => map (fun r => vadd r b) out end.

(** octree_conv.py:361-385, OctreeConv.forward *)
Definition OctreeConv (g : conv_cfg) (direct : bool) (W : list feat) (bias : option vec)
    (data : feat) (o : octree) (d : nat) : res feat :=
  m <- conv_init g ;;
  out <- (if direct then
            col <- octree2col (c_in g) data o d (m_kernel m) (c_stride g) (c_nempty g) ;;
            mm (m_outconv m) (map (@concat Qc) col) (concat W)
          else conv_forward g o d data W) ;;
  let out := add_bias bias out in
  if (c_stride g =? 2) && negb (c_nempty g)
  then octree_pad (c_out g) out o (Z.of_nat d - 1) (0%Qc) else Ok out.

(** octree_conv.py:404-429, OctreeDeconv.forward.  [col.view(rows, kdim, -1)] of zero
    rows raises (the size of the last dimension cannot be inferred). *)
Definition OctreeDeconv (g : conv_cfg) (direct : bool) (W : list feat) (bias : option vec)
    (data : feat) (o : octree) (d : nat) : res feat :=
  m <- conv_init g ;;
  let depth_col := if c_stride g =? 2 then (d + 1)%nat else d in
  data <- (if (c_stride g =? 2) && negb (c_nempty g) then octree_depad data o (Z.of_nat d) else Ok data) ;;
  out <- (if direct then
            col <- mm (m_kdim m * m_inconv m) data (transpose (m_outconv m) (concat W)) ;;
            col <- (if Nat.eqb (length col) 0 then Err RuntimeError
                    else Ok (map (chunk_rows (m_kdim m) (m_inconv m)) col)) ;;
            col2octree (c_out g) col o depth_col (m_kernel m) (c_stride g) (c_nempty g)
          else deconv_forward g o d data W) ;;
  Ok (add_bias bias out).

(** ** octree_dwconv.py *)

(** einsum('ikc,kc->ic') *)
Definition dw_row (C : nat) (buf : feat) (W : feat) : vec :=
  map (fun c => qsum_list (map (fun bw => nth c (fst bw) 0 * nth c (snd bw) 0)%Qc (combine buf W))) (seq 0 C).
(** einsum('ic,kc->ikc') *)
Definition vmul (a b : vec) : vec := zip_with Qcmult a b.
(** octree_dwconv.py:30-64 *)
Definition dw_forward_gemm (m : conv_dims) (s : conv_geo) (out data : feat) (W : list feat) : res feat :=
  forward_loop (m_inconv m) (fun buf =>
    if forallb (fun r => Nat.eqb (length r) (length (concat W))) buf
    then Ok (map (fun r => dw_row (m_inconv m) r (concat W)) buf) else Err RuntimeError) s out data.
(** octree_dwconv.py:66-97 *)
Definition dw_backward_gemm (m : conv_dims) (s : conv_geo) (out grad : feat) (W : list feat) : res feat :=
  backward_loop (fun gr => Ok (map (fun g => map (fun w => vmul g w) (concat W)) gr)) s out grad.
(** octree_dwconv.py:99-136, einsum('ikc,ic->kc') *)
Definition dw_weight_gemm (m : conv_dims) (s : conv_geo) (out : list feat) (data grad : feat) : res (list feat) :=
  r <- weight_loop (m_inconv m) (fun out buf gr =>
         if Nat.eqb (length buf) (length gr) then
           let p := map (fun k => map (fun c =>
                      qsum_list (map (fun bg => nth c (nth k (fst bg) []) 0 * nth c (snd bg) 0)%Qc (combine buf gr)))
                      (seq 0 (m_inconv m))) (seq 0 (m_kdim m)) in
           if Nat.eqb (length p) (length out) then Ok (zip_with vadd out p) else Err RuntimeError
         else Err RuntimeError)
       s (concat out) data grad ;;
  Ok (chunk_rows (m_kdim m) 1 r).
(** octree_dwconv.py:143-172; [g] has c_out = c_in (octree_dwconv.py:24-25) *)
Definition dwconv_forward (g : conv_cfg) (o : octree) (d : nat) (data : feat) (W : list feat) : res feat :=
  m <- conv_init g ;; s <- conv_setup g m o d ;;
  out <- check_and_init g s data ;;
  dw_forward_gemm m s out data W.
Definition dwconv_backward (g : conv_cfg) (o : octree) (d : nat) (data : feat) (W : list feat) (grad : feat)
  : res (feat * list feat) :=
  m <- conv_init g ;; s <- conv_setup g m o d ;;
  gd <- dw_backward_gemm m s (zeros_like data) grad W ;;
  gw <- dw_weight_gemm m s (map zeros_like W) data grad ;;
  Ok (gd, gw).
(** octree_dwconv.py:205-217 *)
Definition OctreeDWConv (g : conv_cfg) (W : list feat) (bias : option vec)
    (data : feat) (o : octree) (d : nat) : res feat :=
  out <- dwconv_forward g o d data W ;;
  let out := add_bias bias out in
  if (c_stride g =? 2) && negb (c_nempty g)
  then octree_pad (c_out g) out o (Z.of_nat d - 1) (0%Qc) else Ok out.

(** ** octree_gconv.py:37-72.  [Ws] and [biases] are the parameters of the groups;
    the member convolutions use the default max_buffer = 2e8. *)
Definition cat_cols (outs : list feat) : res feat :=
  match outs with
  | [] => Err RuntimeError
  | x :: rest => foldM (fun acc y => if Nat.eqb (length acc) (length y) then Ok (zip_with (@app Qc) acc y)
                                     else Err RuntimeError) x rest
  end.
Definition OctreeGroupConv (inc outc : nat) (ks : list nat) (stride : Z) (nempty : bool) (group : nat)
    (Ws : list (list feat)) (biases : list (option vec)) (data : feat) (o : octree) (d : nat) : res feat :=
  ing <- floordiv (Z.of_nat inc) (Z.of_nat group) ;;
  outg <- floordiv (Z.of_nat outc) (Z.of_nat group) ;;
  _ <- assert_ ((Z.of_nat inc mod Z.of_nat group =? 0) && (Z.of_nat outc mod Z.of_nat group =? 0)) ;;
  _ <- assert_ (forallb (fun r => Nat.eqb (length r) inc) data) ;;
  let g := mkCfg (Z.to_nat ing) (Z.to_nat outg) ks stride nempty 200000000 true in
  outs <- mapM (fun i =>
            W <- tget Ws i ;; b <- tget biases i ;;
            let slice := map (fun r => tslice r (i * ing) ((i + 1) * ing)) data in
            OctreeConv g false W b slice o d) (arange group) ;;
  cat_cols outs.
