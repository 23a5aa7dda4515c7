(** Single-precision model of the tree built by build_octree and of nearest-neighbour
    interpolation.  Continues Float32.v and FloatMean.v; the integer part of the code is
    that of Octree.v and NnInterp.v. *)
From Coq Require Import List ZArith Bool QArith Qcanon.
From Flocq Require Import Core.Core IEEE754.BinarySingleNaN.
From Verif Require Import Res Tensor Key Num Points Octree NnBasic NnInterp Float32 FloatMean.
Import ListNotations.
Open Scope Z_scope.

(** octree.py:147-211, build_octree up to the averages of the last layer, which are in
    FloatMean.v: the layers from the keys, and the map from points to nodes *)
Definition build_tree32 (o : octree) (pc : pcloud f32) : res (octree * list Z) :=
  let o := mkOctree (depth o) (full_depth o) (batch_size o) (p_device pc) (layers o) in
  _ <- assert_ (Nat.eqb (p_batch_size pc) (batch_size o)) ;;
  key <- (if Nat.eqb (batch_size o) 1 then keys32 (depth o) (p_points pc) None
          else match p_batch_id pc with
               | None => Err AttributeError
               | Some bid => keys32 (depth o) (p_points pc) (Some bid)
               end) ;;
  let '(node_key, idx, counts) := unique key in
  o <- foldM (fun o d => octree_grow_full o d false) o (seq 0 (full_depth o + 1)) ;;
  '(o, node_key) <- foldM build_step (o, node_key)
                      (rev (seq (full_depth o + 1) (depth o - full_depth o))) ;;
  o <- build_full_children o node_key ;;
  Ok (o, idx).

(** octree.py:355-369, search_xyzb for a float32 query; an undefined conversion stops
    the model.  The batch column holds integers. *)
Definition long_row32 (pb : v3 f32 * Z) : res (Z * Z * Z * Z) :=
  let '(p, b) := pb in
  match v3map flong p with
  | (Some x, Some y, Some z) => Ok (x, y, z, b)
  | _ => Err ValueError
  end.
Definition search_pts32 (o : octree) (pts : list (v3 f32 * Z)) (d : nat) (nempty : bool) : res (list Z) :=
  query <- mapM long_row32 pts ;;
  search_xyzb o query d nempty.

(** octree_interp.py:39: torch.logical_and(p >= 0, p < 2**depth).all(1); the bound is
    a power of two and exact *)
Definition in_bound32 (d : nat) (p : v3 f32) : bool :=
  let '(x, y, z) := p in
  let ok c := Bleb fzero c && Bltb c (@Bldexp 24 128 f32_prec f32_emax mode_NE fone (Z.of_nat d)) in
  ok x && ok y && ok z.

(** octree_interp.py:16-45.  The rows of [data] are copied, so their type does not
    matter; [C] is data.shape[1]. *)
Definition octree_nearest_pts32 (C : nat) (data : feat) (o : octree) (d : nat) (pts : list (v3 f32 * Z))
    (nempty bound_check : bool) : res feat :=
  _ <- check_rows data o d nempty ;;
  idx <- search_pts32 o pts d nempty ;;
  let valid := valid_mask idx bound_check (map (fun p => in_bound32 d (fst p)) pts) in
  let out := repeat (vzero C) (List.length pts) in
  idx <- mask_get idx valid ;;
  rows <- gather data idx ;;
  mask_put out valid rows.

(** octree_interp.py:118-126 with method 'nearest' and rescale_pts=True: the output *)
Definition interp_nearest32 (nempty bound_check : bool) (C : nat) (data : feat) (o : octree) (d : nat)
    (pts : list (v3 f32 * Z)) : res feat :=
  octree_nearest_pts32 C data o d (map (fun '(p, b) => (rescale32 d p, b)) pts) nempty bound_check.
