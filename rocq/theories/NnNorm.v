(** Model of ocnn/nn/octree_norm.py.  Features are real numbers here because of the
    square root; no rounding is modelled. *)
From Coq Require Import String List ZArith Bool Reals.
From Verif Require Import Res Tensor Octree.
Import ListNotations.
Open Scope Z_scope.

(** Sums and element-wise operations on rows of real numbers. *)
Definition rsum (l : list R) : R := fold_right Rplus 0%R l.
Definition radd (a b : list R) : list R := zip_with Rplus a b.
Definition rzero (C : nat) : list R := repeat 0%R C.

(** octree_norm.py:24, self.eps = 1e-5 *)
Definition norm_eps : R := (/ 100000)%R.

(** octree_norm.py:62-71, _adjust_for_group, one row: the values of each group are
    replaced by their sum *)
Definition adjust_row (g cpg : nat) (row : list R) : list R :=
  if Nat.ltb 1 cpg
  then flat_map (fun blk => repeat (rsum blk) cpg) (chunk_rows g cpg row)
  else row.

(** octree_norm.py:22-34, the assertion of the constructor: channels per group *)
Definition norm_init (C g : nat) : res nat :=
  if Nat.eqb g 0 then Err ZeroDivisionError
  else if Nat.eqb (C mod g) 0 then Ok (C / g)%nat else Err AssertionError.

(** octree_norm.py:40-60 *)
Definition group_norm (C g : nat) (weights bias : list R) (data : list (list R)) (o : octree) (d : nat) (nempty : bool)
  : res (list (list R)) :=
  cpg <- norm_init C g ;;
  (* a row of another width cannot be combined with weights of width C *)
  _ <- (if forallb (fun r => Nat.eqb (length r) C) data then Ok tt else Err RuntimeError) ;;
  bid <- octree_batch_id o (Z.of_nat d) nempty ;;
  count <- scatter_add Rplus 0%R (map (fun _ => 1%R) data) bid (Some (batch_size o)) ;;
  let inv_count := map (fun c => 1 / (c * INR cpg + norm_eps))%R count in
  let per_group (rows : list (list R)) :=
    map (adjust_row g cpg) (zip_with (fun r i => map (fun x => x * i)%R r) rows inv_count) in
  s <- scatter_add radd (rzero C) data bid (Some (batch_size o)) ;;
  mean <- gather (per_group s) bid ;;
  let out := zip_with (zip_with Rminus) data mean in
  s2 <- scatter_add radd (rzero C) (map (map (fun x => x * x)%R) out) bid (Some (batch_size o)) ;;
  inv_std <- gather (map (map (fun v => 1 / sqrt (v + norm_eps))%R) (per_group s2)) bid ;;
  let out := zip_with (zip_with Rmult) out inv_std in
  Ok (map (fun r => zip_with Rplus (zip_with Rmult r weights) bias) out).

(** octree_norm.py:78-84 *)
Definition instance_norm (C : nat) := group_norm C C.
