(** Models of the torch primitives used by ocnn, on lists.
    This file is part of the trusted base: it is not code of /repo but the
    documented behaviour of the PyTorch functions the code calls. *)
From Coq Require Import List ZArith Bool.
From Verif Require Import Res.
Import ListNotations.
Open Scope Z_scope.

(** ** int64 arithmetic *)

(** Two's complement wrap-around of a 64-bit signed integer. *)
Definition wrap64 (z : Z) : Z := (z + 2^63) mod 2^64 - 2^63.
(** [x << n] on an int64 tensor. *)
Definition shl64 (x n : Z) : Z := wrap64 (Z.shiftl x n).

(** ** shapes, ranges *)

Definition zlen {A} (l : list A) : Z := Z.of_nat (length l).

(** torch.arange(n) *)
Definition arange (n : nat) : list Z := map Z.of_nat (seq 0 n).

(** tensor.view(-1, n) of a flat tensor: rows of length [n].  Torch rejects a
    length that is not a multiple of [n]; [fuel] is the number of rows. *)
Fixpoint chunk_rows {A} (fuel n : nat) (l : list A) : list (list A) :=
  match fuel with
  | O => []
  | S f => firstn n l :: chunk_rows f n (skipn n l)
  end.
Definition view_rows {A} (n : nat) (l : list A) : res (list (list A)) :=
  if Nat.eqb (Nat.modulo (length l) n) 0 && negb (Nat.eqb n 0)
  then Ok (chunk_rows (Nat.div (length l) n) n l)
  else Err RuntimeError.

(** ** integer indexing, with Python's negative indices *)

Definition norm_index (n i : Z) : option nat :=
  if (0 <=? i) && (i <? n) then Some (Z.to_nat i)
  else if (i <? 0) && (0 <=? i + n) then Some (Z.to_nat (i + n))
  else None.

(** l[i] *)
Definition tget {A} (l : list A) (i : Z) : res A :=
  match norm_index (zlen l) i with
  | Some j => match nth_error l j with Some a => Ok a | None => Err IndexError end
  | None => Err IndexError
  end.

(** l[idx] for a tensor of indices *)
Definition gather {A} (l : list A) (idx : list Z) : res (list A) := mapM (tget l) idx.

Fixpoint set_nth {A} (l : list A) (j : nat) (v : A) : list A :=
  match l, j with
  | [], _ => []
  | _ :: t, O => v :: t
  | a :: t, S j' => a :: set_nth t j' v
  end.

(** l[i] = v *)
Definition tset {A} (l : list A) (i : Z) (v : A) : res (list A) :=
  match norm_index (zlen l) i with
  | Some j => Ok (set_nth l j v)
  | None => Err IndexError
  end.

(** l[idx] = vals.  For repeated indices torch leaves the winner unspecified;
    here the last one wins, and no theorem uses repeated indices. *)
Definition index_put {A} (l : list A) (idx : list Z) (vals : list A) : res (list A) :=
  if Nat.eqb (length idx) (length vals)
  then foldM (fun acc iv => tset acc (fst iv) (snd iv)) l (combine idx vals)
  else Err RuntimeError.

(** l[::n], n > 0 *)
Fixpoint step_from {A} (skip n : nat) (l : list A) : list A :=
  match l with
  | [] => []
  | a :: t => match skip with
              | O => a :: step_from (Nat.pred n) n t
              | S s => step_from s n t
              end
  end.
Definition every {A} (n : nat) (l : list A) : list A := step_from 0 n l.

(** ** boolean masks *)

Fixpoint select {A} (m : list bool) (l : list A) : list A :=
  match m, l with
  | true :: m', a :: l' => a :: select m' l'
  | false :: m', _ :: l' => select m' l'
  | _, _ => []
  end.

(** l[mask] *)
Definition mask_get {A} (l : list A) (m : list bool) : res (list A) :=
  if Nat.eqb (length m) (length l) then Ok (select m l) else Err IndexError.

Definition count_true (m : list bool) : nat := length (filter (fun b => b) m).

Fixpoint fill {A} (m : list bool) (l vals : list A) : list A :=
  match m, l with
  | true :: m', a :: l' =>
      match vals with
      | v :: vs => v :: fill m' l' vs
      | [] => a :: fill m' l' []
      end
  | false :: m', a :: l' => a :: fill m' l' vals
  | _, _ => l
  end.

(** l[mask] = vals.  (Torch would also broadcast a single row; the code never
    relies on it and the model rejects it.) *)
Definition mask_put {A} (l : list A) (m : list bool) (vals : list A) : res (list A) :=
  if negb (Nat.eqb (length m) (length l)) then Err IndexError
  else if Nat.eqb (count_true m) (length vals) then Ok (fill m l vals)
  else Err RuntimeError.

(** l[mask] = v for a scalar [v] *)
Fixpoint mask_fill {A} (l : list A) (m : list bool) (v : A) : list A :=
  match l, m with
  | a :: l', b :: m' => (if b : bool then v else a) :: mask_fill l' m' v
  | _, _ => l
  end.

(** ** unique *)

(** Insertion into a strictly increasing list. *)
Fixpoint insert_uniq (k : Z) (l : list Z) : list Z :=
  match l with
  | [] => [k]
  | a :: t => if k <? a then k :: l else if k =? a then l else a :: insert_uniq k t
  end.
Definition sort_uniq (l : list Z) : list Z := fold_right insert_uniq [] l.

Fixpoint index_of (k : Z) (l : list Z) : option nat :=
  match l with
  | [] => None
  | a :: t => if a =? k then Some O else option_map S (index_of k t)
  end.

(** torch.unique(key, sorted=True, return_inverse=True, return_counts=True) *)
Definition unique (key : list Z) : list Z * list Z * list Z :=
  let u := sort_uniq key in
  (u,
   map (fun k => match index_of k u with Some i => Z.of_nat i | None => -1 end) key,
   map (fun a => Z.of_nat (length (filter (Z.eqb a) key))) u).

(** torch.unique_consecutive(key, return_inverse=True): values and inverse *)
Fixpoint uniq_consec (l : list Z) : list Z :=
  match l with
  | [] => []
  | a :: t => match t with
              | [] => [a]
              | b :: _ => if a =? b then uniq_consec t else a :: uniq_consec t
              end
  end.
Fixpoint consec_inv (n : Z) (l : list Z) : list Z :=
  match l with
  | [] => []
  | a :: t => n :: match t with
                   | [] => []
                   | b :: _ => consec_inv (if a =? b then n else n + 1) t
                   end
  end.
Definition unique_consecutive (l : list Z) : list Z * list Z :=
  (uniq_consec l, consec_inv 0 l).

(** ** searching *)

(** Binary search of aten/src/ATen/native/Bucketization.cpp (cus_lower_bound):
    while (start < end) { mid = start + ((end - start) >> 1);
      if (!(bd[mid] >= val)) start = mid + 1; else end = mid; } return start; *)
Fixpoint lower_bound (fuel : nat) (l : list Z) (q : Z) (start end_ : nat) : nat :=
  match fuel with
  | O => start
  | S f =>
      if Nat.ltb start end_ then
        let mid := Nat.add start (Nat.div2 (Nat.sub end_ start)) in
        if negb (q <=? nth mid l 0)
        then lower_bound f l q (S mid) end_
        else lower_bound f l q start mid
      else start
  end.
(** torch.bucketize(q, l) / torch.searchsorted(l, q) for one query *)
Definition bucketize (l : list Z) (q : Z) : Z :=
  Z.of_nat (lower_bound (S (length l)) l q 0 (length l)).

(** ** sums *)

(** torch.cumsum on a 1-D integer tensor, starting value [acc] *)
Fixpoint cumsum_from (acc : Z) (l : list Z) : list Z :=
  match l with
  | [] => []
  | a :: t => (acc + a) :: cumsum_from (acc + a) t
  end.
Definition cumsum_incl (l : list Z) : list Z := cumsum_from 0 l.

(** out.scatter_add_(0, index, src): indices must be in [0, len out). *)
Definition scatter_step {A} (add : A -> A -> A) (acc : list A) (iv : Z * A) : res (list A) :=
  if (0 <=? fst iv) && (fst iv <? zlen acc)
  then match nth_error acc (Z.to_nat (fst iv)) with
       | Some a => Ok (set_nth acc (Z.to_nat (fst iv)) (add a (snd iv)))
       | None => Err RuntimeError
       end
  else Err RuntimeError.
Definition scatter_add_into {A} (add : A -> A -> A) (out : list A) (idx : list Z)
    (src : list A) : res (list A) :=
  if Nat.eqb (length idx) (length src)
  then foldM (scatter_step add) out (combine idx src)
  else Err RuntimeError.
