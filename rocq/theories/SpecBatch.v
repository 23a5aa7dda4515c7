(** Batches: running a network on a merged octree. *)
From Coq Require Import String Ascii List ZArith Bool QArith Qcanon.
From Verif Require Import Res Num Octree NnBasic NnInterp SpecMerge SpecNN SpecFeature Net.
Import ListNotations.
Open Scope char_scope.
Open Scope Z_scope.

(** Evaluation mode: batch normalisation treats every row on its own (running
    statistics), dropout is off. *)
Definition eval_mode (P : params) : Prop :=
  (forall p C, exists f : vec -> vec, forall x, Forall (fun r => length r = C) x ->
     p_norm P p C x = Ok (map f x) /\ Forall (fun r => length r = C) (map f x)) /\
  (forall p i c, p_mask P p i c = 1%Qc).

(** Query points of the members, all with batch index 0, as one query: the points of
    member i get batch index i. *)
Definition join_points (ptss : list (list qpoint)) : list qpoint :=
  concat (map (fun '(i, pts) => map (fun '(p, _) => (p, i)) pts) (indexed 0 ptss)).

(** A batch ready for a network: the members os' and their merged octree o', each with
    its neighbourhood tables. *)
Definition batched (os : list octree) (o' : octree) (os' : list octree) : Prop :=
  exists o, merge_octrees os = Ok o /\ construct_all_neigh o = Ok o' /\ mapM construct_all_neigh os = Ok os'.

(** The finest layer holds the signals the feature string asks for, one row per
    non-empty node, features of width CF. *)
Definition carries (CF : nat) (s : string) (o : octree) : Prop :=
  exists l, nth_error (layers o) (depth o) = Some l /\
    (asks s "N" "n" || asks s "D" "d" = true -> exists ns, l_normals l = Some ns /\ length ns = node_count o (depth o) true) /\
    (asks s "D" "d" || asks s "L" "l" || asks s "P" "p" = true -> exists ps, l_points l = Some ps /\ length ps = node_count o (depth o) true) /\
    (asks s "F" "f" = true -> exists fs, l_features l = Some fs /\ shape (node_count o (depth o) true) CF fs).
Definition asks_any (s : string) : bool := asks s "N" "n" || asks s "D" "d" || asks s "L" "l" || asks s "P" "p" || asks s "F" "f".
