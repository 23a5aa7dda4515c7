(** Growing histories (what a decoder network does with an octree). *)
From Coq Require Import List ZArith Bool.
From Verif Require Import Res Octree Spec WF.
Import ListNotations.
Open Scope Z_scope.

(** A 0/1 vector and the flags octree_split is documented to set: the ones, or
    node 0 alone if there is no one. *)
Definition zero_one (split : list Z) : Prop := Forall (fun s => s = 0 \/ s = 1) split.
Definition split_flags (split : list Z) : list bool :=
  if existsb (Z.eqb 1) split then map (Z.eqb 1) split
  else match split with [] => [] | _ :: t => true :: map (fun _ => false) t end.

(** [history dep full bs dev o L]: [o] can be obtained from
    [init_octree dep full bs] by splits and grows, and [L] is the deepest layer
    that is up to date.  A layer may be split or grown again, which outdates the
    deeper ones. *)
Inductive history (dep full bs dev : nat) : octree -> nat -> Prop :=
| h_init : forall o, init_octree dep full bs dev = Ok o -> history dep full bs dev o full
| h_split : forall o L l s d o', history dep full bs dev o L -> (full <= d <= L)%nat ->
    nth_error (layers o) d = Some l -> Z.of_nat (length s) = nnum l -> zero_one s ->
    octree_split o s d = Ok o' -> history dep full bs dev o' d
| h_grow : forall o L d o', history dep full bs dev o L -> (full < d <= S L)%nat -> (d <= dep)%nat ->
    octree_grow o d true = Ok o' -> history dep full bs dev o' d.

(** The loop of test_octree.py:158-161: copy the occupancy of [src] layer by layer. *)
Definition regrow (src o0 : octree) : res octree :=
  foldM (fun o d =>
    mask <- nempty_mask src (Z.of_nat d) ;;
    o <- octree_split o (map (fun b : bool => if b then 1 else 0) mask) d ;;
    if Nat.ltb d (depth o) then octree_grow o (S d) true else Ok o)
  o0 (seq (full_depth src) (S (depth src - full_depth src))).

(** Equal keys, children and counters. *)
Definition same_tree (l l' : layer) : Prop :=
  keys l' = keys l /\ children l' = children l /\  nnum l' = nnum l /\ nnum_nempty l' = nnum_nempty l.
