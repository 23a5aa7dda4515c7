(** Specification of a well-formed octree: what the stored tensors of every
    layer must be, in terms of Spec.v only. *)
From Coq Require Import List ZArith Bool.
From Verif Require Import Res Tensor Spec Octree.
Import ListNotations.
Open Scope Z_scope.

(** Number of flagged entries. *)
Definition nflag (m : list bool) : Z := Z.of_nat (List.length (filter (fun b => b) m)).

(** The layers 0..L of [o] store a tree given by the node keys [K d] and the
    non-empty flags [M d] of each depth [d]:
    - the stored keys are [K d], the stored children number the flagged nodes
      0,1,2,... in order and are -1 for the others, and the counters count nodes
      and flagged nodes;
    - layers up to full_depth are complete grids;
    - the nodes of layer d+1 are exactly the eight children of each flagged node
      of layer d, in the same order. *)
Record tree_upto (o : octree) (L : nat) (K : nat -> list Z) (M : nat -> list bool) : Prop := {
  t_depth : (depth o <= 16)%nat;
  t_batch : Z.of_nat (batch_size o) <= 32768;
  t_full : (full_depth o <= depth o)%nat;
  t_L : (L <= depth o)%nat;
  t_len : List.length (layers o) = S (depth o);
  t_layer : forall d, (d <= L)%nat ->
    exists l, nth_error (layers o) d = Some l /\
      keys l = Some (K d) /\ children l = Some (number_from 0 (M d)) /\
      nnum l = Z.of_nat (List.length (K d)) /\ nnum_nempty l = nflag (M d);
  t_mask : forall d, (d <= L)%nat -> List.length (M d) = List.length (K d);
  t_grid : forall d, (d <= L)%nat -> (d <= full_depth o)%nat -> K d = full_grid (batch_size o) d;
  t_link : forall d, (d < L)%nat -> K (S d) = flat_map kids (pick (M d) (K d))
}.

Definition wf_upto (o : octree) (L : nat) : Prop := exists K M, tree_upto o L K M.
Definition wf_octree (o : octree) : Prop := wf_upto o (depth o).
