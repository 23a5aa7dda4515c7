(** Storages used by an octree. *)
From Coq Require Import List.
From Verif Require Import Octree Heap.
Import ListNotations.

(** The storage of every tensor of the layers satisfies Q. *)
Definition each_storage (Q : nat -> Prop) (ho : list hlayer) : Prop :=
  Forall (fun l => (forall v, h_keys l = Some v -> Q (v_id v)) /\ (forall v, h_children l = Some v -> Q (v_id v)) /\
                   (forall w, h_neighs l = Some w -> Q (w_id w))) ho.
(** Two octrees that share no storage. *)
Definition share_nothing (ho ho' : list hlayer) : Prop :=
  exists n, each_storage (fun i => (i < n)%nat) ho /\ each_storage (fun i => (n <= i)%nat) ho'.
