(** The last layer of a network: what a change of its weights and of its bias does to the
    logits.  Independent of the [forward] methods. *)
From Coq Require Import String List ZArith Bool QArith Qcanon.
From Verif Require Import Res Net SpecState.
Import ListNotations.
Open Scope list_scope.

(** The tensors of a checkpoint without the last two: the weights and the bias of the last layer. *)
Definition before_last_layer (l : list (path * slot)) : list (path * slot) := firstn (length l - 2) l.
(** [l] ends with a linear layer [p] of [ci] inputs and [co] outputs, with a bias. *)
Definition last_layer (l : list (path * slot)) (p : path) (ci co : nat) : Prop :=
  l = before_last_layer l ++ s_linear p ci co.

(** The layer [p] of [P'] has the weights of [P] times [c], the bias of [P] times [c] plus [s]. *)
Definition layer_changed (P P' : params) (p : path) (ci co : nat) (c : Qc) (s : nat -> Qc) : Prop :=
  (forall j l, (j < co)%nat -> (l < ci)%nat -> p_weight P' p O j l = c * p_weight P p O j l)%Qc /\
  (forall j, (j < co)%nat -> p_bias P' p j = c * p_bias P p j + s j)%Qc.
(** Row by row and channel by channel, the logits are multiplied by [c] and moved by [s]. *)
Definition logits_changed (co : nat) (c : Qc) (s : nat -> Qc) (y y' : list (list Qc)) : Prop :=
  Forall2 (fun r r' => length r = co /\ length r' = co /\
    forall j, (j < co)%nat -> nth j r' 0 = c * nth j r 0 + s j)%Qc y y'.
(** Both calls return, and the results are related; or both raise the same exception. *)
Definition outcomes {A} (R : A -> A -> Prop) (r r' : res A) : Prop :=
  match r, r' with Ok y, Ok y' => R y y' | Err e, Err e' => e = e' | _, _ => False end.
