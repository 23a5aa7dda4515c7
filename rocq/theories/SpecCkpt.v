(** What the upgrade of checkpoints is compared with. *)
From Coq Require Import String Ascii List ZArith Bool QArith Qcanon.
From Verif Require Import Num SpecFilelist Ckpt.
Import ListNotations.
Local Open Scope string_scope.
Local Open Scope list_scope.
Local Open Scope nat_scope.

(** [s'] is [s] with every occurrence of [old], found from left to right, replaced by [new]. *)
Inductive replaced (old new : string) : string -> string -> Prop :=
| rep_none s : ~ occurs old s -> replaced old new s s
| rep_first a b b' : (forall a' b', String.append a (String.append old b) = String.append a' (String.append old b') -> String.length a <= String.length a') ->
    replaced old new b b' -> replaced old new (String.append a (String.append old b)) (String.append a (String.append new b')).

(** A tensor has as many entries as its shape says. *)
Definition whole (v : tensor) : Prop := List.length (t_data v) = fold_right Nat.mul 1 (t_shape v).
(** Entry [i, j, k] of a three-dimensional tensor. *)
Definition entry3 (v : tensor) (i j k : nat) : option Qc :=
  match t_shape v with
  | [a; b; c] => if (i <? a) && (j <? b) && (k <? c) then nth_error (t_data v) ((i * b + j) * c + k) else None
  | _ => None
  end.

(** The new name of an entry. *)
Definition new_name (k k' : string) : Prop :=
  (occurs "conv.weight" k -> k' = k) /\
  (~ occurs "conv.weight" k -> occurs "conv1x1.weight" k -> occurs "conv1x1.conv1x1" k -> replaced "conv1x1.conv1x1" "conv.linear" k k') /\
  (~ occurs "conv.weight" k -> occurs "conv1x1.weight" k -> ~ occurs "conv1x1.conv1x1" k -> replaced "conv1x1" "linear" k k') /\
  (~ occurs "conv.weight" k -> ~ occurs "conv1x1.weight" k -> occurs "conv1x1.bias" k -> replaced "conv1x1.bias" "linear.bias" k k') /\
  (~ occurs "conv.weight" k -> ~ occurs "conv1x1.weight" k -> ~ occurs "conv1x1.bias" k -> k' = k).
(** The cells of the kernel that a name stands for. *)
Definition cells_of (k : string) (n : nat) : Prop :=
  (occurs "downsample" k \/ occurs "upsample" k -> n = 8) /\ (~ occurs "downsample" k -> ~ occurs "upsample" k -> n = 27).
(** The new value: convolution weights (out, in, cell), in any grouping of the last two
    dimensions, become (cell, in, out); weights (out, in, 1) become (out, in). *)
Definition new_value (k : string) (v v' : tensor) : Prop :=
  (occurs "conv.weight" k -> exists o i n, cells_of k n /\ 0 < o /\ List.length (t_data v) = o * i * n /\ t_shape v' = [n; i; o] /\ whole v' /\
     forall a b c, a < o -> b < i -> c < n -> entry3 v' c b a = entry3 (mkTensor [o; i; n] (t_data v)) a b c) /\
  (~ occurs "conv.weight" k -> occurs "conv1x1.weight" k -> t_data v' = t_data v /\
     exists a b c r, t_shape v = a :: b :: c :: r /\ (c = 1 -> t_shape v' = a :: b :: r) /\ (c <> 1 -> v' = v)) /\
  (~ occurs "conv.weight" k -> ~ occurs "conv1x1.weight" k -> v' = v).
(** Which entries can be upgraded. *)
Definition upgradable (k : string) (v : tensor) : Prop :=
  (occurs "conv.weight" k -> exists o r n, t_shape v = o :: r /\ cells_of k n /\ 0 < o /\ exists i, List.length (t_data v) = o * i * n) /\
  (~ occurs "conv.weight" k -> occurs "conv1x1.weight" k -> 3 <= List.length (t_shape v)).

(** Rows of the listing: the entries whose name contains none of [skips], numbered. *)
Definition listed (skips : list string) (vars : ckpt) (rows : list (nat * string * list nat * nat)) (total : nat) : Prop :=
  exists kept, (forall kv, In kv kept <-> In kv vars /\ forall s, In s skips -> ~ occurs s (fst kv)) /\
    (exists keep, kept = filter keep vars) /\
    rows = map (fun '(i, kv) => (i, fst kv, t_shape (snd kv), fold_right Nat.mul 1 (t_shape (snd kv)))) (combine (seq 0 (List.length kept)) kept) /\
    total = list_sum (map (fun kv => fold_right Nat.mul 1 (t_shape (snd kv))) kept).
