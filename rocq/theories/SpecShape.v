(** Specification vocabulary for image to shape and the loss of the auto-encoder. *)
From Coq Require Import List ZArith Bool QArith Qcanon.
From Verif Require Import Num.
Import ListNotations.

(** The [n] consecutive segments of length [c] of a row. *)
Definition segments (c n : nat) (r : list Qc) : list (list Qc) := map (fun k => firstn c (skipn (k * c) r)) (seq 0 n).
(** The label of a node: 1 if it is not empty. *)
Definition bit (b : bool) : Z := if b then 1%Z else 0%Z.
(** Sum of the squared differences of two rows. *)
Fixpoint squared_distance (a b : list Qc) : Qc :=
  match a, b with x :: a, y :: b => ((x - y) * (x - y) + squared_distance a b)%Qc | _, _ => 0%Qc end.
