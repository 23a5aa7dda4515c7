(** Exact rational numbers standing for the floating-point values of the code,
    and small vectors of them. *)
From Coq Require Import List ZArith QArith Qcanon Qround.
Import ListNotations.

(** A row of features. *)
Notation vec := (list Qc) (only parsing).

Definition qz (z : Z) : Qc := Q2Qc (inject_Z z).

(** Python's [2 ** e] for an integer [e] of either sign. *)
Definition q2pow (e : Z) : Qc :=
  if (0 <=? e)%Z then qz (2 ^ e) else (/ qz (2 ^ (- e)))%Qc.

(** [.long()] of a float: rounding towards zero. *)
Definition qtrunc (q : Qc) : Z := Z.quot (Qnum q) (Zpos (Qden q)).
(** [.floor()] *)
Definition qfloor (q : Qc) : Z := Qfloor q.
(** [.frac()]: x - trunc(x) *)
Definition qfrac (q : Qc) : Qc := (q - qz (qtrunc q))%Qc.

Definition qleb (a b : Qc) : bool := Qle_bool a b.
Definition qltb (a b : Qc) : bool := negb (Qle_bool b a).
Definition qeqb (a b : Qc) : bool := Qeq_bool a b.

(** Row addition; both rows have the same length in every use. *)
Fixpoint vadd (a b : vec) : vec :=
  match a, b with
  | x :: a', y :: b' => (x + y)%Qc :: vadd a' b'
  | _, _ => []
  end.
Definition vscale (c : Qc) (a : vec) : vec := map (Qcmult c) a.
Definition vzero (n : nat) : vec := repeat (0%Qc) n.

(** Number of columns of a tensor of rows, [data.shape[1]]. *)
Definition width {A} (rows : list (list A)) : nat :=
  match rows with [] => O | r :: _ => length r end.

(** Rows of shape (3,). *)
Definition v3 (T : Type) : Type := (T * T * T)%type.
Definition v3map {T U} (f : T -> U) (p : v3 T) : v3 U :=
  let '(x, y, z) := p in (f x, f y, f z).
Definition v3zip {T U V} (f : T -> U -> V) (p : v3 T) (q : v3 U) : v3 V :=
  let '(x, y, z) := p in let '(a, b, c) := q in (f x a, f y b, f z c).
Definition v3add : v3 Qc -> v3 Qc -> v3 Qc := v3zip Qcplus.
Definition v3zero : v3 Qc := (0%Qc, 0%Qc, 0%Qc).
Definition v3list {T} (p : v3 T) : list T := let '(x, y, z) := p in [x; y; z].
