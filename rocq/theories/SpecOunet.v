(** Specification: which calls of a function are allowed and which value each parameter gets. *)
From Coq Require Import String List.
Import ListNotations.

(** [sig] lists the parameters with their defaults.  The call passes no more positional
    arguments than there are parameters, every keyword names a parameter that is not given
    by position, and every parameter that is given neither way has a default. *)
Definition call_allowed {V} (sig : list (string * option V)) (args : list V) (kwargs : list (string * V)) : Prop :=
  length args <= length sig /\
  (forall k, In k (map fst kwargs) -> exists i dflt, length args <= i /\ nth_error sig i = Some (k, dflt)) /\
  (forall i k, length args <= i -> nth_error sig i = Some (k, None) -> In k (map fst kwargs)).
(** Parameter [i], named [k], gets [v]: from its position, else by keyword, else its default. *)
Definition receives {V} (args : list V) (kwargs : list (string * V)) (i : nat) (k : string) (dflt : option V) (v : V) : Prop :=
  nth_error args i = Some v \/
  (length args <= i /\ In (k, v) kwargs) \/
  (length args <= i /\ ~ In k (map fst kwargs) /\ dflt = Some v).
