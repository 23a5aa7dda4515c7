(** Specification of kernel-size lists: what a list of one, two or three sizes means. *)
From Coq Require Import String List ZArith.
From Verif Require Import Res Utils.
Import ListNotations.
Open Scope Z_scope.

(** The three sizes denoted by a list; a short list repeats its last size. *)
Definition three_sizes (l : list Z) : res (Z * Z * Z) :=
  match l with
  | [] => Err IndexError
  | [a] => Ok (a, a, a)
  | [a; b] => Ok (a, b, b)
  | [a; b; c] => Ok (a, b, c)
  | _ => Err AssertionError
  end.
(** The name of the kernel, e.g. "311", and the number of its cells. *)
Definition kernel_name (s : Z * Z * Z) : string :=
  let '(a, b, c) := s in (str_z a ++ str_z b ++ str_z c)%string.
Definition kernel_cells (s : Z * Z * Z) : Z := let '(a, b, c) := s in a * b * c.

(** All lists of a history, with the content they were created with. *)
Definition objects (h : list (list Z)) (evs : list levent) : list (list Z) :=
  h ++ flat_map (fun e => match e with ENew l => [l] | _ => [] end) evs.
