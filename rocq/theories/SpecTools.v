(** What the file handling of projects/tools is compared with: the order of names, and
    histories of interrupted runs. *)
From Coq Require Import String Ascii List Permutation.
From Verif Require Import Tools.
Import ListNotations.

(** The order of names: the first character that differs decides, and a name comes
    before its own extensions. *)
Inductive before : string -> string -> Prop :=
| b_end c t : before EmptyString (String c t)
| b_char a b s t : nat_of_ascii a < nat_of_ascii b -> before (String a s) (String b t)
| b_next c s t : before s t -> before (String c s) (String c t).

(** [x] is the second last of [names]. *)
Definition second_last (x : string) (names : list string) : Prop :=
  In x names /\ exists y, In y names /\ before x y /\ forall z, In z names -> z = y \/ z = x \/ before z x.

(** A history of interrupted runs.  [steps s] are the states a run that begins in [s] goes
    through; [seen] relates a state to what the next run finds, [fine] restricts the
    points at which a run may be interrupted. *)
Inductive history {S} (steps : S -> list S) (seen : S -> S -> Prop) (fine : S -> Prop) (s : S) : S -> Prop :=
| h_start : history steps seen fine s s
| h_stop m m' m'' : history steps seen fine s m -> In m' (steps m) -> fine m' -> seen m' m'' -> history steps seen fine s m''.

(** Listings in any order. *)
Definition relisted (a b : list (list string)) : Prop := Forall2 (@Permutation string) a b.

(** The text of a mesh file after the repair of its first line. *)
Inductive repaired : string -> string -> Prop :=
| r_fix rest : (forall t, rest <> String (ascii_of_nat 10) t) ->
    repaired ("OFF" ++ rest)%string ("OFF" ++ String (ascii_of_nat 10) rest)%string
| r_same c : (forall rest, c = ("OFF" ++ rest)%string -> exists t, rest = String (ascii_of_nat 10) t) -> repaired c c.

(** The files that are written for one scene. *)
Definition scene_files (sc : scene) : list string := sc_out sc :: match sc_txt sc with Some t => [t] | None => [] end.
