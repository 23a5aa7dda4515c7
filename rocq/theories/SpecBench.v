(** What the ShapeNet benchmark is compared with. *)
From Coq Require Import Ascii String List ZArith Bool QArith Qcanon.
From Verif Require Import Num Bench.
Import ListNotations.
Local Open Scope string_scope.
Local Open Scope list_scope.
Local Open Scope nat_scope.

(** The text [c], written somewhere in [s] after [a]. *)
Definition after (a c s : string) : Prop := exists b, s = String.append a (String.append c b).
(** [line] shows the value [v], five characters, where it first mentions the mIoU of the test. *)
Definition shows (line v : string) : Prop :=
  String.length v = 5 /\ exists a, after a (String.append "test/mIoU: " v) line /\ forall a', after a' "test/mIoU:" line -> String.length a <= String.length a'.
(** The word "key value" is in the command, and no other word for that key. *)
Definition setting (cmds : list string) (key value : string) : Prop :=
  forall v, In (String.append key (String " " v)) cmds <-> v = value.
(** Running a command: the log in its folder ends with the line [result cmds], and no log in
    another folder changes. *)
Definition trains (system : list string -> files -> files) (result : list string -> string) : Prop :=
  forall cmds folder s, setting cmds "SOLVER.logdir" folder ->
    (exists l, system cmds s (String.append folder "/log.csv") = Some (l ++ [result cmds])) /\
    forall other, other <> folder -> system cmds s (String.append other "/log.csv") = s (String.append other "/log.csv").
(** A name that does not start with '/' and is not empty. *)
Definition relative (s : string) : Prop := exists c t, s = String c t /\ c <> "/"%char.
(** The last of [ratios] that is printed like [q], with two digits. *)
Definition last_printed (ratios : list Qc) (q r : Qc) : Prop :=
  fmt2 r = fmt2 q /\ exists pre post, ratios = pre ++ r :: post /\ forall x, In x post -> fmt2 x <> fmt2 q.
