(** What the file lists are compared with. *)
From Coq Require Import String Ascii List ZArith Bool QArith Qcanon Sorted.
From Verif Require Import Num SpecTools.
Import ListNotations.
Local Open Scope string_scope.
Local Open Scope list_scope.
Local Open Scope nat_scope.

(** [files] are the names of [l] with property [P], in alphabetical order. *)
Definition in_order (P : string -> Prop) (l files : list string) : Prop :=
  StronglySorted before files /\ forall x, In x files <-> In x l /\ P x.
Definition has_suffix (suffix : string) (x : string) : Prop := exists b, x = String.append b suffix.
(** Rounding of floating-point numbers: monotone, and exact for integers up to 2^53. *)
Definition rounds (fl : Qc -> Qc) : Prop :=
  (forall x y, (x <= y)%Qc -> (fl x <= fl y)%Qc) /\ forall k, (0 <= k <= 2 ^ 53)%Z -> fl (qz k) = qz k.
(** ... and for multiples of 1/8 up to 2^50 *)
Definition rounds8 (fl : Qc -> Qc) : Prop :=
  (forall x y, (x <= y)%Qc -> (fl x <= fl y)%Qc) /\ forall k, (0 <= k <= 2 ^ 53)%Z -> fl (qz k / qz 8)%Qc = (qz k / qz 8)%Qc.
Definition small (l : list string) : Prop := (Z.of_nat (List.length l) <= 2 ^ 49)%Z.
(** [quota n] is the least number that is not below the rounded product. *)
Definition is_quota (fl : Qc -> Qc) (ratio : Qc) (quota : nat -> nat) : Prop :=
  forall n, (fl (qz (Z.of_nat n) * ratio) <= qz (Z.of_nat (quota n)))%Qc /\
    forall m, (fl (qz (Z.of_nat n) * ratio) <= qz (Z.of_nat m))%Qc -> quota n <= m.
(** folder/sub/name *)
Definition path3 (a b c : string) : string := String.append a (String "/" (String.append b (String "/" c))).

(** Sequences of SemanticKITTI, and the line of a scan. *)
Definition digit (n : nat) : ascii := ascii_of_nat (48 + n).
Definition two (i : nat) : string := String (digit (i / 10)) (String (digit (i mod 10)) EmptyString).
Definition velodyne (i : nat) : string := String.append "dataset/sequences/" (String.append (two i) "/velodyne").
Definition scan_line (i : nat) (x : string) : string := String.append (velodyne i) (String "/" (String.append x " 0")).

(** ShapeNet: a code occurs in a line. *)
Definition occurs (c line : string) : Prop := exists a b, line = String.append a (String.append c b).
(** The line of shape [h] of the category with code [c], and its entry for the number [i]. *)
Definition shape_line (c h : string) : string := String.append "shape_data/" (String.append c (String "/" h)).
Definition shape_entry (c h : string) (i : nat) : string * nat := (String.append c (String "/" (String.append h ".ply")), i).
