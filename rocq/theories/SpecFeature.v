(** Specification of the input features. *)
From Coq Require Import String Ascii List ZArith Bool QArith Qcanon.
From Verif Require Import Num.
Import ListNotations.

(** The string contains the letter, in upper or lower case. *)
Definition asks (s : string) (up lo : ascii) : bool :=
  existsb (fun a => Ascii.eqb a up || Ascii.eqb a lo) (list_ascii_of_string s).
(** Position relative to the centre of the cell a point lies in, and relative to the
    cube [-1,1]^3, for a point of the finest layer of depth [d] in units of cells. *)
Definition local_coord (c : Qc) : Qc := (c - (qz (qfloor c) + Q2Qc (1 # 2)))%Qc.
Definition global_coord (d : nat) (c : Qc) : Qc := (c * qz 2 / qz (2 ^ Z.of_nat d) - qz 1)%Qc.
Definition dot3 (p q : v3 Qc) : Qc := let '(a, b, c) := p in let '(x, y, z) := q in (a * x + b * y + c * z)%Qc.
(** The channels of one node with average normal [n], average point [p], average
    feature [f]: the parts asked for, always in this order. *)
Definition feature_row (s : string) (d : nat) (n p : v3 Qc) (f : list Qc) : list Qc :=
  (if asks s "N" "n" then v3list n else []) ++
  (if asks s "D" "d" then [dot3 (v3map local_coord p) n] else []) ++
  (if asks s "L" "l" then v3list (v3map local_coord p) else []) ++
  (if asks s "P" "p" then v3list (v3map (global_coord d) p) else []) ++
  (if asks s "F" "f" then f else []).
Definition channels (s : string) (k : nat) : nat :=
  (if asks s "N" "n" then 3 else 0) + (if asks s "D" "d" then 1 else 0) + (if asks s "L" "l" then 3 else 0) +
  (if asks s "P" "p" then 3 else 0) + (if asks s "F" "f" then k else 0).
