(** What saved and read point clouds are compared with. *)
From Coq Require Import String Ascii List ZArith Bool QArith Qcanon.
From Verif Require Import Num Points Files.
Import ListNotations.
Local Open Scope string_scope.
Local Open Scope list_scope.
Local Open Scope nat_scope.

(** The letters of the argument [info] of Points.save, in either case. *)
Definition letter (c : ascii) (name : string) : Prop :=
  In (c, name) [("P"%char, "points"); ("p"%char, "points"); ("N"%char, "normals"); ("n"%char, "normals");
                ("F"%char, "features"); ("f"%char, "features"); ("L"%char, "labels"); ("l"%char, "labels");
                ("B"%char, "batch_id"); ("b"%char, "batch_id")].
(** The cloud has the attribute of that name, and these are its rows. *)
Definition attr (p : pcloud Qc) (name : string) (a : list (list Qc)) : Prop :=
  (name = "points" /\ a = map v3list (p_points p)) \/
  (name = "normals" /\ exists n, p_normals p = Some n /\ a = map v3list n) \/
  (name = "features" /\ p_features p = Some a) \/
  (name = "labels" /\ p_labels p = Some a) \/
  (name = "batch_id" /\ exists b, p_batch_id p = Some b /\ a = map (fun i => [qz i]) b).
Definition absent (p : pcloud Qc) (name : string) : Prop := forall a, ~ attr p name a.
(** An attribute that [info] asks for and the cloud has. *)
Definition asked (p : pcloud Qc) (info : string) (name : string) (a : list (list Qc)) : Prop :=
  attr p name a /\ exists c, In c (list_ascii_of_string info) /\ letter c name.
(** ... as an option *)
Definition asked_opt (p : pcloud Qc) (info : string) (name : string) (o : option (list (list Qc))) : Prop :=
  match o with Some a => asked p info name a | None => forall a, ~ asked p info name a end.
Definition letters (info : string) : Prop := forall c, In c (list_ascii_of_string info) -> exists name, letter c name.

(** The [i]-th row of all attributes asked for, one after the other. *)
Inductive whole_row (p : pcloud Qc) (i : nat) : list ascii -> list Qc -> Prop :=
| wr_end : whole_row p i [] []
| wr_absent c name info r : letter c name -> absent p name -> whole_row p i info r -> whole_row p i (c :: info) r
| wr_take c name a x info r : letter c name -> attr p name a -> nth_error a i = Some x -> whole_row p i info r ->
    whole_row p i (c :: info) (x ++ r).

(** A number printed with six decimals. *)
Definition six_decimals (y x : Qc) : Prop :=
  (exists k, y = (qz k / qz 1000000)%Qc) /\
  (x - 1 / qz 2000000 <= y)%Qc /\ (y <= x + 1 / qz 2000000)%Qc.

(** Rows of a given length; a table with one row for each of [n] points. *)
Definition sized (n w : nat) (t : list (list Qc)) : Prop := List.length t = n /\ Forall (fun r => List.length r = w) t.
Definition osized (n w : nat) (t : option (list (list Qc))) : Prop := match t with Some t => sized n w t | None => True end.
(** Entries that a byte can hold. *)
Definition bytes (t : list (list Qc)) : Prop := Forall (Forall (fun x => exists k, (0 <= k <= 255)%Z /\ x = qz k)) t.
Definition obytes (t : option (list (list Qc))) : Prop := match t with Some t => bytes t | None => True end.
(** The flag is not set, or there is something to read. *)
Definition served {A} (flag : bool) (o : option A) : Prop := flag = true -> o <> None.
(** The entry of the result of a reader. *)
Definition entry {A} (flag : bool) (name : string) (f : A -> arr) (o : option A) : list (string * arr) :=
  if flag then match o with Some a => [(name, f a)] | None => [] end else [].
Definition flat (t : list (list Qc)) : list Z := map qtrunc (concat t).
(** The [i]-th rows of several tables, one after the other. *)
Definition rowcat (i : nat) (l : list (list (list Qc))) : list Qc := concat (map (fun a => nth i a []) l).
(** The number of parts of the categories before category [i] of ShapeNet. *)
Definition before (i : nat) : Z := fold_right Z.add 0%Z (firstn i seg_num).
