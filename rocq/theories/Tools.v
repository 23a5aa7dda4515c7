(** Model of the file handling of projects/tools: cleanup_ckpt.py, cls_modelnet.py
    (_clean_off_file and its loop), seg_scannet.py (process_scannet), with every point at
    which a run can be interrupted. *)
From Coq Require Import String Ascii List ZArith Bool.
Import ListNotations.
Local Open Scope string_scope.

(** ** Runs.  An action maps a state to the states after each of its atomic steps, in
    order; a run is a list of actions.  [trace] lists all states a run goes through, from
    the initial one to the last; an interrupted run leaves one of them. *)
Notation action S := (S -> list S) (only parsing).
Definition end_of {S} (s : S) (l : list S) : S := last l s.
Fixpoint trace {S} (acts : list (action S)) (s : S) : list S :=
  match acts with
  | [] => [s]
  | a :: acts => (s :: removelast (a s) ++ trace acts (end_of s (a s)))%list
  end.
Fixpoint run {S} (acts : list (action S)) (s : S) : S :=
  match acts with [] => s | a :: acts => run acts (end_of s (a s)) end.

(** ** sorted: insertion sort of names, compared character by character *)
Fixpoint insert (x : string) (l : list string) : list string :=
  match l with [] => [x] | y :: t => if String.leb x y then x :: l else y :: insert x t end.
Fixpoint sorted_names (l : list string) : list string :=
  match l with [] => [] | x :: t => insert x (sorted_names t) end.

(** ** cleanup_ckpt.py.  The state maps each checkpoint folder to the names in it, in the
    order in which os.listdir returns them. *)
Notation folders := (list (list string)) (only parsing).
(** os.remove *)
Definition remove_name (x : string) (l : list string) : list string := filter (fun y => negb (String.eqb x y)) l.
(** cleanup_ckpt.py:25-26: ckpts[:-2] + ckpts[-1:] if there is not exactly one file *)
Definition doomed (names : list string) : list string :=
  let ckpts := sorted_names names in
  if Nat.eqb (List.length ckpts) 1 then []
  else (firstn (List.length ckpts - 2) ckpts ++ skipn (List.length ckpts - 1) ckpts)%list.
(** cleanup_ckpt.py:27-29: the contents of one folder after each removal *)
Fixpoint removals (names victims : list string) : list (list string) :=
  match victims with
  | [] => []
  | x :: victims => remove_name x names :: removals (remove_name x names) victims
  end.
Definition set_folder (i : nat) (names : list string) (s : folders) : folders := (firstn i s ++ names :: skipn (S i) s)%list.
(** cleanup_ckpt.py:14-29, the body for folder [i], and the loop over all of them (entries
    that are not folders are skipped by the code and left out here) *)
Definition clean_folder (i : nat) : action folders := fun s =>
  match nth_error s i with
  | None => []
  | Some names => map (fun l => set_folder i l s) (removals names (doomed names))
  end.
Definition cleanup (n : nat) : list (action folders) := map clean_folder (seq 0 n).

(** ** Files that are written: a name is absent, holds a part of its contents, or all. *)
Inductive content : Type := Part | Whole (c : string).
Notation files := (string -> option content) (only parsing).
Definition put (f : string) (c : content) (s : files) : files := fun g => if String.eqb f g then Some c else s g.
(** open(f, 'w'), write, close: the file is truncated first *)
Definition write_file (f c : string) (s : files) : list files := [put f Part s; put f (Whole c) s].
(** several actions one after the other within one iteration *)
Definition then_ {S} (a b : action S) : action S := fun s => (a s ++ b (end_of s (a s)))%list.

(** *** cls_modelnet.py:46-55, the extraction of the archive [members] (name and contents),
    guarded by a flag file that is written after it.  extractall opens every member for
    writing and so replaces what an earlier run left. *)
Definition unzip (flag : string) (members : list (string * string)) (s : files) : list (action files) :=
  match s flag with
  | Some _ => []
  | None => (map (fun m s => write_file (fst m) (snd m) s) members ++ [fun s => write_file flag "unzip the data." s])%list
  end.

(** *** cls_modelnet.py:58-69, _clean_off_file.  Simplification: a file that holds only a
    part of its contents is left as it is (the code may put a line break behind its first
    three characters, which does not bring the rest back). *)
Definition starts_with (p c : string) : bool := String.eqb (substring 0 (String.length p) c) p.
Definition newline : string := String (ascii_of_nat 10) "".
Definition fix_off (c : string) : option string :=
  if negb (starts_with "OFF" c) then None
  else if starts_with ("OFF" ++ newline) c then None
  else Some (substring 0 3 c ++ newline ++ substring 3 (String.length c - 3) c).
Definition clean_off (f : string) : action files := fun s =>
  match s f with
  | Some (Whole c) => match fix_off c with Some c' => write_file f c' s | None => [] end
  | _ => []
  end.
(** cls_modelnet.py:130-136: the loop, guarded by a flag file that is written at its end *)
Definition clean_all (flag : string) (names : list string) (s : files) : list (action files) :=
  match s flag with
  | Some _ => []
  | None => (map clean_off names ++ [fun s => write_file flag "clean off files." s])%list
  end.

(** *** seg_scannet.py:215-255, process_scannet: for every scene the output is skipped if
    it exists; otherwise (training scenes) the labels are written, then the output.
    The contents computed from the scene are [labels] and [cloud]. *)
Record scene := mkScene { sc_out : string; sc_txt : option string; sc_labels : string; sc_cloud : string }.
Definition do_scene (sc : scene) : action files := fun s =>
  match s (sc_out sc) with
  | Some _ => []
  | None => then_ (fun s => match sc_txt sc with Some t => write_file t (sc_labels sc) s | None => [] end)
                  (fun s => write_file (sc_out sc) (sc_cloud sc) s) s
  end.
Definition process_scannet (scenes : list scene) : list (action files) := map do_scene scenes.
