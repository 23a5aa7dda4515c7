(** Model of how point clouds are written to files and read from them: Points.save
    (ocnn/octree/points.py), projects/tools/utils.py, projects/datascts/utils.py,
    projects/datascts/modelnet40.py and the conversion of projects/tools/seg_shapenet.py.
    A file is modelled by the numbers in it, not by its bytes; errors of the operating
    system are left out, with the exception of the empty folder name. *)
From Coq Require Import String Ascii List ZArith Bool QArith Qcanon.
From Verif Require Import Res Num Points.
Import ListNotations.
Local Open Scope string_scope.
Local Open Scope list_scope.
Local Open Scope nat_scope.

(** A two-dimensional array, as the list of its rows. *)
Notation table := (list (list Qc)) (only parsing).

(** What a file holds: named arrays (numpy's npz), lines of numbers (xyz), or named and
    typed columns (ply). *)
Inductive dtype : Type := F4 | U1.
Inductive file : Type :=
| NpzFile (d : list (string * table))
| XyzFile (lines : table)
| PlyFile (types : list (string * dtype)) (vertices : table).

(** str.endswith *)
Definition ends_with (s suf : string) : bool :=
  (String.length suf <=? String.length s) &&
  String.eqb (substring (String.length s - String.length suf) (String.length suf) s) suf.
Fixpoint has_char (c : ascii) (s : string) : bool :=
  match s with EmptyString => false | String a t => Ascii.eqb a c || has_char c t end.
(** filename.split('.')[-1] *)
Fixpoint suffix_of (s : string) : string :=
  match s with
  | EmptyString => s
  | String a t => if has_char "." t then suffix_of t else if Ascii.eqb a "." then t else s
  end.
(** str.upper of one ASCII character (other characters are not modelled) *)
Definition up_char (c : ascii) : ascii :=
  let n := nat_of_ascii c in
  if (97 <=? n) && (n <=? 122) then ascii_of_nat (n - 32) else c.

(** np.concatenate(arrays, axis=1): no array, or different numbers of rows, raise *)
Definition beside (a b : table) : table := map (fun xy => fst xy ++ snd xy) (combine a b).
Definition concat_cols (l : list table) : res table :=
  match l with
  | [] => Err ValueError
  | a :: t => if forallb (fun b => List.length b =? List.length a) t then Ok (fold_left beside t a) else Err ValueError
  end.

(** ** points.py:266-295, Points.save *)
(** points.py:275-278, the entry of the table for one (upper case) letter *)
Definition save_attr (p : pcloud Qc) (c : ascii) : res (string * option table) :=
  if Ascii.eqb c "P" then Ok ("points", Some (map v3list (p_points p)))
  else if Ascii.eqb c "N" then Ok ("normals", option_map (map v3list) (p_normals p))
  else if Ascii.eqb c "F" then Ok ("features", p_features p)
  else if Ascii.eqb c "L" then Ok ("labels", p_labels p)
  else if Ascii.eqb c "B" then Ok ("batch_id", option_map (map (fun i => [qz i])) (p_batch_id p))
  else Err KeyError.
(** points.py:280-287, the loop over the letters; the arrays of a Points object have two
    dimensions, so that line 285 does nothing *)
Fixpoint save_cols (p : pcloud Qc) (info : list ascii) : res (list (string * table)) :=
  match info with
  | [] => Ok []
  | c :: info =>
      no <- save_attr p (up_char c) ;;
      rest <- save_cols p info ;;
      Ok (match snd no with Some a => (fst no, a) :: rest | None => rest end)
  end.
(** dict(zip(names, outs)): a name that comes again keeps its place *)
Fixpoint dict_set (k : string) (a : table) (d : list (string * table)) : list (string * table) :=
  match d with
  | [] => [(k, a)]
  | (k', a') :: d => if String.eqb k k' then (k, a) :: d else (k', a') :: dict_set k a d
  end.
Definition dict_of (l : list (string * table)) : list (string * table) :=
  fold_left (fun d ka => dict_set (fst ka) (snd ka) d) l [].
(** fmt='%.6f': the nearest multiple of 10^-6, an even one in the middle *)
Definition fmt6 (x : Qc) : Qc :=
  let y := (x * qz 1000000)%Qc in
  let f := qfloor y in
  let r := (y - qz f)%Qc in
  let up := qltb (Q2Qc (1 # 2)) r || (qeqb (Q2Qc (1 # 2)) r && Z.odd f) in
  (qz (if up then (f + 1)%Z else f) / qz 1000000)%Qc.
(** points.py:289-295; np.savez adds the suffix .npz to a name without it.  The result is
    the name of the file and its contents. *)
Definition points_save (p : pcloud Qc) (filename : string) (info : string) : res (string * file) :=
  cols <- save_cols p (list_ascii_of_string info) ;;
  if ends_with filename "npz" then
    Ok (if ends_with filename ".npz" then filename else String.append filename ".npz", NpzFile (dict_of cols))
  else if ends_with filename "xyz" then
    lines <- concat_cols (map snd cols) ;;
    Ok (filename, XyzFile (map (map fmt6) lines))
  else Err ValueError.

(** ** projects/tools/utils.py:14-43, save_points_to_ply *)
(** os.path.dirname *)
Fixpoint upto_slash (s : string) : string :=
  match s with
  | EmptyString => EmptyString
  | String a t => if has_char "/" s then String a (upto_slash t) else EmptyString
  end.
Fixpoint all_slash (s : string) : bool :=
  match s with EmptyString => true | String a t => Ascii.eqb a "/" && all_slash t end.
Fixpoint strip_slash (s : string) : string :=
  match s with EmptyString => EmptyString | String a t => if all_slash s then EmptyString else String a (strip_slash t) end.
Definition dirname (s : string) : string :=
  let h := upto_slash s in if all_slash h then h else strip_slash h.

Section Casts.
(** Rounding to a 32-bit floating-point number. *)
Variable f32 : Qc -> Qc.

(** Assignment to a field of a structured array.  A value below 0 or above 255 assigned
    to a byte wraps around or raises, depending on the version of numpy; the theorems
    speak of the values from 0 to 255. *)
Definition cast (d : dtype) (x : Qc) : Qc :=
  match d with F4 => f32 x | U1 => qz (qtrunc x mod 256) end.
(** np.array([tuple(p) for p in rows], dtype=types): a row of another length raises *)
Fixpoint cast_row (types : list (string * dtype)) (r : list Qc) : res (list Qc) :=
  match types, r with
  | [], [] => Ok []
  | (_, d) :: types, x :: r => t <- cast_row types r ;; Ok (cast d x :: t)
  | _, _ => Err ValueError
  end.

(** utils.py:20-33, the arrays and the types of their columns.  Labels are passed as a
    vector or as a table; np.concatenate raises for a vector. *)
Definition ply_types (normals colors labels : bool) : list (string * dtype) :=
  [("x", F4); ("y", F4); ("z", F4)] ++
  (if normals then [("nx", F4); ("ny", F4); ("nz", F4)] else []) ++
  (if colors then [("red", U1); ("green", U1); ("blue", U1)] else []) ++
  (if labels then [("label", U1)] else []).
Definition some {A} (o : option A) : bool := match o with Some _ => true | None => false end.
Definition opt_list {A} (o : option A) : list A := match o with Some a => [a] | None => [] end.
Definition label_table (l : option (lab_arg Qc)) : res (option table) :=
  match l with None => Ok None | Some (Lab2 t) => Ok (Some t) | Some (Lab1 _) => Err ValueError end.
(** utils.py:20-37 *)
Definition ply_element (points : table) (normals colors : option table) (labels : option (lab_arg Qc)) : res file :=
  labels <- label_table labels ;;
  rows <- concat_cols (points :: opt_list normals ++ opt_list colors ++ opt_list labels) ;;
  let types := ply_types (some normals) (some colors) (some labels) in
  v <- mapM (cast_row types) rows ;;
  Ok (PlyFile types v).
(** utils.py:39-43.  [have] tells which folders exist; os.makedirs('') fails with
    FileNotFoundError. *)
Inductive outcome : Type := Written (made : option string) (name : string) (f : file) | Raised (e : exn) | NotFound.
Definition save_points_to_ply (have : string -> bool) (filename : string) (points : table)
    (normals colors : option table) (labels : option (lab_arg Qc)) : outcome :=
  match ply_element points normals colors labels with
  | Err e => Raised e
  | Ok f =>
      let folder := dirname filename in
      if String.eqb folder "" then NotFound
      else Written (if have folder then None else Some folder) filename f
  end.

(** ** projects/datascts/utils.py *)
Inductive arr : Type := Floats (t : table) | Ints (t : list (list Z)) | IntVec (l : list Z).
Fixpoint find {A} (k : string) (d : list (string * A)) : option A :=
  match d with [] => None | (k', a) :: d => if String.eqb k k' then Some a else find k d end.
(** raw[name] of an archive *)
Definition npz_get (d : list (string * table)) (k : string) : res table :=
  match find k d with Some a => Ok a | None => Err KeyError end.
(** utils.py:45-57, ReadNpz.__call__ *)
Definition read_npz (has_normal has_color has_label : bool) (d : list (string * table)) : res (list (string * arr)) :=
  p <- npz_get d "points" ;;
  n <- (if has_normal then a <- npz_get d "normals" ;; Ok [("normals", Floats (map (map f32) a))] else Ok []) ;;
  c <- (if has_color then a <- npz_get d "colors" ;; Ok [("colors", Floats (map (map f32) a))] else Ok []) ;;
  l <- (if has_label then a <- npz_get d "labels" ;; Ok [("labels", Ints (map (map qtrunc) a))] else Ok []) ;;
  Ok (("points", Floats (map (map f32) p)) :: n ++ c ++ l).

(** vtx[name]: the column of that name; numpy raises ValueError if there is none *)
Fixpoint column (types : list (string * dtype)) (k : string) : option nat :=
  match types with [] => None | (k', _) :: t => if String.eqb k k' then Some 0 else option_map S (column t k) end.
Definition ply_get (types : list (string * dtype)) (v : table) (k : string) : res (list Qc) :=
  match column types k with Some j => Ok (map (fun r => nth j r 0%Qc) v) | None => Err ValueError end.
(** np.stack([a, b, c], axis=1) of columns of one element *)
Definition stack3 (a b c : list Qc) : table := map (fun abc => [fst (fst abc); snd (fst abc); snd abc]) (combine (combine a b) c).
Definition ply_get3 (types : list (string * dtype)) (v : table) (x y z : string) : res table :=
  a <- ply_get types v x ;; b <- ply_get types v y ;; c <- ply_get types v z ;; Ok (stack3 a b c).
(** utils.py:21-37, ReadPly.__call__ *)
Definition read_ply (has_normal has_color has_label : bool) (types : list (string * dtype)) (v : table) : res (list (string * arr)) :=
  p <- ply_get3 types v "x" "y" "z" ;;
  n <- (if has_normal then a <- ply_get3 types v "nx" "ny" "nz" ;; Ok [("normals", Floats (map (map f32) a))] else Ok []) ;;
  c <- (if has_color then a <- ply_get3 types v "red" "green" "blue" ;; Ok [("colors", Floats (map (map f32) a))] else Ok []) ;;
  l <- (if has_label then a <- ply_get types v "label" ;; Ok [("labels", IntVec (map qtrunc a))] else Ok []) ;;
  Ok (("points", Floats (map (map f32) p)) :: n ++ c ++ l).

(** utils.py:62-72, ReadFile: the reader is chosen by the suffix of the name.  A file whose
    contents are of the other kind makes the library that parses it raise; the model says
    ValueError. *)
Definition read_file (has_normal has_color has_label : bool) (filename : string) (f : file) : res (list (string * arr)) :=
  if String.eqb (suffix_of filename) "npz" then
    match f with NpzFile d => read_npz has_normal has_color has_label d | _ => Err ValueError end
  else if String.eqb (suffix_of filename) "ply" then
    match f with PlyFile t v => read_ply has_normal has_color has_label t v | _ => Err ValueError end
  else Err KeyError.

(** modelnet40.py:33-43, read_file *)
Fixpoint slashes (s : string) : string :=
  match s with EmptyString => s | String a t => String (if Ascii.eqb a "\" then "/"%char else a) (slashes t) end.
Definition read_modelnet (filename : string) (f : file) : res (list (string * arr)) :=
  let filename := slashes filename in
  if ends_with filename ".ply" then
    match f with PlyFile t v => read_ply true false false t v | _ => Err ValueError end
  else if ends_with filename ".npz" then
    match f with
    | NpzFile d => p <- npz_get d "points" ;; n <- npz_get d "normals" ;; Ok [("points", Floats p); ("normals", Floats n)]
    | _ => Err ValueError
    end
  else Err ValueError.

(** ** projects/tools/seg_shapenet.py *)
(** seg_shapenet.py:38-39 *)
Definition seg_num : list Z := [4; 2; 2; 4; 4; 3; 3; 2; 4; 2; 6; 2; 3; 3; 3; 3]%Z.
Definition dis : list Z := [0; 4; 6; 8; 12; 16; 19; 22; 24; 28; 30; 36; 38; 41; 44; 47]%Z.
(** seg_shapenet.py:71-79, one file of category [i]; np.loadtxt returns a vector for a file
    of a single line, and for an empty one, and raw[:, :3] then raises IndexError *)
Definition txt_to_ply (have : string -> bool) (i : nat) (filename_ply : string) (raw : table) : outcome :=
  if List.length raw <=? 1 then Raised IndexError
  else
    match nth_error dis i with
    | None => Raised IndexError
    | Some d =>
        let points := map (firstn 3) raw in
        let normals := map (fun r => firstn 3 (skipn 3 r)) raw in
        let label := map (fun r => map (fun x => (x - qz d)%Qc) (skipn 6 r)) raw in
        save_points_to_ply have filename_ply points (Some normals) None (Some (Lab2 label))
    end.
End Casts.
