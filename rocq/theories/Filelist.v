(** Model of the file lists that the tools of the projects write: get_filelist of
    projects/tools/cls_modelnet.py, create_filelist of image2shape.py, generate_file_list
    of seg_kitti.py and generate_filelist of seg_shapenet.py.  A folder is the list of
    names that os.listdir returns for it, in any order; lists are modelled as lists of
    lines. *)
From Coq Require Import String Ascii List ZArith Bool QArith Qcanon Qround.
From Verif Require Import Res Num Tools Files.
Import ListNotations.
Local Open Scope string_scope.
Local Open Scope list_scope.
Local Open Scope nat_scope.

(** os.path.join of names that are not empty and do not contain '/' *)
Definition join (a b : string) : string := String.append a (String "/" b).
(** math.ceil *)
Definition qceil (x : Qc) : Z := (- qfloor (- x))%Z.

Section Rounding.
(** Rounding of a product of floating-point numbers. *)
Variable fl : Qc -> Qc.

(** ** cls_modelnet.py:81-94, get_filelist.  [root] are the names in the root folder,
    [inside] those in a folder below it. *)
(** lines 86-93, for one folder *)
Definition category_files (inside : string -> list string) (train : bool) (suffix : string) (ratio : Qc) (kf : nat * string) : res (list (string * nat)) :=
  let subfolder := if train then "train" else "test" in
  let current := join (snd kf) subfolder in
  let filenames := filter (fun x => ends_with x suffix) (sorted_names (inside current)) in
  let total := qceil (fl (qz (Z.of_nat (List.length filenames)) * ratio)) in
  mapM (fun i => match nth_error filenames i with
                 | Some x => Ok (join current x, fst kf)
                 | None => Err IndexError end) (seq 0 (Z.to_nat total)).
Definition get_filelist (root : list string) (inside : string -> list string) (train : bool) (suffix : string) (ratio : Qc) : res (list string * list nat) :=
  let folders := sorted_names root in
  _ <- assert_ (List.length folders =? 40) ;;
  l <- mapM (category_files inside train suffix ratio) (combine (seq 0 (List.length folders)) folders) ;;
  Ok (map fst (concat l), map snd (concat l)).

(** ** image2shape.py:79-99, create_filelist *)
Definition i2s_categories : list string :=
  ["02691156"; "02828884"; "02933112"; "02958343"; "03001627"; "03211117"; "03636649"; "03691459"; "04090263"; "04256520";
   "04379243"; "04401088"; "04530566"].
(** the floating-point number 0.8 *)
Definition f08 : Qc := Q2Qc (3602879701896397 # 4503599627370496).
(** lines 89-94 *)
Definition i2s_names (img pts : string -> list string) (category : string) : list string :=
  map (fun f => String.append category (String "/" f))
      (filter (fun f => existsb (String.eqb (String.append f ".ply")) (sorted_names (pts category))) (sorted_names (img category))).
(** line 97 *)
Definition i2s_num (n : nat) : nat := Z.to_nat (qtrunc (fl (qz (Z.of_nat n) * f08))).
Definition create_filelist (img pts : string -> list string) : list string * list string :=
  fold_left (fun tt category =>
    let filenames := i2s_names img pts category in
    let num := i2s_num (List.length filenames) in
    (fst tt ++ firstn num filenames, snd tt ++ skipn num filenames)) i2s_categories ([], []).
End Rounding.

(** ** seg_kitti.py:25-46, generate_file_list.  [inside] are the names in a folder below the
    root folder; the result are the names of the lists and their lines. *)
Definition kitti_split : list (string * list string) :=
  let train := ["00"; "01"; "02"; "03"; "04"; "05"; "06"; "07"; "09"; "10"] in
  let val := ["08"] in
  let test := ["11"; "12"; "13"; "14"; "15"; "16"; "17"; "18"; "19"; "20"; "21"] in
  [("train", train); ("val", val); ("test", test); ("train_val", train ++ val)].
Definition kitti_folder (s : string) : string := join (join "dataset/sequences" s) "velodyne".
Definition kitti_lines (inside : string -> list string) (seqs : list string) : list string :=
  map (fun x => String.append x " 0")
      (fold_left (fun filenames s => filenames ++ map (join (kitti_folder s)) (sorted_names (inside (kitti_folder s)))) seqs []).
Definition kitti_lists (inside : string -> list string) : list (string * list string) :=
  map (fun kv => (fst kv, kitti_lines inside (snd kv))) kitti_split.

(** ** seg_shapenet.py:84-111, generate_filelist *)
Definition seg_categories : list string :=
  ["02691156"; "02773838"; "02954340"; "02958343"; "03001627"; "03261776"; "03467517"; "03624134";
   "03636649"; "03642806"; "03790512"; "03797390"; "03948459"; "04099429"; "04225987"; "04379243"].
(** 'c in line' *)
Fixpoint contains (c line : string) : bool :=
  String.prefix c line || match line with EmptyString => false | String _ t => contains c t end.
(** line[11:] *)
Fixpoint drop (n : nat) (s : string) : string :=
  match n, s with S n, String _ t => drop n t | _, _ => s end.
(** the pair of the name '%s.ply' and the number of one list entry *)
Definition seg_entries (i : nat) (c : string) (lines : list string) : list (string * nat) :=
  map (fun line => (String.append (drop 11 line) ".ply", i)) (filter (contains c) lines).
(** the two lists of category [i] *)
Definition seg_lists (train val test : list string) : list (list (string * nat) * list (string * nat)) :=
  map (fun ic => (seg_entries (fst ic) (snd ic) train ++ seg_entries (fst ic) (snd ic) val, seg_entries (fst ic) (snd ic) test))
      (combine (seq 0 (List.length seg_categories)) seg_categories).
