(** Model of projects/scripts/run_seg_shapenet.py, which trains and tests a segmentation network
    for each category of ShapeNet and each ratio of the training data, and summarises the
    logs.  A command is the list of its words before they are joined by blanks; what it does to
    the files is a parameter.  A file is the list of its lines. *)
From Coq Require Import Ascii String List ZArith Bool QArith Qcanon.
From Verif Require Import Res Num Utils Filelist.
Import ListNotations.
Local Open Scope string_scope.
Local Open Scope list_scope.
Local Open Scope nat_scope.

Definition cat (l : list string) : string := fold_right String.append "" l.
(** l[k] *)
Definition item {A} (l : list A) (k : nat) : res A := match nth_error l k with Some a => Ok a | None => Err IndexError end.

(** run_seg_shapenet.py:34-37 *)
Definition run_categories : list string :=
  ["02691156"; "02773838"; "02954340"; "02958343"; "03001627"; "03261776"; "03467517"; "03624134";
   "03636649"; "03642806"; "03790512"; "03797390"; "03948459"; "04099429"; "04225987"; "04379243"].
(** run_seg_shapenet.py:38-41 *)
Definition run_names : list string :=
  ["Aero"; "Bag"; "Cap"; "Car"; "Chair"; "EarPhone"; "Guitar"; "Knife"; "Lamp"; "Laptop"; "Motor"; "Mug"; "Pistol"; "Rocket"; "Skate"; "Table"].
(** run_seg_shapenet.py:42-48; max_iters (lines 49-50) is not used *)
Definition run_parts : list Z := [4; 2; 2; 4; 4; 3; 3; 2; 4; 2; 6; 2; 3; 3; 3; 3]%Z.
Definition train_num : list Z := [2348; 62; 44; 717; 3052; 55; 626; 312; 1261; 367; 151; 146; 234; 54; 121; 4421]%Z.
Definition test_num : list Z := [341; 14; 11; 153; 693; 14; 159; 80; 285; 78; 51; 38; 41; 12; 31; 842]%Z.
Definition max_epoches : list Z := [300; 1800; 2400; 600; 300; 2000; 600; 600; 300; 600; 1200; 1200; 600; 1800; 1200; 200]%Z.

(** run_seg_shapenet.py:12-20, the arguments other than the ratios and the unused --mode *)
Record args := mkArgs { a_alias : string; a_gpu : string; a_depth : Z; a_model : string; a_ckpt : string }.

(** '{:.2f}'.format of a ratio that is not negative: the nearest multiple of 1/100, an even one
    in the middle *)
Definition hundredths (x : Qc) : Z :=
  let y := (x * qz 100)%Qc in
  let f := qfloor y in
  let r := (y - qz f)%Qc in
  if qltb (Q2Qc (1 # 2)) r || (qeqb (Q2Qc (1 # 2)) r && Z.odd f) then (f + 1)%Z else f.
Definition fmt2 (x : Qc) : string :=
  let n := hundredths x in
  cat [str_z (n / 100); "."; str_z ((n / 10) mod 10); str_z (n mod 10)].

Definition data : string := "data/shapenet_segmentation".
Definition logdir : string := "logs/seg_shapenet".
(** os.path.join of two names, the first of which does not end with '/' *)
Definition path_join (a b : string) : string := if String.prefix "/" b then b else cat [a; "/"; b].
(** run_seg_shapenet.py:61-62 *)
Definition run_folder (alias category name : string) (ratio : Qc) : string :=
  path_join logdir (cat [alias; "/"; category; "_"; name; "/ratio_"; fmt2 ratio]).

Section Rounding.
(** Rounding of a product of floating-point numbers. *)
Variable fl : Qc -> Qc.
(** the floating-point numbers 0.1 and 0.02 *)
Definition f01 : Qc := Q2Qc (3602879701896397 # 36028797018963968).
Definition f002 : Qc := Q2Qc (5764607523034235 # 288230376151711744).
(** lines 56-57 *)
Definition epochs (most : Z) (ratio : Qc) : Z :=
  let mul := if qltb ratio f01 then 2%Z else 1%Z in
  qtrunc (fl (fl (qz most * ratio) * qz mul)).
(** line 60 *)
Definition taken (n : Z) (ratio : Qc) : Z := qceil (fl (qz n * ratio)).

(** run_seg_shapenet.py:55-81, the command for ratio [ratio] and category number [k] *)
Definition command (a : args) (ratio : Qc) (k : nat) : res (list string) :=
  c <- item run_categories k ;;
  most <- item max_epoches k ;;
  let max_epoch := epochs most ratio in
  let milestone1 := qtrunc (fl (Q2Qc (1 # 2) * qz max_epoch)) in
  let milestone2 := qtrunc (fl (Q2Qc (1 # 4) * qz max_epoch)) in
  let test_every_epoch := qceil (fl (qz max_epoch * f002)) in
  n <- item train_num k ;;
  let take := taken n ratio in
  name <- item run_names k ;;
  parts <- item run_parts k ;;
  let logs := run_folder (a_alias a) c name ratio in
  Ok ["python segmentation.py --config configs/seg_shapenet.yaml";
      cat ["SOLVER.gpu "; a_gpu a; ","];
      cat ["SOLVER.logdir "; logs];
      cat ["SOLVER.max_epoch "; str_z max_epoch];
      cat ["SOLVER.milestones "; str_z milestone1; ","; str_z milestone2];
      cat ["SOLVER.test_every_epoch "; str_z test_every_epoch];
      cat ["SOLVER.ckpt "; a_ckpt a];
      cat ["DATA.train.depth "; str_z (a_depth a)];
      cat ["DATA.train.filelist "; data; "/filelist/"; c; "_train_val.txt"];
      cat ["DATA.train.take "; str_z take];
      cat ["DATA.test.depth "; str_z (a_depth a)];
      cat ["DATA.test.filelist "; data; "/filelist/"; c; "_test.txt"];
      cat ["MODEL.stages "; str_z (a_depth a - 2)];
      cat ["MODEL.nout "; str_z parts];
      cat ["MODEL.name "; a_model a];
      cat ["LOSS.num_class "; str_z parts]].

Definition files := string -> option (list string).
Section Runs.
(** What os.system does to the files. *)
Variable system : list string -> files -> files.
(** run_seg_shapenet.py:53-85 *)
Definition train_all (a : args) (ratios : list Qc) (s : files) : res files :=
  foldM (fun s ratio => foldM (fun s k => cmds <- command a ratio k ;; Ok (system cmds s)) s (seq 0 (List.length run_categories))) s ratios.
End Runs.

Section Reading.
(** float(...), which raises ValueError if the text is not a number *)
Variable parse : string -> option Qc.
(** run_seg_shapenet.py:95-102; a missing file raises FileNotFoundError, modelled as KeyError.
    find gives -1 if the text does not occur. *)
Definition read_iou (a : args) (ratio : Qc) (s : files) (j : nat) : res Qc :=
  c <- item run_categories j ;;
  name <- item run_names j ;;
  lines <- match s (cat [logdir; "/"; a_alias a; "/"; c; "_"; name; "/ratio_"; fmt2 ratio; "/log.csv"]) with Some l => Ok l | None => Err KeyError end ;;
  last_line <- match rev lines with l :: _ => Ok l | [] => Err IndexError end ;;
  let first := match index 0 "test/mIoU:" last_line with Some pos => pos + 11 | None => 10 end in
  match parse (substring first 5 last_line) with Some v => Ok v | None => Err ValueError end.
Definition qsums (l : list Qc) : Qc := fold_right Qcplus 0%Qc l.
(** lines 93-104: the values of the categories, their mean and the mean weighted by the number
    of test shapes; exact arithmetic *)
Definition summary_line (a : args) (s : files) (ratio : Qc) : res (Qc * list Qc * Qc * Qc) :=
  ious <- mapM (read_iou a ratio s) (seq 0 (List.length run_categories)) ;;
  let CmIoU := (qsums ious / qz (Z.of_nat (List.length ious)))%Qc in
  let weights := map qz test_num in
  let ImIoU := (qsums (map (fun vw => fst vw * snd vw)%Qc (combine ious weights)) / qsums weights)%Qc in
  Ok (ratio, ious, CmIoU, ImIoU).
(** lines 92-108: the last ratio comes first.  The text of the lines is left out. *)
Definition summary (a : args) (ratios : list Qc) (s : files) : res (list (Qc * list Qc * Qc * Qc)) :=
  mapM (summary_line a s) (rev ratios).
End Reading.

(** The whole script. *)
Definition benchmark (system : list string -> files -> files) (parse : string -> option Qc) (a : args) (ratios : list Qc) (s : files) :
    res (list (Qc * list Qc * Qc * Qc)) :=
  s <- train_all system a ratios s ;; summary parse a ratios s.
End Rounding.
