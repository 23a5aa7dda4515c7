(** C120: the ShapeNet segmentation benchmark. *)
From Coq Require Import Ascii String List ZArith Bool QArith Qcanon.
From Verif Require Import Res Num SpecNN Utils Filelist Files SpecFilelist Bench SpecBench BenchThms BenchExamples.
Import ListNotations.
Local Open Scope string_scope.
Local Open Scope list_scope.
Local Open Scope nat_scope.

(** The tables of the benchmark are those the data is prepared with: the same 16 categories and
    numbers of parts, in the same order, and one entry of every other table for each. *)
Theorem C120_tables : run_categories = seg_categories /\ run_parts = seg_num /\ List.length run_categories = 16 /\ List.length run_names = 16 /\ List.length run_parts = 16 /\
  List.length train_num = 16 /\ List.length test_num = 16 /\ List.length max_epoches = 16 /\ NoDup run_categories.
Proof. exact thm_tables. Qed.
Print Assumptions C120_tables.

(** The command of a category: its own file lists, folder and number of parts. *)
Theorem C120_command : forall fl a ratio k c n, relative (a_alias a) -> nth_error seg_categories k = Some c -> nth_error seg_num k = Some n ->
  exists cmds name, command fl a ratio k = Ok cmds /\ nth_error run_names k = Some name /\
    setting cmds "SOLVER.logdir" (cat ["logs/seg_shapenet/"; a_alias a; "/"; c; "_"; name; "/ratio_"; fmt2 ratio]) /\
    setting cmds "DATA.train.filelist" (cat ["data/shapenet_segmentation/filelist/"; c; "_train_val.txt"]) /\
    setting cmds "DATA.test.filelist" (cat ["data/shapenet_segmentation/filelist/"; c; "_test.txt"]) /\
    setting cmds "MODEL.nout" (str_z n) /\ setting cmds "LOSS.num_class" (str_z n) /\
    setting cmds "DATA.train.depth" (str_z (a_depth a)) /\ setting cmds "DATA.test.depth" (str_z (a_depth a)) /\ setting cmds "MODEL.stages" (str_z (a_depth a - 2)) /\
    setting cmds "MODEL.name" (a_model a) /\ setting cmds "SOLVER.ckpt" (a_ckpt a).
Proof. exact thm_command. Qed.
Print Assumptions C120_command.
Example C120_command_case : relative (a_alias ex_args) /\ nth_error seg_categories 10 = Some "03790512" /\ nth_error seg_num 10 = Some 6%Z.
Proof. split; [exact ex_relative|split; reflexivity]. Qed.

(** A ratio in (0, 1] takes at least one shape and at most all of them, the least number not
    below the rounded product; *)
Theorem C120_share : forall fl a ratio k n, rounds fl -> (0 < ratio)%Qc -> (ratio <= 1)%Qc -> fl ratio = ratio -> nth_error train_num k = Some n ->
  exists cmds t, command fl a ratio k = Ok cmds /\ setting cmds "DATA.train.take" (str_z t) /\ (0 < t <= n)%Z /\
    (fl (qz n * ratio) <= qz t)%Qc /\ forall u, (fl (qz n * ratio) <= qz u)%Qc -> (t <= u)%Z.
Proof. exact thm_share. Qed.
Print Assumptions C120_share.
(** ratio 1 takes all of them, for the full number of epochs. *)
Theorem C120_whole : forall fl a k n most, rounds fl -> nth_error train_num k = Some n -> nth_error max_epoches k = Some most ->
  exists cmds, command fl a 1 k = Ok cmds /\ setting cmds "DATA.train.take" (str_z n) /\ setting cmds "SOLVER.max_epoch" (str_z most).
Proof. exact thm_whole. Qed.
Print Assumptions C120_whole.
Example C120_share_case : rounds (fun x => x) /\ (0 < q8)%Qc /\ (q8 <= 1)%Qc /\ nth_error train_num 2 = Some 44%Z /\ nth_error max_epoches 2 = Some 2400%Z /\ taken (fun x => x) 44 q8 = 6%Z.
Proof. split; [exact ex_round|]. repeat split; vm_compute; congruence. Qed.

(** The summary, if the ratios differ in their first two digits: a row for every ratio, the last
    ratio first, with the results of that ratio's runs in the order of the categories, their mean
    and their mean weighted by the numbers of test shapes. *)
Theorem C120_results_partial : forall fl system result parse value a ratios s, trains system result -> relative (a_alias a) -> NoDup (map fmt2 ratios) ->
  (forall q k cmds, In q ratios -> k < 16 -> command fl a q k = Ok cmds -> exists v, shows (result cmds) v /\ parse v = Some (value q k)) ->
  exists rows, benchmark fl system parse a ratios s = Ok rows /\
    Forall2 (fun q row => exists C I, row = (q, map (value q) (seq 0 16), C, I) /\ (C * qz 16 = sum_n 16 (value q))%Qc /\
      (I * sum_n 16 (fun k => qz (nth k test_num 0%Z)) = sum_n 16 (fun k => value q k * qz (nth k test_num 0%Z)))%Qc) (rev ratios) rows.
Proof. exact thm_results. Qed.
Print Assumptions C120_results_partial.
(** Both means lie between the least and the greatest value. *)
Theorem C120_means : forall v c i lo hi, (forall k, k < 16 -> (lo <= v k)%Qc /\ (v k <= hi)%Qc) -> (c * qz 16 = sum_n 16 v)%Qc ->
  (i * sum_n 16 (fun k => qz (nth k test_num 0%Z)) = sum_n 16 (fun k => v k * qz (nth k test_num 0%Z)))%Qc ->
  ((lo <= c)%Qc /\ (c <= hi)%Qc) /\ (lo <= i)%Qc /\ (i <= hi)%Qc.
Proof. exact thm_means. Qed.
Print Assumptions C120_means.
Example C120_results_case : trains (ex_system ex_result) ex_result /\ relative (a_alias ex_args) /\ NoDup (map fmt2 [q8; 1%Qc]) /\ map fmt2 [q8; 1%Qc] = ["0.12"; "1.00"] /\
  exists rows, benchmark (fun x => x) (ex_system ex_result) ex_parse ex_args [q8; 1%Qc] (fun _ => None) = Ok rows /\ List.length rows = 2.
Proof.
  split; [apply ex_trains|]. split; [exact ex_relative|]. assert (E : map fmt2 [q8; 1%Qc] = ["0.12"; "1.00"]) by (vm_compute; reflexivity). rewrite E.
  split; [constructor; [intros [H|[]]; discriminate H|constructor; [intros []|constructor]]|]. split; [reflexivity|].
  eexists. split; [vm_compute; reflexivity|reflexivity].
Qed.

(** In general a row shows the results of the last ratio that is printed like its own; *)
Theorem C120_printed : forall fl system result parse value a ratios s rows, trains system result -> relative (a_alias a) ->
  (forall q k cmds, In q ratios -> k < 16 -> command fl a q k = Ok cmds -> exists v, shows (result cmds) v /\ parse v = Some (value q k)) ->
  benchmark fl system parse a ratios s = Ok rows ->
  forall i q r, nth_error (rev ratios) i = Some q -> last_printed ratios q r -> exists C I, nth_error rows i = Some (q, map (value r) (seq 0 16), C, I).
Proof. exact thm_printed. Qed.
Print Assumptions C120_printed.
(** so two ratios can be reported with the results of one. *)
Theorem C120_results_refuted : exists system result parse value a ratios s,
  trains system result /\ relative (a_alias a) /\ NoDup ratios /\
  (forall q k cmds, In q ratios -> k < 16 -> command (fun x => x) a q k = Ok cmds -> exists v, shows (result cmds) v /\ parse v = Some (value q k)) /\
  exists rows C I q, benchmark (fun x => x) system parse a ratios s = Ok rows /\ In (q, map (fun _ => Q2Qc (1 # 4)) (seq 0 16), C, I) rows /\ forall k, value q k = Q2Qc (3 # 4).
Proof. exact thm_refuted. Qed.
Print Assumptions C120_results_refuted.
(** An alias that is empty or starts with '/' puts the logs elsewhere, and the summary does not
    find them. *)
Theorem C120_alias_refuted : forall fl system result parse a ratio ratios s, trains system result -> ~ relative (a_alias a) ->
  (forall f, s (cat ["logs/seg_shapenet/"; f; "/log.csv"]) = None) -> benchmark fl system parse a (ratio :: ratios) s = Err KeyError.
Proof. exact thm_alias. Qed.
Print Assumptions C120_alias_refuted.
Example C120_alias_case : ~ relative (a_alias (mkArgs "/tmp/run" "0" 5 "segnet" "''")) /\ ~ relative "".
Proof. split; intros (c & t & E & H); [injection E as <- _; apply H; reflexivity|discriminate E]. Qed.
