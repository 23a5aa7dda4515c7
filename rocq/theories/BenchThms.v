(** The statements about the ShapeNet benchmark. *)
From Coq Require Import Ascii String List ZArith Bool QArith Qcanon Lia Lqa.
From Verif Require Import Res Num NumFacts SpecNN SumFacts LinearThms MetricFacts Utils Filelist FilelistFacts Files SpecFilelist Bench SpecBench BenchFacts.
Import ListNotations.
Local Open Scope string_scope.
Local Open Scope list_scope.
Local Open Scope nat_scope.

Lemma distinct_last : forall ratios q, NoDup (map fmt2 ratios) -> In q ratios -> last_printed ratios q q.
Proof.
  induction ratios as [|x rs IH]; intros q N H; [destruct H|]. cbn [map] in N. inversion N as [|? ? Hx N']; subst. destruct H as [<-|H].
  - split; [reflexivity|]. exists [], rs. split; [reflexivity|]. intros y Hy E. apply Hx. rewrite <- E. apply in_map. exact Hy.
  - destruct (IH q N' H) as (_ & pre & post & -> & Hp). split; [reflexivity|]. exists (x :: pre), post. split; [reflexivity|exact Hp].
Qed.
Lemma thm_results fl system result parse value a ratios s : trains system result -> relative (a_alias a) -> NoDup (map fmt2 ratios) ->
  (forall q k cmds, In q ratios -> k < 16 -> command fl a q k = Ok cmds -> exists v, shows (result cmds) v /\ parse v = Some (value q k)) ->
  exists rows, benchmark fl system parse a ratios s = Ok rows /\
    Forall2 (fun q row => exists C I, row = (q, map (value q) (seq 0 16), C, I) /\ (C * qz 16 = sum_n 16 (value q))%Qc /\
      (I * sum_n 16 (fun k => qz (nth k test_num 0%Z)) = sum_n 16 (fun k => value q k * qz (nth k test_num 0%Z)))%Qc) (rev ratios) rows.
Proof.
  intros HS HA HN HV. destruct (thm_rows fl system result parse value a HS HA ratios s HV) as (rows & E & F). exists rows. split; [exact E|].
  assert (H : forall q, In q (rev ratios) -> last_printed ratios q q) by (intros q Hq; apply distinct_last; [exact HN|apply in_rev; exact Hq]).
  clear - F H. induction F as [|q row l rows Hr F IH]; constructor; [apply Hr; apply H; left; reflexivity|apply IH; intros; apply H; right; assumption].
Qed.
Lemma weight_pos k : k < 16 -> (0 < qz (nth k test_num 0%Z))%Qc.
Proof. intros H. rewrite <- qz_0. do 16 (destruct k as [|k]; [reflexivity|]). lia. Qed.
Lemma thm_means v c i lo hi : (forall k, k < 16 -> (lo <= v k)%Qc /\ (v k <= hi)%Qc) -> (c * qz 16 = sum_n 16 v)%Qc ->
  (i * sum_n 16 (fun k => qz (nth k test_num 0%Z)) = sum_n 16 (fun k => v k * qz (nth k test_num 0%Z)))%Qc ->
  ((lo <= c)%Qc /\ (c <= hi)%Qc) /\ (lo <= i)%Qc /\ (i <= hi)%Qc.
Proof.
  intros H HC HI. assert (W : sum_n 16 (fun k => qz (nth k test_num 0%Z)) = qz 2843) by (apply Qc_is_canon; vm_compute; reflexivity).
  assert (L : forall x, sum_n 16 (fun _ => x) = (x * qz 16)%Qc). { intros x. cbn [sum_n]. change (qz 16) with (Q2Qc 16). replace (Q2Qc 16) with (1+1+1+1+1+1+1+1+1+1+1+1+1+1+1+1)%Qc by (apply Qc_is_canon; reflexivity). ring. }
  assert (P16 : (0 < qz 16)%Qc) by reflexivity. assert (PW : (0 < qz 2843)%Qc) by reflexivity.
  split; split; [apply Qcmult_lt_0_le_reg_r with (qz 16)|apply Qcmult_lt_0_le_reg_r with (qz 16)|apply Qcmult_lt_0_le_reg_r with (qz 2843)|apply Qcmult_lt_0_le_reg_r with (qz 2843)]; try exact P16; try exact PW.
  - rewrite HC, <- L. apply sum_mono. intros; apply H; assumption.
  - rewrite HC, <- L. apply sum_mono. intros; apply H; assumption.
  - rewrite <- W, HI, <- sum_scale. apply sum_mono. intros k Hk. apply Qcmult_le_compat_r; [apply H; exact Hk|apply Qclt_le_weak, weight_pos, Hk].
  - rewrite <- W, HI, <- sum_scale. apply sum_mono. intros k Hk. apply Qcmult_le_compat_r; [apply H; exact Hk|apply Qclt_le_weak, weight_pos, Hk].
Qed.

(** Two ratios that are printed alike. *)
Lemma thm_printed fl system result parse value a ratios s rows : trains system result -> relative (a_alias a) ->
  (forall q k cmds, In q ratios -> k < 16 -> command fl a q k = Ok cmds -> exists v, shows (result cmds) v /\ parse v = Some (value q k)) ->
  benchmark fl system parse a ratios s = Ok rows ->
  forall i q r, nth_error (rev ratios) i = Some q -> last_printed ratios q r -> exists C I, nth_error rows i = Some (q, map (value r) (seq 0 16), C, I).
Proof.
  intros HS HA HV E i q r Hi L. destruct (thm_rows fl system result parse value a HS HA ratios s HV) as (rows' & E' & F). rewrite E in E'. injection E' as <-.
  clear - F Hi L. revert i Hi. induction F as [|x row l rows Hr F IH]; intros [|i] Hi; try discriminate Hi.
  - injection Hi as ->. destruct (Hr r L) as (C & I & -> & _). exists C, I. reflexivity.
  - exact (IH i Hi).
Qed.

Ltac word2 k :=
  apply one_word;
  [ cbn [In]; let v := fresh "v" in let H := fresh "H" in intros v H; repeat (destruct H as [H|H]; [try (cbn in H; discriminate H)|]); [|contradiction];
    unfold cat in *; cbn [fold_right] in *; apply (app_inj k) in H; rewrite ?app_nil_s in *; cbn [String.append] in *; symmetry; exact H
  | cbn [In]; unfold cat; cbn [fold_right]; rewrite ?app_nil_s; cbn [String.append]; repeat (first [left; reflexivity|right]) ].
Lemma thm_command fl a ratio k c n : relative (a_alias a) -> nth_error seg_categories k = Some c -> nth_error seg_num k = Some n ->
  exists cmds name, command fl a ratio k = Ok cmds /\ nth_error run_names k = Some name /\
    setting cmds "SOLVER.logdir" (cat ["logs/seg_shapenet/"; a_alias a; "/"; c; "_"; name; "/ratio_"; fmt2 ratio]) /\
    setting cmds "DATA.train.filelist" (cat ["data/shapenet_segmentation/filelist/"; c; "_train_val.txt"]) /\
    setting cmds "DATA.test.filelist" (cat ["data/shapenet_segmentation/filelist/"; c; "_test.txt"]) /\
    setting cmds "MODEL.nout" (str_z n) /\ setting cmds "LOSS.num_class" (str_z n) /\
    setting cmds "DATA.train.depth" (str_z (a_depth a)) /\ setting cmds "DATA.test.depth" (str_z (a_depth a)) /\ setting cmds "MODEL.stages" (str_z (a_depth a - 2)) /\
    setting cmds "MODEL.name" (a_model a) /\ setting cmds "SOLVER.ckpt" (a_ckpt a).
Proof.
  intros HA Ec En. assert (Hk : k < 16) by (change 16 with (List.length seg_categories); apply nth_error_Some; congruence).
  destruct (items k Hk) as (c' & m & t & nm & pt & E1 & E2 & E3 & E4 & E5 & _). change seg_categories with run_categories in Ec. change seg_num with run_parts in En.
  rewrite Ec in E1. injection E1 as <-. rewrite En in E5. injection E5 as <-. unfold command, item. rewrite Ec, E2, E3, E4, En. cbn [bind].
  eexists _, nm. split; [reflexivity|]. split; [reflexivity|]. rewrite (folder_plain a HA). unfold data, logdir.
  split; [word2 "SOLVER.logdir "|]. split; [word2 "DATA.train.filelist "|]. split; [word2 "DATA.test.filelist "|]. split; [word2 "MODEL.nout "|]. split; [word2 "LOSS.num_class "|].
  split; [word2 "DATA.train.depth "|]. split; [word2 "DATA.test.depth "|]. split; [word2 "MODEL.stages "|]. split; [word2 "MODEL.name "|word2 "SOLVER.ckpt "].
Qed.

Lemma thm_take fl n ratio : rounds fl -> (0 < ratio)%Qc -> (ratio <= 1)%Qc -> fl ratio = ratio -> (0 < n <= 2 ^ 53)%Z -> (0 < taken fl n ratio <= n)%Z.
Proof.
  intros R P L F Hn. pose proof (share_le fl ratio (Z.to_nat n) R L ltac:(lia)) as A. pose proof (share_pos fl ratio (Z.to_nat n) R P F ltac:(lia)) as B.
  unfold share in *. rewrite Z2Nat.id in * by lia. unfold taken. lia.
Qed.
Lemma thm_full fl n : rounds fl -> (0 < n <= 2 ^ 53)%Z -> taken fl n 1 = n /\ epochs fl n 1 = n.
Proof.
  intros R Hn. split.
  - pose proof (share_one fl (Z.to_nat n) R ltac:(lia)) as A. unfold share in A. rewrite Z2Nat.id in A by lia. unfold taken. lia.
  - unfold epochs. replace (qltb 1 f01) with false by reflexivity. rewrite !Qcmult_1_r. change (qz 1) with 1%Qc. rewrite ?Qcmult_1_r. destruct R as (_ & E). rewrite !E by (rewrite ?E; lia). apply qtrunc_qz.
Qed.
Lemma thm_tables : run_categories = seg_categories /\ run_parts = seg_num /\ List.length run_categories = 16 /\ List.length run_names = 16 /\ List.length run_parts = 16 /\
  List.length train_num = 16 /\ List.length test_num = 16 /\ List.length max_epoches = 16 /\ NoDup run_categories.
Proof. repeat (split; [reflexivity|]). exact cats_nodup. Qed.

(** ** A log folder that is not below the folder of the summary *)
Lemma thm_alias fl system result parse a ratio ratios s : trains system result -> ~ relative (a_alias a) ->
  (forall f, s (cat ["logs/seg_shapenet/"; f; "/log.csv"]) = None) -> benchmark fl system parse a (ratio :: ratios) s = Err KeyError.
Proof.
  intros HS HA H0.
  assert (PN : forall x, String.prefix "" x = true) by (intros []; reflexivity).
  assert (FA : forall k r, exists t, folder_at a r k = String "/" t).
  { intros k r. unfold folder_at, run_folder, path_join. destruct (a_alias a) as [|x t]; cbn [cat fold_right String.append String.prefix].
    - destruct (ascii_dec "/" "/") as [_|N]; [|congruence]. rewrite PN. eexists. reflexivity.
    - destruct (ascii_dec "/" x) as [<-|N]; [rewrite PN; eexists; reflexivity|]. exfalso. apply HA. exists x, t. split; [reflexivity|congruence]. }
  assert (IN : forall r ks s, (forall k, In k ks -> k < 16) -> (forall f, s (cat ["logs/seg_shapenet/"; f; "/log.csv"]) = None) ->
    exists s', foldM (fun s k => cmds <- command fl a r k ;; Ok (system cmds s)) s ks = Ok s' /\ forall f, s' (cat ["logs/seg_shapenet/"; f; "/log.csv"]) = None).
  { clear s H0. intros r. induction ks as [|k ks IH]; intros s Hk H0; [exists s; split; [reflexivity|exact H0]|]. cbn [foldM].
    destruct (command_ok fl a r k (Hk k (or_introl eq_refl))) as (cmds & Ec & Hl). rewrite Ec. cbn [bind]. apply IH; [intros; apply Hk; right; assumption|].
    intros f. destruct (HS cmds _ s Hl) as (_ & Ho). destruct (FA k r) as (t & Et).
    specialize (Ho (String.append "logs/seg_shapenet/" f)). unfold cat in *. cbn [fold_right] in *. specialize (H0 f). rewrite app_nil_s in *. rewrite <- !app_as in *. rewrite Ho; [exact H0|]. rewrite Et. discriminate. }
  assert (OUT : forall rs s, (forall f, s (cat ["logs/seg_shapenet/"; f; "/log.csv"]) = None) ->
    exists s', train_all fl system a rs s = Ok s' /\ forall f, s' (cat ["logs/seg_shapenet/"; f; "/log.csv"]) = None).
  { clear s H0. induction rs as [|r rs IH]; intros s H0; [exists s; split; [reflexivity|exact H0]|]. unfold train_all. cbn [foldM]. change (List.length run_categories) with 16.
    destruct (IN r (seq 0 16) s) as (s1 & E1 & H1); [intros k Hk; apply in_seq in Hk; lia|exact H0|]. rewrite E1. cbn [bind]. exact (IH s1 H1). }
  destruct (OUT (ratio :: ratios) s H0) as (s' & E & H1). unfold benchmark. rewrite E. cbn [bind]. unfold summary.
  destruct (rev (ratio :: ratios)) as [|q l] eqn:Er; [apply (f_equal (@List.length Qc)) in Er; rewrite rev_length in Er; discriminate Er|]. cbn [mapM].
  unfold summary_line. change (List.length run_categories) with 16. cbn [seq mapM]. unfold read_iou at 1, item. change (nth_error run_categories 0) with (Some "02691156"). change (nth_error run_names 0) with (Some "Aero"). cbn [bind].
  specialize (H1 (cat [a_alias a; "/"; "02691156"; "_"; "Aero"; "/ratio_"; fmt2 q])). assert (E0 : cat [logdir; "/"; a_alias a; "/"; "02691156"; "_"; "Aero"; "/ratio_"; fmt2 q; "/log.csv"] = cat ["logs/seg_shapenet/"; cat [a_alias a; "/"; "02691156"; "_"; "Aero"; "/ratio_"; fmt2 q]; "/log.csv"]) by (unfold cat; cbn [fold_right]; rewrite !app_as; reflexivity). rewrite E0, H1. reflexivity.
Qed.

Lemma train_range k n : nth_error train_num k = Some n -> (0 < n <= 2 ^ 53)%Z.
Proof. do 16 (destruct k as [|k]; [intros H; injection H as <-; lia|]). intros H. destruct k; discriminate H. Qed.
Lemma epoch_range k n : nth_error max_epoches k = Some n -> (0 < n <= 2 ^ 53)%Z.
Proof. do 16 (destruct k as [|k]; [intros H; injection H as <-; lia|]). intros H. destruct k; discriminate H. Qed.
Lemma thm_settings fl a ratio k n most : nth_error train_num k = Some n -> nth_error max_epoches k = Some most ->
  exists cmds, command fl a ratio k = Ok cmds /\ setting cmds "DATA.train.take" (str_z (taken fl n ratio)) /\ setting cmds "SOLVER.max_epoch" (str_z (epochs fl most ratio)).
Proof.
  intros En Em. assert (Hk : k < 16) by (change 16 with (List.length train_num); apply nth_error_Some; congruence).
  destruct (items k Hk) as (c & m & t & nm & pt & E1 & E2 & E3 & E4 & E5 & _). rewrite Em in E2. injection E2 as <-. rewrite En in E3. injection E3 as <-.
  unfold command, item. rewrite E1, Em, En, E4, E5. cbn [bind]. eexists. split; [reflexivity|]. split; [word2 "DATA.train.take "|word2 "SOLVER.max_epoch "].
Qed.
Lemma thm_share fl a ratio k n : rounds fl -> (0 < ratio)%Qc -> (ratio <= 1)%Qc -> fl ratio = ratio -> nth_error train_num k = Some n ->
  exists cmds t, command fl a ratio k = Ok cmds /\ setting cmds "DATA.train.take" (str_z t) /\ (0 < t <= n)%Z /\
    (fl (qz n * ratio) <= qz t)%Qc /\ forall u, (fl (qz n * ratio) <= qz u)%Qc -> (t <= u)%Z.
Proof.
  intros R P L F En. assert (Hk : k < 16) by (change 16 with (List.length train_num); apply nth_error_Some; congruence).
  destruct (items k Hk) as (c & m & t & nm & pt & E1 & E2 & E3 & _).
  destruct (thm_settings fl a ratio k n m En E2) as (cmds & Ec & H & _). exists cmds, (taken fl n ratio). split; [exact Ec|]. split; [exact H|]. split; [apply thm_take; try assumption; apply (train_range k); exact En|].
  unfold taken. split; [apply qceil_spec; lia|]. intros u Hu. apply qceil_spec in Hu. exact Hu.
Qed.
Lemma thm_whole fl a k n most : rounds fl -> nth_error train_num k = Some n -> nth_error max_epoches k = Some most ->
  exists cmds, command fl a 1 k = Ok cmds /\ setting cmds "DATA.train.take" (str_z n) /\ setting cmds "SOLVER.max_epoch" (str_z most).
Proof.
  intros R En Em. destruct (thm_settings fl a 1 k n most En Em) as (cmds & Ec & H1 & H2). exists cmds. split; [exact Ec|].
  rewrite (proj1 (thm_full fl n R (train_range k n En))) in H1. rewrite (proj2 (thm_full fl most R (epoch_range k most Em))) in H2. split; assumption.
Qed.
