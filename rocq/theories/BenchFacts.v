(** The ShapeNet benchmark. *)
From Coq Require Import Ascii String List ZArith Bool QArith Qcanon Lia Lqa.
From Verif Require Import Res Num NumFacts SpecNN SumFacts MetricFacts Utils Filelist FilelistFacts Files SpecFilelist Bench SpecBench.
Import ListNotations.
Local Open Scope string_scope.
Local Open Scope list_scope.
Local Open Scope nat_scope.

Lemma app_len_inj a : forall b x y, String.length a = String.length b -> String.append a x = String.append b y -> a = b /\ x = y.
Proof.
  induction a as [|c a IH]; intros [|c' b] x y L E; cbn in L; try discriminate L; [split; [reflexivity|exact E]|].
  cbn in E. injection E as -> E. destruct (IH b x y ltac:(lia) E) as [-> ->]. split; reflexivity.
Qed.
Lemma app_nil_s s : String.append s "" = s.
Proof. induction s as [|c s IH]; cbn; [reflexivity|]. rewrite IH. reflexivity. Qed.
Lemma app_as a b c : String.append (String.append a b) c = String.append a (String.append b c).
Proof. induction a as [|x a IH]; cbn; [reflexivity|]. rewrite IH. reflexivity. Qed.
Lemma sub_skip a : forall n m b, substring (String.length a + n) m (String.append a b) = substring n m b.
Proof. induction a as [|c a IH]; intros; [reflexivity|]. cbn. apply IH. Qed.
Lemma sub_head v b : substring 0 (String.length v) (String.append v b) = v.
Proof. induction v as [|c v IH]; cbn; [destruct b; reflexivity|]. rewrite IH. reflexivity. Qed.
Lemma sub_after p : forall m c s, String.length c = m -> substring p m s = c -> c <> "" -> exists a, String.length a = p /\ after a c s.
Proof.
  assert (G : forall m s, exists b, s = String.append (substring 0 m s) b).
  { induction m as [|m IH]; intros [|x s]; try (exists EmptyString; reflexivity); [exists (String x s); reflexivity|]. cbn. destruct (IH s) as (b & Hb). exists b. rewrite <- Hb. reflexivity. }
  induction p as [|p IH]; intros m c s L E Hc.
  - exists "". split; [reflexivity|]. destruct (G m s) as (b & Hb). exists b. cbn. rewrite <- E. exact Hb.
  - destruct s as [|x s]; [destruct m; cbn in E; congruence|]. cbn in E. destruct (IH m c s L E Hc) as (a & La & b & Hb). exists (String x a). split; [cbn; lia|]. exists b. cbn. rewrite Hb. reflexivity.
Qed.
Lemma find_first c s a : c <> "" -> after a c s -> (forall a', after a' c s -> String.length a <= String.length a') -> index 0 c s = Some (String.length a).
Proof.
  intros Hc (b & E) Hf. assert (S : substring (String.length a) (String.length c) s = c).
  { rewrite E. replace (String.length a) with (String.length a + 0) by lia. rewrite sub_skip. apply sub_head. }
  destruct (index 0 c s) as [m|] eqn:Ei.
  - destruct (Nat.lt_trichotomy m (String.length a)) as [H|[H|H]]; [|congruence|].
    + pose proof (index_correct1 0 m c s Ei) as I. destruct (sub_after m _ c s eq_refl I Hc) as (a' & La & Ha). specialize (Hf a' Ha). lia.
    + exfalso. apply (index_correct2 0 m c s Ei (String.length a)); [lia|lia|exact S].
  - exfalso. eapply index_correct3 with (n := 0) (m := String.length a); [exact Ei|exact Hc|lia|exact S].
Qed.
Lemma read_shown line v : shows line v -> substring (match index 0 "test/mIoU:" line with Some pos => pos + 11 | None => 10 end) 5 line = v.
Proof.
  intros (L & a & (b & E) & Hf). rewrite (find_first "test/mIoU:" line a).
  - rewrite E. rewrite app_as. replace 11 with (String.length "test/mIoU: ") by reflexivity. rewrite sub_skip with (n := String.length "test/mIoU: ").
    replace (String.length "test/mIoU: ") with (String.length "test/mIoU: " + 0) by reflexivity. rewrite sub_skip. rewrite <- L. apply sub_head.
  - discriminate.
  - exists (String.append " " (String.append v b)). rewrite E. cbn. reflexivity.
  - exact Hf.
Qed.

Definition ncat := List.length run_categories.
Lemma items k : k < 16 -> exists c m n nm pt, nth_error run_categories k = Some c /\ nth_error max_epoches k = Some m /\ nth_error train_num k = Some n /\
  nth_error run_names k = Some nm /\ nth_error run_parts k = Some pt /\ String.length c = 8.
Proof. intros H. do 16 (destruct k as [|k]; [do 5 eexists; repeat split; reflexivity|]). lia. Qed.
Lemma cats_nodup : NoDup run_categories.
Proof. unfold run_categories. repeat (constructor; [cbn; intuition discriminate|]). constructor. Qed.

Lemma one_word cmds key v : (forall u, In (String.append key (String " " u)) cmds -> u = v) -> In (String.append key (String " " v)) cmds -> setting cmds key v.
Proof. intros A B u. split; [apply A|intros ->; exact B]. Qed.
Ltac word k :=
  apply one_word;
  [ cbn [In]; let v := fresh "v" in let H := fresh "H" in intros v H; repeat (destruct H as [H|H]; [try (cbn in H; discriminate H)|]); [|contradiction];
    unfold cat in H; cbn [fold_right] in H; apply (app_inj k) in H; rewrite ?app_nil_s in H; symmetry; exact H
  | cbn [In]; unfold cat; cbn [fold_right]; rewrite ?app_nil_s; repeat (first [left; reflexivity|right]) ].
Section Bench.
  Variables (fl : Qc -> Qc) (a : args).
  Hypothesis HA : relative (a_alias a).
  Definition folder_at (ratio : Qc) (k : nat) : string := run_folder (a_alias a) (nth k run_categories "") (nth k run_names "") ratio.
  Lemma folder_plain c n r : run_folder (a_alias a) c n r = cat [logdir; "/"; a_alias a; "/"; c; "_"; n; "/ratio_"; fmt2 r].
  Proof.
    destruct HA as (x & t & E & Hx). unfold run_folder, path_join. rewrite E. cbn [cat fold_right String.append String.prefix].
    destruct (ascii_dec "/" x) as [H|_]; [congruence|]. rewrite (app_nil_s (String.append t _)). reflexivity.
  Qed.
  Lemma command_ok ratio k : k < 16 -> exists cmds, command fl a ratio k = Ok cmds /\ setting cmds "SOLVER.logdir" (folder_at ratio k).
  Proof.
    intros Hk. destruct (items k Hk) as (c & m & n & nm & pt & E1 & E2 & E3 & E4 & E5 & _). unfold command, item. rewrite E1, E2, E3, E4, E5. cbn [bind].
    eexists. split; [reflexivity|]. unfold folder_at. rewrite (nth_error_nth _ _ _ E1), (nth_error_nth _ _ _ E4). word "SOLVER.logdir ".
  Qed.

  Lemma folder_inj r r' k k' : k < 16 -> k' < 16 -> folder_at r k = folder_at r' k' -> k = k' /\ fmt2 r = fmt2 r'.
  Proof.
    intros Hk Hk' E. unfold folder_at in E. rewrite !folder_plain in E. cbn [cat fold_right] in E. do 4 apply app_inj in E.
    destruct (items k Hk) as (c & _ & _ & nm & _ & E1 & _ & _ & E4 & _ & L). destruct (items k' Hk') as (c' & _ & _ & nm' & _ & E1' & _ & _ & E4' & _ & L').
    rewrite (nth_error_nth _ _ _ E1), (nth_error_nth _ _ _ E4), (nth_error_nth _ _ _ E1'), (nth_error_nth _ _ _ E4') in E.
    apply app_len_inj in E; [|congruence]. destruct E as [-> E].
    assert (k = k') by (apply (proj1 (NoDup_nth_error _) cats_nodup); [apply nth_error_Some; congruence|congruence]). subst k'. split; [reflexivity|].
    rewrite E4 in E4'. injection E4' as <-. do 3 apply app_inj in E. rewrite !app_nil_s in E. exact E.
  Qed.

  Variables (system : list string -> files -> files) (result : list string -> string).
  Hypothesis HS : trains system result.
  (** the log of a folder ends with the line of the command for [ratio] and [k] *)
  Definition logged (s : files) (ratio : Qc) (k : nat) (f : string) : Prop :=
    exists cmds l, command fl a ratio k = Ok cmds /\ s (String.append f "/log.csv") = Some (l ++ [result cmds]).
  Definition same_log (s s' : files) (f : string) : Prop := s' (String.append f "/log.csv") = s (String.append f "/log.csv").
  Lemma inner_loop ratio : forall ks s, NoDup ks -> (forall k, In k ks -> k < 16) ->
    exists s', foldM (fun s k => cmds <- command fl a ratio k ;; Ok (system cmds s)) s ks = Ok s' /\
      (forall k, In k ks -> logged s' ratio k (folder_at ratio k)) /\ (forall f, (forall k, In k ks -> f <> folder_at ratio k) -> same_log s s' f).
  Proof.
    induction ks as [|k ks IH]; intros s Hn Hk.
    - exists s. split; [reflexivity|]. split; [intros k []|reflexivity].
    - inversion Hn as [|? ? Hnk Hn']; subst. destruct (command_ok ratio k (Hk k (or_introl eq_refl))) as (cmds & Ec & Hl).
      destruct (HS cmds (folder_at ratio k) s Hl) as ((l & El) & Ho).
      destruct (IH (system cmds s) Hn' ltac:(intros; apply Hk; right; assumption)) as (s' & E & A & B). exists s'. cbn [foldM]. rewrite Ec. cbn [bind]. split; [exact E|]. split.
      + intros k' [<-|Hi]; [|apply A; exact Hi]. exists cmds, l. split; [exact Ec|]. rewrite <- El. apply B. intros k' Hi Ef.
        apply folder_inj in Ef; [|apply Hk; left; reflexivity|apply Hk; right; exact Hi]. destruct Ef as [-> _]. contradiction.
      + intros f Hf. unfold same_log. rewrite (B f); [|intros k' Hi; apply Hf; right; exact Hi]. apply Ho. apply Hf. left. reflexivity.
  Qed.
  Lemma folder_text r q k : fmt2 r = fmt2 q -> folder_at r k = folder_at q k.
  Proof. intros E. unfold folder_at, run_folder. rewrite E. reflexivity. Qed.
  Lemma outer_loop : forall ratios s, exists s', train_all fl system a ratios s = Ok s' /\
    (forall pre r post k, k < 16 -> ratios = pre ++ r :: post -> (forall x, In x post -> fmt2 x <> fmt2 r) -> logged s' r k (folder_at r k)) /\
    (forall f, (forall ratio k, k < 16 -> In ratio ratios -> f <> folder_at ratio k) -> same_log s s' f).
  Proof.
    induction ratios as [|r rs IH]; intros s.
    - exists s. split; [reflexivity|]. split; [intros [|? ?] ? ? ? _ H; discriminate H|reflexivity].
    - destruct (inner_loop r (seq 0 16) s (seq_NoDup 16 0)) as (s1 & E1 & A1 & B1); [intros k Hk; apply in_seq in Hk; lia|].
      destruct (IH s1) as (s' & E & A & B). exists s'. unfold train_all in *. cbn [foldM]. change (List.length run_categories) with 16 in *. rewrite E1. cbn [bind]. split; [exact E|]. split.
      + intros pre q post k Hk Er Hn. destruct pre as [|p pre]; [|injection Er as _ Er; exact (A pre q post k Hk Er Hn)].
        injection Er as -> ->. destruct (A1 k ltac:(apply in_seq; lia)) as (cmds & l & Ec & El). exists cmds, l. split; [exact Ec|]. rewrite <- El. apply B.
        intros r' k' Hk' Hi Ef. apply folder_inj in Ef; [|exact Hk|exact Hk']. destruct Ef as [_ Ef]. apply (Hn r' Hi). congruence.
      + intros f Hf. unfold same_log. rewrite (B f); [|intros; apply Hf; [assumption|right; assumption]]. apply B1. intros k Hk. apply Hf; [apply in_seq in Hk; lia|left; reflexivity].
  Qed.

  Variables (parse : string -> option Qc) (value : Qc -> nat -> Qc).
  Definition valued (ratio : Qc) : Prop := forall k cmds, command fl a ratio k = Ok cmds -> exists v, shows (result cmds) v /\ parse v = Some (value ratio k).
  Lemma read_logged s ratio shown k : k < 16 -> valued ratio -> logged s ratio k (folder_at shown k) -> read_iou parse a shown s k = Ok (value ratio k).
  Proof.
    intros Hk HV (cmds & l & Ec & El). destruct (HV k cmds Ec) as (v & Hs & Hp). unfold read_iou, item. unfold folder_at in El. rewrite folder_plain in El.
    destruct (items k Hk) as (c & _ & _ & nm & _ & E1 & _ & _ & E4 & _). rewrite (nth_error_nth _ _ _ E1), (nth_error_nth _ _ _ E4) in El. rewrite E1, E4. cbn [bind].
    cbn [cat fold_right] in *. rewrite !app_as in El. cbn [String.append] in El |- *. rewrite El. cbn [bind]. rewrite rev_app_distr. cbn [rev app bind]. rewrite (read_shown _ _ Hs), Hp. reflexivity.
  Qed.
  Lemma mapM_ok {A B} (f : A -> res B) (g : A -> B) l : (forall x, In x l -> f x = Ok (g x)) -> mapM f l = Ok (map g l).
  Proof. induction l as [|x l IH]; intros H; [reflexivity|]. cbn [mapM map]. rewrite (H x (or_introl eq_refl)). cbn [bind]. rewrite IH by (intros; apply H; right; assumption). reflexivity. Qed.
  Lemma mapM_some {A B} (f : A -> res B) (P : A -> B -> Prop) l : (forall x, In x l -> exists y, f x = Ok y /\ P x y) -> exists ys, mapM f l = Ok ys /\ Forall2 P l ys.
  Proof.
    induction l as [|x l IH]; intros H; [exists []; split; [reflexivity|constructor]|]. destruct (H x (or_introl eq_refl)) as (y & E & Hy).
    destruct (IH ltac:(intros; apply H; right; assumption)) as (ys & Es & Hs). exists (y :: ys). cbn [mapM]. rewrite E. cbn [bind]. rewrite Es. split; [reflexivity|constructor; assumption].
  Qed.
End Bench.

Lemma last_exists : forall ratios q, In q ratios -> exists r, In r ratios /\ last_printed ratios q r.
Proof.
  induction ratios as [|x rs IH]; intros q H; [destruct H|].
  destruct (in_dec string_dec (fmt2 q) (map fmt2 rs)) as [I|I].
  - apply in_map_iff in I. destruct I as (y & Ey & Iy). destruct (IH y Iy) as (r & Ir & E & pre & post & -> & Hp). exists r. split; [right; exact Ir|]. split; [congruence|].
    exists (x :: pre), post. split; [reflexivity|]. intros z Hz. rewrite <- Ey. apply Hp. exact Hz.
  - destruct H as [<-|H]; [|exfalso; apply I; apply in_map; exact H]. exists x. split; [left; reflexivity|]. split; [reflexivity|]. exists [], rs. split; [reflexivity|].
    intros z Hz E. apply I. rewrite <- E. apply in_map. exact Hz.
Qed.
Lemma last_unique ratios q r r' : last_printed ratios q r -> last_printed ratios q r' -> r = r'.
Proof.
  intros (E & pre & post & Er & H) (E' & pre' & post' & Er' & H'). revert ratios pre' Er Er'. induction pre as [|x pre IH]; intros ratios pre' Er Er'; destruct pre' as [|x' pre']; rewrite Er in Er'.
  - cbn [app] in Er'; congruence.
  - injection Er' as -> ->. exfalso. apply (H r'); [apply in_or_app; right; left; reflexivity|exact E'].
  - injection Er' as -> <-. exfalso. apply (H' r); [apply in_or_app; right; left; reflexivity|exact E].
  - injection Er' as -> Er'. exact (IH _ pre' eq_refl Er').
Qed.

Definition weights_of (k : nat) : Qc := qz (nth k test_num 0%Z).
Lemma combine_seq {A B C} (h : A * B -> C) (f : nat -> A) : forall (ws : list B) d, map h (combine (map f (seq 0 (List.length ws))) ws) = map (fun k => h (f k, nth k ws d)) (seq 0 (List.length ws)).
Proof.
  intros ws. revert f. induction ws as [|w ws IH]; intros f d; [reflexivity|]. cbn [List.length seq map combine nth]. f_equal.
  rewrite <- !seq_shift, !map_map. exact (IH (fun k => f (S k)) d).
Qed.

(** ** The theorems *)
Section Thms.
  Variables (fl : Qc -> Qc) (system : list string -> files -> files) (result : list string -> string) (parse : string -> option Qc) (value : Qc -> nat -> Qc) (a : args).
  Hypothesis HS : trains system result.
  Hypothesis HA : relative (a_alias a).
  Lemma mean_row q ious v : (ious : list Qc) = map v (seq 0 16) ->
    let CmIoU := (qsums ious / qz (Z.of_nat (List.length ious)))%Qc in
    let ImIoU := (qsums (map (fun vw => fst vw * snd vw)%Qc (combine ious (map qz test_num))) / qsums (map qz test_num))%Qc in
    exists C I, (q : Qc, ious, CmIoU, ImIoU) = (q, map v (seq 0 16), C, I) /\ (C * qz 16 = sum_n 16 v)%Qc /\
      (I * sum_n 16 weights_of = sum_n 16 (fun k => v k * weights_of k))%Qc.
  Proof.
    intros -> C I. exists C, I. split; [reflexivity|]. unfold C, I, qsums. rewrite map_length, seq_length, fold_sum_seq. change (Z.of_nat 16) with 16%Z.
    replace (map qz test_num) with (map weights_of (seq 0 16)) by reflexivity.
    pose proof (combine_seq (fun vw : Qc * Qc => (fst vw * snd vw)%Qc) v (map weights_of (seq 0 16)) 0%Qc) as E. rewrite map_length, seq_length in E. rewrite E. clear E.
    rewrite !fold_sum_seq. assert (W : sum_n 16 weights_of = qz 2843) by (apply Qc_is_canon; vm_compute; reflexivity). split.
    - field. intros H. discriminate H.
    - replace (sum_n 16 (fun k => fst (v k, nth k (map weights_of (seq 0 16)) 0%Qc) * snd (v k, nth k (map weights_of (seq 0 16)) 0%Qc))%Qc)
        with (sum_n 16 (fun k => v k * weights_of k)%Qc).
      + rewrite W. field. intros H. discriminate H.
      + apply sum_ext. intros k Hk. cbn [fst snd]. f_equal. rewrite (nth_indep _ 0%Qc (weights_of 0)) by (rewrite map_length, seq_length; exact Hk). rewrite map_nth, seq_nth by exact Hk. reflexivity.
  Qed.
  Lemma thm_rows ratios s :
    (forall q k cmds, In q ratios -> k < 16 -> command fl a q k = Ok cmds -> exists v, shows (result cmds) v /\ parse v = Some (value q k)) ->
    exists rows, benchmark fl system parse a ratios s = Ok rows /\
      Forall2 (fun q row => forall r, last_printed ratios q r -> exists C I, row = (q, map (value r) (seq 0 16), C, I) /\ (C * qz 16 = sum_n 16 (value r))%Qc /\
        (I * sum_n 16 weights_of = sum_n 16 (fun k => value r k * weights_of k))%Qc) (rev ratios) rows.
  Proof.
    intros HV. unfold benchmark. destruct (outer_loop fl a HA system result HS ratios s) as (s' & E & A & _). rewrite E. cbn [bind]. unfold summary. apply mapM_some.
    intros q Hq. apply in_rev in Hq. destruct (last_exists ratios q Hq) as (r & Ir & L). pose proof L as (Et & pre & post & Er & Hp).
    unfold summary_line. change (List.length run_categories) with 16.
    rewrite (mapM_ok _ (value r)).
    - cbn [bind]. eexists. split; [reflexivity|]. intros r' L'. rewrite (last_unique _ _ _ _ L' L). apply mean_row. reflexivity.
    - intros k Hk. apply in_seq in Hk. apply (read_logged fl a HA result parse value); [lia| |].
      + intros k' cmds Hc. destruct (lt_dec k' 16) as [H|H]; [exact (HV r k' cmds Ir H Hc)|]. exfalso.
        unfold command, item in Hc. destruct (nth_error run_categories k') eqn:E1; [|discriminate Hc]. assert (k' < List.length run_categories) by (apply nth_error_Some; congruence). cbn in H0. lia.
      + rewrite <- (folder_text a r q k Et). apply (A pre r post k); [lia|exact Er|]. intros x Hx. rewrite Et. apply Hp. exact Hx.
  Qed.
End Thms.
