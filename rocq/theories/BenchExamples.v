(** A run of the ShapeNet benchmark. *)
From Coq Require Import Ascii String List ZArith Bool QArith Qcanon Lia.
From Verif Require Import Res Num NumFacts SpecNN SpecFilelist Utils Filelist FilelistFacts Bench SpecBench BenchFacts BenchThms.
Import ListNotations.
Local Open Scope string_scope.
Local Open Scope list_scope.
Local Open Scope nat_scope.

(** the rest of [s] after [p] *)
Fixpoint strip (p s : string) : option string :=
  match p, s with
  | EmptyString, _ => Some s
  | String x p, String y s => if Ascii.eqb x y then strip p s else None
  | _, _ => None
  end.
Lemma strip_some p : forall s t, strip p s = Some t <-> s = String.append p t.
Proof.
  induction p as [|x p IH]; intros s t; cbn; [split; congruence|]. destruct s as [|y s]; [split; discriminate|].
  destruct (Ascii.eqb x y) eqn:E.
  - apply Ascii.eqb_eq in E. subst y. rewrite IH. split; [intros ->; reflexivity|intros H; injection H as ->; reflexivity].
  - split; [discriminate|]. intros H. injection H as -> ->. rewrite Ascii.eqb_refl in E. discriminate E.
Qed.
Lemma app_len a b : String.length (String.append a b) = String.length a + String.length b.
Proof. induction a as [|x a IH]; cbn; [reflexivity|]. rewrite IH. reflexivity. Qed.
(** A program that writes one log of two lines. *)
Definition ex_system (result : list string -> string) (cmds : list string) (s : files) : files :=
  match filter (fun w => match strip "SOLVER.logdir " w with Some _ => true | None => false end) cmds with
  | w :: _ => match strip "SOLVER.logdir " w with
              | Some f => fun path => if String.eqb path (String.append f "/log.csv") then Some ["epoch: 1"; result cmds] else s path
              | None => s
              end
  | [] => s
  end.
Lemma ex_trains result : trains (ex_system result) result.
Proof.
  intros cmds folder s H. unfold ex_system. pose proof (proj2 (H folder) eq_refl) as I.
  destruct (filter _ cmds) as [|w l] eqn:Ef.
  - exfalso. assert (In (String.append "SOLVER.logdir" (String " " folder)) []) as X; [|destruct X]. rewrite <- Ef. apply filter_In. split; [exact I|].
    replace (strip "SOLVER.logdir " _) with (Some folder); [reflexivity|]. symmetry. apply strip_some. reflexivity.
  - assert (W : In w cmds /\ match strip "SOLVER.logdir " w with Some _ => true | None => false end = true) by (apply (proj1 (filter_In (fun w => match strip "SOLVER.logdir " w with Some _ => true | None => false end) w cmds)); rewrite Ef; left; reflexivity).
    destruct W as (Wi & W). destruct (strip "SOLVER.logdir " w) as [f|] eqn:Es; [|discriminate W]. apply strip_some in Es. subst w.
    change (String.append "SOLVER.logdir " f) with (String.append "SOLVER.logdir" (String " " f)) in Wi. apply (proj1 (H f)) in Wi. subst f. split.
    + rewrite String.eqb_refl. exists ["epoch: 1"]. reflexivity.
    + intros other Ho. destruct (String.eqb_spec (String.append other "/log.csv") (String.append folder "/log.csv")) as [E|_]; [|reflexivity]. exfalso. apply Ho.
      apply app_len_inj in E; [destruct E; assumption|]. apply (f_equal String.length) in E. rewrite !app_len in E. lia.
Qed.
Definition ex_args : args := mkArgs "segnet_d5" "0" 5 "segnet" "''".
Lemma ex_relative : relative (a_alias ex_args).
Proof. exists "s"%char, "egnet_d5". split; [reflexivity|discriminate]. Qed.
Definition ex_parse (v : string) : option Qc :=
  if String.eqb v "0.250" then Some (Q2Qc (1 # 4)) else if String.eqb v "0.750" then Some (Q2Qc (3 # 4)) else None.
Definition q8 : Qc := Q2Qc (1 # 8).
Definition q128 : Qc := Q2Qc (15 # 128).
Definition ex_result (cmds : list string) : string :=
  if existsb (String.eqb (nth 3 cmds "")) (map (fun e => String.append "SOLVER.max_epoch " e) ["35"; "210"; "281"; "70"; "234"; "140"; "23"]) then "Epoch: 9, test/mIoU: 0.250" else "Epoch: 9, test/mIoU: 0.750".
Definition ex_value (q : Qc) (k : nat) : Qc := if qeqb q q128 then Q2Qc (1 # 4) else Q2Qc (3 # 4).
Lemma ex_shows : shows "Epoch: 9, test/mIoU: 0.250" "0.250" /\ shows "Epoch: 9, test/mIoU: 0.750" "0.750".
Proof.
  assert (G : forall v, String.length v = 5 -> shows (String.append "Epoch: 9, test/mIoU: " v) v).
  { intros v L. split; [exact L|]. exists "Epoch: 9, ". split; [exists ""; rewrite app_nil_s; reflexivity|]. intros a (b & E). cbn in E.
    do 10 (destruct a as [|? a]; [discriminate E|cbn in E; injection E as _ E]). cbn. lia. }
  split; apply G; reflexivity.
Qed.
Lemma ex_reports : forall q k cmds, In q [q8; q128] -> k < 16 -> command (fun x => x) ex_args q k = Ok cmds -> exists v, shows (ex_result cmds) v /\ ex_parse v = Some (ex_value q k).
Proof.
  intros q k cmds Hq Hk Hc.
  assert (C : forallb (fun k => match command (fun x => x) ex_args q8 k with Ok c => String.eqb (ex_result c) "Epoch: 9, test/mIoU: 0.750" | Err _ => false end) (seq 0 16) = true) by (vm_compute; reflexivity).
  assert (D : forallb (fun k => match command (fun x => x) ex_args q128 k with Ok c => String.eqb (ex_result c) "Epoch: 9, test/mIoU: 0.250" | Err _ => false end) (seq 0 16) = true) by (vm_compute; reflexivity).
  rewrite forallb_forall in C, D. specialize (C k ltac:(apply in_seq; lia)). specialize (D k ltac:(apply in_seq; lia)).
  destruct Hq as [<-|[<-|[]]]; rewrite Hc in *.
  - apply String.eqb_eq in C. rewrite C. exists "0.750". split; [apply ex_shows|reflexivity].
  - apply String.eqb_eq in D. rewrite D. exists "0.250". split; [apply ex_shows|reflexivity].
Qed.
Lemma ex_round : rounds (fun x => x).
Proof. split; [intros x y H; exact H|reflexivity]. Qed.
Lemma thm_refuted : exists system result parse value a ratios s,
  trains system result /\ relative (a_alias a) /\ NoDup ratios /\
  (forall q k cmds, In q ratios -> k < 16 -> command (fun x => x) a q k = Ok cmds -> exists v, shows (result cmds) v /\ parse v = Some (value q k)) /\
  exists rows C I q, benchmark (fun x => x) system parse a ratios s = Ok rows /\ In (q, map (fun _ => Q2Qc (1 # 4)) (seq 0 16), C, I) rows /\ forall k, value q k = Q2Qc (3 # 4).
Proof.
  exists (ex_system ex_result), ex_result, ex_parse, ex_value, ex_args, [q8; q128], (fun _ => None).
  split; [apply ex_trains|]. split; [apply ex_relative|]. split; [constructor; [intros [H|[]]; discriminate H|constructor; [intros []|constructor]]|]. split; [exact ex_reports|].
  destruct (thm_rows (fun x => x) _ _ _ _ ex_args (ex_trains ex_result) ex_relative [q8; q128] (fun _ => None) ex_reports) as (rows & E & _).
  assert (L : last_printed [q8; q128] q8 q128). { split; [vm_compute; reflexivity|]. exists [q8], []. split; [reflexivity|intros x []]. }
  destruct (thm_printed (fun x => x) _ _ _ _ ex_args [q8; q128] (fun _ => None) rows (ex_trains ex_result) ex_relative ex_reports E 1 q8 q128 eq_refl L) as (C & I & Hn).
  exists rows, C, I, q8. split; [exact E|]. split; [apply nth_error_In in Hn; exact Hn|reflexivity].
Qed.
