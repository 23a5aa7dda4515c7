(** Concrete data for the theorems of P_Project.v. *)
From Coq Require Import String List ZArith Bool QArith Qcanon Lia Permutation.
From Verif Require Import Res Tensor Num NumFacts Octree NnBasic Utils Dataset Net Project SpecNN SpecNet SpecDataset SpecProject SpecEval MetricFacts ChunkFacts CropFacts Examples NetExamples DecodeExamples.
Import ListNotations.
Open Scope Z_scope.

Lemma predicts_map logit : Forall (fun r => r <> []) logit -> predicts logit (map argmax logit).
Proof.
  induction 1 as [|r lg H _ IH]; [constructor|]. cbn [map]. constructor; [|exact IH]. destruct (argmax_best r H) as (A & B). exists (Z.to_nat (argmax r)). split; [lia|exact B].
Qed.
Ltac predict := match goal with |- predicts ?l ?p => change (predicts l (map argmax l)); apply predicts_map; repeat apply Forall_cons; try apply Forall_nil; discriminate end.

(** Five points, three classes; the last point is predicted wrongly. *)
Definition ex_logit : list (list Qc) := map (map qz) [[5; 1; 0]; [1; 7; 7]; [0; 0; 2]; [3; 3; 1]; [9; 0; 4]].
Definition ex_pred : list Z := [0; 1; 2; 0; 0].
Definition ex_label : list Z := [0; 1; 2; 0; 2].
Lemma ex_predicts : predicts ex_logit ex_pred.
Proof.
  assert (E : ex_pred = map argmax ex_logit) by (vm_compute; reflexivity). rewrite E. apply predicts_map. unfold ex_logit. cbn [map]. repeat apply Forall_cons; try apply Forall_nil; discriminate.
Qed.
Lemma ex_reported : exists outs, reported 3 [(ex_logit, ex_label); (rev ex_logit, rev ex_label)] outs /\ List.length outs = 2%nat.
Proof.
  destruct (thm_iou ex_logit ex_label 3 eq_refl) as (i1 & a1 & b1 & E1 & _). destruct (thm_iou (rev ex_logit) (rev ex_label) 3 eq_refl) as (i2 & a2 & b2 & E2 & _).
  exists [(a1, b1); (a2, b2)]. split; [|reflexivity]. repeat constructor; cbn [fst snd]; eexists; eassumption.
Qed.

(** Two files; the second point of the first one was clipped in one of the two samples. *)
Definition ex_item1 : string * list bool * list (list Qc) := ("a.ply"%string, [true; false; true], map (map qz) [[1; 2]; [3; 4]]).
Definition ex_item2 : string * list bool * list (list Qc) := ("b.ply"%string, [true], map (map qz) [[5; 6]]).
Definition ex_item3 : string * list bool * list (list Qc) := ("a.ply"%string, [true; true; true], map (map qz) [[7; 8]; [9; 10]; [11; 12]]).
Definition ex_load (its : list (string * list bool * list (list Qc))) (labels : list Z) : eval_batch :=
  mkEval (concat (map snd its)) labels (map (fun it => List.length (snd it)) its) (map (fun it => snd (fst it)) its) (map (fun it => fst (fst it)) its).
Lemma ex_loads : Forall2 (loads 0) [ex_load [ex_item1; ex_item2] [1; 2; 1]; ex_load [ex_item3] [1; 1; 2]] [[ex_item1; ex_item2]; [ex_item3]].
Proof. repeat constructor. Qed.
Lemma ex_fits : Forall (sample_fits (fun r => r) 2) (concat [[ex_item1; ex_item2]; [ex_item3]]).
Proof. cbn [concat app]. repeat apply Forall_cons; try apply Forall_nil; (split; [reflexivity|]); cbn; repeat apply Forall_cons; try apply Forall_nil; reflexivity. Qed.
Lemma ex_same : same_size (concat [[ex_item1; ex_item2]; [ex_item3]]).
Proof. intros a b Ha Hb. cbn in Ha, Hb. destruct Ha as [<-|[<-|[<-|[]]]], Hb as [<-|[<-|[<-|[]]]]; cbn; intros H; try reflexivity; discriminate H. Qed.

(** A scene in two chunks and a whole scene. *)
Definition ex_chunk0 : string * list bool * list (list Qc) := ("s1"%string, [true; true; false], map (map qz) [[1; 2]; [3; 4]]).
Definition ex_chunk1 : string * list bool * list (list Qc) := ("s1"%string, [false; true; true], map (map qz) [[5; 0]; [0; 6]]).
Definition ex_scene : string * list bool * list (list Qc) := ("s2"%string, [true; true], map (map qz) [[7; 8]; [9; 1]]).
Definition ex_files : list string := ["s1.chunk_0"; "s2"; "s1.chunk_1"]%string.
Definition ex_pick {A} (f : string * list bool * list (list Qc) -> A) (n : string) : res A :=
  if String.eqb n "s1.chunk_0" then Ok (f ex_chunk0) else if String.eqb n "s1.chunk_1" then Ok (f ex_chunk1) else if String.eqb n "s2" then Ok (f ex_scene) else Err ValueError.
Lemma ex_file_of : Forall2 (file_of (ex_pick snd) (ex_pick (fun it => snd (fst it)))) ex_files [ex_chunk0; ex_scene; ex_chunk1].
Proof.
  constructor; [|constructor; [|constructor; [|constructor]]]; (split; [reflexivity|]).
  - right. exists O. split; [lia|]. split; reflexivity.
  - left. split; [reflexivity|]. split; [|reflexivity]. intros (a & b & E). apply (f_equal String.length) in E. rewrite !ChunkFacts.length_app in E. cbn in E. lia.
  - right. exists 1%nat. split; [lia|]. split; reflexivity.
Qed.
Lemma ex_files_fit : Forall (sample_fits (fun r => r) 2) [ex_chunk0; ex_scene; ex_chunk1].
Proof. repeat apply Forall_cons; try apply Forall_nil; (split; [reflexivity|]); cbn; repeat apply Forall_cons; try apply Forall_nil; reflexivity. Qed.
Lemma ex_files_same : same_size [ex_chunk0; ex_scene; ex_chunk1].
Proof. intros a b Ha Hb. cbn in Ha, Hb. destruct Ha as [<-|[<-|[<-|[]]]], Hb as [<-|[<-|[<-|[]]]]; cbn; intros H; try reflexivity; discriminate H. Qed.

(** A scene of 6000 points in two places, one of them at negative coordinates. *)
Definition ex_far : list (v3 Qc) := repeat (qz (-20), 0%Qc, 0%Qc) (Z.to_nat 3000) ++ repeat (qz 5, 0%Qc, 0%Qc) (Z.to_nat 3000).
Lemma nth_skipn {A} n : forall (l : list A) i, nth_error (skipn n l) i = nth_error l (n + i).
Proof. induction n as [|n IH]; intros l i; [reflexivity|]. destruct l as [|x l]; [destruct i; reflexivity|]. cbn [skipn Nat.add nth_error]. apply IH. Qed.
Lemma chunks_missing n v vs crop s ms : match generate_chunks crop s ms (vs ++ repeat v n) with Ok (Some masks) => forallb (fun mk => forallb negb (skipn (List.length vs) mk)) masks | _ => false end = true ->
  exists masks, generate_chunks crop s ms (vs ++ repeat v n) = Ok (Some masks) /\
    forall mk i, In mk masks -> (List.length vs <= i)%nat -> nth_error mk i <> Some true.
Proof.
  intros H. destruct (generate_chunks _ _ _ _) as [[masks|]|]; try discriminate. exists masks. split; [reflexivity|]. intros mk i Hm Hi Hn. rewrite forallb_forall in H. specialize (H mk Hm). rewrite forallb_forall in H.
  assert (In true (skipn (List.length vs) mk)); [|specialize (H true H0); discriminate]. apply (nth_error_In _ (i - List.length vs)). rewrite nth_skipn.
  replace (List.length vs + (i - List.length vs))%nat with i by lia. exact Hn.
Qed.
Theorem thm_chunks_far : exists vs v masks, generate_chunks (qz 10) (qz 5) 3000 vs = Ok (Some masks) /\
  (forall i, (Z.to_nat 3000 <= i < Z.to_nat 6000)%nat -> nth_error vs i = Some v) /\
  forall mask i, In mask masks -> (Z.to_nat 3000 <= i < Z.to_nat 6000)%nat -> nth_error mask i <> Some true.
Proof.
  destruct (chunks_missing (Z.to_nat 3000) (qz 5, 0%Qc, 0%Qc) (repeat (qz (-20), 0%Qc, 0%Qc) (Z.to_nat 3000)) (qz 10) (qz 5) 3000) as (masks & E & H); [vm_compute; reflexivity|].
  exists ex_far, (qz 5, 0%Qc, 0%Qc), masks. split; [exact E|]. rewrite repeat_length in H. split.
  - intros i Hi. unfold ex_far. rewrite nth_error_app2; rewrite repeat_length; [|lia]. apply nth_error_repeat. lia.
  - intros mk i Hm Hi. apply H; [exact Hm|lia].
Qed.
(** Fifteen points on a line, in two boxes. *)
Definition ex_line : list (v3 Qc) := map (fun i => (qz (Z.of_nat i), 0%Qc, 0%Qc)) (seq 0 15).
Lemma ex_line_case : exists masks, generate_chunks (qz 10) (qz 5) 3 ex_line = Ok (Some masks) /\ List.length masks = 2%nat.
Proof.
  destruct (ok_check (generate_chunks (qz 10) (qz 5) 3 ex_line) (fun m => match m with Some masks => Nat.eqb (List.length masks) 2 | None => false end)) as (m & E & H); [vm_compute; reflexivity|].
  destruct m as [masks|]; [|discriminate]. exists masks. split; [exact E|apply Nat.eqb_eq; exact H].
Qed.
Lemma ex_line_nonneg v : In v ex_line -> v3le (0%Qc, 0%Qc, 0%Qc) v.
Proof. unfold ex_line. intros H. apply in_map_iff in H. destruct H as (i & <- & _). repeat split; try apply Qcle_refl. apply (proj2 (qz_le 0 _)). lia. Qed.
