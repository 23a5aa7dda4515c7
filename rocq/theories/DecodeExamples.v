(** Concrete codes for the theorems of P_Decode.v. *)
From Coq Require Import String List ZArith Bool QArith Qcanon Lia.
From Verif Require Import Res Tensor Num NumFacts Octree NnBasic Net WF SpecGrow SpecNeigh SpecNN SpecNet SpecBatch NetFacts PoolFacts Examples NetExamples NetAe BatchExamples Decode.
Import ListNotations.
Open Scope Z_scope.

Definition ex_codes : list (list (list Qc)) := [ex_x 8 2; map (map Qcopp) (ex_x 8 2); rev (ex_x 8 2)].
Definition splits (r : ddict (list (list Qc)) * list (list Qc) * octree) (d : nat) : bool :=
  match dfind (fst (fst r)) (Z.of_nat d) with Ok lg => existsb (fun q => qltb (nth 0 q 0%Qc) (nth 1 q 0%Qc)) lg | Err _ => false end.
Lemma splits_spec r d lg : splits r d = true -> dfind (fst (fst r)) (Z.of_nat d) = Ok lg -> Exists asks_split lg.
Proof.
  unfold splits. intros H E. rewrite E in H. apply existsb_exists in H. destruct H as (q & Hq & Aq). apply Exists_exists. exists q. split; [exact Hq|]. apply qltb_lt. exact Aq.
Qed.
Lemma ok_check {A} (r : res A) (t : A -> bool) : match r with Ok a => t a | Err _ => false end = true -> exists a, r = Ok a /\ t a = true.
Proof. destruct r as [a|]; [intros H; exists a; auto|discriminate]. Qed.
Lemma ex_codes_split : exists rs, mapM (ae_decode_code ex_ae ex_params 3 0) ex_codes = Ok rs /\ length rs = 3%nat /\
  Forall (fun r => forall d lg, (a_full ex_ae <= d <= a_depth ex_ae)%nat -> dfind (fst (fst r)) (Z.of_nat d) = Ok lg -> Exists asks_split lg) rs.
Proof.
  destruct (ok_check (mapM (ae_decode_code ex_ae ex_params 3 0) ex_codes) (fun rs => Nat.eqb (length rs) 3 && forallb (fun r => forallb (splits r) [1; 2; 3]%nat) rs)) as (rs & E & H); [vm_compute; reflexivity|].
  exists rs. split; [exact E|]. clear E. apply andb_true_iff in H. destruct H as [H1 H2]. split; [apply Nat.eqb_eq; exact H1|].
  apply Forall_forall. intros r Hr d lg Hd Ed. rewrite forallb_forall in H2. specialize (H2 r Hr). rewrite forallb_forall in H2. apply (splits_spec r d); [|exact Ed]. apply H2.
  change (1 <= d <= 3)%nat in Hd. cbn [In]. lia.
Qed.
Lemma ex_codes_shape : Forall (shape (8 ^ a_full ex_ae) (a_code ex_ae)) ex_codes.
Proof.
  assert (H : shape (8 ^ a_full ex_ae) (a_code ex_ae) (ex_x 8 2)) by apply tensor2_shape. destruct H as [H1 H2].
  repeat apply Forall_cons; try apply Forall_nil.
  - split; assumption.
  - split; [rewrite map_length; exact H1|]. apply Forall_map. eapply Forall_impl; [|exact H2]. cbv beta. intros r Hr. rewrite map_length. exact Hr.
  - split; [rewrite rev_length; exact H1|]. apply Forall_forall. intros r Hr. apply in_rev in Hr. rewrite Forall_forall in H2. apply H2. exact Hr.
Qed.

(** The octree grown from a code meets the hypotheses of the fixpoint theorem. *)
Lemma ex_fixpoint : exists l s o, ae_decoder ex_ae ex_training 3 (ex_x 8 2) o false = Ok (l, s, o) /\ wf_octree o /\ depth o = a_depth ex_ae /\ full_depth o = a_full ex_ae /\ batch_size o = 1%nat /\
  layers_ready o false 2 (a_full ex_ae) (a_depth ex_ae) /\
  forall d logit flags, (a_full ex_ae <= d <= a_depth ex_ae)%nat -> dfind l (Z.of_nat d) = Ok logit -> nempty_mask o (Z.of_nat d) = Ok flags -> obeys logit flags.
Proof.
  assert (Hs : shape (8 ^ a_full ex_ae * 1) (a_code ex_ae) (ex_x 8 2)) by apply tensor2_shape.
  assert (Hlo : (2 <= 8 /\ 2 <= 8 ^ a_full ex_ae * 1)%nat) by (cbn; lia). assert (H1 : (1 <= 1)%nat) by lia. assert (H2 : Z.of_nat 1 <= 32768) by lia.
  destruct (thm_decode ex_ae ex_training 3 2 1 0 ex_ae_ok ex_norms_training H1 H2 Hlo (ex_x 8 2) Hs) as (l & s & o & E & D1 & D2 & D3 & W & Hn & Hlg & _).
  exists l, s, o. split.
  - apply (thm_replay ex_ae ex_training 3 2 1 0 ex_ae_ok ex_norms_training H1 H2 Hlo (ex_x 8 2) Hs l s o o E); try reflexivity.
    + clear. induction (layers o); constructor; [repeat split|assumption].
    + intros d Hd. apply Hn. lia.
  - split; [exact W|]. split; [exact D1|]. split; [exact D2|]. split; [exact D3|]. split.
    + destruct (ok_check (ae_decode_code ex_ae ex_training 3 0 (ex_x 8 2)) (fun r => forallb (fun d => Nat.leb 2 (node_count (snd r) d false)) [1; 2; 3]%nat)) as (r & E' & V); [vm_compute; reflexivity|].
      assert (Eq : forall (a b : ddict (list (list Qc)) * list (list Qc) * octree), Ok a = Ok b -> a = b) by congruence. rewrite E in E'. apply Eq in E'. subst r. cbn [snd] in V. rewrite forallb_forall in V.
      intros d Hd. split; [apply Hn; lia|]. apply Nat.leb_le. apply V. change (1 <= d <= 3)%nat in Hd. cbn [In]. lia.
    + intros d lg fl Hd B1 B2. destruct (Hlg d Hd) as (lg' & fl' & A1 & A2 & A3 & A4). assert (lg' = lg) by congruence. assert (fl' = fl) by congruence. subst lg' fl'. exact A4.
Qed.
