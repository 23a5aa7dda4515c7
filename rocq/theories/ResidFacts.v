(** Residual blocks, rectified and bounded outputs. *)
From Coq Require Import String List ZArith Bool QArith Qcanon Lia.
From Verif Require Import Res Tensor ListFacts Key Num Points Octree NnBasic NnConv NnInterp Features Net PoolFacts SpecState SpecResid StateFacts.
Import ListNotations.
Open Scope Z_scope.

Lemma relu_pos x : relu x = map (map pos) x.
Proof.
  unfold relu. apply map_ext. intros r. apply map_ext. intros v. unfold pos. destruct (Qclt_le_dec v 0) as [H|H].
  - replace (qltb v 0) with true; [reflexivity|]. symmetry. apply qltb_lt. exact H.
  - destruct (qltb v 0) eqn:E; [|reflexivity]. apply qltb_lt in E. apply Qclt_not_le in E. contradiction.
Qed.
Lemma pos_ge v : (0 <= pos v)%Qc.
Proof. unfold pos. destruct (Qclt_le_dec v 0) as [H|H]; [apply Qcle_refl|exact H]. Qed.
Lemma pos_id v : (0 <= v)%Qc -> pos v = v.
Proof. intros H. unfold pos. destruct (Qclt_le_dec v 0) as [H'|_]; [|reflexivity]. exfalso. apply Qclt_not_le in H'. contradiction. Qed.
Lemma pos_pos v : pos (pos v) = pos v. Proof. apply pos_id. apply pos_ge. Qed.
Lemma pos_all_id x : every_entry (fun v => (0 <= v)%Qc) x -> map (map pos) x = x.
Proof.
  intros H. induction H as [|r x Hr H IH]; [reflexivity|]. cbn [map]. rewrite IH. f_equal.
  induction Hr as [|v r Hv Hr IHr]; [reflexivity|]. cbn [map]. rewrite IHr, pos_id by exact Hv. reflexivity.
Qed.
Lemma pos_all_pos x : map (map pos) (map (map pos) x) = map (map pos) x.
Proof. rewrite map_map. apply map_ext. intros r. rewrite map_map. apply map_ext. exact pos_pos. Qed.
Lemma relu_nonneg x : every_entry (fun v => (0 <= v)%Qc) (relu x).
Proof.
  rewrite relu_pos. apply Forall_forall. intros r Hr. apply in_map_iff in Hr. destruct Hr as (r' & <- & _).
  apply Forall_forall. intros v Hv. apply in_map_iff in Hv. destruct Hv as (v' & <- & _). apply pos_ge.
Qed.
Lemma bind_inv {A B} (x : res A) (f : A -> res B) b : bind x f = Ok b -> exists a, x = Ok a /\ f a = Ok b.
Proof. destruct x as [a|]; cbn [bind]; [intros H; exists a; auto|discriminate]. Qed.

Lemma add_zeros (z : list (list Qc)) x y : add_feat (map (map (fun _ => 0%Qc)) z) x = Ok y -> y = x.
Proof.
  unfold add_feat. destruct (Nat.eqb _ _ && _) eqn:E; [|discriminate]. intros H. injection H as <-.
  apply andb_true_iff in E. destruct E as [E1 E2]. apply Nat.eqb_eq in E1. rewrite map_length in E1.
  revert x E1 E2. induction z as [|r z IH]; intros [|s x] E1 E2; try discriminate; [reflexivity|].
  cbn [map combine forallb fst snd] in E2. apply andb_true_iff in E2. destruct E2 as [E2 E3]. apply Nat.eqb_eq in E2. rewrite map_length in E2.
  unfold zip_with. cbn [map combine fst snd]. f_equal; [|apply IH; [cbn in E1; congruence|exact E3]].
  clear - E2. revert s E2. induction r as [|a r IH]; intros [|b s] E; try discriminate; [reflexivity|].
  unfold vadd, zip_with. cbn [map combine fst snd]. f_equal; [apply Qcplus_0_l|]. apply IH. cbn in E. congruence.
Qed.
Lemma conv_bn_zero P p ci co ks stride ne x o d y : zero_scale P p co -> conv_bn P p ci co ks stride ne x o d = Ok y -> exists z : list (list Qc), y = map (map (fun _ => 0%Qc)) z.
Proof. intros H E. apply bind_inv in E. destruct E as (z & _ & E). rewrite H in E. injection E as <-. exists z. reflexivity. Qed.
Lemma conv1x1_zero P p ci co x y : zero_scale P p co -> conv1x1_bn P p ci co x = Ok y -> exists z : list (list Qc), y = map (map (fun _ => 0%Qc)) z.
Proof. intros H E. apply bind_inv in E. destruct E as (z & _ & E). rewrite H in E. injection E as <-. exists z. reflexivity. Qed.

Lemma block_zero P p C bneck ne x o d y : zero_scale P (sub p "conv1x1b" 0) C -> res_block P p C C 1 bneck ne x o d = Ok y -> y = map (map pos) x.
Proof.
  intros Hz E. unfold res_block in E. apply bind_inv in E. destruct E as (cb & _ & E). apply bind_inv in E. destruct E as ([x' d'] & E0 & E).
  cbn in E0. injection E0 as <- <-. apply bind_inv in E. destruct E as (c1 & _ & E). apply bind_inv in E. destruct E as (c2 & _ & E).
  apply bind_inv in E. destruct E as (c3 & E3 & E). apply (conv1x1_zero _ _ _ _ _ _ Hz) in E3. destruct E3 as (z & ->).
  rewrite Nat.eqb_refl in E. apply bind_inv in E. destruct E as (x' & Ex & E). injection Ex as <-.
  apply bind_inv in E. destruct E as (s & Es & E). injection E as <-. apply add_zeros in Es. subst s. apply relu_pos.
Qed.
Lemma block2_zero P p C bneck ne x o d y : zero_scale P (sub p "conv3x3b" 0) C -> res_block2 P p C C 1 bneck ne x o d = Ok y -> y = map (map pos) x.
Proof.
  intros Hz E. unfold res_block2 in E. apply bind_inv in E. destruct E as (cb & _ & E). apply bind_inv in E. destruct E as (u & _ & E).
  apply bind_inv in E. destruct E as (c1 & _ & E). apply bind_inv in E. destruct E as (c2 & E2 & E).
  apply (conv_bn_zero _ _ _ _ _ _ _ _ _ _ _ Hz) in E2. destruct E2 as (z & ->).
  rewrite Nat.eqb_refl in E. apply bind_inv in E. destruct E as (x' & Ex & E). injection Ex as <-.
  apply bind_inv in E. destruct E as (s & Es & E). injection E as <-. apply add_zeros in Es. subst s. apply relu_pos.
Qed.
Lemma foldM_last {A T} (f : T -> A -> res T) (I : T -> Prop) s l s' : (forall s a s', In a l -> f s a = Ok s' -> I s') -> l <> [] -> foldM f s l = Ok s' -> I s'.
Proof.
  revert s; induction l as [|a l IH]; intros s H Hne E; [contradiction|]. cbn [foldM] in E. apply bind_inv in E. destruct E as (s1 & E1 & E).
  destruct l as [|b l]; [cbn in E; injection E as <-; apply (H s a); [left; reflexivity|exact E1]|].
  apply (IH s1); [|discriminate|exact E]. intros t c t' Hc. apply H. right; exact Hc.
Qed.
Lemma arange_ne n : (1 <= n)%nat -> arange n <> [].
Proof. destruct n; [lia|]. discriminate. Qed.
Lemma blocks_step_zero P p C num bneck ne basic o d x i y : (i < num)%nat -> zero_scale P (branch_end basic p i) C ->
  (ci <- tget (C :: repeat C num) (Z.of_nat i) ;; co <- tget (C :: repeat C num) (Z.of_nat i + 1) ;;
   (if basic then res_block2 else res_block) P (p ++ [("resblks"%string, Z.of_nat i)]) ci co 1 bneck ne x o d) = Ok y -> y = map (map pos) x.
Proof.
  intros Hi Hz E. apply bind_inv in E. destruct E as (a & Ea & E). apply bind_inv in E. destruct E as (b & Eb & E).
  rewrite Zof_succ in Eb. apply tget_val in Ea. apply tget_val in Eb. destruct Ea as [Ea _], Eb as [Eb _].
  change (C :: repeat C num) with (repeat C (S num)) in *.
  rewrite (nth_indep _ O C), nth_repeat in Ea by (rewrite repeat_length; lia).
  rewrite (nth_indep _ O C), nth_repeat in Eb by (rewrite repeat_length; lia). subst a b.
  destruct basic; [apply (block2_zero _ _ _ _ _ _ _ _ _ Hz E)|apply (block_zero _ _ _ _ _ _ _ _ _ Hz E)].
Qed.
Lemma thm_blocks_pos P p C num bneck ne basic x o d y : (1 <= num)%nat -> (forall j, (j < num)%nat -> zero_scale P (branch_end basic p j) C) ->
  res_blocks P p C C num bneck ne basic x o d = Ok y -> y = map (map pos) x.
Proof.
  intros Hn Hz E. unfold res_blocks in E.
  assert (G : forall n s, (n <= num)%nat -> foldM (fun x i => ci <- tget (C :: repeat C num) i ;; co <- tget (C :: repeat C num) (i + 1) ;;
    (if basic then res_block2 else res_block) P (p ++ [("resblks"%string, i)]) ci co 1 bneck ne x o d) x (arange n) = Ok s ->
    s = x /\ n = O \/ s = map (map pos) x).
  { induction n as [|n IH]; intros s Hle Es; [left; cbn in Es; injection Es as <-; auto|]. right. unfold arange in Es. rewrite seq_S, map_app, foldM_app in Es.
    apply bind_inv in Es. destruct Es as (s1 & E1 & E2). cbn [Nat.add map foldM] in E2. apply bind_inv in E2. destruct E2 as (s2 & E2 & E3). injection E3 as <-.
    apply blocks_step_zero in E2; [|lia|apply Hz; lia]. destruct (IH s1 ltac:(lia) E1) as [[-> _]| ->]; [exact E2|]. rewrite pos_all_pos in E2. exact E2. }
  destruct (G num y (Nat.le_refl _) E) as [[_ H]|H]; [lia|exact H].
Qed.
Lemma thm_blocks_id P p C num bneck ne basic x o d y : (forall j, (j < num)%nat -> zero_scale P (branch_end basic p j) C) ->
  every_entry (fun v => (0 <= v)%Qc) x -> res_blocks P p C C num bneck ne basic x o d = Ok y -> y = x.
Proof.
  intros Hz Hx E. destruct num as [|n]; [cbn in E; injection E as <-; reflexivity|].
  apply thm_blocks_pos in E; [|lia|exact Hz]. rewrite pos_all_id in E by exact Hx. exact E.
Qed.
Lemma block_nonneg P p ci co stride bneck ne x o d y : res_block P p ci co stride bneck ne x o d = Ok y -> every_entry (fun v => (0 <= v)%Qc) y.
Proof.
  intros E. unfold res_block in E. apply bind_inv in E. destruct E as (cb & _ & E). apply bind_inv in E. destruct E as ([x' d'] & _ & E).
  repeat (apply bind_inv in E; destruct E as (? & _ & E)). injection E as <-. apply relu_nonneg.
Qed.
Lemma block2_nonneg P p ci co stride bneck ne x o d y : res_block2 P p ci co stride bneck ne x o d = Ok y -> every_entry (fun v => (0 <= v)%Qc) y.
Proof. intros E. unfold res_block2 in E. repeat (apply bind_inv in E; destruct E as (? & _ & E)). injection E as <-. apply relu_nonneg. Qed.
Lemma thm_blocks_nonneg P p ci co num bneck ne basic x o d y : (1 <= num)%nat -> res_blocks P p ci co num bneck ne basic x o d = Ok y ->
  every_entry (fun v => (0 <= v)%Qc) y.
Proof.
  intros Hn. unfold res_blocks. apply foldM_last; [|apply arange_ne; exact Hn]. clear y. intros s i y _ E.
  apply bind_inv in E. destruct E as (a & _ & E). apply bind_inv in E. destruct E as (b & _ & E).
  destruct basic; [apply (block2_nonneg _ _ _ _ _ _ _ _ _ _ _ E)|apply (block_nonneg _ _ _ _ _ _ _ _ _ _ _ E)].
Qed.
Lemma thm_conv_nonneg P p ci co ks stride ne x o d y :
  conv_bn_relu P p ci co ks stride ne x o d = Ok y \/ deconv_bn_relu P p ci co ks stride ne x o d = Ok y -> every_entry (fun v => (0 <= v)%Qc) y.
Proof. intros [E|E]; apply bind_inv in E; destruct E as (? & _ & E); apply bind_inv in E; destruct E as (? & _ & E); injection E as <-; apply relu_nonneg. Qed.

(** ** bounded outputs of the auto-encoder *)
Lemma tanh_range P (Q : Qc -> Prop) x : (forall v, Q (p_tanh P v)) -> every_entry Q (tanh_ P x).
Proof.
  intros H. apply Forall_forall. intros r Hr. apply in_map_iff in Hr. destruct Hr as (r' & <- & _).
  apply Forall_forall. intros v Hv. apply in_map_iff in Hv. destruct Hv as (v' & <- & _). apply H.
Qed.
Lemma mask_get_Forall {A} (Q : A -> Prop) (l : list A) m r : Forall Q l -> mask_get l m = Ok r -> Forall Q r.
Proof.
  unfold mask_get. destruct (Nat.eqb _ _); [|discriminate]. intros H E. injection E as <-. revert m.
  induction H as [|a l Ha H IH]; intros [|[|] m]; cbn [select]; try constructor; try assumption; apply IH.
Qed.
Lemma thm_code_range P (Q : Qc -> Prop) g cin CF feature o code : (forall v, Q (p_tanh P v)) -> ae_encoder g P cin CF feature o = Ok code -> every_entry Q code.
Proof. intros H E. unfold ae_encoder in E. repeat (apply bind_inv in E; destruct E as (? & _ & E)). injection E as <-. apply tanh_range. exact H. Qed.
Lemma thm_signal_range P (Q : Qc -> Prop) g cout code o update logits s o' : (forall v, Q (p_tanh P v)) -> ae_decoder g P cout code o update = Ok (logits, s, o') ->
  every_entry Q s /\ (update = true -> exists l, nth_error (layers o') (a_depth g) = Some l /\ l_features l = Some s).
Proof.
  intros H E. unfold ae_decoder in E. apply bind_inv in E. destruct E as ([[x o1] lg] & _ & E).
  do 3 (apply bind_inv in E; destruct E as (? & _ & E)). apply bind_inv in E. destruct E as (s' & Es & E). apply bind_inv in E. destruct E as (o2 & Eo & E).
  injection E as <- <- <-. split.
  - unfold octree_depad in Es. apply bind_inv in Es. destruct Es as (m & _ & Es). apply (mask_get_Forall _ _ _ _ (tanh_range P Q _ H) Es).
  - intros ->. unfold store_features, upd_layer in Eo. destruct (nth_error (layers o1) (a_depth g)) as [l|] eqn:El; [|discriminate]. injection Eo as <-.
    exists (set_features l (Some s')). split; [|reflexivity]. cbn [layers with_layers].
    clear - El. revert El. generalize (a_depth g) as n. generalize (layers o1) as L. induction L as [|a L IH]; intros [|n] E; try discriminate; [reflexivity|].
    cbn [set_nth nth_error] in *. apply IH. exact E.
Qed.
