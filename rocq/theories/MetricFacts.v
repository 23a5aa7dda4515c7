(** Metrics of segmentation. *)
From Coq Require Import String List ZArith Bool QArith Qcanon Lia Lqa Field Permutation.
From Verif Require Import Res Tensor Num Octree NnBasic Utils Dataset Net Project SpecNN SpecProject NumFacts ListFacts SumFacts LinearThms.
Import ListNotations.
Open Scope Z_scope.

Lemma esp_guard : esp10 = guard. Proof. reflexivity. Qed.
Lemma guard_pos : (0 < guard)%Qc. Proof. reflexivity. Qed.
Lemma qn_nonneg n : (0 <= qn n)%Qc. Proof. unfold qn. rewrite <- qz_0. apply qz_le. lia. Qed.
Lemma qn_S n : qn (S n) = (qn n + 1)%Qc. Proof. unfold qn. rewrite Nat2Z.inj_succ. unfold Z.succ. rewrite qz_add. reflexivity. Qed.
Lemma qn_add n m : qn (n + m) = (qn n + qn m)%Qc. Proof. unfold qn. rewrite Nat2Z.inj_add. apply qz_add. Qed.
Lemma qn_le n m : (n <= m)%nat -> (qn n <= qn m)%Qc. Proof. intros H. apply qz_le. lia. Qed.

Lemma both_cons k p l ps ls : both k (p :: ps) (l :: ls) = ((if ((p =? k) && (l =? k))%Z then 1 else 0) + both k ps ls)%nat.
Proof. unfold both. cbn [combine filter fst snd]. destruct ((p =? k) && (l =? k)); reflexivity. Qed.
Lemma either_cons k p l ps ls : either k (p :: ps) (l :: ls) = ((if ((p =? k) || (l =? k))%Z then 1 else 0) + either k ps ls)%nat.
Proof. unfold either. cbn [combine filter fst snd]. destruct ((p =? k) || (l =? k)); reflexivity. Qed.
Lemma both_nil k p : both k p [] = O. Proof. destruct p; reflexivity. Qed.
Lemma either_nil k p : either k p [] = O. Proof. destruct p; reflexivity. Qed.
Lemma both_either k p : forall l, (both k p l <= either k p l)%nat.
Proof.
  induction p as [|a p IH]; intros [|b l]; try (unfold both, either; cbn; lia). rewrite both_cons, either_cons. specialize (IH l).
  destruct (a =? k), (b =? k); cbn [andb orb]; lia.
Qed.
Lemma both_app k p l p' l' : List.length p = List.length l -> both k (p ++ p') (l ++ l') = (both k p l + both k p' l')%nat.
Proof.
  revert l. induction p as [|a p IH]; intros [|b l] H; cbn in H; try discriminate; [reflexivity|]. cbn [app]. rewrite !both_cons, IH by lia. lia.
Qed.
Lemma either_app k p l p' l' : List.length p = List.length l -> either k (p ++ p') (l ++ l') = (either k p l + either k p' l')%nat.
Proof.
  revert l. induction p as [|a p IH]; intros [|b l] H; cbn in H; try discriminate; [reflexivity|]. cbn [app]. rewrite !either_cons, IH by lia. lia.
Qed.
Lemma both_same k l : either k l l = both k l l.
Proof. induction l as [|a l IH]; [reflexivity|]. rewrite both_cons, either_cons, IH. destruct (a =? k); reflexivity. Qed.
Lemma either_present k p : forall l, List.length p = List.length l -> present k l = true -> (1 <= either k p l)%nat.
Proof.
  induction p as [|a p IH]; intros [|b l] H Hp; cbn in H; try discriminate. rewrite either_cons. unfold present in Hp. cbn [existsb] in Hp.
  apply orb_prop in Hp. destruct Hp as [E|Hp]; [apply Z.eqb_eq in E; subst b; rewrite Z.eqb_refl, orb_true_r; lia|]. specialize (IH l ltac:(lia) Hp). lia.
Qed.

Lemma zip_cons {A B C} (f : A -> B -> C) a l b m : zip_with f (a :: l) (b :: m) = f a b :: zip_with f l m.
Proof. reflexivity. Qed.
Lemma count_and k pred : forall label, count_true (zip_with andb (map (Z.eqb k) pred) (map (Z.eqb k) label)) = both k pred label.
Proof.
  induction pred as [|a p IH]; intros [|b l]; try reflexivity. cbn [map]. rewrite zip_cons, count_true_cons, both_cons, IH. rewrite (Z.eqb_sym k a), (Z.eqb_sym k b). reflexivity.
Qed.
Lemma count_or k pred : forall label, count_true (zip_with orb (map (Z.eqb k) pred) (map (Z.eqb k) label)) = either k pred label.
Proof.
  induction pred as [|a p IH]; intros [|b l]; try reflexivity. cbn [map]. rewrite zip_cons, count_true_cons, either_cons, IH. rewrite (Z.eqb_sym k a), (Z.eqb_sym k b). reflexivity.
Qed.
Lemma valid_present k label : existsb (fun b => b) (map (Z.eqb k) label) = present k label.
Proof. unfold present. induction label as [|a l IH]; [reflexivity|]. cbn [map existsb]. rewrite IH. reflexivity. Qed.

Definition here (label : list Z) (k : nat) : Qc := if present (Z.of_nat k) label then 1%Qc else 0%Qc.
Lemma arange_S n : arange (S n) = arange n ++ [Z.of_nat n].
Proof. unfold arange. rewrite seq_S, map_app. reflexivity. Qed.
Lemma iou_loop pred label K : fold_left (iou_step pred label) (arange K) (0%Qc, 0%Qc, [], []) =
  (sum_n K (class_iou pred label), sum_n K (here label), map (fun k => qn (both (Z.of_nat k) pred label)) (seq 0 K), map (fun k => qn (either (Z.of_nat k) pred label)) (seq 0 K)).
Proof.
  induction K as [|K IH]; [reflexivity|]. rewrite arange_S, fold_left_app, IH. cbn [fold_left]. unfold iou_step. cbv zeta.
  unfold qcount. rewrite count_and, count_or, valid_present. rewrite !seq_S, !map_app. cbn [map sum_n plus]. fold (qn (both (Z.of_nat K) pred label)). fold (qn (either (Z.of_nat K) pred label)).
  rewrite esp_guard, qz_1. change (class_iou pred label K) with (if present (Z.of_nat K) label then (qn (both (Z.of_nat K) pred label) / (qn (either (Z.of_nat K) pred label) + guard))%Qc else 0%Qc).
  change (here label K) with (if present (Z.of_nat K) label then 1%Qc else 0%Qc). destruct (present (Z.of_nat K) label).
  - match goal with |- (((?a + 1 * ?x / ?y)%Qc, _), _, _) = _ => replace (1 * x / y)%Qc with (x / y)%Qc by (unfold Qcdiv; ring) end. reflexivity.
  - match goal with |- (((?a + 0 * ?x / ?y)%Qc, _), _, _) = _ => replace (0 * x / y)%Qc with 0%Qc by (unfold Qcdiv; ring) end. reflexivity.
Qed.

Lemma div_nonneg a b : (0 <= a)%Qc -> (0 < b)%Qc -> (0 <= a / b)%Qc.
Proof.
  intros Ha Hb. replace 0%Qc with (0 / b)%Qc by (unfold Qcdiv; ring). unfold Qcdiv. apply Qcmult_le_compat_r; [exact Ha|].
  apply qlt_le. assert (E : (0 < / b)%Qc); [|exact E]. destruct (Qclt_le_dec 0 (/ b)%Qc) as [H|H]; [exact H|].
  exfalso. assert (X : (b * / b)%Qc = 1%Qc) by (field; intros ->; discriminate Hb). assert (Y : (/ b * b <= 0 * b)%Qc) by (apply Qcmult_le_compat_r; [exact H|apply qlt_le; exact Hb]).
  rewrite Qcmult_comm, X in Y. replace (0 * b)%Qc with 0%Qc in Y by ring. discriminate Y || (revert Y; vm_compute; congruence).
Qed.
Lemma div_lt_one a b : (a < b)%Qc -> (0 < b)%Qc -> (a / b < 1)%Qc.
Proof.
  intros H Hb. apply (Qcmult_lt_r _ _ b Hb). replace (a / b * b)%Qc with a by (field; intros ->; discriminate Hb). replace (1 * b)%Qc with b by ring. exact H.
Qed.
Lemma div_le_div a b c d : (0 < b)%Qc -> (0 < d)%Qc -> (a * d <= c * b)%Qc -> (a / b <= c / d)%Qc.
Proof.
  intros Hb Hd H. assert (Nb : b <> 0%Qc) by (intros ->; discriminate Hb). assert (Nd : d <> 0%Qc) by (intros ->; discriminate Hd).
  apply (Qcmult_le_r _ _ b Hb). apply (Qcmult_le_r _ _ d Hd). replace (a / b * b * d)%Qc with (a * d)%Qc by (field; exact Nb). replace (c / d * b * d)%Qc with (c * b)%Qc by (field; exact Nd). exact H.
Qed.
Lemma sum_nonneg n f : (forall i, (i < n)%nat -> (0 <= f i)%Qc) -> (0 <= sum_n n f)%Qc.
Proof.
  intros H. replace 0%Qc with (sum_n n (fun _ => 0%Qc)) by (apply sum_zero; reflexivity). apply sum_mono. exact H.
Qed.
Lemma add_guard_pos a : (0 <= a)%Qc -> (0 < a + guard)%Qc.
Proof. intros H. pose proof guard_pos. qclra. Qed.

Lemma class_iou_range pred label k : (0 <= class_iou pred label k)%Qc /\ (class_iou pred label k <= here label k)%Qc.
Proof.
  unfold class_iou, here. destruct (present _ _); [|split; apply Qcle_refl]. set (b := both _ _ _). set (e := either _ _ _).
  assert (Hbe : (b <= e)%nat) by apply both_either. pose proof (qn_le _ _ Hbe) as L. pose proof (qn_nonneg b) as L0. pose proof (qn_nonneg e) as L1. pose proof (add_guard_pos _ L1) as G. pose proof guard_pos.
  split; [apply div_nonneg; assumption|]. apply qlt_le. apply div_lt_one; [|exact G]. qclra.
Qed.
Lemma here_nonneg label k : (0 <= here label k)%Qc.
Proof. unfold here. destruct (present _ _); discriminate. Qed.
Lemma present_In k l : present k l = true <-> In k l.
Proof. exact (memb_In k l). Qed.
Lemma here_sum_one label k K : (k < K)%nat -> present (Z.of_nat k) label = true -> (1 <= sum_n K (here label))%Qc.
Proof.
  intros Hk Hp. assert (E : sum_n K (fun i => if Nat.eqb i k then 1%Qc else 0%Qc) = 1%Qc).
  { rewrite (sum_one K k); [rewrite Nat.eqb_refl; reflexivity|exact Hk|]. intros i _ N. apply Nat.eqb_neq in N. rewrite N. reflexivity. }
  rewrite <- E. apply sum_mono. intros i _. destruct (Nat.eqb_spec i k) as [->|_]; [unfold here; rewrite Hp; apply Qcle_refl|apply here_nonneg].
Qed.
Lemma class_iou_same label k : (here label k * (1 / (1 + guard)) <= class_iou label label k)%Qc.
Proof.
  unfold class_iou, here. destruct (present (Z.of_nat k) label) eqn:Hp; [|replace (0 * (1 / (1 + guard)))%Qc with 0%Qc by ring; apply Qcle_refl].
  pose proof (either_present (Z.of_nat k) label label eq_refl Hp) as H1. rewrite both_same in *. set (b := both _ _ _) in *.
  replace (1 * (1 / (1 + guard)))%Qc with (1 / (1 + guard))%Qc by ring. pose proof (qn_le _ _ H1) as L. change (qn 1) with 1%Qc in L. pose proof guard_pos as G.
  apply div_le_div; [qclra|qclra|]. assert (X : (1 * guard <= qn b * guard)%Qc) by (apply Qcmult_le_compat_r; [exact L|apply qlt_le; exact G]).
  assert (R : (qn b * (1 + guard) = qn b + qn b * guard)%Qc) by ring. rewrite R. qclra.
Qed.

Lemma nth_error_map_seq {A} (f : nat -> A) n k : (k < n)%nat -> nth_error (map f (seq 0 n)) k = Some (f k).
Proof. intros H. rewrite nth_error_map. rewrite (nth_error_nth' _ O) by (rewrite seq_length; exact H). rewrite seq_nth by exact H. reflexivity. Qed.

Theorem thm_iou logit label K : List.length logit = List.length label ->
  exists iou intsc union, IoU_per_shape logit label K = Ok (iou, intsc, union) /\
    List.length intsc = K /\ List.length union = K /\
    (forall k, (k < K)%nat -> nth_error intsc k = Some (qn (both (Z.of_nat k) (map argmax logit) label)) /\
       nth_error union k = Some (qn (either (Z.of_nat k) (map argmax logit) label))) /\
    iou = (sum_n K (class_iou (map argmax logit) label) / (qn (List.length (filter (fun k => present (Z.of_nat k) label) (seq 0 K))) + guard))%Qc /\
    (0 <= iou)%Qc /\ (iou < 1)%Qc /\
    (map argmax logit = label -> (exists l, In l label /\ 0 <= l < Z.of_nat K) -> (1 / ((1 + guard) * (1 + guard)) <= iou)%Qc).
Proof.
  intros HL. unfold IoU_per_shape. cbv zeta. rewrite map_length, HL, Nat.eqb_refl. cbn [negb]. rewrite iou_loop. set (pred := map argmax logit).
  assert (EH : sum_n K (here label) = qn (List.length (filter (fun k => present (Z.of_nat k) label) (seq 0 K)))).
  { clear. induction K as [|K IH]; [reflexivity|]. cbn [sum_n]. rewrite seq_S, filter_app, app_length, qn_add, <- IH. f_equal. cbn [filter plus]. unfold here. destruct (present _ _); reflexivity. }
  rewrite <- EH, esp_guard. set (H := sum_n K (here label)). set (S := sum_n K (class_iou pred label)).
  assert (H0 : (0 <= H)%Qc) by (apply sum_nonneg; intros; apply here_nonneg).
  assert (S0 : (0 <= S)%Qc) by (apply sum_nonneg; intros; apply class_iou_range).
  assert (S1 : (S <= H)%Qc) by (apply sum_mono; intros; apply class_iou_range).
  pose proof (add_guard_pos _ H0) as G. pose proof guard_pos as G0.
  exists (S / (H + guard))%Qc, (map (fun k => qn (both (Z.of_nat k) pred label)) (seq 0 K)), (map (fun k => qn (either (Z.of_nat k) pred label)) (seq 0 K)).
  split; [reflexivity|]. split; [rewrite map_length, seq_length; reflexivity|]. split; [rewrite map_length, seq_length; reflexivity|].
  split; [intros k Hk; split; apply (nth_error_map_seq (fun k => qn _)); exact Hk|]. split; [reflexivity|]. split; [apply div_nonneg; assumption|]. split; [apply div_lt_one; [qclra|exact G]|].
  intros E (l & Hl & Hr). assert (S2 : (H * (1 / (1 + guard)) <= S)%Qc).
  { unfold H, S. rewrite <- sum_scale_r. apply sum_mono. intros i _. rewrite E. apply class_iou_same. }
  assert (H1 : (1 <= H)%Qc). { apply (here_sum_one label (Z.to_nat l)); [lia|]. rewrite Z2Nat.id by lia. apply present_In. exact Hl. }
  apply div_le_div; [vm_compute; reflexivity|exact G|].
  assert (X : ((H + guard) <= H * (1 + guard))%Qc). { assert (Y : (1 * guard <= H * guard)%Qc) by (apply Qcmult_le_compat_r; [exact H1|apply qlt_le; exact G0]). assert (R : (H * (1 + guard) = H + H * guard)%Qc) by ring. rewrite R. qclra. }
  assert (Y : (H * (1 / (1 + guard)) * ((1 + guard) * (1 + guard)) <= S * ((1 + guard) * (1 + guard)))%Qc) by (apply Qcmult_le_compat_r; [exact S2|vm_compute; discriminate]).
  assert (R : (H * (1 / (1 + guard)) * ((1 + guard) * (1 + guard)) = H * (1 + guard))%Qc) by (field; vm_compute; discriminate). rewrite R in Y. qclra.
Qed.

(** ** accuracy *)
Definition hits (pred label : list Z) : nat := count_true (zip_with Z.eqb pred label).
Lemma hits_le pred : forall label, (hits pred label <= List.length label)%nat.
Proof. induction pred as [|a p IH]; intros [|b l]; unfold hits in *; cbn [List.length]; try (cbn; lia). rewrite zip_cons, count_true_cons. specialize (IH l). destruct (a =? b); lia. Qed.
Lemma hits_all pred : forall label, List.length pred = List.length label -> (hits pred label = List.length label <-> pred = label).
Proof.
  induction pred as [|a p IH]; intros [|b l] H; cbn in H; try discriminate; [split; reflexivity|]. unfold hits in *. cbn [List.length]. rewrite zip_cons, count_true_cons.
  pose proof (hits_le p l) as L. unfold hits in L. specialize (IH l ltac:(lia)). destruct (Z.eqb_spec a b) as [->|N].
  - split; [intros E; f_equal; apply IH; lia|]. intros E. injection E as E. apply IH in E. lia.
  - split; [lia|congruence].
Qed.
Lemma both_sum K pred : forall label, List.length pred = List.length label -> (forall l, In l label -> 0 <= l < Z.of_nat K) ->
  sum_n K (fun k => qn (both (Z.of_nat k) pred label)) = qn (hits pred label).
Proof.
  induction pred as [|a p IH]; intros [|b l] H Hl; cbn in H; try discriminate; [apply sum_zero; reflexivity|].
  rewrite (sum_ext K _ (fun k => (qn (if (a =? Z.of_nat k) && (b =? Z.of_nat k) then 1 else 0) + qn (both (Z.of_nat k) p l))%Qc)) by (intros; rewrite both_cons; apply qn_add).
  rewrite sum_plus, IH by (auto with datatypes; lia). unfold hits. rewrite zip_cons, count_true_cons, qn_add. f_equal.
  pose proof (Hl b (or_introl eq_refl)) as Hb. rewrite (sum_one K (Z.to_nat b)); [|lia|].
  - rewrite Z2Nat.id by lia. rewrite Z.eqb_refl, andb_true_r. reflexivity.
  - intros i Hi N. destruct (Z.eqb_spec b (Z.of_nat i)); [lia|]. rewrite andb_false_r. reflexivity.
Qed.
Lemma hits_count pred : forall label, hits pred label = List.length (filter (fun pl => fst pl =? snd pl) (combine pred label)).
Proof. induction pred as [|a p IH]; intros [|b l]; try reflexivity. unfold hits in *. rewrite zip_cons, count_true_cons. cbn [combine filter fst snd]. rewrite IH. destruct (a =? b); reflexivity. Qed.

Theorem thm_accuracy logit label : List.length logit = List.length label -> label <> [] ->
  exists a, accuracy logit label = Ok (Some a) /\
    (a * qn (List.length label) = qn (List.length (filter (fun pl => fst pl =? snd pl) (combine (map argmax logit) label))))%Qc /\
    (0 <= a)%Qc /\ (a <= 1)%Qc /\ (a = 1%Qc <-> map argmax logit = label) /\
    forall K, (forall l, In l label -> 0 <= l < Z.of_nat K) ->
      (sum_n K (fun k => qn (both (Z.of_nat k) (map argmax logit) label)) = a * qn (List.length label))%Qc.
Proof.
  intros HL Hn. unfold accuracy. cbv zeta. rewrite map_length, HL, Nat.eqb_refl. cbn [negb]. destruct label as [|l0 ls] eqn:EL; [congruence|]. rewrite <- EL in *. clear EL l0 ls.
  set (pred := map argmax logit). assert (HP : List.length pred = List.length label) by (unfold pred; rewrite map_length; exact HL).
  assert (N1 : (1 <= List.length label)%nat) by (destruct label; [congruence|cbn; lia]). pose proof (qn_le _ _ N1) as N2. change (qn 1) with 1%Qc in N2.
  exists (qcount (zip_with Z.eqb pred label) / qz (zlen label))%Qc. split; [reflexivity|]. unfold qcount. fold (hits pred label). fold (qn (hits pred label)). unfold zlen. fold (qn (List.length label)).
  assert (NP : (0 < qn (List.length label))%Qc) by (apply (Qclt_le_trans _ 1); [reflexivity|exact N2]). assert (N0 : qn (List.length label) <> 0%Qc) by (intros E; rewrite E in NP; discriminate NP).
  assert (E : (qn (hits pred label) / qn (List.length label) * qn (List.length label) = qn (hits pred label))%Qc) by (field; exact N0).
  split; [rewrite E; f_equal; apply hits_count|]. split; [apply div_nonneg; [apply qn_nonneg|exact NP]|]. split; [|split].
  - apply (Qcmult_le_r _ _ _ NP). rewrite E. replace (1 * qn (List.length label))%Qc with (qn (List.length label)) by ring. apply qn_le. apply hits_le.
  - rewrite <- (hits_all pred label HP). split.
    + intros A. rewrite A in E. replace (1 * qn (List.length label))%Qc with (qn (List.length label)) in E by ring. unfold qn in E. apply qz_inj in E. lia.
    + intros ->. field. exact N0.
  - intros K Hr. rewrite E. apply both_sum; assumption.
Qed.

(** ** order of the points *)
Lemma filter_perm {A} (f : A -> bool) l m : Permutation l m -> List.length (filter f l) = List.length (filter f m).
Proof. induction 1; cbn; try congruence; repeat match goal with |- context [f ?x] => destruct (f x) end; cbn; congruence. Qed.
Lemma combine_map_l {A B C} (f : A -> B) (l : list A) : forall m : list C, combine (map f l) m = map (fun p => (f (fst p), snd p)) (combine l m).
Proof. induction l as [|a l IH]; intros [|b m]; try reflexivity. cbn. rewrite IH. reflexivity. Qed.
Lemma combine_snd {A B} (l : list A) : forall m : list B, List.length l = List.length m -> map snd (combine l m) = m.
Proof. induction l as [|a l IH]; intros [|b m] H; cbn in *; try discriminate; try reflexivity. rewrite IH by lia. reflexivity. Qed.
Lemma present_perm k l m : Permutation l m -> present k l = present k m.
Proof. intros H. destruct (present k l) eqn:E, (present k m) eqn:F; try reflexivity; exfalso; [apply present_In in E; apply (Permutation_in _ H) in E|apply present_In in F; apply (Permutation_in _ (Permutation_sym H)) in F]; apply present_In in E || apply present_In in F; congruence. Qed.
Theorem thm_metric_order logit label logit' label' K : List.length logit = List.length label -> List.length logit' = List.length label' ->
  Permutation (combine logit label) (combine logit' label') ->
  accuracy logit label = accuracy logit' label' /\ IoU_per_shape logit label K = IoU_per_shape logit' label' K.
Proof.
  intros H1 H2 HP. assert (PC : Permutation (combine (map argmax logit) label) (combine (map argmax logit') label')) by (rewrite !combine_map_l; apply Permutation_map; exact HP).
  assert (PL : Permutation label label') by (rewrite <- (combine_snd logit label H1), <- (combine_snd logit' label' H2); apply Permutation_map; exact HP).
  pose proof (Permutation_length PL) as LL. split.
  - unfold accuracy. cbv zeta. rewrite !map_length, H1, H2, !Nat.eqb_refl. cbn [negb]. pose proof (hits_count (map argmax logit) label) as A. pose proof (hits_count (map argmax logit') label') as B.
    rewrite (filter_perm _ _ _ PC), <- B in A. destruct label as [|l0 ls], label' as [|l0' ls']; try discriminate LL; [reflexivity|]. unfold qcount, zlen. unfold hits in A. rewrite A, LL. reflexivity.
  - unfold IoU_per_shape. cbv zeta. rewrite !map_length, H1, H2, !Nat.eqb_refl. cbn [negb]. rewrite !iou_loop.
    assert (EB : forall k, both k (map argmax logit) label = both k (map argmax logit') label') by (intros k; apply filter_perm; exact PC).
    assert (EE : forall k, either k (map argmax logit) label = either k (map argmax logit') label') by (intros k; apply filter_perm; exact PC).
    rewrite (sum_ext K (class_iou (map argmax logit) label) (class_iou (map argmax logit') label')) by (intros k _; unfold class_iou; rewrite EB, EE, (present_perm _ _ _ PL); reflexivity).
    rewrite (sum_ext K (here label) (here label')) by (intros k _; unfold here; rewrite (present_perm _ _ _ PL); reflexivity).
    rewrite (map_ext (fun k => qn (both (Z.of_nat k) (map argmax logit) label)) (fun k => qn (both (Z.of_nat k) (map argmax logit') label'))) by (intros; rewrite EB; reflexivity).
    rewrite (map_ext (fun k => qn (either (Z.of_nat k) (map argmax logit) label)) (fun k => qn (either (Z.of_nat k) (map argmax logit') label'))) by (intros; rewrite EE; reflexivity). reflexivity.
Qed.

(** ** result_callback *)
Definition test_out (K : nat) (b : feat * list Z) : list Qc * list Qc :=
  match IoU_per_shape (fst b) (snd b) K with Ok (_, i, u) => (i, u) | Err _ => ([], []) end.
Lemma test_out_eq K b : List.length (fst b) = List.length (snd b) -> test_out K b =
  (map (fun k => qn (both (Z.of_nat k) (map argmax (fst b)) (snd b))) (seq 0 K), map (fun k => qn (either (Z.of_nat k) (map argmax (fst b)) (snd b))) (seq 0 K)).
Proof. intros H. unfold test_out, IoU_per_shape. cbv zeta. rewrite map_length, H, Nat.eqb_refl. cbn [negb]. rewrite iou_loop. reflexivity. Qed.
Lemma class_avg_Ok (f : feat * list Z -> nat -> Qc) K bs k : 0 <= k < Z.of_nat K ->
  class_avg (map (fun b => map (f b) (seq 0 K)) bs) k = Ok (average (map (fun b => f b (Z.to_nat k)) bs)).
Proof.
  intros Hk. unfold class_avg. rewrite (mapM_Ok _ (fun row => nth (Z.to_nat k) row 0%Qc)).
  - cbn [bind]. f_equal. f_equal. rewrite map_map. apply map_ext. intros b. rewrite (nth_indep _ _ (f b O)) by (rewrite map_length, seq_length; lia). rewrite map_nth, seq_nth by lia. reflexivity.
  - intros row Hr. apply in_map_iff in Hr. destruct Hr as (b & <- & _). replace (k <? 0) with false by (symmetry; apply Z.ltb_ge; lia). rewrite nth_error_map_seq by lia.
    rewrite (nth_indep _ _ (f b O)) by (rewrite map_length, seq_length; lia). rewrite map_nth, seq_nth by lia. reflexivity.
Qed.
Lemma foldM_sum (g : Z -> res Qc) (f : Z -> Qc) ks : forall acc, (forall k, In k ks -> g k = Ok (f k)) ->
  foldM (fun acc k => x <- g k ;; Ok (acc + x)%Qc) acc ks = Ok (acc + fold_right Qcplus 0%Qc (map f ks))%Qc.
Proof.
  induction ks as [|k ks IH]; intros acc H; cbn [foldM map fold_right]; [f_equal; ring|]. rewrite (H k (or_introl eq_refl)). cbn [bind]. rewrite IH by (intros; apply H; right; assumption). f_equal. ring.
Qed.
Lemma foldM_ext {A T} (f g : T -> A -> res T) l : forall s, (forall s a, In a l -> f s a = g s a) -> foldM f s l = foldM g s l.
Proof. induction l as [|a l IH]; intros s H; [reflexivity|]. cbn [foldM]. rewrite (H s a (or_introl eq_refl)). destruct (g s a); cbn [bind]; [|reflexivity]. apply IH. intros; apply H; right; assumption. Qed.
Definition all_pred (bs : list (feat * list Z)) : list Z := concat (map (fun b => map argmax (fst b)) bs).
Definition all_label (bs : list (feat * list Z)) : list Z := concat (map snd bs).
Lemma all_len bs : Forall (fun b : feat * list Z => List.length (fst b) = List.length (snd b)) bs -> List.length (all_pred bs) = List.length (all_label bs).
Proof. induction 1 as [|b bs H _ IH]; [reflexivity|]. unfold all_pred, all_label in *. cbn [map concat]. rewrite !app_length, map_length. congruence. Qed.
Lemma sum_both k bs : Forall (fun b : feat * list Z => List.length (fst b) = List.length (snd b)) bs ->
  fold_right Qcplus 0%Qc (map (fun b : feat * list Z => qn (both k (map argmax (fst b)) (snd b))) bs) = qn (both k (all_pred bs) (all_label bs)).
Proof.
  induction 1 as [|b bs H _ IH]; [reflexivity|]. unfold all_pred, all_label in *. cbn [map concat fold_right]. rewrite IH, both_app by (rewrite map_length; exact H). rewrite qn_add. reflexivity.
Qed.
Lemma sum_either k bs : Forall (fun b : feat * list Z => List.length (fst b) = List.length (snd b)) bs ->
  fold_right Qcplus 0%Qc (map (fun b : feat * list Z => qn (either k (map argmax (fst b)) (snd b))) bs) = qn (either k (all_pred bs) (all_label bs)).
Proof.
  induction 1 as [|b bs H _ IH]; [reflexivity|]. unfold all_pred, all_label in *. cbn [map concat fold_right]. rewrite IH, either_app by (rewrite map_length; exact H). rewrite qn_add. reflexivity.
Qed.
Lemma fold_sum_seq (f : nat -> Qc) n : fold_right Qcplus 0%Qc (map f (seq 0 n)) = sum_n n f.
Proof.
  induction n as [|n IH]; [reflexivity|]. rewrite seq_S, map_app. cbn [map plus sum_n]. rewrite <- IH. generalize (map f (seq 0 n)) as l. induction l as [|a l IHl]; cbn [app fold_right]; [ring|]. rewrite IHl. ring.
Qed.
Lemma average_div xs u c : xs <> [] -> (average xs / (average u + c) = fold_right Qcplus 0 xs / (fold_right Qcplus 0 u + qn (List.length xs) * c))%Qc \/ List.length u <> List.length xs \/ (average u + c = 0)%Qc.
Proof.
  intros Hx. destruct (Nat.eq_dec (List.length u) (List.length xs)) as [E|]; [|auto]. destruct (Qc_eq_dec (average u + c) 0) as [Z0|N]; [auto|]. left.
  unfold average, zlen in *. rewrite E in *. fold (qn (List.length xs)) in *. set (n := qn (List.length xs)) in *.
  assert (Hn : n <> 0%Qc). { unfold n, qn. apply qz_neq0. destruct xs; [congruence|cbn; lia]. }
  revert N. generalize (fold_right Qcplus 0 u)%Qc as s. generalize (fold_right Qcplus 0 xs)%Qc as t. generalize n Hn. clear. intros n Hn t s N.
  assert (M : (s + n * c)%Qc <> 0%Qc). { intros X. apply N. apply Qcmult_integral_l with n; [exact Hn|]. rewrite <- X. field. exact Hn. }
  field. repeat split; try assumption; intros X; apply M; rewrite <- X; ring.
Qed.

Theorem thm_callback m K bs : -1 <= m < Z.of_nat K - 1 -> bs <> [] -> Forall (fun b : feat * list Z => List.length (fst b) = List.length (snd b)) bs ->
  exists r, result_callback m K (map (test_out K) bs) = Ok r /\ (0 <= r)%Qc /\ (r < 1)%Qc /\
    r = (sum_n (Z.to_nat (Z.of_nat K - m - 1)) (fun i => let k := (m + 1 + Z.of_nat i)%Z in
           qn (both k (all_pred bs) (all_label bs)) / (qn (either k (all_pred bs) (all_label bs)) + qn (List.length bs) * guard)) / qz (Z.of_nat K - m - 1))%Qc.
Proof.
  intros Hm Hb HF. unfold result_callback. cbv zeta.
  set (ks := map (fun i => m + 1 + Z.of_nat i) (seq 0 (Z.to_nat (Z.of_nat K - (m + 1))))).
  set (N := qn (List.length bs)).
  set (g := fun k => (qn (both k (all_pred bs) (all_label bs)) / (qn (either k (all_pred bs) (all_label bs)) + N * guard))%Qc).
  assert (N1 : (1 <= N)%Qc). { change 1%Qc with (qn 1). apply qn_le. destruct bs; [congruence|cbn; lia]. }
  assert (Hks : forall k, In k ks -> 0 <= k < Z.of_nat K). { intros k Hk. unfold ks in Hk. apply in_map_iff in Hk. destruct Hk as (i & <- & Hi). apply in_seq in Hi. lia. }
  assert (E : foldM (fun acc k => i <- class_avg (map fst (map (test_out K) bs)) k ;; u <- class_avg (map snd (map (test_out K) bs)) k ;; Ok (acc + i / (u + esp10))%Qc) 0%Qc ks = Ok (0 + fold_right Qcplus 0 (map g ks))%Qc).
  { rewrite (foldM_ext _ (fun acc k => x <- Ok (g k) ;; Ok (acc + x)%Qc)).
    - apply (foldM_sum (fun k => Ok (g k))). reflexivity.
    - intros s k Hk. specialize (Hks k Hk). rewrite !map_map.
      rewrite (map_ext_in (fun x => fst (test_out K x)) (fun b => map (fun k => qn (both (Z.of_nat k) (map argmax (fst b)) (snd b))) (seq 0 K))) by (intros b Hin; rewrite test_out_eq by (rewrite Forall_forall in HF; apply HF; exact Hin); reflexivity).
      rewrite (map_ext_in (fun x => snd (test_out K x)) (fun b => map (fun k => qn (either (Z.of_nat k) (map argmax (fst b)) (snd b))) (seq 0 K))) by (intros b Hin; rewrite test_out_eq by (rewrite Forall_forall in HF; apply HF; exact Hin); reflexivity).
      rewrite (class_avg_Ok (fun b k => qn (both (Z.of_nat k) (map argmax (fst b)) (snd b)))) by exact Hks. rewrite (class_avg_Ok (fun b k => qn (either (Z.of_nat k) (map argmax (fst b)) (snd b)))) by exact Hks. cbn [bind]. f_equal. f_equal.
      rewrite Z2Nat.id by lia. rewrite esp_guard. set (xs := map _ bs) at 1. set (us := map _ bs) at 1.
      assert (Ex : xs <> []) by (unfold xs; destruct bs; [congruence|discriminate]).
      destruct (average_div xs us guard Ex) as [D|[D|D]].
      + rewrite D. unfold g, N, xs, us. rewrite map_length, sum_both, sum_either by exact HF. reflexivity.
      + exfalso. apply D. unfold xs, us. rewrite !map_length. reflexivity.
      + exfalso. assert (P : (0 < average us + guard)%Qc). { apply add_guard_pos. unfold average, us. rewrite sum_either by exact HF. apply div_nonneg; [apply qn_nonneg|]. unfold zlen. rewrite map_length. fold (qn (List.length bs)). fold N. qclra. } rewrite D in P. discriminate P. }
  rewrite E. cbn [bind]. replace (Z.of_nat K =? m + 1) with false by (symmetry; apply Z.eqb_neq; lia). replace (Z.of_nat K - (m + 1)) with (Z.of_nat K - m - 1) in * by lia.
  set (n := Z.to_nat (Z.of_nat K - m - 1)) in *. replace (0 + fold_right Qcplus 0 (map g ks))%Qc with (sum_n n (fun i => g (m + 1 + Z.of_nat i))) by (unfold ks; rewrite map_map, fold_sum_seq, Qcplus_0_l; replace (Z.of_nat K - (m + 1)) with (Z.of_nat K - m - 1) by lia; reflexivity).
  assert (EN : qz (Z.of_nat K - m - 1) = qn n) by (unfold qn, n; rewrite Z2Nat.id by lia; reflexivity). rewrite EN.
  assert (n1 : (1 <= qn n)%Qc) by (change 1%Qc with (qn 1); apply qn_le; unfold n; lia).
  assert (G0 : forall k, (0 <= g k)%Qc /\ (g k < 1)%Qc).
  { intros k. unfold g. pose proof (qn_nonneg (both k (all_pred bs) (all_label bs))) as B0. pose proof (qn_le _ _ (both_either k (all_pred bs) (all_label bs))) as B1. pose proof guard_pos as GP.
    assert (X : (1 * guard <= N * guard)%Qc) by (apply Qcmult_le_compat_r; [exact N1|apply qlt_le; exact GP]). split; [apply div_nonneg; qclra|apply div_lt_one; qclra]. }
  eexists. split; [reflexivity|]. split; [|split; [|reflexivity]].
  - apply div_nonneg; [apply sum_nonneg; intros; apply G0|qclra].
  - apply div_lt_one; [|qclra]. assert (L : forall j, (1 <= j)%nat -> (sum_n j (fun i => g (m + 1 + Z.of_nat i)%Z) < qn j)%Qc).
    { clear - G0. induction j as [|j IH]; [lia|]. intros _. cbn [sum_n]. rewrite qn_S. destruct (G0 (m + 1 + Z.of_nat j)) as [_ G1]. destruct j as [|j]; [cbn [sum_n]; change (qn 0) with 0%Qc; qclra|]. specialize (IH ltac:(lia)). qclra. }
    apply L. unfold n. lia.
Qed.
