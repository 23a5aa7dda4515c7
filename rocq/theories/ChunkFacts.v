(** Chunks of scenes: names, merging of predictions, coverage, label tables. *)
From Coq Require Import String Ascii List ZArith Bool QArith Qcanon Qround Lia Lqa.
From Verif Require Import Res Tensor Num Octree NnBasic Utils Dataset Net Project SpecNN SpecDataset SpecProject SpecEval NumFacts ListFacts DatasetFacts NnFacts PoolFacts MetricFacts EvalFacts.
Import ListNotations.
Open Scope Z_scope.

(** ** argmax *)
Lemma argmax_best r : r <> [] -> 0 <= argmax r /\ best_col r (Z.to_nat (argmax r)).
Proof.
  intros H. unfold argmax. set (l := map (@Some Qc) r). assert (Hl : l <> []) by (unfold l; destruct r; [congruence|discriminate]). pose proof (max_first_spec l Hl) as B. destruct (fst (max_first l)) as [x|] eqn:E.
  - destruct B as (B0 & B1 & B2). split; [exact B0|]. exists x. split.
    + unfold l in B1 at 1. rewrite nth_error_map in B1. destruct (nth_error r _) eqn:F; [cbn in B1; congruence|discriminate].
    + intros i y Hy. specialize (B2 i y). unfold l in B2 at 1. rewrite nth_error_map, Hy in B2. specialize (B2 eq_refl). destruct B2 as (C1 & C2). split; [exact C1|]. intros Hi. apply C2. lia.
  - exfalso. destruct B as (_ & B). destruct r as [|a r]; [congruence|]. specialize (B O (Some a) eq_refl). discriminate B.
Qed.
Lemma best_unique r i j : best_col r i -> best_col r j -> i = j.
Proof.
  intros (x & Hx & Bx) (y & Hy & By). destruct (Nat.lt_trichotomy i j) as [L|[L|L]]; [|exact L|]; exfalso.
  - destruct (By i x Hx) as [_ A]. specialize (A L). destruct (Bx j y Hy) as [B _]. apply (Qclt_not_le _ _ A B).
  - destruct (Bx j y Hy) as [_ A]. specialize (A L). destruct (By i x Hx) as [B _]. apply (Qclt_not_le _ _ A B).
Qed.
Lemma predicts_argmax logit pred : predicts logit pred -> map argmax logit = pred.
Proof.
  induction 1 as [|r p lg ps (k & -> & B) _ IH]; [reflexivity|]. cbn [map]. rewrite IH. f_equal. assert (N : r <> []) by (destruct B as (x & Hx & _); intros ->; destruct k; discriminate).
  destruct (argmax_best r N) as (A0 & A1). rewrite <- (best_unique _ _ _ A1 B). lia.
Qed.
Lemma best_lt r k : best_col r k -> (k < List.length r)%nat.
Proof. intros (x & Hx & _). apply nth_error_Some. congruence. Qed.

(** ** names *)
Lemma substring_app s : forall t, substring 0 (String.length s) (s ++ t) = s.
Proof. induction s as [|c s IH]; intros t; cbn; [destruct t; reflexivity|]. rewrite IH. reflexivity. Qed.
Lemma length_app s t : String.length (s ++ t) = (String.length s + String.length t)%nat.
Proof. induction s as [|c s IH]; cbn; [reflexivity|]. rewrite IH. reflexivity. Qed.
Lemma drop_last_app s t : drop_last (String.length t) (s ++ t) = s.
Proof. unfold drop_last. rewrite length_app, Nat.add_sub. apply substring_app. Qed.
Lemma chunk_digit i : (i < 10)%nat -> String.length (".chunk_" ++ str_z (Z.of_nat i)) = 8%nat.
Proof. intros H. do 10 (destruct i as [|i]; [reflexivity|]). lia. Qed.
Lemma chunk_digits i : (10 <= i < 100)%nat -> exists t, (".chunk_" ++ str_z (Z.of_nat i) = "." ++ t)%string /\ String.length t = 8%nat.
Proof.
  intros H. assert (X : forallb (fun i => Nat.eqb (String.length (str_z (Z.of_nat i))) 2) (seq 10 90) = true) by (vm_compute; reflexivity). rewrite forallb_forall in X. specialize (X i ltac:(apply in_seq; lia)). apply Nat.eqb_eq in X.
  exists ("chunk_" ++ str_z (Z.of_nat i))%string. split; [reflexivity|]. rewrite length_app, X. reflexivity.
Qed.
Lemma app_assoc_s a b c : ((a ++ b) ++ c = a ++ (b ++ c))%string.
Proof. induction a as [|x a IH]; cbn; [reflexivity|]. rewrite IH. reflexivity. Qed.
Lemma chunk_key scene i : (i < 10)%nat -> drop_last 8 (chunk_name scene i) = scene.
Proof. intros H. unfold chunk_name. rewrite <- (chunk_digit i H). apply drop_last_app. Qed.
Lemma chunk_key2 scene i : (10 <= i < 100)%nat -> drop_last 8 (chunk_name scene i) = (scene ++ ".")%string.
Proof. intros H. unfold chunk_name. destruct (chunk_digits i H) as (t & -> & Ht). rewrite <- app_assoc_s, <- Ht. apply drop_last_app. Qed.
Lemma chunk_contains scene i : contains "chunk" (chunk_name scene i) = true.
Proof. apply contains_spec. exists (scene ++ ".")%string, ("_" ++ str_z (Z.of_nat i))%string. unfold chunk_name. rewrite app_assoc_s. reflexivity. Qed.

(** ** merging *)
Section Merge.
Variable C : nat.
Variable load : string -> res feat.
Variable load_mask : string -> res (list bool).
Lemma merge_holds st done name it : file_of load load_mask name it -> holds C st done -> sample_fits (fun r => r) C it ->
  (forall a, In a done -> fst (fst a) = fst (fst it) -> List.length (snd (fst a)) = List.length (snd (fst it))) ->
  exists st', merge_file C load load_mask st name = Ok st' /\ holds C st' (done ++ [it]).
Proof.
  intros (HL & HN) HH (F1 & F2) HS. destruct it as ((scene, mask), rows). cbn [fst snd] in *. unfold merge_file. rewrite HL. cbn [bind].
  destruct (put_votes C mask rows F1) as (p & Ep & Lp & Vp).
  assert (HO : forall mr, In mr (occ scene done) -> List.length (fst mr) = List.length mask). { intros mr Hm. apply occ_in in Hm. destruct Hm as (a & Ha & En & ->). apply HS; assumption. }
  destruct (acc_add_holds C st done scene mask rows p HH F1 F2 HO Ep) as (s2 & E2 & H2).
  destruct HN as [(-> & Hc & Hm)|(i & Hi & -> & Hm)].
  - apply contains_no in Hc. rewrite Hc. exists s2. split; [|exact H2]. rewrite <- E2. f_equal. subst mask. rewrite repeat_length in *.
    assert (X : forall (l : list (list Qc)), fill (repeat true (List.length l)) (repeat (vzero C) (List.length l)) l = l) by (induction l as [|r l IH]; cbn [List.length repeat fill]; [reflexivity|rewrite IH; reflexivity]).
    unfold mask_put in Ep. rewrite !repeat_length, Nat.eqb_refl in Ep. cbn [negb] in Ep. unfold count_true in Ep. rewrite F1, Nat.eqb_refl, X in Ep. congruence.
  - rewrite chunk_contains, Hm. cbn [bind]. rewrite Ep. cbn [bind]. rewrite chunk_key by exact Hi. exists s2. split; [exact E2|exact H2].
Qed.
Lemma merge_all names items : Forall2 (file_of load load_mask) names items -> forall st done, holds C st done -> Forall (sample_fits (fun r => r) C) items -> same_size (done ++ items) ->
  exists st', foldM (merge_file C load load_mask) st names = Ok st' /\ holds C st' (done ++ items).
Proof.
  induction 1 as [|n it names items HF _ IH]; intros st done HH HW HS.
  - exists st. split; [reflexivity|]. rewrite app_nil_r. exact HH.
  - apply Forall_cons_iff in HW. destruct HW as (W1 & W2). destruct (merge_holds st done n it HF HH W1) as (s1 & E1 & H1).
    + intros a Ha E. apply HS; [apply in_or_app; left; exact Ha|apply in_or_app; right; left; reflexivity|exact E].
    + change (it :: items) with ([it] ++ items) in *. rewrite app_assoc in *. destruct (IH s1 (done ++ [it]) H1 W2 HS) as (s2 & E2 & H2). exists s2. split; [|exact H2]. cbn [foldM]. rewrite E1. exact E2.
Qed.
End Merge.
Lemma class_ids_len b : List.length (class_ids b) = if b then 201%nat else 21%nat.
Proof. destruct b; reflexivity. Qed.
Lemma vadd_len2 a b n : List.length a = n -> List.length b = n -> List.length (vadd a b) = n.
Proof. intros H1 H2. rewrite vadd_len; congruence. Qed.
Lemma vsum_len C l : Forall (fun r => List.length r = C) l -> List.length (vsum C l) = C.
Proof.
  unfold vsum. assert (H0 : List.length (vzero C) = C) by apply repeat_length. revert H0. generalize (vzero C) as a. induction l as [|r l IH]; intros a Ha HF; [exact Ha|].
  apply Forall_cons_iff in HF. destruct HF as (F1 & F2). cbn [fold_left]. apply IH; [apply vadd_len2; assumption|exact F2].
Qed.
Lemma mapM_dict {A B} (g : A -> res B) (d : dict A) : (forall k v, dlookup d k = Some v -> exists w, g v = Ok w) -> NoDup (map fst d) ->
  exists out, mapM (fun '(name, v) => l <- g v ;; Ok (name, l)) d = Ok out /\
    forall k, dlookup out k = match dlookup d k with Some v => match g v with Ok w => Some w | Err _ => None end | None => None end.
Proof.
  induction d as [|(n, v) d IH]; intros H HN; [exists []; split; reflexivity|]. cbn [map] in HN. apply NoDup_cons_iff in HN. destruct HN as (N1 & N2). cbn [fst] in N1.
  destruct (H n v) as (w & Ew); [cbn [dlookup]; rewrite String.eqb_refl; reflexivity|].
  destruct IH as (out & Eo & Ho); [|exact N2|].
  - intros k v' Hk. apply (H k v'). cbn [dlookup]. destruct (String.eqb_spec k n) as [->|]; [|exact Hk]. exfalso. apply N1. clear - Hk. induction d as [|(a, b) d IH]; [discriminate|]. cbn [dlookup map fst] in *. destruct (String.eqb_spec n a) as [->|]; [left; reflexivity|right; apply IH; exact Hk].
  - cbn [mapM]. rewrite Ew. cbn [bind]. rewrite Eo. cbn [bind]. exists ((n, w) :: out). split; [reflexivity|]. intros k. cbn [dlookup]. destruct (String.eqb k n); [rewrite Ew; reflexivity|apply Ho].
Qed.
Lemma dset_nodup {A} (d : dict A) k v : NoDup (map fst d) -> NoDup (map fst (dset d k v)) /\ (forall x, In x (map fst (dset d k v)) -> x = k \/ In x (map fst d)).
Proof.
  induction d as [|(a, b) d IH]; intros HN; cbn [dset map fst].
  - split; [constructor; [intros []|constructor]|]. intros x [<-|[]]. left; reflexivity.
  - cbn [map fst] in HN. apply NoDup_cons_iff in HN. destruct HN as (N1 & N2). destruct (String.eqb_spec k a) as [->|N]; cbn [map fst].
    + split; [constructor; assumption|]. intros x H. right. exact H.
    + destruct (IH N2) as (I1 & I2). split; [constructor; [|exact I1]|].
      * intros Hin. apply I2 in Hin. destruct Hin; [congruence|contradiction].
      * intros x [<-|Hx]; [right; left; reflexivity|]. apply I2 in Hx. destruct Hx; [left; assumption|right; right; assumption].
Qed.
Lemma merge_nodup C load load_mask names : forall st st', NoDup (map fst st) -> foldM (merge_file C load load_mask) st names = Ok st' -> NoDup (map fst st').
Proof.
  assert (A : forall (st : dict feat) n rows st', NoDup (map fst st) -> acc_add st n rows = Ok st' -> NoDup (map fst st')).
  { intros st n rows st' HN. unfold acc_add. destruct (dlookup st n); [destruct (Nat.eqb _ _)|]; intros E; try discriminate; injection E as <-; apply dset_nodup; exact HN. }
  induction names as [|n names IH]; intros st st' HN H; cbn [foldM] in H; [congruence|]. destruct (merge_file C load load_mask st n) as [s1|] eqn:E; [|discriminate]. cbn [bind] in H. apply (IH s1 st'); [|exact H].
  unfold merge_file in E. destruct (load n) as [p|]; [|discriminate]. cbn [bind] in E. destruct (contains _ _); [|exact (A _ _ _ _ HN E)].
  destruct (load_mask n) as [mk|]; [|discriminate]. cbn [bind] in E. destruct (mask_put _ _ _) as [q|]; [|discriminate]. cbn [bind] in E. exact (A _ _ _ _ HN E).
Qed.
Theorem thm_merge C b load load_mask names items : Forall2 (file_of load load_mask) names items ->
  Forall (sample_fits (fun r => r) C) items -> same_size items -> (0 < C <= List.length (class_ids b))%nat ->
  exists out, generate_output_seg C b load load_mask names = Ok out /\
    forall f, match dlookup out f with
    | None => occ f items = []
    | Some labels => occ f items <> [] /\ (forall mr, In mr (occ f items) -> List.length (fst mr) = List.length labels) /\
        forall j, (j < List.length labels)%nat ->
          exists k, best_col (votes C f items j) k /\ nth_error labels j = nth_error (class_ids b) k /\ (k < List.length (class_ids b))%nat
    end.
Proof.
  intros HF HW HS HC. destruct (merge_all C load load_mask names items HF [] [] (holds_nil C) HW HS) as (st & E & H). cbn [app] in H.
  assert (ND : NoDup (map fst st)) by (apply (merge_nodup C load load_mask names [] st); [constructor|exact E]).
  unfold generate_output_seg. rewrite E. cbn [bind].
  assert (W : forall f v j, dlookup st f = Some v -> (j < List.length v)%nat -> exists r, nth_error v j = Some r /\ r = votes C f items j /\ List.length r = C).
  { intros f v j Hf Hj. specialize (H f). rewrite Hf in H. destruct H as (_ & _ & H). exists (votes C f items j). split; [apply H; exact Hj|]. split; [reflexivity|]. apply vsum_len. apply Forall_forall. intros r Hr. apply in_map_iff in Hr. destruct Hr as (mr & <- & Hm).
    apply occ_in in Hm. destruct Hm as (it & Hi & _ & ->). rewrite Forall_forall in HW. destruct (HW _ Hi) as (W1 & W2). cbn [fst snd]. apply vote_len; assumption. }
  assert (G : forall f v, dlookup st f = Some v -> old_labels b v = Ok (map (fun r => nth (Z.to_nat (argmax r)) (class_ids b) 0) v)).
  { intros f v Hf. unfold old_labels, gather. rewrite (mapM_Ok _ (fun i => nth (Z.to_nat i) (class_ids b) 0)); [rewrite map_map; reflexivity|]. intros i Hi. apply in_map_iff in Hi. destruct Hi as (r & <- & Hr).
    apply In_nth_error in Hr. destruct Hr as (j & Hj). destruct (W f v j Hf) as (r' & Hr' & _ & Lr); [apply nth_error_Some; congruence|]. assert (r' = r) by congruence. subst r'.
    destruct (argmax_best r) as (A0 & A1); [intros ->; cbn in Lr; lia|]. apply best_lt in A1. unfold ilabel_dict. apply NnFacts.tget_nth. unfold zlen. lia. }
  destruct (mapM_dict (old_labels b) st) as (out & Eo & Ho); [intros k v Hk; eexists; apply (G k v Hk)|exact ND|]. exists out. split; [exact Eo|].
  intros f. rewrite Ho. specialize (H f). destruct (dlookup st f) as [v|] eqn:Ef; [|exact H]. rewrite (G f v Ef). rewrite map_length. destruct H as (H0 & H1 & H2). split; [exact H0|]. split; [exact H1|].
  intros j Hj. destruct (W f v j Ef Hj) as (r & Hr & Er & Lr). destruct (argmax_best r) as (A0 & A1); [intros ->; cbn in Lr; lia|]. exists (Z.to_nat (argmax r)). rewrite <- Er. split; [exact A1|]. apply best_lt in A1.
  assert (K : (Z.to_nat (argmax r) < List.length (class_ids b))%nat) by lia. split; [|exact K]. rewrite (map_nth_error _ _ _ Hr). symmetry. apply nth_error_nth'. exact K.
Qed.
(** A chunk whose number has two digits is not added to its scene. *)
Theorem thm_merge_digits C load load_mask st scene i rows mask p : (10 <= i < 100)%nat -> load (chunk_name scene i) = Ok rows -> load_mask (chunk_name scene i) = Ok mask ->
  mask_put (repeat (vzero C) (List.length mask)) mask rows = Ok p -> forall st', merge_file C load load_mask st (chunk_name scene i) = Ok st' ->
  dlookup st' scene = dlookup st scene /\ dlookup st' (scene ++ ".")%string <> None.
Proof.
  intros Hi HL HM HP st'. unfold merge_file. rewrite HL. cbn [bind]. rewrite chunk_contains, HM. cbn [bind]. rewrite HP. cbn [bind]. rewrite chunk_key2 by exact Hi.
  assert (N : String.eqb scene (scene ++ ".") = false). { apply String.eqb_neq. intros X. apply (f_equal String.length) in X. rewrite length_app in X. cbn in X. lia. }
  unfold acc_add. destruct (dlookup st (scene ++ ".")%string) as [old|]; [destruct (Nat.eqb _ _)|]; intros E; try discriminate; apply (f_equal (fun r => match r with Ok x => x | Err _ => [] end)) in E; rewrite <- E, !dlookup_dset, N, String.eqb_refl; (split; [reflexivity|discriminate]).
Qed.
