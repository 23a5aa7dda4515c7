(** The scores printed by calc_iou. *)
From Coq Require Import String List ZArith Bool QArith Qcanon Lia Lqa.
From Verif Require Import Res Tensor Num NumFacts Octree NnBasic Project Scannet ListFacts SpecNN SpecProject SpecScannet MetricFacts.
Import ListNotations.
Open Scope Z_scope.

Definition pairs_of (cls : list Z) (f : list Z * list Z) : list (Z * Z) := filter (fun pg => existsb (Z.eqb (snd pg)) cls) (combine (fst f) (snd f)).
Lemma labelled_cons cls f fs : labelled cls (f :: fs) = pairs_of cls f ++ labelled cls fs.
Proof. unfold labelled, pairs_of. cbn [flat_map]. apply filter_app. Qed.
Lemma pairs_labelled cls f : labelled cls [f] = pairs_of cls f.
Proof. rewrite labelled_cons. unfold labelled. cbn. apply app_nil_r. Qed.
Lemma select_pairs cls p : forall g, List.length p = List.length g ->
  combine (select (map (isin cls) g) p) (select (map (isin cls) g) g) = pairs_of cls (p, g) /\
  List.length (select (map (isin cls) g) p) = List.length (pairs_of cls (p, g)) /\
  List.length (select (map (isin cls) g) g) = List.length (pairs_of cls (p, g)).
Proof.
  unfold pairs_of, isin. cbn [fst snd]. induction p as [|a p IH]; intros [|b g] H; try discriminate; cbn [map select combine filter List.length].
  - auto.
  - injection H as H. destruct (IH g H) as (E1 & E2 & E3). cbn [snd]. destruct (existsb (Z.eqb b) cls); cbn [combine List.length]; [|auto].
    rewrite E1, E2, E3. auto.
Qed.
Lemma both_pairs k p g : both k p g = n_both k (combine p g). Proof. reflexivity. Qed.
Lemma either_pairs k p g : either k p g = n_either k (combine p g). Proof. reflexivity. Qed.
Lemma n_both_app k a b : n_both k (a ++ b) = (n_both k a + n_both k b)%nat.
Proof. unfold n_both. now rewrite filter_app, app_length. Qed.
Lemma n_either_app k a b : n_either k (a ++ b) = (n_either k a + n_either k b)%nat.
Proof. unfold n_either. now rewrite filter_app, app_length. Qed.
Lemma right_count p : forall g, count_true (zip_with Z.eqb g p) = n_right (combine p g).
Proof.
  induction p as [|a p IH]; intros [|b g]; try reflexivity.
  unfold count_true, n_right in *. rewrite zip_cons. cbn [combine filter fst snd]. rewrite (Z.eqb_sym b a). destruct (a =? b); cbn [List.length]; now rewrite IH.
Qed.
(** the accuracy of one file *)
Definition file_acc (cls : list Z) (f : list Z * list Z) : option Qc :=
  match pairs_of cls f with [] => None | l => Some (qn (n_right l) / qn (List.length l))%Qc end.
Definition oplus (a b : option Qc) : option Qc := match a, b with Some x, Some y => Some (x + y)%Qc | _, _ => None end.
Definition state_of (cls : list Z) (l : list (Z * Z)) (a : option Qc) : iou_state :=
  (map (fun k => qn (n_both k l)) cls, map (fun k => qn (n_either k l)) cls, a).
Lemma zip_map {A} (f : A -> Qc -> Qc) (g : A -> Qc) l : zip_with f l (map g l) = map (fun k => f k (g k)) l.
Proof. induction l as [|x l IH]; [reflexivity|]. cbn [map]. rewrite zip_cons, IH. reflexivity. Qed.
Lemma iou_file_eq cls l a f : List.length (fst f) = List.length (snd f) ->
  iou_file cls (state_of cls l a) f = Ok (state_of cls (l ++ pairs_of cls f) (oplus a (file_acc cls f))).
Proof.
  destruct f as [p g]. cbn [fst snd]. intros H. unfold iou_file, state_of. cbn [fst snd].
  rewrite !mask_get_Ok by (rewrite map_length; congruence). cbn [bind].
  destruct (select_pairs cls p g H) as (E1 & E2 & E3).
  set (p' := select _ p) in *. set (g' := select _ g) in *. unfold qcount. rewrite !zip_map.
  apply f_equal, f_equal2; [apply f_equal2|].
  - apply map_ext. intros k. rewrite count_and, both_pairs, E1. fold (qn (n_both k (pairs_of cls (p, g)))). now rewrite n_both_app, qn_add.
  - apply map_ext. intros k. rewrite count_or, either_pairs, E1. fold (qn (n_either k (pairs_of cls (p, g)))). now rewrite n_either_app, qn_add.
  - unfold oplus. destruct a as [x|]; [|reflexivity]. rewrite right_count, E1. unfold file_acc.
    destruct g' as [|z g']; destruct (pairs_of cls (p, g)) as [|w v] eqn:E; cbn [List.length] in E3; try discriminate; [reflexivity|].
    unfold qn, zlen. cbn [List.length]. rewrite E3. reflexivity.
Qed.
Definition acc_sum (cls : list Z) (fs : list (list Z * list Z)) (a : option Qc) : option Qc := fold_left (fun x f => oplus x (file_acc cls f)) fs a.
Lemma iou_fold cls fs : forall l a, Forall (fun f => List.length (fst f) = List.length (snd f)) fs ->
  foldM (iou_file cls) (state_of cls l a) fs = Ok (state_of cls (l ++ labelled cls fs) (acc_sum cls fs a)).
Proof.
  induction fs as [|f fs IH]; intros l a H; cbn [foldM acc_sum fold_left].
  - unfold labelled. cbn. now rewrite app_nil_r.
  - inversion_clear H. rewrite iou_file_eq by assumption. cbn [bind]. rewrite IH by assumption. rewrite labelled_cons, app_assoc. reflexivity.
Qed.
Definition class_score (l : list (Z * Z)) (k : Z) : Qc := (qn (n_both k l) / (qn (n_either k l) + guard))%Qc.
Lemma score_fold cls l : forall acc, (fold_left (fun acc iu => acc + fst iu / (snd iu + esp10)) (combine (map (fun k => qn (n_both k l)) cls) (map (fun k => qn (n_either k l)) cls)) acc = acc + qsum (map (class_score l) cls))%Qc.
Proof.
  induction cls as [|k cls IH]; intros acc; cbn [map combine fold_left qsum fold_right].
  - ring.
  - rewrite IH. cbn [fst snd]. unfold class_score at 2. change esp10 with guard. unfold qsum. ring.
Qed.
Lemma map_const {A B} (c : B) (l : list A) : map (fun _ => c) l = repeat c (List.length l).
Proof. induction l as [|x l IH]; cbn; congruence. Qed.
Lemma calc_eq cls fs : Forall (fun f => List.length (fst f) = List.length (snd f)) fs -> fs <> [] ->
  calc_iou cls fs = Ok (option_map (fun a => a / qn (List.length fs))%Qc (acc_sum cls fs (Some 0%Qc)),
                        (qsum (map (class_score (labelled cls fs)) cls) / qn (List.length cls))%Qc).
Proof.
  intros H Hn. unfold calc_iou. pose proof (iou_fold cls fs [] (Some 0%Qc) H) as E. unfold state_of at 1 in E.
  change (fun k => qn (n_both k [])) with (fun _ : Z => 0%Qc) in E. change (fun k => qn (n_either k [])) with (fun _ : Z => 0%Qc) in E.
  rewrite !map_const in E. rewrite E. cbn [bind app]. unfold state_of. rewrite score_fold.
  destruct fs as [|f fs]; [congruence|]. cbn [List.length Nat.eqb]. unfold qn, zlen. cbn [List.length].
  replace (0 + qsum (map (class_score (labelled cls (f :: fs))) cls))%Qc with (qsum (map (class_score (labelled cls (f :: fs))) cls)) by ring. reflexivity.
Qed.

(** ** The two scores *)
Lemma acc_none cls fs : acc_sum cls fs None = None.
Proof. induction fs as [|f fs IH]; auto. Qed.
Lemma acc_some cls fs : forall a, Forall (fun f => labelled cls [f] <> []) fs ->
  acc_sum cls fs (Some a) = Some (a + qsum (map (fun f => qn (n_right (labelled cls [f])) / qn (List.length (labelled cls [f]))) fs))%Qc.
Proof.
  induction fs as [|f fs IH]; intros a H; cbn [acc_sum fold_left map qsum fold_right].
  - f_equal. ring.
  - inversion_clear H. change (fold_left _ fs ?x) with (acc_sum cls fs x). unfold file_acc, oplus. rewrite pairs_labelled in *.
    destruct (pairs_of cls f) as [|x l] eqn:E; [congruence|]. rewrite IH by assumption. f_equal. unfold qsum. ring.
Qed.
Lemma acc_nan cls fs : forall a, Exists (fun f => labelled cls [f] = []) fs -> acc_sum cls fs a = None.
Proof.
  induction fs as [|f fs IH]; intros a H; inversion_clear H; cbn [acc_sum fold_left]; change (fold_left _ fs ?x) with (acc_sum cls fs x); [|auto].
  unfold file_acc. rewrite pairs_labelled in *. rewrite H0. destruct a; apply acc_none.
Qed.
Lemma thm_scores cls fs : Forall (fun f => List.length (fst f) = List.length (snd f)) fs -> fs <> [] ->
  exists accu iou, calc_iou cls fs = Ok (accu, iou) /\
    iou = (qsum (map (fun k => qn (n_both k (labelled cls fs)) / (qn (n_either k (labelled cls fs)) + guard)) cls) / qn (List.length cls))%Qc /\
    (Exists (fun f => labelled cls [f] = []) fs -> accu = None) /\
    (Forall (fun f => labelled cls [f] <> []) fs ->
       accu = Some (qsum (map (fun f => qn (n_right (labelled cls [f])) / qn (List.length (labelled cls [f]))) fs) / qn (List.length fs))%Qc).
Proof.
  intros H Hn. rewrite (calc_eq cls fs H Hn). eexists _, _. split; [reflexivity|]. split; [reflexivity|]. split.
  - intros He. now rewrite acc_nan.
  - intros Hf. rewrite acc_some by exact Hf. cbn [option_map]. f_equal. f_equal. ring.
Qed.

Lemma n_both_le k l : (n_both k l <= n_either k l)%nat.
Proof.
  unfold n_both, n_either. induction l as [|[p g] l IH]; cbn [filter fst snd List.length]; [lia|].
  destruct (p =? k), (g =? k); cbn [andb orb List.length]; lia.
Qed.
Lemma score_range l k : (0 <= class_score l k)%Qc /\ (class_score l k < 1)%Qc.
Proof.
  unfold class_score. pose proof (qn_le _ _ (n_both_le k l)) as L. pose proof (qn_nonneg (n_both k l)) as L0. pose proof (qn_nonneg (n_either k l)) as L1.
  pose proof (add_guard_pos _ L1) as G. pose proof guard_pos. split; [now apply div_nonneg|]. apply div_lt_one; [|exact G]. qclra.
Qed.
Lemma qn_pos n : (1 <= n)%nat -> (0 < qn n)%Qc.
Proof. intros H. unfold qn. rewrite <- qz_0. apply qz_lt. lia. Qed.
Lemma qsum_nonneg {A} (f : A -> Qc) l : (forall x, In x l -> (0 <= f x)%Qc) -> (0 <= qsum (map f l))%Qc.
Proof.
  induction l as [|x l IH]; intros H; cbn [map qsum fold_right]; [apply Qcle_refl|].
  assert (0 <= f x)%Qc by (apply H; now left). assert (0 <= qsum (map f l))%Qc by (apply IH; intros; apply H; now right). unfold qsum in *. qclra.
Qed.
Lemma qsum_le {A} (f g : A -> Qc) l : (forall x, In x l -> (f x <= g x)%Qc) -> (qsum (map f l) <= qsum (map g l))%Qc.
Proof.
  induction l as [|x l IH]; intros H; cbn [map qsum fold_right]; [apply Qcle_refl|].
  assert (f x <= g x)%Qc by (apply H; now left). assert (qsum (map f l) <= qsum (map g l))%Qc by (apply IH; intros; apply H; now right). unfold qsum in *. qclra.
Qed.
Lemma qsum_lt {A} (f : A -> Qc) l : l <> [] -> (forall x, In x l -> (f x < 1)%Qc) -> (qsum (map f l) < qn (List.length l))%Qc.
Proof.
  induction l as [|x l IH]; intros Hn H; [congruence|]. cbn [map qsum fold_right List.length]. rewrite qn_S.
  assert (f x < 1)%Qc by (apply H; now left). destruct l as [|y l]; [cbn [map fold_right]; change (qn (List.length (@nil A))) with 0%Qc; qclra|].
  assert (qsum (map f (y :: l)) < qn (List.length (y :: l)))%Qc by (apply IH; [discriminate | intros; apply H; now right]). unfold qsum in *. qclra.
Qed.
Lemma div_mono a b c : (0 < c)%Qc -> (a <= b)%Qc -> (a / c <= b / c)%Qc.
Proof. intros Hc H. apply div_le_div; auto. apply Qcmult_le_r; auto. Qed.
Lemma n_right_le l : (n_right l <= List.length l)%nat.
Proof. unfold n_right. induction l as [|x l IH]; cbn [filter List.length]; [lia|]. destruct (fst x =? snd x); cbn [List.length]; lia. Qed.
Lemma div_self a : (0 < a)%Qc -> (a / a = 1)%Qc.
Proof. intros H. field. intros ->. discriminate H. Qed.
Lemma qsum_one {A} (l : list A) : qsum (map (fun _ => 1%Qc) l) = qn (List.length l).
Proof. induction l as [|x l IH]; [reflexivity|]. cbn [map qsum fold_right List.length]. rewrite qn_S, <- IH. unfold qsum. ring. Qed.
Lemma thm_score_range cls fs accu iou : calc_iou cls fs = Ok (accu, iou) ->
  Forall (fun f => List.length (fst f) = List.length (snd f)) fs -> cls <> [] ->
  ((0 <= iou)%Qc /\ (iou < 1)%Qc) /\ forall a, accu = Some a -> (0 <= a)%Qc /\ (a <= 1)%Qc.
Proof.
  intros E H Hc. assert (fs <> []) as Hn by (intros ->; cbn in E; discriminate).
  destruct (thm_scores cls fs H Hn) as (accu' & iou' & E' & Ei & Ha & Hb). rewrite E in E'. injection E' as <- <-.
  assert (0 < qn (List.length cls))%Qc as Hp by (apply qn_pos; destruct cls; [congruence | cbn; lia]).
  assert (0 < qn (List.length fs))%Qc as Hq by (apply qn_pos; destruct fs; [congruence | cbn; lia]).
  split; [subst iou; split|].
  - apply div_nonneg; auto. apply qsum_nonneg. intros k _. apply (score_range (labelled cls fs) k).
  - apply div_lt_one; auto. apply qsum_lt; auto. intros k _. apply (score_range (labelled cls fs) k).
  - intros a ->. destruct (Forall_dec (fun f => labelled cls [f] <> [])) with (l := fs) as [Hf|Hf].
    + intros f. destruct (labelled cls [f]); [right; congruence | left; discriminate].
    + specialize (Hb Hf). injection Hb as ->.
      assert (forall f, In f fs -> (0 < qn (List.length (labelled cls [f])))%Qc) as Hl.
      { intros f Hi. rewrite Forall_forall in Hf. specialize (Hf f Hi). apply qn_pos. destruct (labelled cls [f]); [congruence | cbn; lia]. }
      split; [apply div_nonneg; auto; apply qsum_nonneg; intros f Hi; apply div_nonneg; [apply qn_nonneg | auto]|].
      rewrite <- (div_self (qn (List.length fs))) by exact Hq. apply div_mono; auto.
      rewrite <- (qsum_one fs). apply qsum_le. intros f Hi. rewrite <- (div_self (qn (List.length (labelled cls [f])))) by auto.
      apply div_mono; auto. apply qn_le, n_right_le.
    + assert (Exists (fun f => labelled cls [f] = []) fs) as He.
      { apply neg_Forall_Exists_neg in Hf; [|intros f; destruct (labelled cls [f]); [right; congruence | left; discriminate]].
        eapply Exists_impl; [|exact Hf]. cbn beta. intros f Hx. destruct (labelled cls [f]); auto. exfalso. apply Hx. discriminate. }
      specialize (Ha He). discriminate.
Qed.

(** ** Perfect predictions *)
Lemma right_both k l : (forall pg, In pg l -> fst pg = snd pg) -> n_both k l = n_either k l.
Proof.
  intros H. unfold n_both, n_either. f_equal. apply filter_ext_in. intros [p g] Hi. apply H in Hi. cbn [fst snd] in *. subst. now destruct (g =? k).
Qed.
Lemma not_seen k l : (forall pg, In pg l -> fst pg = snd pg) -> existsb (fun pg => snd pg =? k) l = false -> n_both k l = 0%nat.
Proof.
  unfold n_both. induction l as [|[p g] l IH]; intros H E; [reflexivity|]. cbn [existsb filter fst snd] in *. apply orb_false_iff in E. destruct E as [E1 E2].
  rewrite E1, andb_false_r. apply IH; auto. intros pg Hi. apply H. now right.
Qed.
Lemma is_seen k l : existsb (fun pg => snd pg =? k) l = true -> (1 <= n_either k l)%nat.
Proof.
  unfold n_either. induction l as [|[p g] l IH]; cbn [existsb filter fst snd]; [discriminate|]. intros E. destruct (g =? k).
  - rewrite orb_true_r. cbn [List.length]. lia.
  - cbn [orb] in E. specialize (IH E). destruct ((p =? k) || false); cbn [List.length]; lia.
Qed.
Lemma seen_sum cls l (c : Qc) : (qsum (map (fun k => if existsb (fun pg : Z * Z => (snd pg =? k)%Z) l then c else 0) cls) = qn (seen_classes cls l) * c)%Qc.
Proof.
  unfold seen_classes. induction cls as [|k cls IH]; cbn [map qsum fold_right filter]; [change (qn (List.length (@nil Z))) with 0%Qc; ring|].
  fold (qsum (map (fun k => if existsb (fun pg : Z * Z => (snd pg =? k)%Z) l then c else 0%Qc) cls)). rewrite IH.
  destruct (existsb (fun pg => snd pg =? k) l); cbn [List.length]; [rewrite qn_S|]; ring.
Qed.
Lemma filter_all {A} (f : A -> bool) l : (forall x, In x l -> f x = true) -> filter f l = l.
Proof. induction l as [|x l IH]; intros H; cbn [filter]; [reflexivity|]. rewrite (H x) by now left. f_equal. apply IH. intros; apply H; now right. Qed.
Lemma thm_perfect cls fs accu iou : calc_iou cls fs = Ok (accu, iou) ->
  Forall (fun f => List.length (fst f) = List.length (snd f)) fs -> cls <> [] ->
  (forall p g, In (p, g) (labelled cls fs) -> p = g) ->
  (iou <= qn (seen_classes cls (labelled cls fs)) / qn (List.length cls))%Qc /\
  (qn (seen_classes cls (labelled cls fs)) / qn (List.length cls) * (1 / (1 + guard)) <= iou)%Qc /\
  forall a, accu = Some a -> a = 1%Qc.
Proof.
  intros E H Hc Hr. assert (fs <> []) as Hn by (intros ->; cbn in E; discriminate).
  destruct (thm_scores cls fs H Hn) as (accu' & iou' & E' & Ei & Ha & Hb). rewrite E in E'. injection E' as <- <-.
  assert (0 < qn (List.length cls))%Qc as Hp by (apply qn_pos; destruct cls; [congruence | cbn; lia]).
  assert (0 < qn (List.length fs))%Qc as Hq by (apply qn_pos; destruct fs; [congruence | cbn; lia]).
  set (l := labelled cls fs) in *.
  assert (forall pg, In pg l -> fst pg = snd pg) as Hr' by (intros [p g] Hi; now apply Hr).
  subst iou. split; [|split].
  - apply div_mono; auto. replace (qn (seen_classes cls l)) with (qn (seen_classes cls l) * 1)%Qc by ring. rewrite <- seen_sum.
    apply qsum_le. intros k _. change (qn (n_both k l) / (qn (n_either k l) + guard))%Qc with (class_score l k).
    destruct (existsb (fun pg => snd pg =? k) l) eqn:Ek; [apply qlt_le, score_range|]. unfold class_score. rewrite (not_seen k l Hr' Ek).
    change (qn 0) with 0%Qc. replace (0 / (qn (n_either k l) + guard))%Qc with 0%Qc by (unfold Qcdiv; ring). apply Qcle_refl.
  - replace (qn (seen_classes cls l) / qn (List.length cls) * (1 / (1 + guard)))%Qc with (qn (seen_classes cls l) * (1 / (1 + guard)) / qn (List.length cls))%Qc by (unfold Qcdiv; ring).
    apply div_mono; auto. rewrite <- seen_sum. apply qsum_le. intros k _.
    change (qn (n_both k l) / (qn (n_either k l) + guard))%Qc with (class_score l k).
    destruct (existsb (fun pg => snd pg =? k) l) eqn:Ek; [|apply score_range]. unfold class_score. rewrite (right_both k l Hr').
    pose proof (is_seen k l Ek) as Hs. pose proof guard_pos as G. apply div_le_div; [qclra | apply add_guard_pos, qn_nonneg |].
    assert (1 <= qn (n_either k l))%Qc as Hk by (rewrite <- qz_1; apply qz_le; lia).
    assert (1 * guard <= qn (n_either k l) * guard)%Qc by (apply Qcmult_le_r; auto). qclra.
  - intros a ->. destruct (Forall_dec (fun f => labelled cls [f] <> [])) with (l := fs) as [Hf|Hf].
    + intros f. destruct (labelled cls [f]); [right; congruence | left; discriminate].
    + specialize (Hb Hf). injection Hb as ->.
      assert (forall f, In f fs -> (qn (n_right (labelled cls [f])) / qn (List.length (labelled cls [f])) = 1)%Qc) as Hl.
      { intros f Hi. rewrite Forall_forall in Hf. specialize (Hf f Hi).
        assert (n_right (labelled cls [f]) = List.length (labelled cls [f])) as ->.
        { unfold n_right. rewrite filter_all; [reflexivity|]. intros [p g] Hpg. apply Z.eqb_eq. apply (Hr p g).
          unfold l, labelled in *. cbn [flat_map] in Hpg. rewrite app_nil_r in Hpg. apply filter_In in Hpg. apply filter_In. split; [|tauto].
          apply in_flat_map. exists f. tauto. }
        apply div_self, qn_pos. destruct (labelled cls [f]); [congruence | cbn; lia]. }
      rewrite (map_ext_in _ (fun _ => 1%Qc)) by exact Hl. rewrite qsum_one. now apply div_self.
    + assert (Exists (fun f => labelled cls [f] = []) fs) as He.
      { apply neg_Forall_Exists_neg in Hf; [|intros f; destruct (labelled cls [f]); [right; congruence | left; discriminate]].
        eapply Exists_impl; [|exact Hf]. cbn beta. intros f Hx. destruct (labelled cls [f]); auto. exfalso. apply Hx. discriminate. }
      specialize (Ha He). discriminate.
Qed.

(** ** Predictions at points without a label do not matter *)
Lemma thm_unlabelled cls fs gs : Forall2 (fun f g => snd f = snd g /\ List.length (fst f) = List.length (snd f) /\ List.length (fst g) = List.length (snd g) /\
    forall i l p q, nth_error (snd f) i = Some l -> In l cls -> nth_error (fst f) i = Some p -> nth_error (fst g) i = Some q -> p = q) fs gs ->
  calc_iou cls fs = calc_iou cls gs.
Proof.
  intros H. unfold calc_iou. generalize (repeat 0%Qc (List.length cls), repeat 0%Qc (List.length cls), Some 0%Qc).
  assert (List.length fs = List.length gs) as Hl by (clear -H; induction H; cbn; congruence).
  intros st. assert (foldM (iou_file cls) st fs = foldM (iou_file cls) st gs) as ->.
  { clear Hl. revert st. induction H as [|[p g] [q g'] fs gs (Eg & Hp & Hq & Hx) _ IH]; intros st; [reflexivity|]. cbn [fst snd] in *. subst g'. cbn [foldM].
    assert (iou_file cls st (p, g) = iou_file cls st (q, g)) as ->; [|destruct (iou_file cls st (q, g)); cbn [bind]; auto].
    unfold iou_file. cbn [fst snd]. rewrite !mask_get_Ok by (rewrite map_length; congruence).
    assert (select (map (isin cls) g) p = select (map (isin cls) g) q) as ->; [|reflexivity].
    clear -Hp Hq Hx. revert p q Hp Hq Hx. induction g as [|l g IH]; intros [|a p] [|b q] Hp Hq Hx; try discriminate; [reflexivity|].
    cbn [map select]. injection Hp as Hp. injection Hq as Hq. rewrite (IH p q Hp Hq) by (intros i; apply (Hx (S i))).
    destruct (isin cls l) eqn:E; [|reflexivity]. f_equal. apply (Hx 0%nat l a b eq_refl); auto.
    unfold isin in E. apply existsb_exists in E. destruct E as (k & Hk & Ek). apply Z.eqb_eq in Ek. now subst. }
  destruct (foldM (iou_file cls) st gs) as [[[a b] c]|]; [|reflexivity]. cbn [bind]. unfold zlen. now rewrite Hl.
Qed.
