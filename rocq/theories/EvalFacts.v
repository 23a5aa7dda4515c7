(** Accumulation of votes by the evaluation of segmentation and by the merging of chunks. *)
From Coq Require Import String List ZArith Bool QArith Qcanon Lia.
From Verif Require Import Res Tensor Num Octree NnBasic Utils Dataset Net Project SpecNN SpecDataset SpecProject SpecEval NumFacts ListFacts DatasetFacts NnFacts MetricFacts.
Import ListNotations.
Open Scope Z_scope.

Lemma fill_repeat {A} (z : A) mask : forall vals j, (j < List.length mask)%nat ->
  nth j (fill mask (repeat z (List.length mask)) vals) z =
  (if nth j mask false then nth (List.length (filter (fun b => b) (firstn j mask))) vals z else z).
Proof.
  induction mask as [|[] mask IH]; intros vals j Hj; [cbn in Hj; lia| |].
  - cbn [List.length repeat]. destruct vals as [|v vals]; cbn [fill].
    + destruct j as [|j]; [reflexivity|]. cbn [nth firstn filter List.length]. cbn in Hj. rewrite IH by lia. destruct (nth j mask false); [|reflexivity]. destruct (List.length (filter _ _)); reflexivity.
    + destruct j as [|j]; [reflexivity|]. cbn [nth firstn filter List.length]. cbn in Hj. rewrite IH by lia. reflexivity.
  - cbn [List.length repeat fill]. destruct j as [|j]; [reflexivity|]. cbn [nth firstn filter List.length]. cbn in Hj. rewrite IH by lia. reflexivity.
Qed.
Lemma fill_length {A} mask : forall (l vals : list A), List.length (fill mask l vals) = List.length l.
Proof.
  induction mask as [|[] mask IH]; intros l vals; [reflexivity| |]; destruct l as [|a l]; cbn [fill List.length]; try reflexivity; [destruct vals; cbn [List.length]; rewrite IH; reflexivity|rewrite IH; reflexivity].
Qed.
Lemma put_votes C mask rows : count_true mask = List.length rows ->
  exists p, mask_put (repeat (vzero C) (List.length mask)) mask rows = Ok p /\ List.length p = List.length mask /\
    forall j, (j < List.length mask)%nat -> nth_error p j = Some (vote C mask rows j).
Proof.
  intros H. unfold mask_put. rewrite repeat_length, Nat.eqb_refl, H, Nat.eqb_refl. cbn [negb]. eexists. split; [reflexivity|]. assert (L : List.length (fill mask (repeat (vzero C) (List.length mask)) rows) = List.length mask) by (rewrite fill_length, repeat_length; reflexivity).
  split; [exact L|]. intros j Hj. rewrite (nth_error_nth' _ (vzero C)) by lia. rewrite fill_repeat by exact Hj. reflexivity.
Qed.

(** ** the store of votes *)
Lemma occ_app f a b : occ f (a ++ b) = occ f a ++ occ f b.
Proof. unfold occ. rewrite filter_app, map_app. reflexivity. Qed.
Lemma occ_snoc f items n m r : occ f (items ++ [(n, m, r)]) = if String.eqb n f then occ f items ++ [(m, r)] else occ f items.
Proof. rewrite occ_app. unfold occ at 2. cbn [filter fst snd]. destruct (String.eqb n f); [reflexivity|]. apply app_nil_r. Qed.
Definition holds (C : nat) (st : dict feat) (items : list (string * list bool * feat)) : Prop := forall f,
  match dlookup st f with
  | None => occ f items = []
  | Some v => occ f items <> [] /\ (forall mr, In mr (occ f items) -> List.length (fst mr) = List.length v) /\
      forall j, (j < List.length v)%nat -> nth_error v j = Some (votes C f items j)
  end.
Lemma vsum_snoc C l r : vsum C (l ++ [r]) = vadd (vsum C l) r.
Proof. unfold vsum. rewrite fold_left_app. reflexivity. Qed.
Lemma vadd_len a : forall b, List.length a = List.length b -> List.length (vadd a b) = List.length a.
Proof. induction a as [|x a IH]; intros [|y b] H; cbn in *; try discriminate; [reflexivity|]. rewrite IH by lia. reflexivity. Qed.
Lemma vzero_vadd r : vadd (vzero (List.length r)) r = r.
Proof. unfold vzero. induction r as [|a r IH]; [reflexivity|]. cbn [List.length repeat vadd]. rewrite IH. f_equal. ring. Qed.
Lemma vsum_one C r : List.length r = C -> vsum C [r] = r.
Proof. intros <-. unfold vsum. cbn [fold_left]. apply vzero_vadd. Qed.
Lemma vote_len C mask rows j : count_true mask = List.length rows -> Forall (fun r => List.length r = C) rows -> List.length (vote C mask rows j) = C.
Proof.
  intros _ H. unfold vote. destruct (nth j mask false); [|apply repeat_length]. set (i := List.length (filter _ _)). destruct (Nat.lt_ge_cases i (List.length rows)) as [L|L].
  - rewrite Forall_forall in H. apply H. apply nth_In. exact L.
  - rewrite nth_overflow by exact L. apply repeat_length.
Qed.
Lemma zip_nth {A B T} (g : A -> B -> T) l : forall m j a b, nth_error l j = Some a -> nth_error m j = Some b -> nth_error (zip_with g l m) j = Some (g a b).
Proof. induction l as [|x l IH]; intros [|y m] [|j] a b H1 H2; cbn in H1, H2; try discriminate; rewrite zip_cons; cbn [nth_error]; [congruence|]. apply IH; assumption. Qed.
Lemma zip_length {A B T} (g : A -> B -> T) l m : List.length l = List.length m -> List.length (zip_with g l m) = List.length l.
Proof. intros H. unfold zip_with. rewrite map_length, combine_length. lia. Qed.

Lemma holds_nil C : holds C [] [].
Proof. intros f. reflexivity. Qed.
Lemma acc_add_holds C st items name mask rows p : holds C st items ->
  count_true mask = List.length rows -> Forall (fun r => List.length r = C) rows ->
  (forall mr, In mr (occ name items) -> List.length (fst mr) = List.length mask) ->
  mask_put (repeat (vzero C) (List.length mask)) mask rows = Ok p ->
  exists st', acc_add st name p = Ok st' /\ holds C st' (items ++ [(name, mask, rows)]).
Proof.
  intros HH HC HW HL HP. destruct (put_votes C mask rows HC) as (p' & HP' & Lp & Vp). rewrite HP in HP'. apply (f_equal (fun r => match r with Ok x => x | Err _ => [] end)) in HP'. subst p'.
  unfold acc_add. pose proof (HH name) as Hn. destruct (dlookup st name) as [old|] eqn:E.
  - destruct Hn as (H0 & H1 & H2). assert (Lo : List.length old = List.length mask). { destruct (occ name items) as [|mr t]; [congruence|]. rewrite <- (H1 mr) by (left; reflexivity). apply HL. left. reflexivity. }
    rewrite Lo, <- Lp, Nat.eqb_refl. eexists. split; [reflexivity|]. intros f. unfold votes. rewrite dlookup_dset, occ_snoc. destruct (String.eqb_spec f name) as [->|N].
    + rewrite String.eqb_refl. rewrite zip_length by lia. split; [destruct (occ name items); discriminate|]. split.
      * intros mr Hi. apply in_app_or in Hi. destruct Hi as [Hi|[<-|[]]]; [apply H1; exact Hi|cbn [fst]; lia].
      * intros j Hj. rewrite map_app. cbn [map fst snd]. rewrite vsum_snoc. apply zip_nth; [apply H2; exact Hj|apply Vp; lia].
    + replace (String.eqb name f) with false by (symmetry; apply String.eqb_neq; congruence). exact (HH f).
  - eexists. split; [reflexivity|]. intros f. unfold votes. rewrite dlookup_dset, occ_snoc. destruct (String.eqb_spec f name) as [->|N].
    + rewrite String.eqb_refl, Hn. cbn [map fst snd app]. split; [discriminate|]. split; [intros mr [<-|[]]; cbn [fst]; lia|]. intros j Hj. rewrite vsum_one by (apply vote_len; assumption). apply Vp. lia.
    + replace (String.eqb name f) with false by (symmetry; apply String.eqb_neq; congruence). exact (HH f).
Qed.

(** ** eval_step *)
Lemma filter_true {A} m (logit : list A) labels : List.length labels = List.length logit -> Forall (fun l => m < l) labels -> label_filter m logit labels = Ok (logit, labels).
Proof.
  intros HL HF. unfold label_filter. cbv zeta. assert (T : forall b, In b (map (fun l => m <? l) labels) -> b = true).
  { intros b Hb. apply in_map_iff in Hb. destruct Hb as (l & <- & Hl). rewrite Forall_forall in HF. apply Z.ltb_lt. apply HF. exact Hl. }
  rewrite !mask_get_Ok by (rewrite map_length; congruence). cbn [bind]. rewrite !select_all_true by (try exact T; rewrite map_length; congruence). reflexivity.
Qed.
Lemma split_concat {A} (rows : list (list A)) : split_rows (concat rows) (map (@List.length A) rows) = rows.
Proof.
  induction rows as [|r rows IH]; [reflexivity|]. cbn [concat map split_rows]. rewrite firstn_app, firstn_all, Nat.sub_diag, firstn_O, app_nil_r, skipn_app, skipn_all, Nat.sub_diag, skipn_O. cbn [app]. rewrite IH. reflexivity.
Qed.
Lemma sum_concat {A} (rows : list (list A)) : fold_right Nat.add O (map (@List.length A) rows) = List.length (concat rows).
Proof. induction rows as [|r rows IH]; [reflexivity|]. cbn [map fold_right concat]. rewrite app_length, IH. reflexivity. Qed.
Lemma tsplit_concat {A} (rows : list (list A)) : tsplit (concat rows) (map (@List.length A) rows) = Ok rows.
Proof. unfold tsplit. rewrite sum_concat, Nat.eqb_refl, split_concat. reflexivity. Qed.

Lemma firstn_S_nth {A} (l : list A) k a : nth_error l k = Some a -> firstn (S k) l = firstn k l ++ [a].
Proof. revert k. induction l as [|x l IH]; intros [|k] H; cbn in H; try discriminate; [cbn; congruence|]. cbn [firstn app]. f_equal. apply IH. exact H. Qed.

Definition voted (softmax : list Qc -> list Qc) (it : string * list bool * list (list Qc)) : string * list bool * list (list Qc) :=
  (fst (fst it), snd (fst it), map softmax (snd it)).
Lemma occ_in f items mr : In mr (occ f items) <-> exists it, In it items /\ fst (fst it) = f /\ mr = (snd (fst it), snd it).
Proof.
  unfold occ. rewrite in_map_iff. split.
  - intros (it & <- & H). apply filter_In in H. destruct H as (H & E). apply String.eqb_eq in E. exists it. auto.
  - intros (it & H & E & ->). exists it. split; [reflexivity|]. apply filter_In. split; [exact H|]. apply String.eqb_eq. exact E.
Qed.
Section Step.
Variable C : nat.
Variable softmax : list Qc -> list Qc.
Variable m : Z.
Lemma items_loop b its probs done st : loads m b its -> probs = map (fun it => map softmax (snd it)) its -> Forall (sample_fits softmax C) its ->
  (forall a c, In a (done ++ map (voted softmax) its) -> In c its -> fst (fst a) = fst (fst c) -> List.length (snd (fst a)) = List.length (snd (fst c))) ->
  holds C st done ->
  forall k, (k <= List.length its)%nat -> exists st', foldM (eval_item C b probs) st (seq 0 k) = Ok st' /\ holds C st' (done ++ map (voted softmax) (firstn k its)).
Proof.
  intros (L1 & L2 & L3 & L4 & _ & _) HP HF HS HH. induction k as [|k IH]; intros Hk.
  - exists st. split; [reflexivity|]. cbn [firstn map]. rewrite app_nil_r. exact HH.
  - destruct (IH ltac:(lia)) as (s1 & E1 & H1). destruct (nth_error its k) as [it|] eqn:Ei; [|apply nth_error_None in Ei; lia].
    pose proof (nth_error_In _ _ Ei) as Hin. rewrite seq_S, foldM_app, E1. cbn [bind foldM plus]. unfold eval_item. rewrite HP, L3, L4.
    rewrite (tget_Ok _ _ _ (map_nth_error (fun it => map softmax (snd it)) _ _ Ei)), (tget_Ok _ _ _ (map_nth_error (fun it => snd (fst it)) _ _ Ei)), (tget_Ok _ _ _ (map_nth_error (fun it => fst (fst it)) _ _ Ei)). cbn [bind].
    rewrite Forall_forall in HF. destruct (HF _ Hin) as (F1 & F2). assert (F3 : count_true (snd (fst it)) = List.length (map softmax (snd it))) by (rewrite map_length; exact F1).
    destruct (put_votes C _ _ F3) as (p & Ep & _ & _). rewrite Ep. cbn [bind].
    destruct (acc_add_holds C s1 _ (fst (fst it)) (snd (fst it)) (map softmax (snd it)) p H1 F3) as (s2 & E2 & H2).
    + apply Forall_forall. intros r Hr. apply in_map_iff in Hr. destruct Hr as (r0 & <- & Hr). rewrite Forall_forall in F2. apply F2. exact Hr.
    + intros mr Hm. apply occ_in in Hm. destruct Hm as (a & Ha & En & ->). cbn [fst]. apply HS; [|exact Hin|exact En]. apply in_app_or in Ha. apply in_or_app. destruct Ha as [Ha|Ha]; [left; exact Ha|right].
      apply in_map_iff in Ha. destruct Ha as (a0 & <- & Ha). apply in_map. rewrite <- (firstn_skipn k its). apply in_or_app. left. exact Ha.
    + exact Ep.
    + rewrite E2. cbn [bind]. exists s2. split; [reflexivity|]. rewrite (firstn_S_nth _ _ _ Ei), map_app, app_assoc. exact H2.
Qed.
Lemma step_Ok b its done st : loads m b its -> Forall (sample_fits softmax C) its ->
  (forall a c, In a (done ++ map (voted softmax) its) -> In c its -> fst (fst a) = fst (fst c) -> List.length (snd (fst a)) = List.length (snd (fst c))) ->
  holds C st done -> exists st', eval_step C softmax m st b = Ok st' /\ holds C st' (done ++ map (voted softmax) its).
Proof.
  intros HL HF HS HH. pose proof HL as (L1 & L2 & L3 & L4 & L5 & L6). unfold eval_step. rewrite filter_true by assumption. cbn [bind].
  rewrite L1, concat_map, map_map, L2.
  assert (E : tsplit (concat (map (fun x => map softmax (snd x)) its)) (map (fun it => List.length (snd it)) its) = Ok (map (fun it => map softmax (snd it)) its)).
  { rewrite <- tsplit_concat. f_equal. rewrite map_map. apply map_ext. intros it. rewrite map_length. reflexivity. }
  rewrite E. cbn [bind]. destruct (items_loop b its _ done st HL eq_refl HF HS HH (List.length its) (le_n _)) as (s & E1 & H1). rewrite firstn_all in H1. exists s. split; [|exact H1].
  rewrite L3, map_length. exact E1.
Qed.

Lemma hist_Ok bs itss : Forall2 (loads m) bs itss -> forall done st, Forall (sample_fits softmax C) (concat itss) ->
  same_size (done ++ map (voted softmax) (concat itss)) -> holds C st done ->
  exists st', foldM (eval_step C softmax m) st bs = Ok st' /\ holds C st' (done ++ map (voted softmax) (concat itss)).
Proof.
  induction 1 as [|b its bs itss HL _ IH]; intros done st HF HS HH.
  - exists st. split; [reflexivity|]. cbn. rewrite app_nil_r. exact HH.
  - cbn [concat] in *. apply Forall_app in HF. destruct HF as (F1 & F2). rewrite map_app, app_assoc in HS. destruct (step_Ok b its done st HL F1) as (s1 & E1 & H1).
    + intros a c Ha Hc E. exact (HS a (voted softmax c) ltac:(apply in_or_app; left; exact Ha) ltac:(apply in_or_app; left; apply in_or_app; right; apply in_map; exact Hc) E).
    + exact HH.
    + destruct (IH _ s1 F2 HS H1) as (s2 & E2 & H2). exists s2. cbn [foldM]. rewrite E1. cbn [bind]. split; [exact E2|]. rewrite map_app, app_assoc. exact H2.
Qed.
End Step.

Theorem thm_eval C softmax m bs itss : Forall2 (loads m) bs itss -> Forall (sample_fits softmax C) (concat itss) -> same_size (concat itss) ->
  exists st, foldM (eval_step C softmax m) [] bs = Ok st /\
    forall f, match dlookup st f with
    | None => occ f (concat itss) = []
    | Some v => occ f (concat itss) <> [] /\ (forall mr, In mr (occ f (concat itss)) -> List.length (fst mr) = List.length v) /\
        forall j, (j < List.length v)%nat ->
          nth_error v j = Some (vsum C (map (fun mr => vote C (fst mr) (map softmax (snd mr)) j) (occ f (concat itss))))
    end.
Proof.
  intros H2 HF HS. destruct (hist_Ok C softmax m bs itss H2 [] [] HF) as (st & E & H).
  - cbn [app]. intros a b Ha Hb E. apply in_map_iff in Ha. apply in_map_iff in Hb. destruct Ha as (a0 & <- & Ha), Hb as (b0 & <- & Hb). exact (HS a0 b0 Ha Hb E).
  - apply holds_nil.
  - exists st. split; [exact E|]. intros f. specialize (H f). cbn [app] in H.
    assert (X : occ f (map (voted softmax) (concat itss)) = map (fun mr => (fst mr, map softmax (snd mr))) (occ f (concat itss))).
    { clear. induction (concat itss) as [|it l IH]; [reflexivity|]. unfold occ in *. cbn [map filter voted fst snd]. destruct (String.eqb (fst (fst it)) f); [cbn [map fst snd]; rewrite IH; reflexivity|exact IH]. }
    unfold votes in H. rewrite X in H. destruct (dlookup st f) as [v|].
    + destruct H as (A & B & D). split; [intros Z0; rewrite Z0 in A; apply A; reflexivity|]. split.
      * intros mr Hm. apply (in_map (fun mr => (fst mr, map softmax (snd mr)))) in Hm. apply B in Hm. exact Hm.
      * intros j Hj. rewrite D by exact Hj. rewrite map_map. reflexivity.
    + destruct (occ f (concat itss)); [reflexivity|discriminate].
Qed.

Lemma count_some_false (l : list bool) : In false l -> (count_true l < List.length l)%nat.
Proof.
  unfold count_true. assert (X : forall l, (List.length (filter (fun b : bool => b) l) <= List.length l)%nat) by (intros l'; induction l' as [|[] l' IH]; cbn; lia).
  induction l as [|b l IH]; intros H; [destruct H|]. destruct b; cbn [filter List.length].
  - destruct H as [H|H]; [discriminate|]. specialize (IH H). lia.
  - specialize (X l). lia.
Qed.
Theorem thm_eval_masked C softmax m st b : List.length (e_labels b) = List.length (e_logit b) ->
  fold_right Nat.add O (e_npts b) = List.length (e_logit b) -> (exists l, In l (e_labels b) /\ l <= m) ->
  eval_step C softmax m st b = Err RuntimeError.
Proof.
  intros H1 H2 (l & Hl & Hm). unfold eval_step, label_filter. cbv zeta. rewrite !mask_get_Ok by (rewrite map_length; congruence). cbn [bind]. unfold tsplit.
  rewrite map_length, select_length by (rewrite map_length; congruence). rewrite H2. pose proof (count_some_false (map (fun l => m <? l) (e_labels b))) as X. rewrite map_length, H1 in X.
  assert (Y : In false (map (fun l => m <? l) (e_labels b))) by (apply in_map_iff; exists l; split; [apply Z.ltb_ge; exact Hm|exact Hl]). specialize (X Y).
  replace (Nat.eqb _ _) with false by (symmetry; apply Nat.eqb_neq; lia). reflexivity.
Qed.
