(** scatter_add computes group sums. *)
From Coq Require Import List ZArith Bool Lia Sorting.Sorted.
From Verif Require Import Res Tensor Num Octree Spec SpecGeo KeyFacts ListFacts.
Import ListNotations.
Open Scope Z_scope.

Lemma rows_at_cons {A} t tags k (a : A) src :
  rows_at (t :: tags) k (a :: src) = (if t =? k then [a] else []) ++ rows_at tags k src.
Proof. unfold rows_at. cbn [combine filter fst]. destruct (t =? k); reflexivity. Qed.

Lemma scatter_into_spec {A} (add : A -> A -> A) idx : forall src out,
  length idx = length src -> (forall i, In i idx -> 0 <= i < zlen out) ->
  exists r, scatter_add_into add out idx src = Ok r /\ length r = length out /\
    forall j, nth_error r j = match nth_error out j with
                              | Some a => Some (fold_left add (rows_at idx (Z.of_nat j) src) a)
                              | None => None end.
Proof.
  unfold scatter_add_into. induction idx as [|i idx IH]; intros src out Hl Hr.
  - destruct src as [|s src]; [|discriminate]. exists out. cbn. split; [reflexivity|]. split; [reflexivity|].
    intros j. destruct (nth_error out j); reflexivity.
  - destruct src as [|s src]; [discriminate|]. injection Hl as Hl.
    cbn [length]. cbn [Nat.eqb]. rewrite Hl, Nat.eqb_refl. cbn [combine foldM].
    assert (Hi : 0 <= i < zlen out) by (apply Hr; left; reflexivity).
    unfold scatter_step at 1. cbn [fst snd].
    replace ((0 <=? i) && (i <? zlen out)) with true by (symmetry; apply andb_true_iff; lia).
    destruct (nth_error out (Z.to_nat i)) as [a|] eqn:Ea.
    2:{ apply nth_error_None in Ea. unfold zlen in Hi. lia. }
    cbn [bind].
    destruct (IH src (set_nth out (Z.to_nat i) (add a s)) Hl) as (r & E & Hlen & Hnth).
    { intros x Hx. unfold zlen. rewrite set_nth_length. apply Hr. right; exact Hx. }
    rewrite Hl, Nat.eqb_refl in E. rewrite E.
    exists r. split; [reflexivity|]. split; [rewrite Hlen; apply set_nth_length|].
    intros j. rewrite Hnth. rewrite nth_error_set_nth by (unfold zlen in Hi; lia).
    rewrite rows_at_cons. destruct (Nat.eqb_spec j (Z.to_nat i)) as [->|Hne].
    + rewrite Ea. rewrite Z2Nat.id by lia. rewrite Z.eqb_refl. reflexivity.
    + destruct (Z.eqb_spec i (Z.of_nat j)) as [->|_]; [rewrite Nat2Z.id in Hne; congruence|].
      reflexivity.
Qed.

Lemma fold_max_ge l : forall a, a <= fold_left Z.max l a /\ (forall x, In x l -> x <= fold_left Z.max l a).
Proof.
  induction l as [|b l IH]; intros a; cbn [fold_left]; [split; [lia|intros x []]|].
  destruct (IH (Z.max a b)) as [H1 H2]. split; [lia|]. intros x [<-|Hx]; [lia|]. apply H2; exact Hx.
Qed.
Lemma fold_max_in l : forall a, fold_left Z.max l a = a \/ In (fold_left Z.max l a) l.
Proof.
  induction l as [|b l IH]; intros a; cbn [fold_left]; [left; reflexivity|].
  destruct (IH (Z.max a b)) as [H|H]; [|right; right; exact H].
  rewrite H. destruct (Z.max_spec a b) as [[_ ->]|[_ ->]]; [right; left; reflexivity|left; reflexivity].
Qed.

(** The inverse map returned by [unique]. *)
Definition inverse_of (key : list Z) : list Z :=
  map (fun k => match index_of k (sort_uniq key) with Some i => Z.of_nat i | None => -1 end) key.

Lemma inverse_nth key i k a : nth_error key i = Some k -> nth_error (inverse_of key) i = Some a ->
  0 <= a /\ nth_error (sort_uniq key) (Z.to_nat a) = Some k.
Proof.
  intros Hk Ha. unfold inverse_of in Ha. rewrite nth_error_map, Hk in Ha. cbn [option_map] in Ha.
  assert (Hin : In k (sort_uniq key)) by (apply sort_uniq_In; eapply nth_error_In; exact Hk).
  destruct (index_of_In _ _ Hin) as [j Hj]. rewrite Hj in Ha. injection Ha as <-.
  split; [lia|]. rewrite Nat2Z.id. apply index_of_Some; exact Hj.
Qed.

Lemma inverse_range key a : In a (inverse_of key) -> 0 <= a < zlen (sort_uniq key).
Proof.
  intros Ha. apply In_nth_error in Ha. destruct Ha as [i Hi].
  destruct (nth_error key i) as [k|] eqn:Ek.
  2:{ apply nth_error_None in Ek. assert (i < length (inverse_of key))%nat by (apply nth_error_Some; rewrite Hi; discriminate).
      unfold inverse_of in H. rewrite map_length in H. lia. }
  destruct (inverse_nth _ _ _ _ Ek Hi) as [H0 H1]. split; [exact H0|].
  assert (Z.to_nat a < length (sort_uniq key))%nat by (apply nth_error_Some; rewrite H1; discriminate).
  unfold zlen. lia.
Qed.

Lemma inverse_onto key j : (j < length (sort_uniq key))%nat -> In (Z.of_nat j) (inverse_of key).
Proof.
  intros Hj. destruct (nth_error (sort_uniq key) j) as [k|] eqn:Ek.
  2:{ apply nth_error_None in Ek. lia. }
  assert (Hin : In k key) by (apply sort_uniq_In; eapply nth_error_In; exact Ek).
  apply in_map_iff. exists k. split; [|exact Hin].
  rewrite (index_of_nth _ _ _ (sorted_NoDup _ (sort_uniq_sorted key)) Ek). reflexivity.
Qed.

Lemma scatter_size_inverse key : scatter_size (inverse_of key) None = length (sort_uniq key).
Proof.
  unfold scatter_size. destruct (inverse_of key) as [|a t] eqn:E.
  - destruct key; [reflexivity|discriminate].
  - set (m := fold_left Z.max t a).
    assert (Hm : In m (inverse_of key)).
    { rewrite E. destruct (fold_max_in t a) as [H|H]; fold m in H; [left; symmetry; exact H|right; exact H]. }
    apply inverse_range in Hm. unfold zlen in Hm.
    assert (Hl : (length (sort_uniq key) - 1 < length (sort_uniq key))%nat) by lia.
    apply inverse_onto in Hl. rewrite E in Hl.
    destruct (fold_max_ge t a) as [H1 H2]. fold m in H1, H2.
    assert (Z.of_nat (length (sort_uniq key) - 1) <= m) by (destruct Hl as [<-|Hl]; [exact H1|apply H2; exact Hl]).
    lia.
Qed.

Lemma rows_at_inverse {A} key j k (src : list A) :
  length src = length key -> nth_error (sort_uniq key) j = Some k ->
  rows_at (inverse_of key) (Z.of_nat j) src = rows_at key k src.
Proof.
  intros Hl Hj. unfold rows_at.
  assert (H : forall (tags : list Z) (src : list A), 
     (forall t, In t tags -> In t key) ->
     map snd (filter (fun tr => fst tr =? Z.of_nat j)
       (combine (map (fun k => match index_of k (sort_uniq key) with Some i => Z.of_nat i | None => -1 end) tags) src))
     = map snd (filter (fun tr => fst tr =? k) (combine tags src))).
  { clear src Hl. induction tags as [|t tags IH]; intros src Ht; [reflexivity|].
    destruct src as [|s src]; [reflexivity|]. cbn [map combine filter fst].
    specialize (IH src (fun t' H => Ht t' (or_intror H))).
    assert (Hin : In t (sort_uniq key)) by (apply sort_uniq_In, Ht; left; reflexivity).
    destruct (index_of_In _ _ Hin) as [i Hi]. rewrite Hi. cbn [fst].
    assert (Heq : (Z.of_nat i =? Z.of_nat j) = (t =? k)).
    { apply index_of_Some in Hi. apply Bool.eq_true_iff_eq. rewrite !Z.eqb_eq. split.
      - intros H. apply Nat2Z.inj in H. subst i. congruence.
      - intros ->. f_equal. eapply sorted_nth_inj; [apply sort_uniq_sorted|exact Hi|exact Hj]. }
    rewrite Heq. destruct (t =? k); cbn [map snd]; rewrite IH; reflexivity. }
  apply H. auto.
Qed.

Lemma scatter_unique {A} (add : A -> A -> A) zero key (src : list A) :
  length src = length key ->
  scatter_add add zero src (inverse_of key) None
  = Ok (map (fun k => fold_left add (rows_at key k src) zero) (sort_uniq key)).
Proof.
  intros Hl. unfold scatter_add. rewrite scatter_size_inverse.
  destruct (scatter_into_spec add (inverse_of key) src (repeat zero (length (sort_uniq key)))) as (r & E & Hlen & Hnth).
  - unfold inverse_of. rewrite map_length. congruence.
  - intros i Hi. unfold zlen. rewrite repeat_length. apply inverse_range; exact Hi.
  - rewrite E. f_equal. apply nth_error_ext. intros j. rewrite Hnth, nth_error_map.
    rewrite repeat_length in Hlen.
    destruct (nth_error (sort_uniq key) j) as [k|] eqn:Ek; cbn [option_map].
    + rewrite nth_error_repeat by (apply nth_error_Some; rewrite Ek; discriminate).
      rewrite (rows_at_inverse _ _ _ _ Hl Ek). reflexivity.
    + apply nth_error_None in Ek. rewrite (proj2 (nth_error_None _ _)) by (rewrite repeat_length; lia). reflexivity.
Qed.
