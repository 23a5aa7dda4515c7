(** Facts about lists and the torch primitives of Tensor.v. *)
From Coq Require Import List ZArith Bool Lia Sorting.Sorted Permutation.
From Verif Require Import Res Tensor Spec KeyFacts.
Import ListNotations.
Open Scope Z_scope.

(** ** nth_error *)

Lemma nth_error_ext {A} (l m : list A) :
  (forall i, nth_error l i = nth_error m i) -> l = m.
Proof.
  revert m; induction l as [|a l IH]; intros [|b m] H.
  - reflexivity.
  - specialize (H O). discriminate.
  - specialize (H O). discriminate.
  - pose proof (H O) as H0. injection H0 as ->. f_equal. apply IH.
    intros i. exact (H (S i)).
Qed.

Lemma arange_nth n i : (i < n)%nat -> nth_error (arange n) i = Some (Z.of_nat i).
Proof. intros H. rewrite <- (map_id (arange n)). apply (nth_error_map_Z (fun z => z)); exact H. Qed.

Lemma arange_nth_inv n i a : nth_error (arange n) i = Some a -> a = Z.of_nat i /\ (i < n)%nat.
Proof.
  intros H. assert (Hi : (i < n)%nat).
  { rewrite <- (arange_length n). apply nth_error_Some. rewrite H; discriminate. }
  rewrite arange_nth in H by exact Hi. injection H as <-. auto.
Qed.

Lemma in_arange n a : In a (arange n) <-> 0 <= a < Z.of_nat n.
Proof.
  unfold arange. rewrite in_map_iff. split.
  - intros (i & <- & Hi). apply in_seq in Hi. lia.
  - intros H. exists (Z.to_nat a). split; [lia|]. apply in_seq; lia.
Qed.

Lemma tget_Ok {A} (l : list A) (i : nat) (a : A) :
  nth_error l i = Some a -> tget l (Z.of_nat i) = Ok a.
Proof. intros H. apply tget_nth; [lia|]. rewrite Nat2Z.id. exact H. Qed.

Lemma tget_inv {A} (l : list A) (i : Z) (a : A) :
  0 <= i -> tget l i = Ok a -> nth_error l (Z.to_nat i) = Some a.
Proof.
  intros Hi. unfold tget, norm_index.
  replace (0 <=? i) with true by (symmetry; apply Z.leb_le; lia).
  replace (i <? 0) with false by (symmetry; apply Z.ltb_ge; lia).
  cbn [andb]. destruct (i <? zlen l); [|discriminate].
  destruct (nth_error l (Z.to_nat i)); [intros [= ->]; reflexivity|discriminate].
Qed.

Lemma set_nth_length {A} (l : list A) j v : length (set_nth l j v) = length l.
Proof. revert j; induction l as [|a l IH]; intros [|j]; cbn; auto. Qed.

Lemma nth_error_set_nth {A} (l : list A) j v i :
  (j < length l)%nat ->
  nth_error (set_nth l j v) i = if Nat.eqb i j then Some v else nth_error l i.
Proof.
  revert j i; induction l as [|a l IH]; intros j i H; cbn in H; [lia|].
  destruct j as [|j], i as [|i]; cbn; try reflexivity.
  apply IH. lia.
Qed.

Lemma nth_error_repeat {A} (a : A) n i : (i < n)%nat -> nth_error (repeat a n) i = Some a.
Proof. revert i; induction n as [|n IH]; intros i H; [lia|]. destruct i; cbn; [reflexivity|]. apply IH; lia. Qed.

Lemma tset_Ok {A} (l : list A) i v : 0 <= i < zlen l -> tset l i v = Ok (set_nth l (Z.to_nat i) v).
Proof.
  intros H. unfold tset, norm_index.
  replace (0 <=? i) with true by (symmetry; apply Z.leb_le; lia).
  replace (i <? zlen l) with true by (symmetry; apply Z.ltb_lt; lia). reflexivity.
Qed.

(** Writing distinct positions. *)
Lemma index_put_spec {A} (idx : list Z) : forall (l : list A) (vals : list A),
  length idx = length vals -> NoDup idx -> (forall a, In a idx -> 0 <= a < zlen l) ->
  exists r, index_put l idx vals = Ok r /\ length r = length l /\
    (forall i a v, nth_error idx i = Some a -> nth_error vals i = Some v ->
                   nth_error r (Z.to_nat a) = Some v) /\
    (forall p, ~ In (Z.of_nat p) idx -> nth_error r p = nth_error l p).
Proof.
  unfold index_put. induction idx as [|a idx IH]; intros l vals Hlen Hnd Hr.
  - destruct vals; [|discriminate]. exists l. repeat split.
    intros i a v Hi. destruct i; discriminate.
  - destruct vals as [|v vals]; [discriminate|]. injection Hlen as Hlen.
    inversion Hnd as [|? ? Hnin Hnd']; subst.
    assert (Ha : 0 <= a < zlen l) by (apply Hr; left; reflexivity).
    specialize (IH (set_nth l (Z.to_nat a) v) vals Hlen Hnd').
    destruct IH as (r & E & Hl & Hin & Hout).
    { intros b Hb. unfold zlen. rewrite set_nth_length. apply Hr; right; exact Hb. }
    exists r. cbn [length combine foldM fst snd].
    rewrite Hlen in *. rewrite Nat.eqb_refl in *.
    rewrite tset_Ok by exact Ha. cbn [bind]. split; [exact E|].
    split; [rewrite Hl; apply set_nth_length|]. split.
    + intros i b w Hb Hw. destruct i as [|i]; cbn in Hb, Hw.
      * injection Hb as <-. injection Hw as <-.
        rewrite Hout; [|rewrite Z2Nat.id by lia; exact Hnin].
        rewrite nth_error_set_nth by (unfold zlen in Ha; lia).
        rewrite Nat.eqb_refl. reflexivity.
      * eapply Hin; eassumption.
    + intros p Hp. rewrite Hout by (intros H; apply Hp; right; exact H).
      rewrite nth_error_set_nth by (unfold zlen in Ha; lia).
      destruct (Nat.eqb_spec p (Z.to_nat a)) as [->|Hne]; [|reflexivity].
      exfalso. apply Hp. left. lia.
Qed.

(** ** sorted lists *)

Notation sorted := (StronglySorted Z.lt).

Lemma sorted_NoDup l : sorted l -> NoDup l.
Proof.
  induction 1 as [|a l Hs IH Ha]; constructor; [|exact IH].
  intros Hin. rewrite Forall_forall in Ha. specialize (Ha _ Hin). lia.
Qed.

Lemma sorted_app l m : sorted l -> sorted m ->
  (forall a b, In a l -> In b m -> a < b) -> sorted (l ++ m).
Proof.
  intros Hl Hm H. induction Hl as [|a l Hs IH Ha]; [exact Hm|].
  cbn. constructor.
  - apply IH. intros x y Hx Hy; apply H; [right; exact Hx|exact Hy].
  - apply Forall_app. split; [exact Ha|]. apply Forall_forall. intros b Hb.
    apply H; [left; reflexivity|exact Hb].
Qed.

Lemma sorted_map (f : Z -> Z) l : sorted l ->
  (forall a b, In a l -> In b l -> a < b -> f a < f b) -> sorted (map f l).
Proof.
  induction 1 as [|a l Hs IH Ha]; intros Hf; cbn; [constructor|].
  constructor.
  - apply IH. intros x y Hx Hy. apply Hf; right; assumption.
  - apply Forall_forall. intros y Hy. apply in_map_iff in Hy. destruct Hy as (x & <- & Hx).
    rewrite Forall_forall in Ha. apply Hf; [left; reflexivity|right; exact Hx|apply Ha; exact Hx].
Qed.

Lemma sorted_unique l : forall m, sorted l -> sorted m -> (forall a, In a l <-> In a m) -> l = m.
Proof.
  induction l as [|a l IH]; intros m Hl Hm H.
  - destruct m as [|b m]; [reflexivity|]. exfalso. apply (proj2 (H b)); left; reflexivity.
  - destruct m as [|b m]; [exfalso; apply (proj1 (H a)); left; reflexivity|].
    inversion Hl as [|? ? Hl' Ha]; inversion Hm as [|? ? Hm' Hb]; subst.
    rewrite Forall_forall in Ha, Hb.
    assert (a = b).
    { destruct (proj1 (H a) (or_introl eq_refl)) as [E|Hin]; [congruence|].
      destruct (proj2 (H b) (or_introl eq_refl)) as [E|Hin2]; [congruence|].
      specialize (Ha _ Hin2). specialize (Hb _ Hin). lia. }
    subst b. f_equal. apply IH; [assumption|assumption|].
    intros x; split; intros Hx.
    + destruct (proj1 (H x) (or_intror Hx)) as [E|Hin]; [|exact Hin].
      subst x. specialize (Ha _ Hx). lia.
    + destruct (proj2 (H x) (or_intror Hx)) as [E|Hin]; [|exact Hin].
      subst x. specialize (Hb _ Hx). lia.
Qed.

Lemma sorted_flat_map {A} (f : A -> list Z) (l : list A) (R : A -> A -> Prop) :
  StronglySorted R l -> (forall a, In a l -> sorted (f a)) ->
  (forall a b x y, In a l -> In b l -> R a b -> In x (f a) -> In y (f b) -> x < y) ->
  sorted (flat_map f l).
Proof.
  induction 1 as [|a l Hs IH Ha]; intros Hf H; cbn; [constructor|].
  apply sorted_app.
  - apply Hf; left; reflexivity.
  - apply IH; [intros; apply Hf; right; assumption|].
    intros b c x y Hb Hc. apply H; right; assumption.
  - intros x y Hx Hy. apply in_flat_map in Hy. destruct Hy as (b & Hb & Hy).
    rewrite Forall_forall in Ha.
    apply (H a b); try assumption; [left; reflexivity|right; exact Hb|apply Ha; exact Hb].
Qed.

Lemma sorted_select (mask : list bool) l : sorted l -> sorted (select mask l).
Proof.
  intros H; revert mask; induction H as [|a l Hs IH Ha]; intros [|[] mask]; cbn; try constructor.
  - apply IH.
  - apply Forall_forall. intros x Hx. rewrite Forall_forall in Ha. apply Ha.
    clear -Hx. revert mask Hx; induction l as [|b l IH]; intros [|[] mask]; cbn; try contradiction.
    + intros [<-|H]; [left; reflexivity|right; eapply IH; exact H].
    + intros H; right; eapply IH; exact H.
  - apply IH.
Qed.

Lemma sorted_nth_lt l : sorted l -> forall i j a b,
  nth_error l i = Some a -> nth_error l j = Some b -> (i < j)%nat -> a < b.
Proof.
  induction 1 as [|c l Hs IH Hc]; intros i j a b Hi Hj Hij.
  - destruct i; discriminate.
  - destruct i as [|i], j as [|j]; try lia; cbn in Hi, Hj.
    + injection Hi as <-. rewrite Forall_forall in Hc. apply Hc. eapply nth_error_In; exact Hj.
    + eapply IH; [exact Hi|exact Hj|lia].
Qed.

Lemma sorted_nth_inj l : sorted l -> forall i j a,
  nth_error l i = Some a -> nth_error l j = Some a -> i = j.
Proof.
  intros H i j a Hi Hj. destruct (Nat.lt_trichotomy i j) as [L|[E|L]]; [|exact E|].
  - pose proof (sorted_nth_lt l H _ _ _ _ Hi Hj L). lia.
  - pose proof (sorted_nth_lt l H _ _ _ _ Hj Hi L). lia.
Qed.

(** ** membership *)

Definition memb (k : Z) (l : list Z) : bool := existsb (Z.eqb k) l.

Lemma memb_In k l : memb k l = true <-> In k l.
Proof.
  unfold memb. rewrite existsb_exists. split.
  - intros (x & Hx & E). apply Z.eqb_eq in E. subst; exact Hx.
  - intros H. exists k. split; [exact H|apply Z.eqb_refl].
Qed.

(** ** masks *)

Lemma pick_select {A} mask (l : list A) : pick mask l = select mask l.
Proof. revert mask; induction l as [|a l IH]; intros [|[] mask]; cbn; try reflexivity; now rewrite IH. Qed.

Lemma in_select {A} mask (l : list A) a :
  In a (select mask l) <-> exists p, nth_error mask p = Some true /\ nth_error l p = Some a.
Proof.
  revert mask; induction l as [|b l IH]; intros [|m mask]; cbn.
  - split; [contradiction|]. intros (p & H & _). destruct p; discriminate.
  - destruct m; (split; [contradiction|]); intros ([|p] & _ & H); discriminate.
  - split; [contradiction|]. intros (p & H & _). destruct p; discriminate.
  - destruct m; cbn.
    + rewrite IH. split.
      * intros [->|(p & H1 & H2)]; [exists O; auto|exists (S p); auto].
      * intros ([|p] & H1 & H2); cbn in *; [left; congruence|right; exists p; auto].
    + rewrite IH. split.
      * intros (p & H1 & H2); exists (S p); auto.
      * intros ([|p] & H1 & H2); cbn in *; [discriminate|exists p; auto].
Qed.

Lemma in_select_map {A} (f : A -> bool) l a : In a (select (map f l) l) <-> In a l /\ f a = true.
Proof.
  induction l as [|b l IH]; cbn; [intuition|].
  destruct (f b) eqn:E; cbn; rewrite IH; intuition; subst; try congruence; auto.
Qed.

Lemma select_map_filter {A} (f : A -> bool) l : select (map f l) l = filter f l.
Proof. induction l as [|b l IH]; cbn; [reflexivity|]. destruct (f b); now rewrite IH. Qed.

Lemma select_length {A} mask (l : list A) : length mask = length l ->
  length (select mask l) = count_true mask.
Proof.
  revert mask; induction l as [|a l IH]; intros [|[] mask] H; cbn in *; try discriminate; try reflexivity.
  - injection H as H. unfold count_true; cbn. now rewrite IH.
  - injection H as H. unfold count_true; cbn. now rewrite IH.
Qed.

Lemma select_all_true {A} mask (l : list A) : length mask = length l ->
  (forall b, In b mask -> b = true) -> select mask l = l.
Proof.
  revert mask; induction l as [|a l IH]; intros [|m mask] H Hm; cbn in *; try discriminate; try reflexivity.
  rewrite (Hm m (or_introl eq_refl)). f_equal. apply IH; [congruence|]. intros b Hb; apply Hm; right; exact Hb.
Qed.

Lemma select_map {A B} (f : A -> B) mask l : select mask (map f l) = map f (select mask l).
Proof. revert mask; induction l as [|a l IH]; intros [|[] mask]; cbn; try reflexivity; now rewrite IH. Qed.

Lemma select_app {A} m1 m2 (l1 l2 : list A) : length m1 = length l1 ->
  select (m1 ++ m2) (l1 ++ l2) = select m1 l1 ++ select m2 l2.
Proof.
  revert m1; induction l1 as [|a l IH]; intros [|m mask] H; cbn in *; try discriminate; [reflexivity|].
  injection H as H. destruct m; cbn; now rewrite IH.
Qed.

Lemma mask_get_Ok {A} (l : list A) m : length m = length l -> mask_get l m = Ok (select m l).
Proof. intros H. unfold mask_get. rewrite H, Nat.eqb_refl. reflexivity. Qed.

(** ** number_from *)

Lemma number_from_length n m : length (number_from n m) = length m.
Proof. revert n; induction m as [|[] m IH]; intros n; cbn; auto. Qed.

Lemma number_from_mask n m : 0 <= n -> map (fun i => 0 <=? i) (number_from n m) = m.
Proof.
  revert n; induction m as [|[] m IH]; intros n Hn; cbn [number_from map]; [reflexivity| |].
  - f_equal; [apply Z.leb_le; lia|apply IH; lia].
  - f_equal. apply IH; lia.
Qed.

Lemma count_true_cons b m : count_true (b :: m) = ((if b then 1 else 0) + count_true m)%nat.
Proof. destruct b; reflexivity. Qed.

Lemma number_from_app n m1 m2 :
  number_from n (m1 ++ m2) = number_from n m1 ++ number_from (n + Z.of_nat (count_true m1)) m2.
Proof.
  revert n; induction m1 as [|b m1 IH]; intros n.
  - cbn. rewrite Z.add_0_r. reflexivity.
  - rewrite count_true_cons. destruct b; cbn [app number_from].
    + rewrite IH. cbn [app]. do 3 f_equal. lia.
    + rewrite IH. reflexivity.
Qed.

Lemma number_from_all_true n m : (forall b, In b m -> b = true) ->
  number_from n m = map (fun i => n + i) (arange (length m)).
Proof.
  revert n; induction m as [|b m IH]; intros n H; [reflexivity|].
  rewrite (H b (or_introl eq_refl)). cbn [number_from length].
  unfold arange. cbn [seq map]. f_equal; [lia|].
  rewrite IH by (intros c Hc; apply H; right; exact Hc).
  unfold arange. rewrite <- seq_shift, !map_map. apply map_ext. intros i. lia.
Qed.

Lemma number_from_shift n k m :
  map (fun i => if 0 <=? i then i + k else i) (number_from n m) = number_from (n + k) m \/ n < 0.
Proof.
  destruct (Z.ltb_spec n 0) as [Hn|Hn]; [right; exact Hn|left].
  revert n Hn; induction m as [|[] m IH]; intros n Hn; cbn [number_from map]; [reflexivity| |].
  - replace (0 <=? n) with true by (symmetry; apply Z.leb_le; lia).
    rewrite IH by lia. f_equal. f_equal. lia.
  - rewrite IH by lia. reflexivity.
Qed.

(** The number given to a flagged entry is its position among the flagged. *)
Lemma number_from_nth {A} (l : list A) m : forall n p,
  0 <= n -> nth_error m p = Some true ->
  exists i, nth_error (number_from n m) p = Some (n + Z.of_nat i) /\
            (length m = length l -> nth_error (select m l) i = nth_error l p).
Proof.
  revert l; induction m as [|b m IH]; intros l n p Hn Hp; [destruct p; discriminate|].
  destruct p as [|p]; cbn in Hp.
  - injection Hp as ->. exists O. cbn. split; [f_equal; lia|].
    destruct l; [discriminate|]. reflexivity.
  - destruct b; cbn [number_from nth_error].
    + destruct (IH (tl l) (n + 1) p) as (i & E & H); [lia|exact Hp|].
      exists (S i). split; [rewrite E; f_equal; lia|].
      intros Hl. destruct l as [|a l]; [discriminate|]. cbn [select nth_error tl] in *. apply H. cbn [length] in Hl; lia.
    + destruct (IH (tl l) n p) as (i & E & H); [lia|exact Hp|].
      exists i. split; [exact E|].
      intros Hl. destruct l as [|a l]; [discriminate|]. cbn [select nth_error tl] in *. apply H. cbn [length] in Hl; lia.
Qed.

Lemma number_from_nth_false n m p : nth_error m p = Some false -> nth_error (number_from n m) p = Some (-1).
Proof.
  revert n p; induction m as [|b m IH]; intros n [|p] H; cbn in H; try discriminate.
  - injection H as ->. reflexivity.
  - destruct b; cbn; apply IH; exact H.
Qed.

(** ** the children of a layer *)

Lemma nth_error_NoDup_inj {A} (l : list A) i j a : NoDup l ->
  nth_error l i = Some a -> nth_error l j = Some a -> i = j.
Proof.
  intros H Hi Hj. apply (proj1 (NoDup_nth_error l) H).
  - apply nth_error_Some. rewrite Hi; discriminate.
  - congruence.
Qed.

Lemma put_children (ks ne addr : list Z) :
  sorted ks -> sorted ne -> length addr = length ne ->
  (forall i k a, nth_error ne i = Some k -> nth_error addr i = Some a ->
     0 <= a /\ nth_error ks (Z.to_nat a) = Some k) ->
  index_put (repeat (-1) (length ks)) addr (arange (length ne))
  = Ok (number_from 0 (map (fun k => memb k ne) ks)) /\
  select (map (fun k => memb k ne) ks) ks = ne.
Proof.
  intros Hks Hne Hlen Haddr.
  assert (Hsub : forall k, In k ne -> In k ks).
  { intros k Hk. apply In_nth_error in Hk. destruct Hk as (i & Hi).
    destruct (nth_error addr i) as [a|] eqn:Ea.
    - destruct (Haddr i k a Hi Ea) as [_ H]. eapply nth_error_In; exact H.
    - apply nth_error_None in Ea. assert (i < length ne)%nat by (apply nth_error_Some; rewrite Hi; discriminate). lia. }
  assert (Hsel : select (map (fun k => memb k ne) ks) ks = ne).
  { apply sorted_unique; [apply sorted_select; exact Hks|exact Hne|].
    intros a. rewrite in_select_map, memb_In. split; [tauto|]. intros H; split; [apply Hsub; exact H|exact H]. }
  split; [|exact Hsel].
  assert (Hr : forall a, In a addr -> 0 <= a < zlen (repeat (-1) (length ks))).
  { intros a Ha. apply In_nth_error in Ha. destruct Ha as (i & Hi).
    assert (i < length ne)%nat by (rewrite <- Hlen; apply nth_error_Some; rewrite Hi; discriminate).
    destruct (nth_error ne i) as [k|] eqn:Ek; [|apply nth_error_None in Ek; lia].
    destruct (Haddr i k a Ek Hi) as [H0 H1]. split; [exact H0|].
    unfold zlen. rewrite repeat_length.
    assert (Z.to_nat a < length ks)%nat by (apply nth_error_Some; rewrite H1; discriminate). lia. }
  assert (Hnd : NoDup addr).
  { apply NoDup_nth_error. intros i j Hi Hij.
    destruct (nth_error addr i) as [a|] eqn:Ea; [|apply nth_error_None in Ea; lia].
    symmetry in Hij.
    assert (i < length ne)%nat by lia.
    assert (j < length addr)%nat by (apply nth_error_Some; rewrite Hij; discriminate).
    destruct (nth_error ne i) as [k|] eqn:Ek; [|apply nth_error_None in Ek; lia].
    destruct (nth_error ne j) as [k'|] eqn:Ek'; [|apply nth_error_None in Ek'; lia].
    destruct (Haddr i k a Ek Ea) as [_ H1]. destruct (Haddr j k' a Ek' Hij) as [_ H2].
    rewrite H1 in H2. injection H2 as <-.
    eapply sorted_nth_inj; [exact Hne|exact Ek|exact Ek']. }
  assert (Hal : length addr = length (arange (length ne))) by (rewrite arange_length; exact Hlen).
  destruct (index_put_spec addr (repeat (-1) (length ks)) (arange (length ne)) Hal Hnd Hr)
    as (r & E & Hl & Hin & Hout).
  rewrite E. f_equal. apply nth_error_ext. intros p.
  rewrite repeat_length in Hl.
  destruct (nth_error ks p) as [k|] eqn:Ek.
  2:{ apply nth_error_None in Ek. rewrite (proj2 (nth_error_None r p)) by lia.
      symmetry. apply nth_error_None. rewrite number_from_length, map_length. exact Ek. }
  destruct (memb k ne) eqn:Em.
  - apply memb_In in Em. pose proof Em as Hk.
    apply In_nth_error in Hk. destruct Hk as (i & Hi).
    assert (Hi' : (i < length ne)%nat) by (apply nth_error_Some; rewrite Hi; discriminate).
    destruct (nth_error addr i) as [a|] eqn:Ea; [|apply nth_error_None in Ea; lia].
    destruct (Haddr i k a Hi Ea) as [Ha0 Ha].
    assert (Hp : Z.to_nat a = p) by (eapply sorted_nth_inj; [exact Hks|exact Ha|exact Ek]).
    rewrite <- Hp at 1. rewrite (Hin i a (Z.of_nat i) Ea (arange_nth _ _ Hi')).
    destruct (number_from_nth ks (map (fun k => memb k ne) ks) 0 p) as (j & Ej & Hj); [lia| |].
    { rewrite nth_error_map, Ek. cbn. f_equal. apply memb_In. exact Em. }
    rewrite Ej. f_equal. rewrite map_length in Hj. specialize (Hj eq_refl).
    rewrite Hsel, Ek in Hj.
    replace j with i; [lia|]. eapply sorted_nth_inj; [exact Hne|exact Hi|exact Hj].
  - rewrite number_from_nth_false by (rewrite nth_error_map, Ek; cbn; f_equal; exact Em).
    rewrite Hout.
    + apply nth_error_repeat. apply nth_error_Some. rewrite Ek; discriminate.
    + intros Hp. apply In_nth_error in Hp. destruct Hp as (i & Hi).
      assert (i < length ne)%nat by (rewrite <- Hlen; apply nth_error_Some; rewrite Hi; discriminate).
      destruct (nth_error ne i) as [k'|] eqn:Ek'; [|apply nth_error_None in Ek'; lia].
      destruct (Haddr i k' _ Ek' Hi) as [_ H1]. rewrite Nat2Z.id, Ek in H1. injection H1 as <-.
      apply nth_error_In in Ek'. apply memb_In in Ek'. congruence.
Qed.

(** ** unique *)

Lemma insert_uniq_In k l a : In a (insert_uniq k l) <-> a = k \/ In a l.
Proof.
  induction l as [|b l IH]; cbn [insert_uniq]; [cbn; intuition|].
  destruct (Z.ltb_spec k b); [cbn; intuition|].
  destruct (Z.eqb_spec k b); [subst; cbn; intuition|].
  cbn [In]. rewrite IH. intuition.
Qed.

Lemma insert_uniq_sorted k l : sorted l -> sorted (insert_uniq k l).
Proof.
  induction 1 as [|b l Hs IH Hb]; cbn [insert_uniq]; [repeat constructor|].
  destruct (Z.ltb_spec k b) as [H|H].
  - constructor; [constructor; assumption|]. constructor; [exact H|].
    eapply Forall_impl; [|exact Hb]. intros; lia.
  - destruct (Z.eqb_spec k b) as [->|Hne]; [constructor; assumption|].
    constructor; [exact IH|]. apply Forall_forall. intros x Hx.
    apply insert_uniq_In in Hx. destruct Hx as [->|Hx]; [lia|].
    rewrite Forall_forall in Hb; auto.
Qed.

Lemma sort_uniq_sorted l : sorted (sort_uniq l).
Proof. induction l; cbn; [constructor|]. apply insert_uniq_sorted; assumption. Qed.

Lemma sort_uniq_In l a : In a (sort_uniq l) <-> In a l.
Proof. induction l as [|b l IH]; cbn; [tauto|]. rewrite insert_uniq_In, IH. intuition. Qed.

Lemma index_of_Some k l i : index_of k l = Some i -> nth_error l i = Some k.
Proof.
  revert i; induction l as [|a l IH]; intros i; cbn; [discriminate|].
  destruct (Z.eqb_spec a k) as [->|Hne]; [intros [= <-]; reflexivity|].
  destruct (index_of k l); cbn; [|discriminate]. intros [= <-]. cbn. apply IH; reflexivity.
Qed.

Lemma index_of_In k l : In k l -> exists i, index_of k l = Some i.
Proof.
  induction l as [|a l IH]; cbn; [contradiction|].
  destruct (Z.eqb_spec a k) as [->|Hne]; [intros _; exists O; reflexivity|].
  intros [E|H]; [congruence|]. destruct (IH H) as (i & ->). exists (S i). reflexivity.
Qed.

Lemma index_of_None k l : index_of k l = None <-> ~ In k l.
Proof.
  split.
  - intros H Hin. destruct (index_of_In k l Hin) as (i & E). congruence.
  - intros H. destruct (index_of k l) eqn:E; [|reflexivity].
    exfalso. apply H. apply index_of_Some in E. eapply nth_error_In; exact E.
Qed.

Lemma index_of_nth k l i : NoDup l -> nth_error l i = Some k -> index_of k l = Some i.
Proof.
  intros Hnd H. destruct (index_of_In k l) as (j & E); [eapply nth_error_In; exact H|].
  rewrite E. f_equal. eapply nth_error_NoDup_inj; [exact Hnd| |exact H]. apply index_of_Some; exact E.
Qed.

(** unique_consecutive on a non-decreasing list *)
Notation nondec := (StronglySorted Z.le).

Lemma uniq_consec_cons2 a b t :
  uniq_consec (a :: b :: t) = if a =? b then uniq_consec (b :: t) else a :: uniq_consec (b :: t).
Proof. reflexivity. Qed.

Lemma consec_inv_cons2 n a b t :
  consec_inv n (a :: b :: t) = n :: consec_inv (if a =? b then n else n + 1) (b :: t).
Proof. reflexivity. Qed.

Lemma uniq_consec_In l a : In a (uniq_consec l) <-> In a l.
Proof.
  induction l as [|b l IH]; [tauto|]. destruct l as [|c l]; [cbn; tauto|]. rewrite uniq_consec_cons2.
  destruct (Z.eqb_spec b c) as [->|Hne].
  - rewrite IH. cbn; tauto.
  - cbn [In] in *. rewrite IH. tauto.
Qed.

Lemma uniq_consec_sorted l : nondec l -> sorted (uniq_consec l).
Proof.
  induction 1 as [|b l Hs IH Hb]; [constructor|]. destruct l as [|c l]; [repeat constructor|]. rewrite uniq_consec_cons2.
  destruct (Z.eqb_spec b c) as [->|Hne]; [exact IH|].
  constructor; [exact IH|]. apply Forall_forall. intros x Hx. apply (proj1 (uniq_consec_In _ _)) in Hx.
  inversion Hs as [|? ? Hs' Hc]; subst. rewrite Forall_forall in Hb, Hc.
  pose proof (Hb c (or_introl eq_refl)).
  destruct Hx as [<-|Hx]; [lia|]. specialize (Hc _ Hx). lia.
Qed.

Lemma consec_inv_length n l : length (consec_inv n l) = length l.
Proof.
  revert n; induction l as [|a l IH]; intros n; [reflexivity|]. cbn [consec_inv length]. f_equal.
  destruct l as [|b l]; [reflexivity|]. apply IH.
Qed.

Lemma consec_inv_spec l : forall n i k a, 0 <= n ->
  nth_error l i = Some k -> nth_error (consec_inv n l) i = Some a ->
  n <= a /\ nth_error (uniq_consec l) (Z.to_nat (a - n)) = Some k.
Proof.
  induction l as [|b l IH]; intros n i k a Hn Hi Ha; [destruct i; discriminate|].
  destruct l as [|c l].
  - cbn [consec_inv uniq_consec] in *. destruct i as [|[|i]]; cbn in Hi, Ha; try discriminate.
    injection Hi as <-. injection Ha as <-. rewrite Z.sub_diag. cbn. split; [lia|reflexivity].
  - rewrite uniq_consec_cons2. rewrite consec_inv_cons2 in Ha. destruct i as [|i].
    + cbn [nth_error] in Hi, Ha. injection Hi as <-. injection Ha as <-. rewrite Z.sub_diag. cbn [Z.to_nat].
      split; [lia|]. destruct (Z.eqb_spec b c) as [->|Hne]; [|reflexivity].
      specialize (IH n O c n Hn eq_refl).
      destruct IH as [_ IH]; [destruct l; reflexivity|].
      rewrite Z.sub_diag in IH. exact IH.
    + cbn [nth_error] in Hi, Ha. destruct (Z.eqb_spec b c) as [->|Hne].
      * apply (IH n i k a Hn Hi Ha).
      * destruct (IH (n + 1) i k a) as [H1 H2]; [lia|exact Hi|exact Ha|].
        split; [lia|]. replace (Z.to_nat (a - n)) with (S (Z.to_nat (a - (n + 1)))) by lia. exact H2.
Qed.

(** ** binary search *)

Lemma lower_bound_spec l q : sorted l -> forall fuel s e,
  (e - s < fuel)%nat -> (s <= e)%nat -> (e <= length l)%nat ->
  (forall i a, (i < s)%nat -> nth_error l i = Some a -> a < q) ->
  (forall i a, (e <= i)%nat -> nth_error l i = Some a -> q <= a) ->
  let r := lower_bound fuel l q s e in
  (s <= r <= e)%nat /\
  (forall i a, (i < r)%nat -> nth_error l i = Some a -> a < q) /\
  (forall i a, (r <= i)%nat -> nth_error l i = Some a -> q <= a).
Proof.
  intros Hs. induction fuel as [|fuel IH]; intros s e Hf Hse He Hlo Hhi; [lia|].
  cbn [lower_bound]. destruct (Nat.ltb_spec s e) as [Hlt|Hge].
  - set (mid := (s + Nat.div2 (e - s))%nat).
    assert (Hmid : (s <= mid < e)%nat).
    { unfold mid. pose proof (Nat.div2_decr (e - s) (e - s - 1)). 
      assert (Nat.div2 (e - s) < e - s)%nat by (apply Nat.lt_div2; lia). lia. }
    destruct (nth_error l mid) as [v|] eqn:Ev; [|apply nth_error_None in Ev; lia].
    rewrite (nth_error_nth _ _ _ Ev).
    destruct (Z.leb_spec q v) as [Hq|Hq]; cbn [negb].
    + destruct (IH s mid) as (H1 & H2 & H3); try lia; [exact Hlo| |].
      * intros i a Hi Ha. destruct (Nat.eq_dec i mid) as [->|Hne]; [congruence|].
        pose proof (sorted_nth_lt l Hs mid i v a Ev Ha ltac:(lia)). lia.
      * split; [lia|]. split; assumption.
    + destruct (IH (S mid) e) as (H1 & H2 & H3); try lia; [|exact Hhi|].
      * intros i a Hi Ha. destruct (Nat.eq_dec i mid) as [->|Hne]; [congruence|].
        pose proof (sorted_nth_lt l Hs i mid a v Ha Ev ltac:(lia)). lia.
      * split; [lia|]. split; assumption.
  - assert (s = e) by lia. subst e. split; [lia|]. split; assumption.
Qed.

Lemma bucketize_spec l q : sorted l ->
  exists r, bucketize l q = Z.of_nat r /\ (r <= length l)%nat /\
  (forall i a, (i < r)%nat -> nth_error l i = Some a -> a < q) /\
  (forall i a, (r <= i)%nat -> nth_error l i = Some a -> q <= a).
Proof.
  intros Hs. unfold bucketize.
  destruct (lower_bound_spec l q Hs (S (length l)) 0 (length l)) as (H1 & H2 & H3); try lia.
  - intros i a Hi Ha. assert (i < length l)%nat by (apply nth_error_Some; rewrite Ha; discriminate). lia.
  - eexists. split; [reflexivity|]. split; [lia|]. split; assumption.
Qed.
