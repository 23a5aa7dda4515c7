(** Concatenation of the tensors of batch members, and programs run on every member. *)
From Coq Require Import List ZArith Bool Lia.
From Verif Require Import Res Tensor Num Points Octree SpecNN ListFacts NnFacts PadFacts NetLoops MergeConv NeighFacts.
Import ListNotations.
Open Scope Z_scope.

Definition cat {A} (n : nat) (X : nat -> list A) : list A := concat (map X (seq 0 n)).

Lemma catl_select {A} (l : list nat) (m : nat -> list bool) (X : nat -> list A) : (forall i, In i l -> length (m i) = length (X i)) ->
  select (concat (map m l)) (concat (map X l)) = concat (map (fun i => select (m i) (X i)) l).
Proof.
  induction l as [|a l IH]; intros H; [reflexivity|]. cbn [map concat]. rewrite <- IH by (intros i Hi; apply H; right; exact Hi).
  assert (Ha : length (m a) = length (X a)) by (apply H; left; reflexivity). clear H IH. revert Ha. generalize (X a). induction (m a) as [|b ms IH]; intros [|x xs] E; try discriminate; [reflexivity|].
  cbn [app select length] in *. destruct b; cbn [app]; rewrite IH by lia; reflexivity.
Qed.
Lemma catl_fill {A} (l : list nat) (m : nat -> list bool) (B X : nat -> list A) :
  (forall i, In i l -> length (m i) = length (B i) /\ count_true (m i) = length (X i)) ->
  fill (concat (map m l)) (concat (map B l)) (concat (map X l)) = concat (map (fun i => fill (m i) (B i) (X i)) l).
Proof.
  induction l as [|a l IH]; intros H; [reflexivity|]. cbn [map concat]. destruct (H a (or_introl eq_refl)) as [H1 H2].
  rewrite fill_app by assumption. f_equal. apply IH. intros i Hi. apply H. right. exact Hi.
Qed.
Lemma catl_mapM {A B} (f : A -> res B) (l : list nat) (X : nat -> list A) (Y : nat -> list B) : (forall i, In i l -> mapM f (X i) = Ok (Y i)) ->
  mapM f (concat (map X l)) = Ok (concat (map Y l)).
Proof.
  induction l as [|a l IH]; intros H; [reflexivity|]. cbn [map concat].
  assert (Ap : forall (l1 l2 : list A) r1 r2, mapM f l1 = Ok r1 -> mapM f l2 = Ok r2 -> mapM f (l1 ++ l2) = Ok (r1 ++ r2)).
  { induction l1 as [|x l1 IH1]; intros l2 r1 r2 E1 E2; cbn [mapM app] in *; [assert (r1 = []) by congruence; subst; exact E2|].
    destruct (f x) as [y|]; [|discriminate]. cbn [bind] in *. destruct (mapM f l1) as [ys|] eqn:E; [|discriminate]. cbn [bind] in E1.
    assert (r1 = y :: ys) by congruence. subst. rewrite (IH1 l2 ys r2 eq_refl E2). reflexivity. }
  apply Ap; [apply H; left; reflexivity|]. apply IH. intros i Hi. apply H. right. exact Hi.
Qed.
Lemma combine_app {A B} (l1 l2 : list A) (m1 m2 : list B) : length l1 = length m1 -> combine (l1 ++ l2) (m1 ++ m2) = combine l1 m1 ++ combine l2 m2.
Proof. revert m1. induction l1 as [|a l1 IH]; intros [|b m1] E; try discriminate; [reflexivity|]. cbn [app combine]. rewrite IH by (cbn in E; lia). reflexivity. Qed.
Lemma catl_combine {A B} (l : list nat) (X : nat -> list A) (Y : nat -> list B) : (forall i, In i l -> length (X i) = length (Y i)) ->
  combine (concat (map X l)) (concat (map Y l)) = concat (map (fun i => combine (X i) (Y i)) l).
Proof.
  induction l as [|a l IH]; intros H; [reflexivity|]. cbn [map concat]. rewrite combine_app by (apply H; left; reflexivity). f_equal.
  apply IH. intros i Hi. apply H. right. exact Hi.
Qed.
Lemma zip_app {A B C} (f : A -> B -> C) l1 l2 m1 m2 : length l1 = length m1 -> zip_with f (l1 ++ l2) (m1 ++ m2) = zip_with f l1 m1 ++ zip_with f l2 m2.
Proof. intros H. unfold zip_with. rewrite combine_app by exact H. apply map_app. Qed.
Lemma catl_zip {A B C} (f : A -> B -> C) (l : list nat) X Y : (forall i, In i l -> length (X i) = length (Y i)) ->
  zip_with f (concat (map X l)) (concat (map Y l)) = concat (map (fun i => zip_with f (X i) (Y i)) l).
Proof.
  induction l as [|a l IH]; intros H; [reflexivity|]. cbn [map concat]. rewrite zip_app by (apply H; left; reflexivity). f_equal.
  apply IH. intros i Hi. apply H. right. exact Hi.
Qed.

Section Cat.
  Variable n : nat.
  Notation cat := (cat n).
  Lemma in_seq0 i : In i (seq 0 n) -> (i < n)%nat.
  Proof. rewrite in_seq. lia. Qed.
  Lemma cat_ext {A} (X Y : nat -> list A) : (forall i, (i < n)%nat -> X i = Y i) -> cat X = cat Y.
  Proof. intros H. unfold Verif.CatFacts.cat. f_equal. apply map_ext_in. intros i Hi. apply H, in_seq0, Hi. Qed.
  Lemma cat_map {A B} (f : A -> B) X : map f (cat X) = cat (fun i => map f (X i)).
  Proof. unfold Verif.CatFacts.cat. rewrite concat_map, map_map. reflexivity. Qed.
  Lemma cat_len {A B} (X : nat -> list A) (Y : nat -> list B) : (forall i, (i < n)%nat -> length (X i) = length (Y i)) -> length (cat X) = length (cat Y).
  Proof.
    intros H. unfold Verif.CatFacts.cat. assert (G : forall i, In i (seq 0 n) -> length (X i) = length (Y i)) by (intros i Hi; apply H, in_seq0, Hi).
    induction (seq 0 n) as [|a l IH]; [reflexivity|]. cbn [map concat]. rewrite !app_length, (G a), IH; auto; [|left; reflexivity]. intros i Hi. apply G. right. exact Hi.
  Qed.
  Lemma cat_Forall {A} (Q : A -> Prop) X : (forall i, (i < n)%nat -> Forall Q (X i)) -> Forall Q (cat X).
  Proof. intros H. unfold Verif.CatFacts.cat. apply Forall_concat. apply Forall_map. apply Forall_forall. intros i Hi. apply H, in_seq0, Hi. Qed.
  Lemma cat_select {A} (m : nat -> list bool) (X : nat -> list A) : (forall i, (i < n)%nat -> length (m i) = length (X i)) ->
    select (cat m) (cat X) = cat (fun i => select (m i) (X i)).
  Proof. intros H. apply catl_select. intros i Hi. apply H, in_seq0, Hi. Qed.
  Lemma cat_fill {A} (m : nat -> list bool) (B X : nat -> list A) :
    (forall i, (i < n)%nat -> length (m i) = length (B i) /\ count_true (m i) = length (X i)) ->
    fill (cat m) (cat B) (cat X) = cat (fun i => fill (m i) (B i) (X i)).
  Proof. intros H. apply catl_fill. intros i Hi. apply H, in_seq0, Hi. Qed.
  Lemma cat_mapM {A B} (f : A -> res B) X Y : (forall i, (i < n)%nat -> mapM f (X i) = Ok (Y i)) -> mapM f (cat X) = Ok (cat Y).
  Proof. intros H. apply catl_mapM. intros i Hi. apply H, in_seq0, Hi. Qed.
  Lemma cat_zip {A B C} (f : A -> B -> C) X Y : (forall i, (i < n)%nat -> length (X i) = length (Y i)) ->
    zip_with f (cat X) (cat Y) = cat (fun i => zip_with f (X i) (Y i)).
  Proof. intros H. apply catl_zip. intros i Hi. apply H, in_seq0, Hi. Qed.
  Lemma cat_combine {A B} (X : nat -> list A) (Y : nat -> list B) : (forall i, (i < n)%nat -> length (X i) = length (Y i)) ->
    combine (cat X) (cat Y) = cat (fun i => combine (X i) (Y i)).
  Proof. intros H. apply catl_combine. intros i Hi. apply H, in_seq0, Hi. Qed.
  Lemma cat_concat {A} (X : nat -> list (list A)) : concat (cat X) = cat (fun i => concat (X i)).
  Proof. unfold Verif.CatFacts.cat. induction (seq 0 n) as [|a l IH]; [reflexivity|]. cbn [map concat]. rewrite concat_app, IH. reflexivity. Qed.
  Lemma cat_repeat {A} (a : A) (N : nat -> nat) k : k = length (cat (fun i => repeat tt (N i))) -> repeat a k = cat (fun i => repeat a (N i)).
  Proof.
    intros ->. unfold Verif.CatFacts.cat. induction (seq 0 n) as [|i l IH]; [reflexivity|]. cbn [map concat]. rewrite app_length, repeat_app, IH, repeat_length. reflexivity.
  Qed.
  Lemma map_cat {A B} (f : A -> list B) X : flat_map f (cat X) = cat (fun i => flat_map f (X i)).
  Proof. unfold Verif.CatFacts.cat. induction (seq 0 n) as [|a l IH]; [reflexivity|]. cbn [map concat]. rewrite flat_map_app, IH. reflexivity. Qed.
  Lemma cat_view8 {A} (X : nat -> list A) (Y : nat -> list (list A)) : (0 < n)%nat -> (forall i, (i < n)%nat -> view_rows 8 (X i) = Ok (Y i)) ->
    view_rows 8 (cat X) = Ok (cat Y).
  Proof.
    intros Hn H. assert (G : forall i, (i < n)%nat -> X i = concat (Y i) /\ Forall (fun r => length r = 8%nat) (Y i)).
    { intros i Hi. specialize (H i Hi). unfold view_rows in H. destruct (Nat.eqb (length (X i) mod 8) 0) eqn:E; [|discriminate]. cbn [andb negb Nat.eqb] in H.
      apply Nat.eqb_eq in E. assert (Hy : Y i = chunk_rows (length (X i) / 8) 8 (X i)) by congruence. rewrite Hy. clear H Hy.
      pose proof (Nat.div_mod (length (X i)) 8 ltac:(lia)) as Hd. rewrite E, Nat.add_0_r in Hd. revert Hd. generalize (length (X i) / 8)%nat as q. generalize (X i) as l. clear. intros l q. revert l.
      induction q as [|q IH]; intros l Hl; cbn [chunk_rows concat].
      - destruct l; [split; [reflexivity|constructor]|cbn in Hl; lia].
      - destruct (IH (skipn 8 l)) as [E1 E2]; [rewrite skipn_length; lia|]. split; [rewrite <- E1, firstn_skipn; reflexivity|]. constructor; [rewrite firstn_length; lia|exact E2]. }
    replace (cat X) with (concat (cat Y)).
    - apply view_rows_concat; [discriminate|]. apply cat_Forall. intros i Hi. apply G. exact Hi.
    - rewrite cat_concat. apply cat_ext. intros i Hi. symmetry. apply G. exact Hi.
  Qed.

  (** cutting a list into blocks *)
  Lemma cat_cut {A} (N : nat -> nat) (z : list A) : length z = length (cat (fun i => repeat tt (N i))) ->
    exists Z, z = cat Z /\ forall i, (i < n)%nat -> length (Z i) = N i.
  Proof.
    unfold Verif.CatFacts.cat. assert (G : forall m s (z : list A), length z = length (concat (map (fun i => repeat tt (N i)) (seq s m))) ->
      exists Z, z = concat (map Z (seq s m)) /\ forall i, (s <= i < s + m)%nat -> length (Z i) = N i).
    { induction m as [|m IH]; intros s z' H.
      - destruct z'; [|discriminate]. exists (fun _ => []). split; [reflexivity|lia].
      - cbn [seq map concat] in H. rewrite app_length, repeat_length in H. destruct (IH (S s) (skipn (N s) z')) as (Z & E & HZ); [rewrite skipn_length; lia|].
        exists (fun i => if Nat.eqb i s then firstn (N s) z' else Z i). split.
        + cbn [seq map concat]. rewrite Nat.eqb_refl. rewrite <- (firstn_skipn (N s) z') at 1. f_equal. rewrite E. f_equal. apply map_ext_in. intros i Hi. apply in_seq in Hi.
          destruct (Nat.eqb_spec i s); [lia|reflexivity].
        + intros i Hi. destruct (Nat.eqb_spec i s) as [->|]; [rewrite firstn_length; lia|apply HZ; lia]. }
    intros H. destruct (G n 0%nat z H) as (Z & E & HZ). exists Z. split; [exact E|]. intros i Hi. apply HZ. lia.
  Qed.
End Cat.

(** ** programs run on every member *)
Section Runs.
  Variable n : nat.
  Hypothesis Hn : (0 < n)%nat.
  Lemma split_bind {A B} (F : nat -> res A) (G : nat -> A -> res B) Y : (forall i, (i < n)%nat -> bind (F i) (G i) = Ok (Y i)) ->
    exists Z, (forall i, (i < n)%nat -> F i = Ok (Z i)) /\ (forall i, (i < n)%nat -> G i (Z i) = Ok (Y i)).
  Proof.
    intros H. assert (exists z0, F O = Ok z0) as [z0 E0]. { specialize (H O Hn). destruct (F O) as [z|]; [eauto|discriminate]. }
    exists (fun i => match F i with Ok z => z | Err _ => z0 end). split; intros i Hi; specialize (H i Hi); destruct (F i) as [z|] eqn:E; try discriminate; [reflexivity|exact H].
  Qed.
  Lemma ok_inj {A} (X Y : nat -> A) : (forall i, (i < n)%nat -> Ok (X i) = Ok (Y i)) -> forall i, (i < n)%nat -> X i = Y i.
  Proof. intros H i Hi. specialize (H i Hi). assert (Eq : forall (a b : A), Ok a = Ok b -> a = b) by (intros; congruence). apply Eq. exact H. Qed.
  (** a loop over 0, ..., m-1 *)
  Lemma fold_join {S} (R : nat -> (nat -> S) -> S -> Prop) (f : S -> Z -> res S) (g : nat -> S -> Z -> res S) m X x Y :
    (forall k (X Y : nat -> S), (forall i, (i < n)%nat -> X i = Y i) -> forall x, R k X x -> R k Y x) ->
    R O X x -> (forall i, (i < n)%nat -> foldM (g i) (X i) (arange m) = Ok (Y i)) ->
    (forall k X x Y, (k < m)%nat -> R k X x -> (forall i, (i < n)%nat -> g i (X i) (Z.of_nat k) = Ok (Y i)) ->
       exists y, f x (Z.of_nat k) = Ok y /\ R (Datatypes.S k) Y y) ->
    exists y, foldM f x (arange m) = Ok y /\ R m Y y.
  Proof.
    intros Rext R0 HY Hstep. revert Y HY. induction m as [|m IH]; intros Y HY.
    - exists x. split; [reflexivity|]. apply (Rext O X); [|exact R0]. apply ok_inj. intros i Hi. exact (HY i Hi).
    - assert (H' : forall i, (i < n)%nat -> bind (foldM (g i) (X i) (arange m)) (fun s => g i s (Z.of_nat m)) = Ok (Y i)).
      { intros i Hi. specialize (HY i Hi). rewrite arange_S, foldM_app in HY. destruct (foldM (g i) (X i) (arange m)) as [s|]; [|discriminate]. cbn [bind foldM] in *.
        destruct (g i s (Z.of_nat m)); [exact HY|discriminate]. }
      destruct (split_bind _ _ _ H') as (Z & E1 & E2). destruct (IH (fun k X x Y Hk => Hstep k X x Y ltac:(lia)) Z E1) as (z & Ez & Rz).
      destruct (Hstep m Z z Y ltac:(lia) Rz E2) as (y & Ey & Ry). exists y. split; [|exact Ry]. rewrite arange_S, foldM_app, Ez. cbn [bind foldM]. rewrite Ey. reflexivity.
  Qed.
End Runs.
