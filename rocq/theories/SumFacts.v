(** Finite sums and entries of tensors. *)
From Coq Require Import List ZArith Bool QArith Qcanon Lia Field.
From Verif Require Import Res Tensor Num Points Octree NnBasic NnConv SpecNeigh SpecNN ListFacts NumFacts.
Import ListNotations.

Lemma sum_ext n f g : (forall i, (i < n)%nat -> f i = g i) -> sum_n n f = sum_n n g.
Proof.
  induction n as [|n IH]; intros H; [reflexivity|]. cbn [sum_n].
  rewrite IH by (intros; apply H; lia). rewrite H by lia. reflexivity.
Qed.
Lemma sum_zero n f : (forall i, (i < n)%nat -> f i = 0%Qc) -> sum_n n f = 0%Qc.
Proof.
  induction n as [|n IH]; intros H; [reflexivity|]. cbn [sum_n].
  rewrite IH by (intros; apply H; lia). rewrite H by lia. ring.
Qed.
Lemma sum_plus n f g : sum_n n (fun i => (f i + g i)%Qc) = (sum_n n f + sum_n n g)%Qc.
Proof. induction n as [|n IH]; cbn [sum_n]; [ring|]. rewrite IH. ring. Qed.
Lemma sum_minus n f g : sum_n n (fun i => (f i - g i)%Qc) = (sum_n n f - sum_n n g)%Qc.
Proof. induction n as [|n IH]; cbn [sum_n]; [ring|]. rewrite IH. ring. Qed.
Lemma sum_scale n c f : sum_n n (fun i => (c * f i)%Qc) = (c * sum_n n f)%Qc.
Proof. induction n as [|n IH]; cbn [sum_n]; [ring|]. rewrite IH. ring. Qed.
Lemma sum_scale_r n c f : sum_n n (fun i => (f i * c)%Qc) = (sum_n n f * c)%Qc.
Proof. induction n as [|n IH]; cbn [sum_n]; [ring|]. rewrite IH. ring. Qed.
Lemma sum_swap n m f : sum_n n (fun i => sum_n m (fun j => f i j)) = sum_n m (fun j => sum_n n (fun i => f i j)).
Proof.
  induction n as [|n IH]; cbn [sum_n].
  - symmetry. apply sum_zero. reflexivity.
  - rewrite IH. rewrite <- sum_plus. reflexivity.
Qed.
Lemma sum_app n m f : sum_n (n + m) f = (sum_n n f + sum_n m (fun j => f (n + j)%nat))%Qc.
Proof.
  induction m as [|m IH].
  - rewrite Nat.add_0_r. cbn [sum_n]. ring.
  - rewrite Nat.add_succ_r. cbn [sum_n]. rewrite IH. ring.
Qed.
Lemma sum_S n f : sum_n (S n) f = (f O + sum_n n (fun i => f (S i)))%Qc.
Proof.
  change (S n) with (1 + n)%nat. rewrite sum_app. cbn [sum_n]. change (fun j => f (1 + j)%nat) with (fun i => f (S i)). ring.
Qed.
Lemma sum_mul n m f : sum_n (n * m) f = sum_n n (fun i => sum_n m (fun j => f (i * m + j)%nat)).
Proof.
  induction n as [|n IH]; [reflexivity|].
  cbn [sum_n]. rewrite <- IH. rewrite (Nat.mul_comm (S n)), Nat.mul_succ_r, (Nat.mul_comm m). apply sum_app.
Qed.
(** One non-zero term. *)
Lemma sum_one n p f : (p < n)%nat -> (forall i, (i < n)%nat -> i <> p -> f i = 0%Qc) -> sum_n n f = f p.
Proof.
  induction n as [|n IH]; intros Hp H; [lia|]. cbn [sum_n].
  destruct (Nat.eq_dec p n) as [->|Hn].
  - rewrite sum_zero; [ring|]. intros i Hi. apply H; lia.
  - rewrite IH; [|lia|intros; apply H; lia]. rewrite (H n) by lia. ring.
Qed.
Lemma qsum_list_sum {A} (f : A -> Qc) (l : list A) (dflt : A) :
  qsum_list (map f l) = sum_n (length l) (fun i => f (nth i l dflt)).
Proof.
  induction l as [|a t IH]; [reflexivity|].
  cbn [map qsum_list fold_right length]. rewrite sum_S. cbn [nth]. rewrite <- IH. reflexivity.
Qed.
Lemma qsum_list_app l m : qsum_list (l ++ m) = (qsum_list l + qsum_list m)%Qc.
Proof. induction l as [|a t IH]; cbn [app qsum_list fold_right]; [unfold qsum_list; cbn; ring|]. fold (qsum_list (t ++ m)). rewrite IH. fold (qsum_list t). ring. Qed.

(** ** shapes and entries *)
Lemma shape_nth {A} n C (x : list (list A)) i : shape n C x -> (i < n)%nat -> length (nth i x []) = C.
Proof.
  intros [Hl Hf] Hi. rewrite Forall_forall in Hf. apply Hf. apply nth_In. lia.
Qed.
Lemma shape3_nth {A} n k C (x : list (list (list A))) i : shape3 n k C x -> (i < n)%nat -> shape k C (nth i x []).
Proof. intros [Hl Hf] Hi. rewrite Forall_forall in Hf. apply Hf. apply nth_In. lia. Qed.
Lemma list_ext {A} (dflt : A) n (l m : list A) : length l = n -> length m = n ->
  (forall i, (i < n)%nat -> nth i l dflt = nth i m dflt) -> l = m.
Proof. intros Hl Hm H. apply (nth_ext _ _ dflt dflt); [lia|]. intros i Hi. apply H. lia. Qed.
Lemma shape_ext n C x y : shape n C x -> shape n C y ->
  (forall i c, (i < n)%nat -> (c < C)%nat -> at2 x i c = at2 y i c) -> x = y.
Proof.
  intros Hx Hy H. apply (list_ext [] n); [apply Hx|apply Hy|]. intros i Hi.
  apply (list_ext 0%Qc C); [apply (shape_nth n C); assumption|apply (shape_nth n C); assumption|].
  intros c Hc. apply H; assumption.
Qed.
Lemma shape3_ext n k C x y : shape3 n k C x -> shape3 n k C y ->
  (forall i j c, (i < n)%nat -> (j < k)%nat -> (c < C)%nat -> at3 x i j c = at3 y i j c) -> x = y.
Proof.
  intros Hx Hy H. apply (list_ext [] n); [apply Hx|apply Hy|]. intros i Hi.
  apply (shape_ext k C); [apply (shape3_nth n k C); assumption|apply (shape3_nth n k C); assumption|].
  intros j c Hj Hc. apply H; assumption.
Qed.
Lemma nth_map_seq {A} (f : nat -> A) n i dflt : (i < n)%nat -> nth i (map f (seq 0 n)) dflt = f i.
Proof.
  intros Hi. rewrite (nth_indep _ _ (f O)) by (rewrite map_length, seq_length; lia).
  rewrite map_nth, seq_nth by lia. reflexivity.
Qed.
Lemma tabulate_shape n C f : shape n C (tabulate n C f).
Proof.
  split; [unfold tabulate; rewrite map_length, seq_length; reflexivity|].
  apply Forall_forall. intros r Hr. apply in_map_iff in Hr. destruct Hr as (i & <- & _). rewrite map_length, seq_length. reflexivity.
Qed.
Lemma at2_tabulate n C f i c : (i < n)%nat -> (c < C)%nat -> at2 (tabulate n C f) i c = f i c.
Proof. intros Hi Hc. unfold at2, tabulate. rewrite nth_map_seq by exact Hi. apply nth_map_seq. exact Hc. Qed.
Lemma add2_shape n C x y : shape n C (add2 n C x y).
Proof. apply tabulate_shape. Qed.
Lemma sub2_shape n C x y : shape n C (sub2 n C x y).
Proof. apply tabulate_shape. Qed.
Lemma at3_add3 n k C x y i j c : (i < n)%nat -> (j < k)%nat -> (c < C)%nat ->
  at3 (add3 n k C x y) i j c = (at3 x i j c + at3 y i j c)%Qc.
Proof. intros Hi Hj Hc. unfold at3 at 1, add3. rewrite nth_map_seq by exact Hi. rewrite at2_tabulate by assumption. reflexivity. Qed.
Lemma add3_shape n k C x y : shape3 n k C (add3 n k C x y).
Proof.
  split; [unfold add3; rewrite map_length, seq_length; reflexivity|].
  apply Forall_forall. intros r Hr. apply in_map_iff in Hr. destruct Hr as (i & <- & _). apply tabulate_shape.
Qed.
Lemma shape_map {A} n C (f : list A -> vec) (l : list (list A)) : length l = n -> (forall r, In r l -> length (f r) = C) -> shape n C (map f l).
Proof.
  intros Hl H. split; [rewrite map_length; exact Hl|]. apply Forall_forall. intros r Hr. apply in_map_iff in Hr.
  destruct Hr as (a & <- & Ha). apply H. exact Ha.
Qed.
Lemma shape_app {A} n m C (x y : list (list A)) : shape n C x -> shape m C y -> shape (n + m) C (x ++ y).
Proof. intros [H1 H2] [H3 H4]. split; [rewrite app_length; lia|apply Forall_app; auto]. Qed.
Lemma shape_repeat {A} n C (v : A) : shape n C (repeat (repeat v C) n).
Proof.
  split; [apply repeat_length|]. apply Forall_forall. intros r Hr. apply repeat_spec in Hr. subst. apply repeat_length.
Qed.
Lemma nth_repeat_lt {A} (a dflt : A) n i : (i < n)%nat -> nth i (repeat a n) dflt = a.
Proof. revert i; induction n as [|n IH]; intros i Hi; [lia|]. destruct i; cbn; [reflexivity|apply IH; lia]. Qed.
Lemma nth_repeat_same {A} (a : A) n i : nth i (repeat a n) a = a.
Proof. revert i; induction n as [|n IH]; intros [|i]; cbn; auto. Qed.
Lemma at2_zero n C i c : at2 (repeat (vzero C) n) i c = 0%Qc.
Proof.
  unfold at2. destruct (Nat.lt_ge_cases i n) as [Hi|Hi].
  - rewrite nth_repeat_lt by exact Hi. apply nth_repeat_same.
  - assert (E : length (repeat (vzero C) n) = n) by apply repeat_length.
    rewrite (@nth_overflow _ (repeat (vzero C) n)) by (rewrite E; exact Hi). destruct c; reflexivity.
Qed.

(** Entries of a flattened block. *)
Lemma length_concat_shape {A} n C (x : list (list A)) : shape n C x -> length (concat x) = (n * C)%nat.
Proof.
  revert n; induction x as [|r t IH]; intros n [Hl Hf].
  - cbn in Hl. subst. reflexivity.
  - cbn in Hl. subst n. inversion Hf as [|? ? Hr Ht]; subst. cbn [concat]. rewrite app_length, (IH (length t)) by (split; auto).
    lia.
Qed.
Lemma nth_concat {A} (dflt : A) n C (x : list (list A)) k c : shape n C x -> (k < n)%nat -> (c < C)%nat ->
  nth (k * C + c) (concat x) dflt = nth c (nth k x []) dflt.
Proof.
  revert n k; induction x as [|r t IH]; intros n k [Hl Hf] Hk Hc.
  - cbn in Hl. lia.
  - inversion Hf as [|? ? Hr Ht]; subst. cbn [length] in Hk. cbn [concat]. destruct k as [|k].
    + cbn [Nat.mul Nat.add nth]. rewrite app_nth1 by lia. reflexivity.
    + rewrite app_nth2 by lia. cbn [nth]. rewrite <- (IH (length t) k); [|split; auto|lia|exact Hc].
      f_equal. lia.
Qed.
Lemma shape_concat {A} n k C (x : list (list (list A))) : shape3 n k C x -> shape (n * k) C (concat x).
Proof.
  revert n; induction x as [|r t IH]; intros n [Hl Hf].
  - cbn in Hl. subst. split; [reflexivity|constructor].
  - cbn in Hl. subst n. inversion Hf as [|? ? Hr Ht]; subst. cbn [concat Nat.mul]. apply shape_app; [exact Hr|].
    apply IH. split; auto.
Qed.
Lemma nth_concat_rows {A} n k C (x : list (list (list A))) i j : shape3 n k C x -> (i < n)%nat -> (j < k)%nat ->
  nth (i * k + j) (concat x) [] = nth j (nth i x []) [].
Proof.
  intros H Hi Hj. apply (nth_concat [] n k); [|exact Hi|exact Hj]. destruct H as [Hl Hf]. split; [exact Hl|].
  apply Forall_impl with (P := shape k C); [intros a [Ha _]; exact Ha|exact Hf].
Qed.
Lemma at2_concat n k C (x : list (list vec)) i j c : shape3 n k C x -> (i < n)%nat -> (j < k)%nat ->
  at2 (concat x) (i * k + j) c = at3 x i j c.
Proof. intros H Hi Hj. unfold at3, at2. exact (f_equal (fun r => nth c r 0%Qc) (nth_concat_rows n k C x i j H Hi Hj)). Qed.

Lemma vecmat_length n r B : length (vecmat n r B) = n.
Proof. unfold vecmat. rewrite map_length, seq_length. reflexivity. Qed.
Lemma nth_combine {A B} (l : list A) (m : list B) i da db : length l = length m ->
  nth i (combine l m) (da, db) = (nth i l da, nth i m db).
Proof. apply combine_nth. Qed.
Lemma vecmat_nth n r B j : length r = length B -> (j < n)%nat ->
  nth j (vecmat n r B) 0%Qc = sum_n (length B) (fun i => (nth i r 0 * at2 B i j)%Qc).
Proof.
  intros Hl Hj. unfold vecmat. rewrite nth_map_seq by exact Hj.
  rewrite (qsum_list_sum _ _ (0%Qc, [])). rewrite combine_length, Hl, Nat.min_id. apply sum_ext. intros i Hi.
  rewrite nth_combine by exact Hl. reflexivity.
Qed.
Lemma mm_Ok n A B : (forall r, In r A -> length r = length B) -> mm n A B = Ok (map (fun r => vecmat n r B) A).
Proof.
  intros H. unfold mm. replace (forallb _ A) with true; [reflexivity|]. symmetry. apply forallb_forall.
  intros r Hr. apply Nat.eqb_eq. apply H. exact Hr.
Qed.
Lemma transpose_length n B : length (transpose n B) = n.
Proof. unfold transpose. rewrite map_length, seq_length. reflexivity. Qed.
Lemma at2_transpose n B i j : (i < n)%nat -> (j < length B)%nat -> at2 (transpose n B) i j = at2 B j i.
Proof.
  intros Hi Hj. unfold at2, transpose. rewrite nth_map_seq by exact Hi.
  rewrite (nth_indep _ _ (nth i [] 0%Qc)) by (rewrite map_length; exact Hj).
  rewrite (map_nth (fun r => nth i r 0%Qc)). reflexivity.
Qed.
Lemma transpose_shape n B : shape n (length B) (transpose n B).
Proof.
  split; [apply transpose_length|]. apply Forall_forall. intros r Hr. apply in_map_iff in Hr. destruct Hr as (i & <- & _).
  apply map_length.
Qed.
(** view(-1, k, C) of a row of k*C entries *)
Lemma chunk_rows_shape {A} k C (l : list A) : length l = (k * C)%nat -> shape k C (chunk_rows k C l).
Proof.
  revert l; induction k as [|k IH]; intros l Hl; [split; [reflexivity|constructor]|].
  cbn [chunk_rows]. assert (Hs : length (firstn C l) = C) by (rewrite firstn_length; cbn in Hl; lia).
  destruct (IH (skipn C l)) as [H1 H2]; [rewrite skipn_length; cbn in Hl; lia|].
  split; [cbn; rewrite H1; reflexivity|constructor; assumption].
Qed.
Lemma concat_chunk_rows {A} k C (l : list A) : length l = (k * C)%nat -> concat (chunk_rows k C l) = l.
Proof.
  revert l; induction k as [|k IH]; intros l Hl.
  - destruct l; [reflexivity|cbn in Hl; lia].
  - cbn [chunk_rows concat]. rewrite IH by (rewrite skipn_length; cbn in Hl; lia). apply firstn_skipn.
Qed.
Lemma nth_chunk_rows {A} (dflt : A) k C (l : list A) j c : length l = (k * C)%nat -> (j < k)%nat -> (c < C)%nat ->
  nth c (nth j (chunk_rows k C l) []) dflt = nth (j * C + c) l dflt.
Proof.
  intros Hl Hj Hc. rewrite <- (nth_concat dflt k C) by (try apply chunk_rows_shape; assumption).
  rewrite concat_chunk_rows by exact Hl. reflexivity.
Qed.
Lemma vadd_nth a b c : length a = length b -> nth c (vadd a b) 0%Qc = (nth c a 0 + nth c b 0)%Qc.
Proof.
  revert b c; induction a as [|x a IH]; intros [|y b] c H; try discriminate.
  - destruct c; cbn; ring.
  - destruct c; cbn [vadd nth]; [reflexivity|]. apply IH. cbn in H; lia.
Qed.
Lemma vadd_len a b : length a = length b -> length (vadd a b) = length a.
Proof. revert b; induction a as [|x a IH]; intros [|y b] H; try discriminate; [reflexivity|]. cbn [vadd length]. rewrite IH by (cbn in H; lia). reflexivity. Qed.

Lemma inner_ext n C x y x' y' : (forall i c, (i < n)%nat -> (c < C)%nat -> at2 x i c = at2 x' i c) ->
  (forall i c, (i < n)%nat -> (c < C)%nat -> at2 y i c = at2 y' i c) -> inner n C x y = inner n C x' y'.
Proof. intros H1 H2. unfold inner. apply sum_ext. intros i Hi. apply sum_ext. intros c Hc. rewrite H1, H2 by assumption. reflexivity. Qed.
