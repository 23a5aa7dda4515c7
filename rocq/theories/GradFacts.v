(** A gradient is determined by the program it differentiates: the gradients of a
    program that works member by member are those of its members, joined and summed. *)
From Coq Require Import String List ZArith Bool QArith Qcanon Lia.
From Verif Require Import Res Tensor Num NumFacts Points Octree NnBasic NnConv SpecNN ListFacts NnFacts SumFacts ConvFacts CatFacts NetBatch ShuffleFacts.
Import ListNotations.
Local Open Scope nat_scope.

Lemma tabulate_app n m C f : tabulate (n + m) C f = tabulate n C f ++ tabulate m C (fun i => f (n + i)).
Proof.
  unfold tabulate. rewrite seq_app, map_app. f_equal. cbn [Nat.add]. clear. revert n. induction m as [|m IH]; intros n; [reflexivity|].
  cbn [seq map]. rewrite Nat.add_0_r. f_equal. rewrite IH, <- seq_shift, map_map. apply map_ext. intros i. apply map_ext. intros c. f_equal. lia.
Qed.
Lemma at2_app_l x y i c : i < length x -> at2 (x ++ y) i c = at2 x i c.
Proof. intros H. unfold at2. rewrite app_nth1 by exact H. reflexivity. Qed.
Lemma at2_app_r x y i c : at2 (x ++ y) (length x + i) c = at2 y i c.
Proof. unfold at2. rewrite app_nth2 by lia. replace (length x + i - length x) with i by lia. reflexivity. Qed.
Lemma tabulate_ext n C f g : (forall i c, i < n -> c < C -> f i c = g i c) -> tabulate n C f = tabulate n C g.
Proof.
  intros H. unfold tabulate. apply map_ext_in. intros i Hi. apply in_seq in Hi. apply map_ext_in. intros c Hc. apply in_seq in Hc. apply H; lia.
Qed.
(** an operation on two tensors, entry by entry, on joined tensors *)
Lemma op2_cat (op : Qc -> Qc -> Qc) C (N : nat -> nat) (X Y : nat -> feat) l : (forall i, In i l -> length (X i) = N i /\ length (Y i) = N i) ->
  tabulate (length (concat (map X l))) C (fun i c => op (at2 (concat (map X l)) i c) (at2 (concat (map Y l)) i c)) =
  concat (map (fun j => tabulate (N j) C (fun i c => op (at2 (X j) i c) (at2 (Y j) i c))) l).
Proof.
  induction l as [|a l IH]; intros H; [reflexivity|]. cbn [map concat]. destruct (H a (or_introl eq_refl)) as [E1 E2].
  rewrite app_length, tabulate_app, <- IH by (intros i Hi; apply H; right; exact Hi). rewrite E1. f_equal.
  - apply tabulate_ext. intros i c Hi Hc. rewrite !at2_app_l by lia. reflexivity.
  - apply tabulate_ext. intros i c Hi Hc. rewrite <- E1 at 1. rewrite <- E2 at 1. rewrite !at2_app_r. reflexivity.
Qed.

Definition unit3 (K a b k c j : nat) : list feat := map (fun i => if Nat.eqb i k then unit2 a b c j else tabulate a b (fun _ _ => 0%Qc)) (seq 0 K).
Lemma unit3_shape K a b k c j : shape3 K a b (unit3 K a b k c j).
Proof.
  split; [unfold unit3; rewrite map_length, seq_length; reflexivity|]. apply Forall_map, Forall_forall. intros i _. destruct (Nat.eqb i k); apply tabulate_shape.
Qed.
Lemma inner3_inner K a b x y : inner3 K a b x y = sum_n K (fun i => inner a b (nth i x []) (nth i y [])).
Proof. reflexivity. Qed.
Lemma inner_comm2 n C x y : inner n C x y = inner n C y x.
Proof. unfold inner. apply sum_ext. intros i _. apply sum_ext. intros c _. ring. Qed.
Lemma inner3_unit K a b k c j x : k < K -> c < a -> j < b -> inner3 K a b x (unit3 K a b k c j) = at3 x k c j.
Proof.
  intros Hk Hc Hj. assert (N : forall i, i < K -> nth i (unit3 K a b k c j) [] = if Nat.eqb i k then unit2 a b c j else tabulate a b (fun _ _ => 0%Qc)).
  { intros i Hi. unfold unit3. rewrite (nth_indep _ _ (if Nat.eqb 0 k then unit2 a b c j else tabulate a b (fun _ _ => 0%Qc))) by (rewrite map_length, seq_length; exact Hi).
    rewrite (map_nth (fun i => if Nat.eqb i k then unit2 a b c j else tabulate a b (fun _ _ => 0%Qc))), seq_nth by exact Hi. reflexivity. }
  rewrite inner3_inner, (sum_single K k); [|exact Hk|].
  - rewrite N, Nat.eqb_refl by exact Hk. rewrite inner_comm2. apply inner_unit; assumption.
  - intros i Hi Hn. rewrite N by exact Hi. rewrite (proj2 (Nat.eqb_neq i k) Hn). unfold inner. apply sum_zero. intros u Hu. apply sum_zero. intros v Hv. rewrite at2_tabulate by assumption. ring.
Qed.
Lemma inner_det n C x y : shape n C x -> shape n C y -> (forall z, shape n C z -> inner n C x z = inner n C y z) -> x = y.
Proof.
  intros Sx Sy H. apply (shape_ext n C); [exact Sx|exact Sy|]. intros i c Hi Hc. specialize (H (unit2 n C i c) (tabulate_shape _ _ _)).
  rewrite !(inner_comm2 n C _ (unit2 n C i c)), !inner_unit in H by assumption. exact H.
Qed.

(** [gd], [gw] are the gradients of the program [F x W] with respect to [x] and [W] for
    the output gradient [g] *)
Definition is_grad (n R C1 C2 K a b : nat) (F : feat -> list feat -> res feat) (x : feat) (W : list feat) (g gd : feat) (gw : list feat) : Prop :=
  shape n C1 x /\ shape R C2 g /\ shape n C1 gd /\ shape3 K a b gw /\ exists y, F x W = Ok y /\ shape R C2 y /\
    (forall dx, shape n C1 dx -> exists y', F (add2 n C1 x dx) W = Ok y' /\ inner R C2 g (sub2 R C2 y' y) = inner n C1 gd dx) /\
    (forall dW, shape3 K a b dW -> exists y', F x (add3 K a b W dW) = Ok y' /\ inner R C2 g (sub2 R C2 y' y) = inner3 K a b gw dW).

Section Members.
  Variables (N C1 C2 K a b : nat) (nn rr : nat -> nat) (FW : nat -> feat -> list feat -> res feat) (F : feat -> list feat -> res feat).
  Notation cat := (cat N).
  Notation l := (seq 0 N).
  (** [F] works member by member *)
  Definition by_member : Prop := forall Z W, shape3 K a b W -> (forall i, i < N -> shape (nn i) C1 (Z i)) ->
    exists Y, (forall i, i < N -> FW i (Z i) W = Ok (Y i) /\ shape (rr i) C2 (Y i)) /\ F (cat Z) W = Ok (cat Y).
  Hypothesis HF : by_member.
  Lemma in_l i : In i l -> i < N. Proof. intros H. apply in_seq in H. lia. Qed.
  Lemma cat_rows (M : nat -> nat) C (X : nat -> feat) n : shape n C (cat X) -> (forall i, i < N -> length (X i) = M i) -> forall i, i < N -> shape (M i) C (X i).
  Proof.
    intros [_ S] H i Hi. split; [apply H; exact Hi|]. rewrite Forall_forall in S. apply Forall_forall. intros r Hr. apply S. unfold Verif.CatFacts.cat. apply in_concat.
    exists (X i). split; [|exact Hr]. apply in_map. apply in_seq. lia.
  Qed.
  Lemma inner_cat (M : nat -> nat) C (X Y : nat -> feat) n : n = length (cat X) -> (forall i, i < N -> length (X i) = M i /\ length (Y i) = M i) ->
    inner n C (cat X) (cat Y) = qsum l (fun i => inner (M i) C (X i) (Y i)).
  Proof.
    intros -> H. unfold Verif.CatFacts.cat. rewrite inner_catl by (intros i Hi; apply in_l in Hi; destruct (H i Hi); congruence).
    assert (E : forall k, (forall i, In i k -> length (X i) = M i) -> qsum k (fun i => inner (length (X i)) C (X i) (Y i)) = qsum k (fun i => inner (M i) C (X i) (Y i))).
    { induction k as [|u k IH]; intros Hk; [reflexivity|]. cbn [qsum fold_right]. rewrite (Hk u (or_introl eq_refl)). f_equal. apply IH. intros i Hi. apply Hk. right. exact Hi. }
    apply E. intros i Hi. apply H, in_l, Hi.
  Qed.
  Lemma qsum_ext k f g : (forall i, In i k -> f i = g i) -> qsum k f = qsum k g.
  Proof. induction k as [|u k IH]; intros H; [reflexivity|]. cbn [qsum fold_right]. rewrite (H u (or_introl eq_refl)). f_equal. apply IH. intros i Hi. apply H. right. exact Hi. Qed.
  Lemma cat_length_of (M : nat -> nat) {A} (X : nat -> list A) : (forall i, i < N -> length (X i) = M i) -> length (cat X) = length (cat (fun i => repeat tt (M i))).
  Proof. intros H. apply cat_len. intros i Hi. rewrite repeat_length. apply H. exact Hi. Qed.

  Lemma grad_members x W g (X G gd : nat -> feat) (gw : nat -> list feat) gd0 gw0 n R : shape3 K a b W ->
    x = cat X -> g = cat G -> (forall i, i < N -> is_grad (nn i) (rr i) C1 C2 K a b (FW i) (X i) W (G i) (gd i) (gw i)) ->
    is_grad n R C1 C2 K a b F x W g gd0 gw0 ->
    gd0 = cat gd /\ forall k c j, k < K -> c < a -> j < b -> at3 gw0 k c j = qsum l (fun i => at3 (gw i) k c j).
  Proof.
    intros HW -> -> HM (Sx & Sg & Sgd & Sgw & y & Ey & Sy & Dx & DW).
    destruct (HF X W HW) as (Y & HY & EY). { intros i Hi. apply (HM i Hi). }
    rewrite Ey in EY. assert (Eq : forall (u v : feat), Ok u = Ok v -> u = v) by (intros; congruence). apply Eq in EY. subst y.
    assert (LG : forall i, i < N -> length (G i) = rr i). { intros i Hi. destruct (HM i Hi) as (_ & [H _] & _). exact H. }
    assert (LX : forall i, i < N -> length (X i) = nn i). { intros i Hi. destruct (HM i Hi) as ([H _] & _). exact H. }
    assert (Lgd : forall i, i < N -> length (gd i) = nn i). { intros i Hi. destruct (HM i Hi) as (_ & _ & [H _] & _). exact H. }
    assert (Ln : n = length (cat X)) by (symmetry; apply Sx). assert (LR : R = length (cat Y)) by (symmetry; apply Sy).
    assert (LRg : R = length (cat G)) by (symmetry; apply Sg).
    (* the change of the output, member by member *)
    assert (DI : forall Y', (forall i, i < N -> length (Y' i) = rr i) ->
       inner R C2 (cat G) (sub2 R C2 (cat Y') (cat Y)) = qsum l (fun i => inner (rr i) C2 (G i) (sub2 (rr i) C2 (Y' i) (Y i)))).
    { intros Y' HL. assert (E : sub2 R C2 (cat Y') (cat Y) = cat (fun i => sub2 (rr i) C2 (Y' i) (Y i))).
      { unfold sub2. replace R with (length (cat Y')). 2: { rewrite LRg. apply cat_len. intros i Hi. rewrite HL, LG by exact Hi. reflexivity. }
        apply (op2_cat Qcminus C2 rr Y' Y l). intros i Hi. apply in_l in Hi. split; [apply HL; exact Hi|]. apply (HY i Hi). }
      rewrite E. apply (inner_cat rr C2 G (fun i => sub2 (rr i) C2 (Y' i) (Y i)) R LRg). intros i Hi. split; [apply LG; exact Hi|]. apply tabulate_shape. }
    split.
    - apply (inner_det n C1); [exact Sgd| |].
      { split; [rewrite Ln; apply cat_len; intros i Hi; rewrite Lgd, LX by exact Hi; reflexivity|]. apply cat_Forall. intros i Hi. destruct (HM i Hi) as (_ & _ & [_ H] & _). exact H. }
      intros dx Hdx. destruct (cat_cut N nn dx) as (D & ED & LD). { transitivity (length (cat X)); [rewrite <- Ln; apply Hdx|apply cat_length_of; exact LX]. }
      subst dx. destruct (Dx _ Hdx) as (y' & Ey' & <-).
      assert (EA : add2 n C1 (cat X) (cat D) = cat (fun i => add2 (nn i) C1 (X i) (D i))).
      { unfold add2. rewrite Ln. apply (op2_cat Qcplus C1 nn X D l). intros i Hi. apply in_l in Hi. split; [apply LX|apply LD]; exact Hi. }
      rewrite EA in Ey'. destruct (HF (fun i => add2 (nn i) C1 (X i) (D i)) W HW) as (Y' & HY' & EY'). { intros i Hi. apply tabulate_shape. }
      rewrite Ey' in EY'. apply Eq in EY'. subst y'. rewrite DI by (intros i Hi; apply (HY' i Hi)).
      rewrite (inner_cat nn C1 gd D n) by (try (intros i Hi; split; [apply Lgd|apply LD]; exact Hi); rewrite Ln; apply cat_len; intros i Hi; rewrite Lgd, LX by exact Hi; reflexivity).
      apply qsum_ext. intros i Hi. apply in_l in Hi. destruct (HM i Hi) as (_ & _ & _ & _ & yi & Eyi & _ & Dxi & _).
      destruct (Dxi (D i)) as (yi' & Eyi' & <-). { apply (cat_rows nn C1 D n Hdx LD i Hi). }
      rewrite (proj1 (HY i Hi)) in Eyi. apply Eq in Eyi. rewrite (proj1 (HY' i Hi)) in Eyi'. apply Eq in Eyi'. subst yi yi'. reflexivity.
    - intros k c j Hk Hc Hj. set (dW := unit3 K a b k c j). destruct (DW dW (unit3_shape _ _ _ _ _ _)) as (y' & Ey' & Ei).
      unfold dW in Ei. rewrite inner3_unit in Ei by assumption. rewrite <- Ei. clear Ei. fold dW.
      destruct (HF X (add3 K a b W dW)) as (Y' & HY' & EY'). { apply add3_shape. } { intros i Hi. apply (HM i Hi). }
      rewrite Ey' in EY'. apply Eq in EY'. subst y'. rewrite DI by (intros i Hi; apply (HY' i Hi)).
      apply qsum_ext. intros i Hi. apply in_l in Hi. destruct (HM i Hi) as (_ & _ & _ & _ & yi & Eyi & _ & _ & DWi).
      destruct (DWi dW (unit3_shape _ _ _ _ _ _)) as (yi' & Eyi' & Ei). unfold dW in Ei. rewrite inner3_unit in Ei by assumption. rewrite <- Ei.
      rewrite (proj1 (HY i Hi)) in Eyi. apply Eq in Eyi. rewrite (proj1 (HY' i Hi)) in Eyi'. apply Eq in Eyi'. subst yi yi'. reflexivity.
  Qed.
End Members.
