(** Facts about exact rationals. *)
From Coq Require Import List ZArith QArith Qcanon Qround Lia Lqa Field.
From Verif Require Import Num.
From Coq Require Import Morphisms.
Import ListNotations.
Open Scope Z_scope.

(** Reduce a goal about Qc to one about Q. *)
Lemma q2qc_red q : (Q2Qc q == q)%Q.
Proof. cbn. apply Qred_correct. Qed.

Global Instance q2qc_proper : Morphisms.Proper (Qeq ==> eq) Q2Qc.
Proof. intros a b H. apply Qc_is_canon. rewrite !q2qc_red. exact H. Qed.
Global Instance this_proper : Morphisms.Proper (eq ==> Qeq) this.
Proof. intros a b ->. reflexivity. Qed.

Ltac qc2q :=
  unfold Qcle, Qclt, Qcdiv, Qcminus, qz in *;
  unfold Qcplus, Qcmult, Qcopp, Qcinv in *;
  rewrite ?q2qc_red in *.
Ltac qclra := qc2q; unfold inject_Z in *; lra.

Lemma qz_add a b : qz (a + b) = (qz a + qz b)%Qc.
Proof. apply Qc_is_canon. qc2q. rewrite inject_Z_plus; reflexivity. Qed.
Lemma qz_mul a b : qz (a * b) = (qz a * qz b)%Qc.
Proof. apply Qc_is_canon. qc2q. rewrite inject_Z_mult; reflexivity. Qed.
Lemma qz_opp a : qz (- a) = (- qz a)%Qc.
Proof. apply Qc_is_canon. qc2q. rewrite inject_Z_opp; reflexivity. Qed.
Lemma qz_sub a b : qz (a - b) = (qz a - qz b)%Qc.
Proof. unfold Z.sub. rewrite qz_add, qz_opp. reflexivity. Qed.
Lemma qz_0 : qz 0 = 0%Qc. Proof. reflexivity. Qed.
Lemma qz_1 : qz 1 = 1%Qc. Proof. reflexivity. Qed.
Lemma qz_2 : qz 2 = (1 + 1)%Qc. Proof. reflexivity. Qed.
Lemma qz_inj a b : qz a = qz b -> a = b.
Proof.
  intros H. assert (E : (qz a == qz b)%Q) by (rewrite H; reflexivity).
  unfold qz in E. rewrite !q2qc_red in E. apply inject_Z_injective; exact E.
Qed.
Lemma qz_le a b : (qz a <= qz b)%Qc <-> a <= b.
Proof. unfold Qcle, qz. rewrite !q2qc_red. rewrite Zle_Qle. reflexivity. Qed.
Lemma qz_lt a b : (qz a < qz b)%Qc <-> a < b.
Proof. unfold Qclt, qz. rewrite !q2qc_red. rewrite Zlt_Qlt. reflexivity. Qed.
Lemma qz_neq0 a : a <> 0 -> qz a <> 0%Qc.
Proof. intros H E. apply H. apply qz_inj. exact E. Qed.

Lemma qtrunc_floor q : (0 <= q)%Qc -> qtrunc q = Qfloor q.
Proof.
  intros H. unfold qtrunc. destruct q as [[n d] Hc]. unfold Qfloor. cbn [this Qnum Qden].
  unfold Qcle in H. cbn [this] in H. unfold Qle in H. cbn in H.
  apply Z.quot_div_nonneg; lia.
Qed.

(** Truncation of a non-negative number is the unit interval it lies in. *)
Lemma qtrunc_spec q z : (0 <= q)%Qc -> (qtrunc q = z <-> (qz z <= q)%Qc /\ (q < qz (z + 1))%Qc).
Proof.
  intros H. rewrite qtrunc_floor by exact H. split.
  - intros <-. split.
    + unfold Qcle, qz. rewrite q2qc_red. apply Qfloor_le.
    + unfold Qclt, qz. rewrite q2qc_red. apply Qlt_floor.
  - intros [H1 H2]. unfold Qcle, Qclt, qz in *. rewrite q2qc_red in H1, H2.
    pose proof (Qfloor_le q) as H3. pose proof (Qlt_floor q) as H4.
    assert (z < Qfloor q + 1) by (rewrite Zlt_Qlt; lra).
    assert (Qfloor q < z + 1) by (rewrite Zlt_Qlt; lra). lia.
Qed.

Lemma qfloor_spec q z : qfloor q = z <-> (qz z <= q)%Qc /\ (q < qz (z + 1))%Qc.
Proof.
  unfold qfloor. split.
  - intros <-. split.
    + unfold Qcle, qz. rewrite q2qc_red. apply Qfloor_le.
    + unfold Qclt, qz. rewrite q2qc_red. apply Qlt_floor.
  - intros [H1 H2]. unfold Qcle, Qclt, qz in *. rewrite q2qc_red in H1, H2.
    pose proof (Qfloor_le q) as H3. pose proof (Qlt_floor q) as H4.
    assert (z < Qfloor q + 1) by (rewrite Zlt_Qlt; lra).
    assert (Qfloor q < z + 1) by (rewrite Zlt_Qlt; lra). lia.
Qed.

Lemma qtrunc_qz z : qtrunc (qz z) = z.
Proof.
  unfold qtrunc, qz, Q2Qc. cbn [this].
  assert (E : Qred (inject_Z z) = inject_Z z).
  { unfold inject_Z. cbn. unfold Qred. pose proof (Z.ggcd_gcd z 1) as G.
    pose proof (Z.ggcd_correct_divisors z 1) as D. destruct (Z.ggcd z 1) as [g [a b]]. cbn in *.
    rewrite Z.gcd_1_r in G. subst g. destruct D as [-> D]. rewrite Z.mul_1_l in *. subst b. reflexivity. }
  rewrite E. cbn. apply Z.quot_1_r.
Qed.

(** ** 2 ** e *)

Lemma q2pow_pos e : (0 < q2pow e)%Qc.
Proof.
  unfold q2pow. destruct (Z.leb_spec 0 e) as [H|H].
  - change (qz 0 < qz (2 ^ e))%Qc. apply qz_lt. apply Z.pow_pos_nonneg; lia.
  - unfold Qclt, Qcinv. rewrite !q2qc_red. apply Qinv_lt_0_compat.
    change (qz 0 < qz (2 ^ - e))%Qc. apply qz_lt. apply Z.pow_pos_nonneg; lia.
Qed.

Lemma q2pow_nonneg e : 0 <= e -> q2pow e = qz (2 ^ e).
Proof. intros H. unfold q2pow. replace (0 <=? e) with true by (symmetry; apply Z.leb_le; exact H). reflexivity. Qed.

Lemma q2pow_S e : q2pow (e + 1) = (qz 2 * q2pow e)%Qc.
Proof.
  unfold q2pow. destruct (Z.leb_spec 0 e) as [H|H].
  - replace (0 <=? e + 1) with true by (symmetry; apply Z.leb_le; lia).
    rewrite Z.pow_add_r, Z.mul_comm, qz_mul by lia. reflexivity.
  - destruct (Z.leb_spec 0 (e + 1)) as [H'|H'].
    + replace e with (-1) by lia. apply Qc_is_canon. reflexivity.
    + replace (- e) with (- (e + 1) + 1) by lia.
      rewrite Z.pow_add_r, qz_mul by lia. change (2 ^ 1) with 2.
      assert (qz (2 ^ (- (e + 1))) <> 0%Qc).
      { apply qz_neq0. apply Z.pow_nonzero; lia. }
      assert (qz 2 <> 0%Qc) by (apply qz_neq0; lia). field. split; assumption.
Qed.

Lemma q2pow_pred d : (q2pow (Z.of_nat d - 1) * qz 2)%Qc = qz (2 ^ Z.of_nat d).
Proof.
  rewrite Qcmult_comm, <- q2pow_S. rewrite q2pow_nonneg by lia. do 2 f_equal. lia.
Qed.

(** ** Order helpers on Qc *)
Lemma Qcmult_lt_r a b c : (0 < c)%Qc -> ((a * c < b * c)%Qc <-> (a < b)%Qc).
Proof. intros H. unfold Qclt, Qcmult in *. rewrite !q2qc_red. apply Qmult_lt_r. exact H. Qed.
Lemma Qcmult_le_r a b c : (0 < c)%Qc -> ((a * c <= b * c)%Qc <-> (a <= b)%Qc).
Proof. intros H. unfold Qclt, Qcle, Qcmult in *. rewrite !q2qc_red. apply Qmult_le_r. exact H. Qed.
Lemma Qcmult_nonneg a b : (0 <= a)%Qc -> (0 <= b)%Qc -> (0 <= a * b)%Qc.
Proof. intros Ha Hb. unfold Qcle, Qcmult in *. rewrite !q2qc_red in *. apply Qmult_le_0_compat; assumption. Qed.
Lemma qlt_le a b : (a < b)%Qc -> (a <= b)%Qc.
Proof. apply Qclt_le_weak. Qed.
