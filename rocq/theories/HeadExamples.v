(** Concrete parameters for the theorems of P_Head.v. *)
From Coq Require Import String List ZArith Bool QArith Qcanon Lia.
From Verif Require Import Res Tensor Num Octree NnBasic NnConv Net NetExamples SpecState SpecHead.
Import ListNotations.
Open Scope Z_scope.

Fixpoint same_path (p q : path) : bool :=
  match p, q with
  | [], [] => true
  | (a, i) :: p, (b, j) :: q => String.eqb a b && Z.eqb i j && same_path p q
  | _, _ => false
  end.
Lemma same_path_refl p : same_path p p = true.
Proof. induction p as [|[a i] p IH]; [reflexivity|]. cbn [same_path]. rewrite String.eqb_refl, Z.eqb_refl, IH. reflexivity. Qed.
(** as [ex_params], but the layer [q] has doubled weights, and twice the bias plus 1, 2, 3, ... *)
Definition ex_shift (j : nat) : Qc := qz (Z.of_nat j + 1).
Definition ex_head (q : path) : params :=
  mkParams (fun p i j k => if same_path p q then (qz 2 * p_weight ex_params p i j k)%Qc else p_weight ex_params p i j k)
    (fun p j => if same_path p q then (qz 2 * p_bias ex_params p j + ex_shift j)%Qc else p_bias ex_params p j)
    (p_norm ex_params) (p_mask ex_params) (p_tanh ex_params).
Lemma ex_head_changed q ci co : layer_changed ex_params (ex_head q) q ci co (qz 2) ex_shift.
Proof. split; intros; unfold ex_head; cbn [p_weight p_bias]; rewrite same_path_refl; reflexivity. Qed.
Lemma ex_head_same q l : forallb (fun e => negb (same_path (fst e) q)) l = true -> same_checkpoint ex_params (ex_head q) l.
Proof.
  intros H. apply Forall_forall. intros [p t] Hi. rewrite forallb_forall in H. specialize (H _ Hi). cbn [fst] in H. apply negb_true_iff in H.
  destruct t; unfold same_tensor; cbn [fst snd]; intros; unfold ex_head; cbn [p_weight p_bias p_norm]; rewrite ?H; reflexivity.
Qed.
