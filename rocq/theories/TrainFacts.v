(** Batch normalisation in training mode does not depend on the order of the rows. *)
From Coq Require Import List ZArith QArith Qcanon Lia Permutation.
From Verif Require Import Res Num NnBasic Net SpecMove SpecTrain.
Import ListNotations.

Lemma total_perm l l' : Permutation l l' -> total l = total l'.
Proof. induction 1; cbn [total fold_right] in *; try congruence; unfold total in *; cbn [fold_right]; try congruence; ring. Qed.
Lemma mean_perm l l' : Permutation l l' -> mean l = mean l'.
Proof. intros H. unfold mean. rewrite (total_perm _ _ H), (Permutation_length H). reflexivity. Qed.
Lemma variance_perm l l' : Permutation l l' -> variance l = variance l'.
Proof. intros H. unfold variance. rewrite (mean_perm _ _ H). apply mean_perm, Permutation_map, H. Qed.
Theorem thm_training P : training P -> fair_norms 2 P.
Proof.
  intros (rs & g & b & H) p C. exists (fun x r => map (fun c => ((nth c r 0 - mean (column x c)) * rs (variance (column x c)) * g p c + b p c)%Qc) (seq 0 C)). split.
  - intros x x' Hx r. apply map_ext. intros c. assert (Hc : Permutation (column x c) (column x' c)) by (apply Permutation_map, Hx).
    rewrite (mean_perm _ _ Hc), (variance_perm _ _ Hc). reflexivity.
  - intros x Hl _. rewrite H. unfold batch_norm. replace (Nat.eqb (length x) 1) with false by (symmetry; apply Nat.eqb_neq; lia). split; [reflexivity|].
    apply Forall_map, Forall_forall. intros r _. rewrite map_length, seq_length. reflexivity.
Qed.
