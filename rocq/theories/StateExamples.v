(** Concrete parameters for the theorems of P_State.v. *)
From Coq Require Import String List ZArith Bool QArith Qcanon Lia.
From Verif Require Import Res Tensor Num Octree NnBasic NnConv Net NetExamples SpecState SpecResid.
Import ListNotations.
Open Scope Z_scope.

(** as [ex_params], but different where no tensor of a checkpoint has an entry *)
Definition ex_params_outside : params :=
  mkParams (fun p i j k => if Nat.ltb i 27 then p_weight ex_params p i j k else 1%Qc) (p_bias ex_params) (p_norm ex_params) (p_mask ex_params) (p_tanh ex_params).
(** as [ex_params], but one bias of the header is another *)
Definition ex_params_bias : params :=
  mkParams (p_weight ex_params) (fun p i => match p with [_; (name, _)] => if String.eqb name "1" then qz 5 else p_bias ex_params p i | _ => p_bias ex_params p i end)
    (p_norm ex_params) (p_mask ex_params) (p_tanh ex_params).
Lemma ex_outside (l : list (path * slot)) : forallb (fun e => match snd e with Conv k _ _ => Nat.leb k 27 | _ => true end) l = true ->
  same_checkpoint ex_params ex_params_outside l.
Proof.
  intros H. apply Forall_forall. intros [p s] Hi. rewrite forallb_forall in H. specialize (H _ Hi). cbn [snd] in H.
  destruct s as [k ci co|co ci|n|n]; unfold same_tensor; cbn [fst snd]; intros; try reflexivity.
  apply Nat.leb_le in H. unfold ex_params_outside. cbn [p_weight]. replace (Nat.ltb i 27) with true; [reflexivity|]. symmetry. apply Nat.ltb_lt. lia.
Qed.
(** as [ex_params], but the normalisations at the end of the branches have scale zero *)
Definition ex_params_zero : params :=
  mkParams (p_weight ex_params) (p_bias ex_params)
    (fun p C x => match rev p with
                  | (name, _) :: _ => if String.eqb name "conv1x1b" || String.eqb name "conv3x3b" then Ok (map (map (fun _ => 0%Qc)) x) else Ok x
                  | [] => Ok x end) (p_mask ex_params) (p_tanh ex_params).
Lemma ex_zero_scale basic p j C : zero_scale ex_params_zero (branch_end basic p j) C.
Proof.
  intros x. unfold branch_end, sub, ex_params_zero. cbn [p_norm]. rewrite rev_app_distr. cbn [rev app]. destruct basic; reflexivity.
Qed.
(** rows of non-negative numbers *)
Definition ex_pos (n C : nat) : list (list Qc) := tensor2 n C (fun i j => qz (Z.of_nat (i + 3 * j) mod 7)).
