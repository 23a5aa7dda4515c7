(** Specification vocabulary: the samples of a batch in another order. *)
From Coq Require Import String List ZArith Bool QArith Qcanon.
From Verif Require Import Res Num NnBasic Net.

(** The same weights, biases and normalisation; dropout drops from the sample that comes to
    place [sigma i] what it drops from sample [i] of a batch of [n] samples. *)
Definition same_but_order (sigma : nat -> nat) (n : nat) (P P' : params) : Prop :=
  (forall p k c o, p_weight P' p k c o = p_weight P p k c o) /\ (forall p c, p_bias P' p c = p_bias P p c) /\
  (forall p C x, p_norm P' p C x = p_norm P p C x) /\
  (forall p i c, (i < n)%nat -> p_mask P' p (sigma i) c = p_mask P p i c).
