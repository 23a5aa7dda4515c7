(** Specification vocabulary: batch normalisation in training mode.
    torch.nn.BatchNorm1d(C) (used in ocnn/modules/modules.py:43, 65, 89, 126, 143, 163): every
    channel is shifted by its mean over the rows of the tensor and divided by
    sqrt(variance + eps); torch rejects a tensor with one row.  [rs v] stands for
    1 / sqrt(v + eps) and may be any function; the weights [g] and [b] are per channel.
    The update of the running statistics is not modelled. *)
From Coq Require Import List ZArith QArith Qcanon.
From Verif Require Import Res Num NnBasic Net.
Import ListNotations.

Definition column (x : feat) (c : nat) : list Qc := map (fun r => nth c r 0%Qc) x.
Definition total (l : list Qc) : Qc := fold_right Qcplus 0%Qc l.
Definition mean (l : list Qc) : Qc := (total l / qz (Z.of_nat (length l)))%Qc.
Definition variance (l : list Qc) : Qc := mean (map (fun v => ((v - mean l) * (v - mean l))%Qc) l).
Definition batch_norm (rs : Qc -> Qc) (g b : nat -> Qc) (C : nat) (x : feat) : res feat :=
  if Nat.eqb (length x) 1 then Err ValueError
  else Ok (map (fun r => map (fun c => ((nth c r 0 - mean (column x c)) * rs (variance (column x c)) * g c + b c)%Qc) (seq 0 C)) x).
(** All normalisations of a network are in training mode. *)
Definition training (P : params) : Prop :=
  exists (rs : Qc -> Qc) (g b : path -> nat -> Qc), forall p C x, p_norm P p C x = batch_norm rs (g p) (b p) C x.
