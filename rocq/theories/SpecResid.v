(** Specification of residual blocks, rectified outputs and bounded outputs. *)
From Coq Require Import String List ZArith Bool QArith Qcanon.
From Verif Require Import Res Net SpecState.
Import ListNotations.
Open Scope string_scope.
Open Scope list_scope.

(** every entry of a tensor satisfies [Q] *)
Definition every_entry (Q : Qc -> Prop) (x : list (list Qc)) : Prop := Forall (Forall Q) x.
(** the positive part of a number *)
Definition pos (v : Qc) : Qc := if Qclt_le_dec v 0 then 0%Qc else v.
(** the batch normalisation at the end of the branch of block [j] of a sequence of
    residual blocks at [p]; [basic] selects OctreeResBlock2 *)
Definition branch_end (basic : bool) (p : path) (j : nat) : path :=
  sub (sub p "resblks" j) (if basic then "conv3x3b" else "conv1x1b") 0.
(** scale and shift of this normalisation are zero: it maps every tensor to zeros *)
Definition zero_scale (P : params) (p : path) (C : nat) : Prop :=
  forall x, p_norm P p C x = Ok (map (map (fun _ => 0%Qc)) x).
