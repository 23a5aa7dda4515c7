(** How the data of the projects are laid out: vocabulary for the statements of P_Project.v. *)
From Coq Require Import String List ZArith Bool QArith Qcanon.
From Verif Require Import Res Num Octree NnBasic Project SpecDataset SpecProject.
Import ListNotations.
Open Scope Z_scope.

(** The kept points of a sample are as many as its rows, and [softmax] keeps their width. *)
Definition sample_fits (softmax : list Qc -> list Qc) (C : nat) (it : string * list bool * list (list Qc)) : Prop :=
  List.length (filter (fun b => b) (snd (fst it))) = List.length (snd it) /\ Forall (fun r => List.length (softmax r) = C) (snd it).
(** Samples of the same file have the same number of points. *)
Definition same_size (items : list (string * list bool * list (list Qc))) : Prop :=
  forall a b, In a items -> In b items -> fst (fst a) = fst (fst b) -> List.length (snd (fst a)) = List.length (snd (fst b)).

(** The batch [b] was collated from the samples [its], in order; no label is masked. *)
Definition loads (m : Z) (b : eval_batch) (its : list (string * list bool * list (list Qc))) : Prop :=
  e_logit b = concat (map snd its) /\ e_npts b = map (fun it => List.length (snd it)) its /\
  e_masks b = map (fun it => snd (fst it)) its /\ e_names b = map (fun it => fst (fst it)) its /\
  List.length (e_labels b) = List.length (e_logit b) /\ Forall (fun l => m < l) (e_labels b).

(** File [name] of the list holds the sample [it]: a whole scene, or chunk number less
    than ten of the scene. *)
Definition file_of (load : string -> res feat) (load_mask : string -> res (list bool)) (name : string) (it : string * list bool * list (list Qc)) : Prop :=
  load name = Ok (snd it) /\
  ((name = fst (fst it) /\ ~ mentions name "chunk" /\ snd (fst it) = repeat true (List.length (snd it))) \/
   (exists i, (i < 10)%nat /\ name = chunk_name (fst (fst it)) i /\ load_mask name = Ok (snd (fst it)))).
(** [outs] is what the test steps of the batches [bs] report. *)
Definition reported (K : nat) (bs : list (feat * list Z)) (outs : list (list Qc * list Qc)) : Prop :=
  Forall2 (fun b out => exists iou, IoU_per_shape (fst b) (snd b) K = Ok (iou, fst out, snd out)) bs outs.
(** Distance of two numbers at most [r]. *)
Definition within (r a b : Qc) : Prop := (- r <= a - b)%Qc /\ (a - b <= r)%Qc.
