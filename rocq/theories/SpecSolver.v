(** What the training steps are stated with. *)
From Coq Require Import String Ascii List ZArith Bool QArith Qcanon.
From Verif Require Import Res Tensor Num Points Octree PointsOps NnBasic NnInterp Net SpecNN SpecFeature Dataset Solver.
Import ListNotations.
Local Open Scope char_scope.
Open Scope Z_scope.

(** A sample with nothing but its cloud, and one with the octree of the cloud. *)
Definition cloud_sample (p : pcloud Qc) : dict value := [("points"%string, VPts p)].
Definition octree_sample (p : pcloud Qc) (o : octree) : dict value := [("points"%string, VPts p); ("octree"%string, VOct o)].

(** The logits and labels a segmentation step gets for the clouds [ps]: they are collated
    without merging, prepared and run through the network. *)
Definition predict (nrm : v3 Qc -> v3 Qc) (dep full dev : nat) (model : feat -> octree -> Z -> list qpoint -> res (feat * list qpoint))
    (CF : nat) (s : string) (ne : bool) (m : Z) (ps : list (pcloud Qc)) : res (feat * list Qc) :=
  batch <- collate false (map cloud_sample ps) ;;
  batch <- process_batch nrm dep full dev batch ;;
  model_forward model CF s ne m batch.

(** Every point has one label. *)
Definition labelled (p : pcloud Qc) : Prop := exists ls, p_labels p = Some ls /\ shape (length (p_points p)) 1 ls.
(** The cloud has the attributes the feature string asks for, features of width CF. *)
Definition provides (CF : nat) (s : string) (p : pcloud Qc) : Prop :=
  (asks s "N" "n" || asks s "D" "d" = true -> p_normals p <> None) /\
  (asks s "F" "f" = true -> exists fs, p_features p = Some fs /\ Forall (fun r => length r = CF) fs).
(** Two clouds that differ at most in the number batch_size. *)
Definition same_cloud (p q : pcloud Qc) : Prop :=
  p_points p = p_points q /\ p_normals p = p_normals q /\ p_features p = p_features q /\ p_labels p = p_labels q /\
  p_batch_id p = p_batch_id q /\ p_batch_npt p = p_batch_npt q /\ p_device p = p_device q.

(** A sample of a classification dataset: the octree of a cloud and a class. *)
Definition class_sample (o : octree) (l : Z) : dict value := [("octree"%string, VOct o); ("label"%string, VNum l)].
(** Loss and accuracy of a classification step for the clouds and classes [pls]. *)
Definition classify (nrm : v3 Qc -> v3 Qc) (dep full dev : nat) (ce : vec -> Z -> Qc) (model : feat -> octree -> Z -> res feat)
    (CF : nat) (s : string) (ne : bool) (pls : list (pcloud Qc * Z)) : res (option Qc * option Qc) :=
  os <- mapM (fun pl => points2octree nrm dep full (fst pl)) pls ;;
  batch <- collate false (map (fun ol => class_sample (fst ol) (snd ol)) (combine os (map snd pls))) ;;
  cls_forward ce model CF s ne dev batch.
(** The arithmetic mean. *)
Definition mean (xs : list Qc) : Qc := (fold_right Qcplus 0%Qc xs / qz (Z.of_nat (length xs)))%Qc.
