(** Model of the training steps: /repo/projects/segmentation.py (SegSolver) and
    /repo/projects/classification.py (ClsSolver). *)
From Coq Require Import String List ZArith Bool QArith Qcanon.
From Verif Require Import Res Tensor Key Num Points Octree PointsOps NnBasic NnConv NnInterp Features Net Dataset Project Shape.
Import ListNotations.
Open Scope Z_scope.

(** segmentation.py:53-56, points2octree.  The octree is created on the CPU (device 0);
    build_octree takes the device of the cloud. *)
Definition points2octree (nrm : v3 Qc -> v3 Qc) (depth full : nat) (p : pcloud Qc) : res octree :=
  r <- build_octree nrm (octree_new depth full 1 0) p ;; Ok (fst r).
(** A batch entry that is an octree or a cloud: anything else has no method cuda *)
Definition one_oct (v : out_value) : res octree := match v with OOne v => as_oct v | _ => Err AttributeError end.
Definition one_pts (v : out_value) : res (pcloud Qc) := match v with OOne v => as_pts v | _ => Err AttributeError end.
(** A batch entry that is iterated over *)
Definition iter (v : out_value) : res (list value) := match v with OList vs => Ok vs | _ => Err TypeError end.
(** segmentation.py:52-69, SegSolver.process_batch; [dev] is the device cuda() moves to *)
Definition process_batch (nrm : v3 Qc -> v3 Qc) (depth full dev : nat) (batch : dict out_value) : res (dict out_value) :=
  match dlookup batch "octree" with
  | Some v =>
      o <- one_oct v ;;
      let batch := dset batch "octree" (OOne (VOct (octree_to o dev))) in
      v <- dget batch "points" ;;
      p <- one_pts v ;;
      Ok (dset batch "points" (OOne (VPts (points_to p dev))))
  | None =>
      v <- dget batch "points" ;;
      vs <- iter v ;;
      points <- mapM (fun v => p <- as_pts v ;; Ok (points_to p dev)) vs ;;
      octrees <- mapM (points2octree nrm depth full) points ;;
      octree <- merge_octrees octrees ;;
      octree <- construct_all_neigh octree ;;
      p <- merge_points points true ;;
      let batch := dset batch "points" (OOne (VPts p)) in
      Ok (dset batch "octree" (OOne (VOct octree)))
  end.

(** segmentation.py:74, torch.cat([points.points, points.batch_id], dim=1): the batch index
    becomes a fourth coordinate (kept as an integer here) *)
Definition query_points (p : pcloud Qc) : res (list qpoint) :=
  match p_batch_id p with
  | None => Err TypeError
  | Some b => if Nat.eqb (List.length (p_points p)) (List.length b) then Ok (combine (p_points p) b) else Err RuntimeError
  end.
(** segmentation.py:77, labels.squeeze(1): an (N, 1) tensor becomes (N,).  Simplified: on
    other widths, where squeeze(1) keeps the tensor and the mask then has two axes, the
    model raises. *)
Definition squeeze1 (rows : feat) : res (list Qc) :=
  mapM (fun r => match r with [x] => Ok x | _ => Err IndexError end) rows.
(** segmentation.py:71-79, model_forward; [m] is FLAGS.LOSS.mask.  The network also returns
    the query points it leaves behind (it scales them in place). *)
Definition model_forward (model : feat -> octree -> Z -> list qpoint -> res (feat * list qpoint))
    (CF : nat) (feature : string) (ne : bool) (m : Z) (batch : dict out_value) : res (feat * list Qc) :=
  v <- dget batch "octree" ;; o <- one_oct v ;;
  v <- dget batch "points" ;; p <- one_pts v ;;
  data <- input_feature CF feature ne o ;;
  q <- query_points p ;;
  r <- model data o (Z.of_nat (depth o)) q ;;
  let logit := fst r in
  match p_labels p with
  | None => Err AttributeError
  | Some ls =>
      labels <- squeeze1 ls ;;
      let mask := map (fun l => qltb (qz m) l) labels in
      logit <- mask_get logit mask ;;
      labels <- mask_get labels mask ;;
      Ok (logit, labels)
  end.

(** classification.py:48-55, ClsSolver.forward: loss and accuracy of a batch *)
Definition cls_forward (ce : vec -> Z -> Qc) (model : feat -> octree -> Z -> res feat)
    (CF : nat) (feature : string) (ne : bool) (dev : nat) (batch : dict out_value) : res (option Qc * option Qc) :=
  v <- dget batch "octree" ;; o <- one_oct v ;;
  v <- dget batch "label" ;;
  label <- (match v with OTensor zs => Ok zs | _ => Err AttributeError end) ;;
  let o := octree_to o dev in
  data <- input_feature CF feature ne o ;;
  logits <- model data o (Z.of_nat (depth o)) ;;
  loss <- cross_entropy ce logits label ;;
  accu <- accuracy logits label ;;
  Ok (loss, accu).
