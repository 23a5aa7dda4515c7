(** Model of the structural part of /repo/ocnn/octree/points.py: which rows a
    [Points] object holds.  The scalar type is a parameter; the geometric
    transformations are in PointsOps.v. *)
From Coq Require Import List ZArith Bool.
From Verif Require Import Res Tensor Num.
Import ListNotations.

(** points.py:30-45.  A Points object.  The (N,3) shape of points and normals is
    in the type; labels and features are rows; batch_id is the (N,1) column. *)
Record pcloud (T : Type) := mkPoints {
  p_points : list (v3 T);
  p_normals : option (list (v3 T));
  p_features : option (list (list T));
  p_labels : option (list (list T));
  p_batch_id : option (list Z);
  p_batch_size : nat;
  p_batch_npt : option (list Z);
  p_device : nat
}.
Arguments mkPoints {T}.
Arguments p_points {T}. Arguments p_normals {T}. Arguments p_features {T}.
Arguments p_labels {T}. Arguments p_batch_id {T}. Arguments p_batch_size {T}.
Arguments p_batch_npt {T}. Arguments p_device {T}.

(** A batch_id argument: a 1-D tensor of shape (N,), a 2-D tensor of shape (N,K). *)
Inductive bid_arg : Type := Bid1 (b : list Z) | Bid2 (b : list (list Z)).
(** A label argument: 1-D or 2-D. *)
Inductive lab_arg (T : Type) : Type := Lab1 (l : list T) | Lab2 (l : list (list T)).
Arguments Lab1 {T}. Arguments Lab2 {T}.

(** points.py:63-68, the checks on [batch_id] in the order of the code:
    size(0) is compared, then [batch_id.size(1)] is evaluated, which raises
    IndexError for a 1-D tensor, before line 67 could reshape it. *)
Definition check_batch_id (n : nat) (b : bid_arg) : res (list Z) :=
  match b with
  | Bid1 b => _ <- assert_ (Nat.eqb (length b) n) ;; Err IndexError
  | Bid2 b =>
      _ <- assert_ (Nat.eqb (length b) n) ;;
      mapM (fun r => match r with [i] => Ok i | _ => Err AssertionError end) b
  end.

(** points.py:58-62, labels: a 1-D tensor becomes a column. *)
Definition check_labels {T} (n : nat) (l : lab_arg T) : res (list (list T)) :=
  match l with
  | Lab1 l => _ <- assert_ (Nat.eqb (length l) n) ;; Ok (map (fun a => [a]) l)
  | Lab2 l => _ <- assert_ (Nat.eqb (length l) n) ;; Ok l
  end.

Definition opt_check {A B} (f : A -> res B) (o : option A) : res (option B) :=
  match o with None => Ok None | Some a => b <- f a ;; Ok (Some b) end.

(** points.py:30-68, Points.__init__ and check_input. *)
Definition points_new {T} (dev : nat) (pts : list (v3 T)) (normals : option (list (v3 T)))
    (features : option (list (list T))) (labels : option (lab_arg T))
    (batch_id : option bid_arg) (bsize : nat) : res (pcloud T) :=
  let n := length pts in
  normals <- opt_check (fun r => _ <- assert_ (Nat.eqb (length r) n) ;; Ok r) normals ;;
  features <- opt_check (fun r => _ <- assert_ (Nat.eqb (length r) n) ;; Ok r) features ;;
  labels <- opt_check (check_labels n) labels ;;
  batch_id <- opt_check (check_batch_id n) batch_id ;;
  Ok (mkPoints pts normals features labels batch_id bsize None dev).

(** points.py:70-72 *)
Definition npt {T} (p : pcloud T) : nat := length (p_points p).

(** points.py:172-188, __getitem__ with a boolean mask. *)
Definition points_getitem {T} (p : pcloud T) (mask : list bool) : res (pcloud T) :=
  pts <- mask_get (p_points p) mask ;;
  nrm <- opt_check (fun r => mask_get r mask) (p_normals p) ;;
  fts <- opt_check (fun r => mask_get r mask) (p_features p) ;;
  lbs <- opt_check (fun r => mask_get r mask) (p_labels p) ;;
  bid <- opt_check (fun r => mask_get r mask) (p_batch_id p) ;;
  Ok (mkPoints pts nrm fts lbs bid (p_batch_size p) None (p_device p)).

(** points.py:224-253, to(device). *)
Definition points_to {T} (p : pcloud T) (dev : nat) : pcloud T :=
  if Nat.eqb (p_device p) dev then p
  else mkPoints (p_points p) (p_normals p) (p_features p) (p_labels p) (p_batch_id p)
                1 (p_batch_npt p) dev.

(** torch.cat([p.attr for p in points]) where some entries may be None. *)
Definition cat_attr {A} (l : list (option (list A))) : res (list A) :=
  rows <- mapM (fun o => match o with Some r => Ok r | None => Err TypeError end) l ;;
  Ok (concat rows).

Definition enumerate {A} (l : list A) : list (Z * A) := combine (arange (length l)) l.

(** points.py:298-322, merge_points. *)
Definition merge_points {T} (points : list (pcloud T)) (update_batch_info : bool) : res (pcloud T) :=
  match points with
  | [] => Err RuntimeError   (* torch.cat of an empty list *)
  | p0 :: _ =>
      let pts := concat (map p_points points) in
      nrm <- (match p_normals p0 with
              | Some _ => r <- cat_attr (map p_normals points) ;; Ok (Some r)
              | None => Ok None end) ;;
      fts <- (match p_features p0 with
              | Some _ => r <- cat_attr (map p_features points) ;; Ok (Some r)
              | None => Ok None end) ;;
      lbs <- (match p_labels p0 with
              | Some _ => r <- cat_attr (map p_labels points) ;; Ok (Some r)
              | None => Ok None end) ;;
      if update_batch_info then
        let bid := concat (map (fun ip => repeat (fst ip) (npt (snd ip))) (enumerate points)) in
        Ok (mkPoints pts nrm fts lbs (Some bid) (length points)
                     (Some (map (fun p => Z.of_nat (npt p)) points)) (p_device p0))
      else
        Ok (mkPoints pts nrm fts lbs None 1 None (p_device p0))
  end.
