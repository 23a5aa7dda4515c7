(** Model of /repo/ocnn/models/image2shape.py and of the loss of /repo/projects/autoencoder.py. *)
From Coq Require Import String List ZArith Bool QArith Qcanon.
From Verif Require Import Res Tensor Num Points Octree NnBasic NnConv Features Net Utils Dataset Project.
Import ListNotations.
Open Scope Z_scope.

(** ** ocnn/models/image2shape.py *)

(** image2shape.py:26-36: channels of the decoder; the decoder (lines 38-115) is the text
    of the auto-encoder's, modelled by [ae_decoder] and [ae_init_octree]. *)
Definition i2s_default (code depth full : nat) : ae_cfg :=
  mkAe [512; 512; 256; 256; 128; 128; 64; 64; 32; 32]%nat code depth full 2.

(** x.view(-1, c) of the rows of [x]: the numbers in order, cut into rows of [c] *)
Fixpoint cut_rows (c n : nat) (l : vec) : feat :=
  match n with O => [] | S n => firstn c l :: cut_rows c n (skipn c l) end.
Definition view_rows (c : nat) (x : feat) : res feat :=
  let l := concat x in
  if Nat.eqb c 0 || negb (Nat.eqb (Nat.modulo (List.length l) c) 0) then Err RuntimeError
  else Ok (cut_rows c (List.length l / c) l).

(** image2shape.py:117-128, forward.  [encoder] is self.resnet18 (torchvision), an
    arbitrary function of the batch of images.  Without an octree the first octree
    convolution reads an attribute of None. *)
Definition Image2Shape {I} (g : ae_cfg) (P : params) (cout dev : nat) (encoder : list I -> res feat)
    (image : list I) (octree : option octree) (update : bool) : res (ddict feat * feat * Octree.octree) :=
  x <- encoder image ;;
  code <- view_rows (a_code g) x ;;
  octree <- (if update then o <- ae_init_octree g dev code ;; Ok (Some o) else Ok octree) ;;
  match octree with
  | None => Err AttributeError
  | Some o => ae_decoder g P cout code o update
  end.

(** ** projects/autoencoder.py *)

(** torch.mean: nan ([None]) of no number *)
Definition qmean (xs : list Qc) : option Qc :=
  match xs with [] => None | _ => Some (fold_right Qcplus 0%Qc xs / qz (zlen xs))%Qc end.
(** a sum that is nan as soon as one summand is *)
Definition nadd (a b : option Qc) : option Qc :=
  match a, b with Some x, Some y => Some (x + y)%Qc | _, _ => None end.
(** F.cross_entropy: the mean over the rows of an arbitrary function of row and label *)
Definition cross_entropy (ce : vec -> Z -> Qc) (logit : feat) (label : list Z) : res (option Qc) :=
  if negb (Nat.eqb (List.length logit) (List.length label)) then Err ValueError
  else Ok (qmean (zip_with ce logit label)).
(** projects/autoencoder.py:38-42, one depth: loss and accuracy *)
Definition depth_loss (ce : vec -> Z -> Qc) (o : octree) (logits : ddict feat) (d : Z) : res (Z * option Qc * option Qc) :=
  logitd <- dfind logits d ;;
  mask <- nempty_mask o d ;;
  let label_gt := map (fun b : bool => if b then 1 else 0) mask in
  loss <- cross_entropy ce logitd label_gt ;;
  accu <- accuracy logitd label_gt ;;
  Ok (d, loss, accu).
(** torch broadcasting of a binary operation along one dimension: equal sizes are paired, a
    size of 1 is repeated, anything else raises *)
Definition bcast {A B C} (f : A -> B -> res C) (xs : list A) (ys : list B) : res (list C) :=
  if Nat.eqb (List.length xs) (List.length ys) then mapM (fun '(a, b) => f a b) (combine xs ys)
  else match xs, ys with
       | [x], _ => mapM (f x) ys
       | _, [y] => mapM (fun x => f x y) xs
       | _, _ => Err RuntimeError
       end.
(** projects/autoencoder.py:45-47; both tensors are broadcast against each other.  The
    widths of tensors without rows are not compared (torch would raise). *)
Definition sq_sum (r : vec) : Qc := fold_right Qcplus 0%Qc (map (fun t => t * t)%Qc r).
Definition reg_loss (signal_gt signal : feat) : res (option Qc) :=
  diff <- bcast (bcast (fun a b : Qc => Ok (a - b)%Qc)) signal_gt signal ;;
  Ok (qmean (map sq_sum diff)).
(** projects/autoencoder.py:33-52, compute_loss: per depth, regression loss, total.
    [CF] is the number of channels of the octree's features (not read for 'ND').  The
    keys are those of the logits in the order of insertion. *)
Definition compute_loss (ce : vec -> Z -> Qc) (CF : nat) (o : octree) (logits : ddict feat) (signal : feat)
  : res (list (Z * option Qc * option Qc) * option Qc * option Qc) :=
  per_depth <- mapM (depth_loss ce o logits) (rev (map fst logits)) ;;
  signal_gt <- get_input_feature CF o "ND" true ;;
  reg <- reg_loss signal_gt signal ;;
  Ok (per_depth, reg, fold_right nadd (Some 0%Qc) (map (fun p => snd (fst p)) per_depth ++ [reg])).
