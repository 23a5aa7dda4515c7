(** Single-precision model of the points stored by build_octree: the average of the
    rescaled points of each node, and the features read off it.  Continues Float32.v. *)
From Coq Require Import List ZArith Bool.
From Flocq Require Import Core.Core IEEE754.BinarySingleNaN.
From Verif Require Import Res Tensor Key Num Points Octree Float32.
Import ListNotations.
Open Scope Z_scope.

Definition fzero : f32 := B754_zero false.
Definition fsub (x y : f32) : f32 := @Bminus 24 128 f32_prec f32_emax mode_NE x y.
Definition fdiv (x y : f32) : f32 := @Bdiv 24 128 f32_prec f32_emax mode_NE x y.
(** An int64 value converted to float32, as torch does when an integer tensor meets a
    float one (octree.py:213, [points / counts.unsqueeze(1)]) *)
Definition fcount (n : Z) : f32 := binary_normalize 24 128 f32_prec f32_emax mode_NE n 0 false.

(** octree.py:163-164 on one point *)
Definition rescale32 (dep : nat) (p : v3 f32) : v3 f32 := v3map (frescale dep) p.
(** octree.py:167-170: the keys of a cloud.  [batch] is None when batch_size is 1. *)
Definition keys32 (dep : nat) (pts : list (v3 f32)) (batch : option (list Z)) : res (list Z) :=
  match batch with
  | None => mapM (fun p => point_key32 dep p None) pts
  | Some bid =>
      if Nat.eqb (List.length bid) (List.length pts)
      then mapM (fun pb => point_key32 dep (fst pb) (Some (snd pb))) (combine pts bid)
      else Err RuntimeError
  end.
(** octree.py:171-172 and 212-213: the keys of the occupied nodes of the last layer and
    the points stored for them.  [scatter_add_] on the CPU adds the rows one after the
    other in the order of the cloud; on a GPU the order is not fixed, which amounts to
    another order of the same cloud. *)
Definition node_points32 (dep : nat) (pts : list (v3 f32)) (batch : option (list Z))
  : res (list Z * list (v3 f32)) :=
  key <- keys32 dep pts batch ;;
  let '(node_key, idx, counts) := unique key in
  psum <- scatter_add (v3zip fadd) (fzero, fzero, fzero) (map (rescale32 dep) pts) idx None ;;
  Ok (node_key, zip_with (fun p n => v3map (fun c => fdiv c (fcount n)) p) psum counts).

(** torch.trunc and torch.frac (x - trunc x) on one number *)
Definition ftrunc (x : f32) : f32 :=
  if is_finite x then binary_normalize 24 128 f32_prec f32_emax mode_NE (Btrunc x) 0 (Bsign x) else x.
Definition ffrac (x : f32) : f32 := fsub x (ftrunc x).
Definition fhalf : f32 := @Bldexp 24 128 f32_prec f32_emax mode_NE fone (-1).
(** octree.py:456: points.frac() - 0.5, one coordinate *)
Definition flocal (x : f32) : f32 := fsub (ffrac x) fhalf.
(** octree.py:466-467: points * 2 ** (1 - depth) - 1.0, one coordinate *)
Definition fglobal (dep : nat) (x : f32) : f32 :=
  fsub (fmul x (@Bldexp 24 128 f32_prec f32_emax mode_NE fone (1 - Z.of_nat dep))) fone.
