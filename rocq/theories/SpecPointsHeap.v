(** Specification vocabulary for shared tensors: Points objects as plain values. *)
From Coq Require Import String Ascii List ZArith Bool Reals.
From Verif Require Import Res Tensor Num Points PointsOps PointsHeap.
Import ListNotations.

(** ** the objects as values: every call changes its own object or adds one *)
Definition value_call (ps : list (pcloud R)) (k : call) : list (pcloud R) * option exn :=
  match k with
  | CDo i op =>
      match nth_error ps i with
      | None => (ps, None)
      | Some p =>
          let '(q, e) := papply p op in
          match op with
          | PIndex _ => match e with None => (ps ++ [q], None) | Some e => (ps, Some e) end
          | PTo dev => if Nat.eqb (p_device p) dev then (ps, None) else (ps ++ [q], None)
          | _ => (replace ps i q, e)
          end
      end
  | CMerge is update =>
      match mapM (fun i => match nth_error ps i with Some p => Ok p | None => Err IndexError end) is with
      | Ok qs => match merge_points qs update with Ok q => (ps ++ [q], None) | Err e => (ps, Some e) end
      | Err _ => (ps, None)
      end
  end.
Fixpoint value_run (ps : list (pcloud R)) (ks : list call) : list (pcloud R) * list (option exn) :=
  match ks with
  | [] => (ps, [])
  | k :: ks => let '(ps, e) := value_call ps k in let '(ps, es) := value_run ps ks in (ps, e :: es)
  end.

(** The tensors an object refers to; no tensor is referred to twice. *)
Definition tensors_of (c : hcloud) : list nat := h_pts c :: match h_nrm c with Some n => [n] | None => [] end.
Definition unshared (w : world) : Prop :=
  NoDup (flat_map tensors_of (w_objs w)) /\ Forall (fun t => (t < length (w_heap w))%nat) (flat_map tensors_of (w_objs w)).
(** What a reader sees of all objects. *)
Definition seen (w : world) : list (pcloud R) := map (content (w_heap w)) (w_objs w).
(** The calls that write into existing tensors. *)
Definition writes (op : pop) : bool :=
  match op with PFlip _ => true | POrient axis => String.eqb axis "xyz" | _ => false end.
(** The calls after which an object has no tensor in common with what existed before, if
    they do not raise. *)
Definition renews (op : pop) : bool := match op with PRotate _ | PClip _ _ _ => true | _ => false end.
