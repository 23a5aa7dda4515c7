(** C92: point clouds and shared tensors. *)
From Coq Require Import String Ascii List ZArith Bool Reals Lra Lia.
From Verif Require Import Res Tensor Num Octree Points PointsOps PointsHeap SpecPointsHeap PointsHeapFacts.
Import ListNotations.

(** C92: as long as no tensor is referred to twice, point clouds behave like values: after
    any program of calls and merges, with exceptions caught, every object reads as if each
    call had changed its own object only, and the same calls raised. *)
Theorem C92_values_partial : forall ks w, unshared w -> let '(w', es) := run_calls w ks in value_run (seen w) ks = (seen w', es) /\ unshared w'.
Proof. exact thm_refines. Qed.
Print Assumptions C92_values_partial.

(** C92: whatever is shared, a call changes an existing tensor only if it is flip or
    orient_normal('xyz') of an object that refers to it. *)
Theorem C92_frame : forall w k t, (t < length (w_heap w))%nat ->
  (forall i op c, k = CDo i op -> nth_error (w_objs w) i = Some c -> writes op = true -> ~ In t (tensors_of c)) ->
  tread (w_heap (fst (do_call w k))) t = tread (w_heap w) t.
Proof. exact thm_frame. Qed.
Print Assumptions C92_frame.

(** C92: programs without these two calls leave all tensors of the caller as they were. *)
Theorem C92_frame_run : forall ks w t, (t < length (w_heap w))%nat -> (forall i op, In (CDo i op) ks -> writes op = false) ->
  tread (w_heap (fst (run_calls w ks))) t = tread (w_heap w) t.
Proof. exact thm_frame_run. Qed.
Print Assumptions C92_frame_run.

(** C92: after rotate or clip, no later call on that object, flip included, changes a
    tensor that existed before, *)
Theorem C92_renewed : forall w i c op w' ks t, nth_error (w_objs w) i = Some c -> renews op = true -> do_call w (CDo i op) = (w', None) ->
  Forall (fun k => exists op, k = CDo i op) ks -> (t < length (w_heap w))%nat ->
  tread (w_heap (fst (run_calls w' ks))) t = tread (w_heap w) t.
Proof. exact thm_renewed. Qed.
Print Assumptions C92_renewed.
(** hence all other objects read as before. *)
Theorem C92_renewed_objects : forall w i c op w' ks, nth_error (w_objs w) i = Some c -> renews op = true -> do_call w (CDo i op) = (w', None) ->
  Forall (fun k => exists op, k = CDo i op) ks ->
  forall j d, j <> i -> nth_error (w_objs w) j = Some d -> Forall (fun t => (t < length (w_heap w))%nat) (tensors_of d) ->
  nth_error (seen (fst (run_calls w' ks))) j = nth_error (seen w) j.
Proof. exact thm_renewed_objects. Qed.
Print Assumptions C92_renewed_objects.

(** C92 is false of shared tensors: of two clouds made from one tensor, flipping one
    flips the other, although scaling it first with factor 1 makes no difference; and a
    cloud whose points serve as its normals (points on a unit sphere, say) is not
    changed by flip. *)
Theorem C92_shared_refuted :
  (exists w, length (w_objs w) = 2%nat /\ Forall (fun t => (t < length (w_heap w))%nat) (flat_map tensors_of (w_objs w)) /\
     nth_error (seen (fst (run_calls w [CDo 0 (PScale (1, 1, 1)%R); CDo 0 (PFlip "x")]))) 1 <> nth_error (seen w) 1) /\
  (exists w p, seen w = [p] /\ p_normals p = Some (p_points p) /\ seen (fst (do_call w (CDo 0 (PFlip "x")))) = [p] /\
     fst (value_call [p] (CDo 0 (PFlip "x"))) <> [p]).
Proof. exact thm_shared. Qed.
Print Assumptions C92_shared_refuted.

Example C92_case : unshared (mkW [[(1, 0, 0)%R]; [(0, 1, 0)%R]; [(0, 0, 1)%R]] [mkH 0 (Some 1%nat) None None None 1 None 0; mkH 2 None None None None 1 None 0]) /\
  renews (PRotate (1, 0, 0)%R) = true /\ writes (PRotate (1, 0, 0)%R) = false.
Proof. split; [|split; reflexivity]. split; cbn; [repeat constructor; cbn; lia|repeat constructor]. Qed.
