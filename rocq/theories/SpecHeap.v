(** Specification vocabulary for queries over a heap of tensors. *)
From Coq Require Import String List ZArith Bool.
From Verif Require Import Res Tensor Octree Heap.
Import ListNotations.
Open Scope Z_scope.

(** The handles [ho] denote the stored tensors of the octree [o] in the heap [h]. *)
Definition tensor_is {V T} (rd : heap -> V -> T) (id : V -> nat) (h : heap) (v : option V) (t : option T) : Prop :=
  match v, t with
  | None, None => True
  | Some v, Some t => (id v < List.length h)%nat /\ rd h v = t
  | _, _ => False
  end.
Definition denotes (h : heap) (ho : list hlayer) (o : octree) : Prop :=
  Forall2 (fun l k => tensor_is rd v_id h (h_keys l) (keys k) /\ tensor_is rd v_id h (h_children l) (children k) /\
                      tensor_is rd2 w_id h (h_neighs l) (neighs k)) ho (layers o).
(** The query tensors of a call exist in the heap. *)
Definition query_ok (h : heap) (q : query view view2) : Prop :=
  match q with
  | QSearchKey v _ _ => (v_id v < List.length h)%nat
  | QSearchXyzb v _ _ => (w_id v < List.length h)%nat
  | _ => True
  end.
Definition query_contents (h : heap) (q : query view view2) : query (list Z) (list (list Z)) :=
  match q with
  | QKey d ne => QKey d ne | QXyzb d ne => QXyzb d ne | QBatch d ne => QBatch d ne | QMask d => QMask d
  | QSearchKey v d ne => QSearchKey (rd h v) d ne | QSearchXyzb v d ne => QSearchXyzb (rd2 h v) d ne
  | QNeigh d k s ne => QNeigh d k s ne
  end.
(** The contents of an answer, boolean tensors as 0 and 1. *)
Definition answer_contents (h : heap) (a : answer view view2) : answer (list Z) (list (list Z)) :=
  match a with One v => One (rd h v) | Two w => Two (rd2 h w) | Four x y z b => Four (rd h x) (rd h y) (rd h z) (rd h b) end.
(** The answers as functions of the octree alone (Octree.v). *)
Definition pure_answer (o : octree) (q : query (list Z) (list (list Z))) : res (answer (list Z) (list (list Z))) :=
  match q with
  | QKey d ne => k <- octree_key o d ne ;; Ok (One k)
  | QXyzb d ne => cs <- octree_xyzb o d ne ;;
      Ok (Four (map (fun '(x, y, z, b) => x) cs) (map (fun '(x, y, z, b) => y) cs) (map (fun '(x, y, z, b) => z) cs) (map (fun '(x, y, z, b) => b) cs))
  | QBatch d ne => k <- octree_batch_id o d ne ;; Ok (One k)
  | QMask d => m <- nempty_mask o d ;; Ok (One (map (fun b : bool => if b then 1 else 0) m))
  | QSearchKey q d ne => r <- search_key o q d ne ;; Ok (One r)
  | QSearchXyzb q d ne => q <- mapM row4 q ;; r <- search_xyzb o q d ne ;; Ok (One r)
  | QNeigh d k s ne => t <- get_neigh o d k s ne ;; Ok (Two t)
  end.
