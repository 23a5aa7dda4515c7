(** Property C28. *)
From Coq Require Import String List ZArith Bool.
From Verif Require Import Res Tensor Key Octree Heap SpecHeap HeapFacts Examples.
Import ListNotations.
Open Scope Z_scope.

(** C28: after any history of queries, started when the handles [ho] denote the
    tensors of the octree [o], every tensor that existed before has its old contents,
    the octree is unchanged, and each answer (read at the end of the history) is the
    function of [o] and of that call alone given in SpecHeap.v. *)
Theorem C28_queries_do_not_modify : forall h ho o qs rs h',
  denotes h ho o -> Forall (query_ok h) qs -> calls ho qs h = (rs, h') ->
  (forall i s, nth_error h i = Some s -> nth_error h' i = Some s) /\ denotes h' ho o /\
  Forall2 (fun q r => pure_answer o (query_contents h q) =
                      match r with Ok a => Ok (answer_contents h' a) | Err e => Err e end) qs rs.
Proof. exact (fun h ho o qs rs h' => thm_queries_pure ho o qs h rs h'). Qed.
Print Assumptions C28_queries_do_not_modify.
(** The layer 2 of the example octree with its neighbourhood table, in four storages
    (the last one holds query keys); the history remaps twice and asks for an
    unsupported kernel. *)
Definition ex_layer2 : layer := nth 2 (layers ex_neigh) (mkLayer None None None None None None 0 0 [] []).
Definition ex_tab : list (list Z) := match neighs ex_layer2 with Some t => t | None => [] end.
Definition ex_vec (t : option (list Z)) : list Z := match t with Some l => l | None => [] end.
Definition ex_heap : heap := [ex_vec (keys ex_layer2); ex_vec (children ex_layer2); concat ex_tab; [0; 5; 63]].
Definition ex_handles : list hlayer :=
  [mkHlayer (Some (mkView 0 (seq 0 16))) (Some (mkView 1 (seq 0 16))) (Some (mkView2 2 (pos2 0 ex_tab)))].
Definition ex_obj : octree := mkOctree 5 1 1 0 [ex_layer2].
Definition ex_history : list (query view view2) :=
  [QNeigh 0 "333" 1 true; QKey 0 false; QNeigh 0 "333" 2 true; QSearchKey (mkView 3 [0; 1; 2]%nat) 0 false;
   QNeigh 0 "999" 1 true; QNeigh 0 "333" 1 false; QNeigh 0 "311" 1 true; QMask 0].
Example C28_case : denotes ex_heap ex_handles ex_obj /\ Forall (query_ok ex_heap) ex_history /\
  let '(rs, h') := calls ex_handles ex_history ex_heap in
  List.length rs = 8%nat /\ (List.length ex_heap < List.length h')%nat /\
  match nth 0 rs (Err TypeError), nth 5 rs (Err TypeError) with
  | Ok a, Ok b => answer_contents h' a <> answer_contents h' b
  | _, _ => False
  end.
Proof.
  split; [|split].
  - constructor; [|constructor]. vm_compute. repeat split; repeat constructor.
  - repeat constructor.
  - vm_compute. split; [reflexivity|]. split; [repeat constructor|]. intros H. discriminate H.
Qed.
