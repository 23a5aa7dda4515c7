(** Properties C07-C08: searching. *)
From Coq Require Import List ZArith.
From Verif Require Import Res Tensor Key Num Points Octree Spec WF SearchFacts Examples ExampleFacts.
Import ListNotations.
Open Scope Z_scope.

(** C07: one answer per query: the row of the node with that key, -1 iff there is none. *)
Theorem C07_search_key_exact : forall o d ne query, wf_octree o -> (d <= depth o)%nat ->
  exists ks r, octree_key o (Z.of_nat d) ne = Ok ks /\ NoDup ks /\
    search_key o query d ne = Ok r /\ length r = length query /\
    forall i q e, nth_error query i = Some q -> nth_error r i = Some e ->
      (0 <= e /\ nth_error ks (Z.to_nat e) = Some q) \/ (e = -1 /\ ~ In q ks).
Proof. exact wf_search_key. Qed.
Print Assumptions C07_search_key_exact.

Example C07_case : wf_octree ex_built /\
  search_key ex_built [-5; 0; 3; 24582; 24583; 99999] 5 false = Ok [-1; 0; 3; 14; 15; -1] /\
  search_key ex_built [-5; 0; 3; 24582; 24583; 99999] 5 true = Ok [-1; 0; -1; 2; -1; -1].
Proof. split; [exact ex_wf|]. vm_compute; auto. Qed.

(** C08: the same for in-range integer coordinates. *)
Theorem C08_search_xyzb_exact : forall o d ne query, wf_octree o -> (d <= depth o)%nat ->
  Forall (fun '(x, y, z, b) => in_cube d x y z /\ -32768 <= b < 32768) query ->
  exists cs r, octree_xyzb o d ne = Ok cs /\ NoDup cs /\
    search_xyzb o query d ne = Ok r /\ length r = length query /\
    forall i q e, nth_error query i = Some q -> nth_error r i = Some e ->
      (0 <= e /\ nth_error cs (Z.to_nat e) = Some q) \/ (e = -1 /\ ~ In q cs).
Proof. exact wf_search_xyzb. Qed.
Print Assumptions C08_search_xyzb_exact.

(** C08: any integer query at all is answered for the cell wrapped around the grid. *)
Theorem C08_out_of_range_aliases : forall o d ne x y z b, wf_octree o -> (d <= depth o)%nat ->
  -32768 <= b < 32768 ->
  exists cs e, octree_xyzb o d ne = Ok cs /\ search_xyzb o [(x, y, z, b)] d ne = Ok [e] /\
    let p := 2 ^ Z.of_nat d in
    (e <> -1 <-> In (x mod p, y mod p, z mod p, b) cs).
Proof. exact alias_found. Qed.
Print Assumptions C08_out_of_range_aliases.

Example C08_case : search_xyzb ex_built [(16, 16, 0, 0); (17, 17, 0, 0); (1, 1, 1, 0); (1, 1, 2, 0); (0, 0, 0, 1)] 5 false
  = Ok [8; 14; 7; -1; -1].
Proof. vm_compute; auto. Qed.

(** C08: without the range restriction the claim is false. *)
Theorem C08_unrestricted_refuted : exists o d q cs e, wf_octree o /\ (d <= depth o)%nat /\
  octree_xyzb o d false = Ok cs /\ search_xyzb o [q] d false = Ok [e] /\ ~ In q cs /\ e <> -1.
Proof.
  exists ex_built, 5%nat, (-16, 17, 32, 0).
  eexists. eexists. split; [exact ex_wf|]. split; [vm_compute; repeat constructor|].
  split; [vm_compute; reflexivity|]. split; [vm_compute; reflexivity|].
  split; [|discriminate]. intros H. repeat (destruct H as [H|H]; [discriminate|]). exact H.
Qed.
Print Assumptions C08_unrestricted_refuted.
