(** Properties C23-C27 and C72: neighbourhood tables. *)
From Coq Require Import String List ZArith.
From Verif Require Import Res Tensor Key Num Points Octree Spec SpecNeigh WF NeighThms Examples ExampleFacts.
Import ListNotations.
Open Scope Z_scope.

(** C23: construct_all_neigh succeeds, changes nothing but the tables, and every
    table of layers 1..depth is correct. *)
Theorem C23_neighbourhoods_correct : forall o, wf_octree o -> (1 <= full_depth o)%nat ->
  exists o', construct_all_neigh o = Ok o' /\ same_data o o' /\ wf_octree o' /\
    forall d, (1 <= d <= depth o)%nat -> has_neigh o' d.
Proof. exact thm_all_neigh. Qed.
Print Assumptions C23_neighbourhoods_correct.

Example C23_case : wf_octree ex_built /\ (1 <= full_depth ex_built)%nat /\
  exists l row, nth_error (layers ex_neigh) 5 = Some l /\
    option_map (fun t => nth_error t 8) (neighs l) = Some (Some row) /\ row =
  [-1; -1; -1; -1; -1; -1; -1; -1; -1; -1; -1; -1; -1; 8; 9; -1; 10; 11; -1; -1; -1; -1; 12; 13; -1; 14; 15].
Proof. split; [exact ex_wf|]. split; [vm_compute; auto|]. eexists. eexists. split; [vm_compute; reflexivity|]. vm_compute; auto. Qed.

(** C24: symmetry, centre entry and batch element of every correct table. *)
Theorem C24_symmetric_same_batch : forall o d, wf_octree o -> (d <= depth o)%nat -> has_neigh o d ->
  exists l t bs, nth_error (layers o) d = Some l /\ neighs l = Some t /\
    octree_batch_id o (Z.of_nat d) false = Ok bs /\
  (forall i row k j, nth_error t i = Some row -> nth_error row k = Some j -> 0 <= j ->
     exists row', nth_error t (Z.to_nat j) = Some row' /\ nth_error row' (26 - k) = Some (Z.of_nat i)) /\
  (forall i row, nth_error t i = Some row -> nth_error row 13 = Some (Z.of_nat i)) /\
  (forall i row k j, nth_error t i = Some row -> nth_error row k = Some j -> 0 <= j ->
     exists b, nth_error bs i = Some b /\ nth_error bs (Z.to_nat j) = Some b).
Proof. exact thm_symmetric. Qed.
Print Assumptions C24_symmetric_same_batch.

Example C24_case : wf_octree ex_neigh2 /\ (3 <= depth ex_neigh2)%nat /\ has_neigh ex_neigh2 3.
Proof. split; [apply ex_neigh2_ok|]. split; [vm_compute; auto|]. apply ex_neigh2_ok. repeat constructor. Qed.

(** C25: one step of the sparse formula from a complete layer gives the table of
    the direct formula for the next layer. *)
Theorem C25_full_sparse_agree : forall B d, (d < 16)%nat -> Z.of_nat B <= 32768 ->
  exists t, neigh_full B d = Ok t /\ neigh_sparse (arange (8 ^ d * B)) t = neigh_full B (S d).
Proof. exact thm_full_sparse. Qed.
Print Assumptions C25_full_sparse_agree.

Example C25_case : match neigh_full 2 1 with Ok t => nth_error t 15 | Err _ => None end =
  Some [8; 9; -1; 10; 11; -1; -1; -1; -1; 12; 13; -1; 14; 15; -1; -1; -1; -1; -1; -1; -1; -1; -1; -1; -1; -1; -1].
Proof. vm_compute. reflexivity. Qed.

(** C26: rows and entries of get_neigh, stride 1: row r belongs to the r-th
    (non-empty) node; the entries count among the same nodes. *)
Theorem C26_get_neigh_stride1 : forall o d kernel ne, wf_octree o -> (d <= depth o)%nat -> has_neigh o d ->
  In kernel kernels ->
  exists ks t, octree_key o (Z.of_nat d) ne = Ok ks /\ get_neigh o d kernel 1 ne = Ok t /\
    table_correct d ks ks (box kernel) t.
Proof. exact thm_get_neigh. Qed.
Print Assumptions C26_get_neigh_stride1.

(** C26: stride 2: row r belongs to the first child of the r-th non-empty parent;
    the entries count among the (non-empty) nodes. *)
Theorem C26_get_neigh_stride2 : forall o d kernel ne, wf_octree o -> (S d <= depth o)%nat -> has_neigh o (S d) ->
  In kernel kernels ->
  exists ps ks t, octree_key o (Z.of_nat d) true = Ok ps /\ octree_key o (Z.of_nat (S d)) ne = Ok ks /\
    get_neigh o (S d) kernel 2 ne = Ok t /\
    table_correct (S d) (map first_kid ps) ks (box kernel) t.
Proof. exact thm_get_neigh2. Qed.
Print Assumptions C26_get_neigh_stride2.

Theorem C26_other_strides_rejected : forall o d kernel stride ne, wf_octree o -> (d <= depth o)%nat ->
  stride <> 1 -> stride <> 2 -> get_neigh o d kernel stride ne = Err ValueError.
Proof. exact thm_bad_stride. Qed.
Print Assumptions C26_other_strides_rejected.

Example C26_case : wf_octree ex_neigh /\ has_neigh ex_neigh 5 /\
  get_neigh ex_neigh 5 "222" 2 true = Ok [[0; -1; -1; -1; -1; -1; -1; -1]; [1; -1; -1; -1; -1; -1; 2; -1]] /\
  get_neigh ex_neigh 5 "313" 1 true = Ok [[-1; -1; -1; -1; 0; -1; -1; -1; -1]; [-1; -1; -1; -1; 1; -1; -1; -1; -1]; [-1; -1; -1; -1; 2; -1; -1; -1; -1]].
Proof. split; [apply ex_neigh_ok|]. split; [apply ex_neigh_ok; repeat constructor|]. vm_compute; auto. Qed.

(** C27: the box of each kernel string is used by C26; every other string is rejected. *)
Theorem C27_other_kernels_rejected : forall o d kernel stride ne, wf_octree o -> (1 <= d <= depth o)%nat ->
  has_neigh o d -> (stride = 1 \/ stride = 2) -> ~ In kernel kernels ->
  get_neigh o d kernel stride ne = Err ValueError.
Proof. exact thm_bad_kernel. Qed.
Print Assumptions C27_other_kernels_rejected.

Theorem C27_kernel_boxes : forall o d kernel ne, wf_octree o -> (d <= depth o)%nat -> has_neigh o d ->
  In kernel kernels ->
  exists ks t, octree_key o (Z.of_nat d) ne = Ok ks /\ get_neigh o d kernel 1 ne = Ok t /\
    table_correct d ks ks (box kernel) t.
Proof. exact thm_get_neigh. Qed.
Print Assumptions C27_kernel_boxes.

Example C27_case : box "222" = [(0,0,0); (0,0,1); (0,1,0); (0,1,1); (1,0,0); (1,0,1); (1,1,0); (1,1,1)] /\
  box "311" = [(-1,0,0); (0,0,0); (1,0,0)] /\ length (box "333") = 27%nat /\ length (box "331") = 9%nat /\
  ~ In "212"%string kernels.
Proof. repeat split; try reflexivity. intros H. cbn in H. intuition discriminate. Qed.

(** C72: with full_depth = 0 and no table stored for the root, construct_all_neigh always fails. *)
Theorem C72_root_only_always_fails : forall o, wf_octree o -> full_depth o = O -> (1 <= depth o)%nat ->
  (forall l, nth_error (layers o) 0 = Some l -> neighs l = None) -> construct_all_neigh o = Err TypeError.
Proof. exact thm_all_neigh_zero. Qed.
Print Assumptions C72_root_only_always_fails.

(** C72: so the unrestricted claim is false, already for a built octree. *)
Theorem C72_every_octree_refuted : exists o, wf_octree o /\ construct_all_neigh o = Err TypeError.
Proof. exists ex_built0. split; [exact ex_wf0|]. vm_compute. reflexivity. Qed.
Print Assumptions C72_every_octree_refuted.

(** C72: with a table for the root (as init_octree stores), it works for every full_depth. *)
Theorem C72_works_with_root_table : forall o, wf_octree o -> has_neigh o 0 ->
  exists o', construct_all_neigh o = Ok o' /\ same_data o o' /\ wf_octree o' /\
    forall d, (d <= depth o)%nat -> has_neigh o' d.
Proof. exact thm_all_neigh_root. Qed.
Print Assumptions C72_works_with_root_table.

Example C72_case : wf_octree ex_built0 /\ full_depth ex_built0 = O /\ depth ex_built0 = 3%nat /\
  (forall l, nth_error (layers ex_built0) 0 = Some l -> neighs l = None).
Proof. split; [exact ex_wf0|]. split; [reflexivity|]. split; [reflexivity|]. intros l H. vm_compute in H. injection H as <-. reflexivity. Qed.
