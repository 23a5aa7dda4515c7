(** Properties C69, C74 and C76: utilities. *)
From Coq Require Import String List ZArith Bool QArith Qcanon Permutation.
From Verif Require Import Res Tensor Num Points Octree NnBasic SpecNN WF Utils SpecUtils UtilsFacts KernelHist Examples ConvExamples.
Import ListNotations.
Open Scope Z_scope.

(** C69: in every history of layer constructions and forward calls, each constructor
    call has the outcome determined by the content its list was created with, and each
    layer keeps the kernel, the number of cells and the three sizes of that content. *)
Theorem C69_kernel_lists : forall h evs, let st := lrun h evs in let objs := objects h evs in
  (forall r out, In (r, out) (s_outcomes st) -> exists l0, nth_error objs r = Some l0 /\
     match three_sizes l0 with
     | Ok s => out = Ok (mkKlayer r (kernel_name s) (kernel_cells s))
     | Err e => out = Err e end) /\
  (forall k, In k (s_layers st) -> exists l0 a b c, nth_error objs (k_list k) = Some l0 /\ three_sizes l0 = Ok (a, b, c) /\
     k_kernel k = kernel_name (a, b, c) /\ k_dim k = a * b * c /\ nth_error (s_lists st) (k_list k) = Some [a; b; c]).
Proof. exact thm_kernel_history. Qed.
Print Assumptions C69_kernel_lists.

(** Two default arguments, a shared list, a group convolution, failing lists. *)
Example C69_case :
  let st := lrun [[3]; [3; 1]] [EMake 0; ENew [2]; EGroup 1 2; EMake 2; EMake 0; ERun 1; ENew [-1]; EMake 3; ENew [1; 1; 1; 1]; EMake 4; ENew []; EMake 5] in
  map k_kernel (s_layers st) = ["333"; "311"; "311"; "222"; "333"; "-1-1-1"]%string /\
  map k_dim (s_layers st) = [27; 3; 3; 8; 27; -1] /\
  s_lists st = [[3; 3; 3]; [3; 1; 1]; [2; 2; 2]; [-1; -1; -1]; [1; 1; 1; 1]; []] /\
  map (fun ro => match snd ro with Ok _ => None | Err e => Some e end) (s_outcomes st)
    = [None; None; None; None; None; None; None; Some AssertionError; Some IndexError].
Proof. vm_compute. auto. Qed.

(** C74: scatter_add along dimension 0 into a given tensor: every row of the source is
    added to the row named by its index and to no other, so the total is conserved and
    rows that are not named stay; the order of the source rows does not matter. *)
Theorem C74_scatter_rows : forall n m C src idx out dim ds, dim = 0 \/ dim = -2 -> shape n C src -> List.length idx = n -> shape m C out ->
  Forall (fun i => 0 <= i < Z.of_nat m) idx ->
  exists r, scatter_add2 C src idx dim (Some out) ds = Ok r /\ shape m C r /\
    (forall j c, (j < m)%nat -> (c < C)%nat -> at2 r j c = (at2 out j c +
       sum_n n (fun i => if (nth i idx 0 =? Z.of_nat j)%Z then at2 src i c else 0%Qc))%Qc) /\
    (forall j, ~ In (Z.of_nat j) idx -> nth_error r j = nth_error out j) /\
    (forall c, (c < C)%nat -> sum_n m (fun j => at2 r j c) = (sum_n m (fun j => at2 out j c) + sum_n n (fun i => at2 src i c))%Qc) /\
    (forall idx' src', List.length idx' = n -> List.length src' = n -> Permutation (combine idx src) (combine idx' src') ->
       scatter_add2 C src' idx' dim (Some out) ds = Ok r).
Proof. exact thm_scatter0. Qed.
Print Assumptions C74_scatter_rows.

(** C74: without a destination the result has just enough rows and the same total. *)
Theorem C74_scatter_total : forall n C src idx dim, dim = 0 \/ dim = -2 -> shape n C src -> List.length idx = n -> Forall (fun i => 0 <= i) idx ->
  exists m r, scatter_add2 C src idx dim None None = Ok r /\ shape m C r /\
    Forall (fun i => i < Z.of_nat m) idx /\ (m = O \/ In (Z.of_nat m - 1) idx) /\
    (forall j c, (j < m)%nat -> (c < C)%nat -> at2 r j c =
       sum_n n (fun i => if (nth i idx 0 =? Z.of_nat j)%Z then at2 src i c else 0%Qc)) /\
    (forall c, (c < C)%nat -> sum_n m (fun j => at2 r j c) = sum_n n (fun i => at2 src i c)).
Proof. exact thm_scatter0_total. Qed.
Print Assumptions C74_scatter_total.

(** C74: an index outside the destination is rejected. *)
Theorem C74_scatter_range : forall n m C src idx out dim ds, dim = 0 \/ dim = -2 -> shape n C src -> List.length idx = n -> shape m C out ->
  Exists (fun i => ~ (0 <= i < Z.of_nat m)) idx -> scatter_add2 C src idx dim (Some out) ds = Err RuntimeError.
Proof. exact thm_scatter_bad. Qed.
Print Assumptions C74_scatter_range.

(** C74: along dimension 1, columns instead of rows. *)
Theorem C74_scatter_columns : forall n m C src idx out dim ds, dim = 1 \/ dim = -1 -> shape n C src -> List.length idx = C -> shape n m out ->
  Forall (fun j => 0 <= j < Z.of_nat m) idx ->
  exists r, scatter_add2 C src idx dim (Some out) ds = Ok r /\ shape n m r /\
    forall i j, (i < n)%nat -> (j < m)%nat -> at2 r i j = (at2 out i j +
       sum_n C (fun k => if (nth k idx 0 =? Z.of_nat j)%Z then at2 src i k else 0%Qc))%Qc.
Proof. exact thm_scatter1. Qed.
Print Assumptions C74_scatter_columns.

(** C74: cumsum. *)
Theorem C74_cumsum : forall l, List.length (cumsum l false) = List.length l /\ List.length (cumsum l true) = S (List.length l) /\
  (forall j, (j <= List.length l)%nat -> nth j (cumsum l true) 0 = fold_right Z.add 0 (firstn j l)) /\
  (forall j, (j < List.length l)%nat -> nth j (cumsum l false) 0 = fold_right Z.add 0 (firstn (S j) l)).
Proof. exact thm_cumsum. Qed.
Print Assumptions C74_cumsum.

Theorem C74_cumsum_ends : forall l, nth 0 (cumsum l true) 7 = 0 /\ nth (List.length l) (cumsum l true) 0 = fold_right Z.add 0 l /\
  tl (cumsum l true) = cumsum l false.
Proof. exact thm_cumsum_ends. Qed.
Print Assumptions C74_cumsum_ends.

(** C74: along the second dimension, row by row. *)
Theorem C74_cumsum_rows : forall data exclusive, List.length (cumsum_rows data exclusive) = List.length data /\
  forall i r s, nth_error data i = Some r -> nth_error (cumsum_rows data exclusive) i = Some s ->
    List.length s = (List.length r + (if exclusive then 1 else 0))%nat /\
    forall j, (j < List.length s)%nat -> nth j s 0 = fold_right Z.add 0 (firstn (if exclusive then j else S j) r).
Proof. exact thm_cumsum_rows. Qed.
Print Assumptions C74_cumsum_rows.

Example C74_case : shape 3 2 (ramp 3 2) /\ shape 3 2 (ramp 3 2) /\
  nums (scatter_add2 2 (ramp 3 2) [2; 0; 2] 0 None None) = Ok [[2; 3]; [0; 0]; [4; 6]]%Q /\
  nums (scatter_add2 2 (ramp 3 2) [2; 0; 2] 0 (Some (ramp 3 2)) None) = Ok [[2; 4]; [2; 3]; [8; 11]]%Q /\
  nums (scatter_add2 2 (ramp 3 2) [1; 1] (-1) None (Some 3%nat)) = Ok [[0; 1; 0]; [0; 5; 0]; [0; 9; 0]]%Q /\
  nums (scatter_add2 2 (ramp 3 2) [2; -1; 2] 0 None None) = Err RuntimeError /\
  cumsum [3; 1; 4] true = [0; 3; 4; 8] /\ cumsum [3; 1; 4] false = [3; 4; 8].
Proof. split; [exact (ramp_shape 3 2)|]. split; [exact (ramp_shape 3 2)|]. vm_compute. auto 10. Qed.

(** C76: the example octree is well-formed for every admissible argument; it is the
    octree built from the first points of the example cloud. *)
Theorem C76_example_octree : forall normalize dep full n, (full <= dep)%nat -> (dep <= 16)%nat -> (1 <= n <= 3)%nat ->
  exists o, build_example_octree normalize dep full n = Ok o /\ wf_octree o /\ depth o = dep /\ full_depth o = full /\ batch_size o = 1%nat /\
    exists idx, build_octree normalize (octree_new dep full 1 0) (mkPoints
      (firstn n [(qz (-1), qz (-1), qz (-1)); (qz 0, qz 0, qz (-1)); (Q2Qc (1 # 16), Q2Qc (1 # 16), qz (-1))])
      (Some (firstn n [(qz 1, qz 0, qz 0); (qz (-1), qz 0, qz 0); (qz 0, qz 1, qz 0)]))
      (Some (firstn n [[qz 1; qz (-1)]; [qz 2; qz (-2)]; [qz 3; qz (-3)]])) (Some (firstn n [[qz 0]; [qz 2]; [qz 2]])) None 1 None 0) = Ok (o, idx).
Proof. exact thm_example. Qed.
Print Assumptions C76_example_octree.

(** C76: any other number of points is rejected. *)
Theorem C76_other_counts : forall normalize dep full n, ~ (1 <= n <= 3)%nat -> build_example_octree normalize dep full n = Err AssertionError.
Proof. exact thm_example_bad. Qed.
Print Assumptions C76_other_counts.

Example C76_case : match build_example_octree ex_norm 5 2 3 with
  | Ok o => map nnum (layers o) = [1; 8; 64; 16; 16; 16] /\ map nnum_nempty (layers o) = [1; 8; 2; 2; 2; 3]
  | Err _ => False end /\ build_example_octree ex_norm 5 2 0 = Err AssertionError.
Proof. vm_compute. auto. Qed.
