(** Properties C42-C49: pooling, normalisation, drop path. *)
From Coq Require Import String List ZArith Bool QArith Qcanon Reals.
From Verif Require Import Res Tensor Num Points Octree NnBasic NnNorm Spec SpecGeo SpecBuild SpecNeigh SpecMerge SpecGrow SpecNN SpecNorm WF
  PoolFacts Unpool Finite AvgPool GlobalPool NormFacts NormStats DropFacts
  Examples ExampleFacts MergeExamples ConvExamples PoolExamples.
Import ListNotations.
Open Scope Z_scope.

(** C42: pooling takes the maximum over the children; the indices name the first
    child that attains it; empty parents get zero. *)
Theorem C42_max_pool : forall o d ne C x, wf_octree o -> (S d <= depth o)%nat -> shape (node_count o (S d) ne) C x ->
  exists qs ps cs out idx, octree_xyzb o d true = Ok qs /\ octree_xyzb o d ne = Ok ps /\ octree_xyzb o (S d) ne = Ok cs /\
    octree_max_pool C x o (S d) ne = Ok (out, idx) /\
    shape (List.length ps) C out /\ shape (List.length qs) C idx /\
    forall i p, nth_error ps i = Some p ->
      (forall r c, nth_error qs r = Some p -> (c < C)%nat ->
         max_over_children x cs p c (entry2 None out i c) (entry2 0 idx r c)) /\
      (~ In p qs -> forall c, (c < C)%nat -> entry2 None out i c = Some 0%Qc).
Proof. exact thm_max_pool. Qed.
Print Assumptions C42_max_pool.

Example C42_case : wf_octree ex_built /\ (2 <= depth ex_built)%nat /\ shape (node_count ex_built 2 false) 1 (ramp 16 1) /\
  match octree_max_pool 1 (ramp 16 1) ex_built 2 false with
  | Ok (out, idx) => map (map (option_map this)) out =
       map (fun q => [Some q]) [7; 0; 0; 0; 0; 0; 15; 0]%Q /\ idx = [[7]; [7]]
  | Err _ => False end.
Proof. split; [exact ex_wf|]. split; [vm_compute; auto|]. split; [exact (ramp_shape 16 1)|]. vm_compute. auto. Qed.

(** C43: unpooling puts a value at the recorded child, zero at the other children. *)
Theorem C43_unpool : forall o d ne C y idx, wf_octree o -> (S d <= depth o)%nat -> shape (node_count o d ne) C y ->
  shape (node_count o d true) C idx -> Forall (Forall (fun s => 0 <= s < 8)) idx ->
  exists qs ps cs u, octree_xyzb o d true = Ok qs /\ octree_xyzb o d ne = Ok ps /\ octree_xyzb o (S d) ne = Ok cs /\
    octree_max_unpool y idx o d ne = Ok u /\ shape (List.length cs) C u /\ (forall p, In p qs -> In p ps) /\
    forall j q, nth_error cs j = Some q -> In (parent_cell q) qs /\
      forall i r c, nth_error ps i = Some (parent_cell q) -> nth_error qs r = Some (parent_cell q) -> (c < C)%nat ->
        at2 u j c = if child_no q =? entry2 0 idx r c then at2 y i c else 0%Qc.
Proof. exact thm_unpool. Qed.
Print Assumptions C43_unpool.

(** C43: with indices recorded by a pooling, pooling an unpooled non-negative tensor
    gives it back, and the recorded index wherever the value is positive. *)
Theorem C43_round_trip : forall o d ne C x px idx y, wf_octree o -> (S d <= depth o)%nat ->
  shape (node_count o (S d) ne) C x -> octree_max_pool C x o (S d) ne = Ok (px, idx) -> finite px ->
  shape (node_count o d ne) C y ->
  (forall i c, (i < node_count o d ne)%nat -> (c < C)%nat -> (0 <= at2 y i c)%Qc) ->
  (forall flags i c, ne = false -> nempty_mask o (Z.of_nat d) = Ok flags -> nth_error flags i = Some false -> at2 y i c = 0%Qc) ->
  exists u idx', octree_max_unpool y idx o d ne = Ok u /\
    octree_max_pool C u o (S d) ne = Ok (map (map (@Some Qc)) y, idx') /\
    forall qs ps i r c, octree_xyzb o d true = Ok qs -> octree_xyzb o d ne = Ok ps -> (i < List.length ps)%nat ->
      nth_error qs r = nth_error ps i -> (c < C)%nat -> (0 < at2 y i c)%Qc -> entry2 0 idx' r c = entry2 0 idx r c.
Proof. exact thm_pool_unpool. Qed.
Print Assumptions C43_round_trip.

Example C43_case : wf_octree ex_built /\ (5 <= depth ex_built)%nat /\ shape (node_count ex_built 5 true) 2 (ramp 3 2) /\
  shape (node_count ex_built 4 true) 2 (ramp 2 2) /\
  match octree_max_pool 2 (ramp 3 2) ex_built 5 true with
  | Ok (px, idx) => finiteb px = true /\ nums (octree_max_unpool (ramp 2 2) idx ex_built 4 true) = Ok [[0; 1]; [0; 0]; [2; 3]]%Q
  | Err _ => False end.
Proof. split; [exact ex_wf|]. split; [vm_compute; auto|]. split; [exact (ramp_shape 3 2)|]. split; [exact (ramp_shape 2 2)|]. vm_compute. auto. Qed.

(** C44: pooling of non-empty nodes is finite exactly if every non-empty parent has
    a non-empty child. *)
Theorem C44_finite_iff_branching : forall o d C x out idx, wf_octree o -> (S d <= depth o)%nat ->
  shape (node_count o (S d) true) C x -> (0 < C)%nat -> octree_max_pool C x o (S d) true = Ok (out, idx) ->
  (finite out <-> branching o d).
Proof. exact thm_finite. Qed.
Print Assumptions C44_finite_iff_branching.

(** C44: this holds in an octree built from points, except for pooling layer full_depth. *)
Theorem C44_built_partial : forall normalize o pc o' idx d, build_input o pc -> build_octree normalize o pc = Ok (o', idx) ->
  (S d <= depth o)%nat -> S d <> full_depth o -> branching o' d.
Proof. exact thm_built_branching. Qed.
Print Assumptions C44_built_partial.

(** C44: and merging keeps it. *)
Theorem C44_merged_partial : forall o0 os o d, mergeable o0 os -> merge_octrees os = Ok o -> (S d <= depth o0)%nat ->
  Forall (fun oi => branching oi d) os -> branching o d.
Proof. exact thm_merged_branching. Qed.
Print Assumptions C44_merged_partial.

(** C44: refuted at layer full_depth of a built octree. *)
Theorem C44_built_refuted : exists normalize o pc o' idx d C x out arg, build_input o pc /\
  build_octree normalize o pc = Ok (o', idx) /\ (S d <= depth o)%nat /\ shape (node_count o' (S d) true) C x /\
  octree_max_pool C x o' (S d) true = Ok (out, arg) /\ ~ finite out.
Proof. exact ex_refuted_built. Qed.
Print Assumptions C44_built_refuted.

(** C44: refuted for an octree made by octree_split and octree_grow. *)
Theorem C44_grown_refuted : exists dep full bs dev o L d C x out arg, history dep full bs dev o L /\
  (S d <= L)%nat /\ (S d <= dep)%nat /\ shape (node_count o (S d) true) C x /\
  octree_max_pool C x o (S d) true = Ok (out, arg) /\ ~ finite out.
Proof. exact ex_refuted_grown. Qed.
Print Assumptions C44_grown_refuted.

Example C44_case : build_input ex_octree2 ex_batch /\ full_depth ex_octree2 = 2%nat /\ branching ex_built2 2 /\
  mergeable ex_m0 ex_ms.
Proof.
  split; [exact ex_input2|]. split; [reflexivity|]. split; [|exact ex_mergeable].
  destruct (BuildThms.thm_build_wf ex_norm _ _ ex_input2) as (o' & idx & E & _).
  assert (Eo : o' = ex_built2) by (unfold ex_built2; rewrite E; reflexivity). subst o'.
  apply (C44_built_partial ex_norm _ _ _ _ 2 ex_input2 E); [vm_compute; auto|discriminate].
Qed.

(** C45: average pooling. *)
Theorem C45_avg_pool : forall o d kernel stride ne C x, conv_ready o d kernel stride -> shape (node_count o d ne) C x ->
  exists t y, get_neigh o d kernel stride ne = Ok t /\ octree_avg_pool C x o d kernel stride ne = Ok y /\
    List.length t = out_count o d stride ne /\ shape (List.length t) C y /\
    forall r c, (r < List.length t)%nat -> (c < C)%nat ->
      at2 y r c = (sum_n (List.length (box kernel)) (fun k => at_row x (entry t r k) c)
                   / (qz (neighbour_count t r) + / qz 100000000))%Qc /\
      (neighbour_count t r = 0 -> at2 y r c = 0%Qc) /\
      forall lo hi, (lo <= 0)%Qc -> (0 <= hi)%Qc ->
        (forall k, (k < List.length (box kernel))%nat -> 0 <= entry t r k ->
           (lo <= at_row x (entry t r k) c)%Qc /\ (at_row x (entry t r k) c <= hi)%Qc) ->
        (lo <= at2 y r c)%Qc /\ (at2 y r c <= hi)%Qc.
Proof. exact thm_avg_pool. Qed.
Print Assumptions C45_avg_pool.

Example C45_case : conv_ready ex_neigh 5 "333" 1 /\ shape (node_count ex_neigh 5 true) 1 (ramp 3 1) /\
  match get_neigh ex_neigh 5 "333" 1 true, octree_avg_pool 1 (ramp 3 1) ex_neigh 5 "333" 1 true with
  | Ok t, Ok y => map (fun r => neighbour_count t r) [0%nat; 1%nat; 2%nat] = [1; 2; 2] /\
      map (map this) y = [[0%Q]; [(100000000 # 66666667)%Q]; [(100000000 # 66666667)%Q]]
  | _, _ => False end.
Proof. split; [apply ex_conv_ready; [repeat constructor|left; reflexivity|left; reflexivity]|]. split; [exact (ramp_shape 3 1)|]. vm_compute. auto. Qed.

(** C46: with stride 2 and nempty = False the result has one row per non-empty
    coarse node, so the claim holds exactly if the coarse layer has no empty node. *)
Theorem C46_avg_height_partial : forall o d kernel C x, conv_ready o (S d) kernel 2 -> shape (node_count o (S d) false) C x ->
  exists y, octree_avg_pool C x o (S d) kernel 2 false = Ok y /\ List.length y = node_count o d true /\
    (List.length y = node_count o d false <-> forall flags, nempty_mask o (Z.of_nat d) = Ok flags -> ~ In false flags).
Proof. exact thm_avg_height. Qed.
Print Assumptions C46_avg_height_partial.

(** C46: refuted: 24 fine nodes, 128 coarse nodes, 3 rows. *)
Theorem C46_avg_height_refuted : exists o d kernel C x y, conv_ready o (S d) kernel 2 /\ shape (node_count o (S d) false) C x /\
  octree_avg_pool C x o (S d) kernel 2 false = Ok y /\ List.length y <> node_count o d false.
Proof. exact ex_refuted_height. Qed.
Print Assumptions C46_avg_height_refuted.

(** C47: global pooling is the mean of the rows of each sample. *)
Theorem C47_global_pool : forall o d ne C x, wf_octree o -> (d <= depth o)%nat -> shape (node_count o d ne) C x ->
  exists cs y, octree_xyzb o d ne = Ok cs /\ octree_global_pool C x o d ne = Ok y /\ List.length y = batch_size o /\
    forall b v, nth_error y b = Some v ->
      let rows := rows_at (samples cs) (Z.of_nat b) x in
      (rows = [] -> v = vzero C) /\ (rows <> [] -> v = meanv C rows).
Proof. exact thm_global_pool. Qed.
Print Assumptions C47_global_pool.

(** C47: on a merged octree it stacks the results of the members. *)
Theorem C47_merged : forall o0 os o d ne C xs, mergeable o0 os -> merge_octrees os = Ok o -> (d <= depth o0)%nat ->
  Forall2 (fun oi x => shape (node_count oi d ne) C x) os xs ->
  exists ys, mapM (fun ox => octree_global_pool C (snd ox) (fst ox) d ne) (combine os xs) = Ok ys /\
    octree_global_pool C (concat xs) o d ne = Ok (concat ys).
Proof. exact thm_merge_global. Qed.
Print Assumptions C47_merged.

Example C47_case : wf_octree ex_built2 /\ shape (node_count ex_built2 3 true) 1 (ramp 3 1) /\
  nums (octree_global_pool 1 (ramp 3 1) ex_built2 3 true) = Ok [[(1 # 2)%Q]; [2%Q]] /\
  mergeable ex_m0 ex_ms /\
  match merge_octrees ex_ms with
  | Ok o => nums (octree_global_pool 1 (ramp 4 1) o 4 true) = Ok [[(1 # 2)%Q]; [0%Q]; [(5 # 2)%Q]]
  | Err _ => False end.
Proof.
  split; [exact ex_wf2|]. split; [exact (ramp_shape 3 1)|]. split; [vm_compute; reflexivity|].
  split; [exact ex_mergeable|]. vm_compute. reflexivity.
Qed.

(** C48: the rows of a sample are normalised by group with the statistics of the
    rows of that sample. *)
Theorem C48_group_norm : forall o d ne C g k w bias x, wf_octree o -> (d <= depth o)%nat ->
  C = (g * k)%nat -> (0 < g)%nat -> shape (node_count o d ne) C x -> List.length w = C -> List.length bias = C ->
  exists cs y, octree_xyzb o d ne = Ok cs /\ group_norm C g w bias x o d ne = Ok y /\ List.length y = List.length x /\
    forall b, rows_at (samples cs) b y = norm_rows (/ 100000) C k w bias (rows_at (samples cs) b x).
Proof. exact thm_group_norm. Qed.
Print Assumptions C48_group_norm.

(** C48: so it depends on the features of that sample only. *)
Theorem C48_per_sample : forall o d ne C g w bias x x' y y' cs b, wf_octree o -> (d <= depth o)%nat ->
  (C mod g = 0)%nat -> (0 < g)%nat -> shape (node_count o d ne) C x -> shape (node_count o d ne) C x' ->
  List.length w = C -> List.length bias = C -> octree_xyzb o d ne = Ok cs ->
  rows_at (samples cs) b x = rows_at (samples cs) b x' ->
  group_norm C g w bias x o d ne = Ok y -> group_norm C g w bias x' o d ne = Ok y' ->
  rows_at (samples cs) b y = rows_at (samples cs) b y'.
Proof. exact thm_norm_local. Qed.
Print Assumptions C48_per_sample.

(** C48: with weights 1 and bias 0 the values of each group and sample have a sum of
    at most sqrt eps * |mean| and a sum of squares of (n + eps) * var / (var + eps). *)
Theorem C48_statistics : forall o d ne C g k x, wf_octree o -> (d <= depth o)%nat ->
  C = (g * k)%nat -> (0 < g)%nat -> shape (node_count o d ne) C x ->
  exists cs y, octree_xyzb o d ne = Ok cs /\ group_norm C g (repeat 1%R C) (repeat 0%R C) x o d ne = Ok y /\
    forall b G, (G < g)%nat ->
      let before := group_values k G (rows_at (samples cs) b x) in
      let after := group_values k G (rows_at (samples cs) b y) in
      List.length after = List.length before /\
      (Rabs (sumR after) <= sqrt (/ 100000) * Rabs (mean_eps (/ 100000) before))%R /\
      (0 <= var_eps (/ 100000) before)%R /\
      sumR (map (fun v => v ^ 2)%R after) =
        ((INR (List.length before) + / 100000) * (var_eps (/ 100000) before / (var_eps (/ 100000) before + / 100000)))%R /\
      (sumR (map (fun v => v ^ 2)%R after) <= INR (List.length before) + / 100000)%R.
Proof. exact thm_norm_stats. Qed.
Print Assumptions C48_statistics.

(** C48: instance normalisation has one channel per group. *)
Theorem C48_instance_norm : forall o d ne C w bias x, wf_octree o -> (d <= depth o)%nat -> (0 < C)%nat ->
  shape (node_count o d ne) C x -> List.length w = C -> List.length bias = C ->
  exists cs y, octree_xyzb o d ne = Ok cs /\ instance_norm C w bias x o d ne = Ok y /\ List.length y = List.length x /\
    forall b, rows_at (samples cs) b y = norm_rows (/ 100000) C 1 w bias (rows_at (samples cs) b x).
Proof. exact thm_instance_norm. Qed.
Print Assumptions C48_instance_norm.

Example C48_case : wf_octree ex_built2 /\ (3 <= depth ex_built2)%nat /\
  shape (node_count ex_built2 3 true) 4 [[1; 2; 3; 4]; [0; 0; 0; 0]; [5; 6; 7; 8]]%R /\
  match octree_xyzb ex_built2 3 true with
  | Ok cs => samples cs = [0; 0; 1] | Err _ => False end.
Proof. split; [exact ex_wf2|]. split; [vm_compute; auto|]. split; [split; [vm_compute; reflexivity|repeat constructor]|]. vm_compute. reflexivity. Qed.

(** C49: in training every row of a sample is multiplied by the factor drawn for the
    sample. *)
Theorem C49_drop_path : forall o d ne p scale rnd C x, wf_octree o -> (d <= depth o)%nat -> (0 < p)%Qc -> (p <= 1)%Qc ->
  List.length rnd = batch_size o -> Forall (fun r => (0 <= r)%Qc /\ (r < 1)%Qc) rnd -> shape (node_count o d ne) C x ->
  exists cs y, octree_xyzb o d ne = Ok cs /\ drop_path p scale true ne rnd x o d None = Ok y /\ shape (node_count o d ne) C y /\
    forall i b c, nth_error (samples cs) i = Some b ->
      at2 y i c = (at2 x i c * drop_factor p scale (nth (Z.to_nat b) rnd 0%Qc))%Qc.
Proof. exact thm_drop. Qed.
Print Assumptions C49_drop_path.

(** C49: the same with batch indices given by the caller. *)
Theorem C49_given_batch_id : forall p scale ne rnd C x o d bid, (0 < p)%Qc -> (p <= 1)%Qc ->
  Forall (fun r => (0 <= r)%Qc /\ (r < 1)%Qc) rnd -> shape (List.length bid) C x ->
  Forall (fun b => 0 <= b < Z.of_nat (List.length rnd)) bid ->
  exists y, drop_path p scale true ne rnd x o d (Some bid) = Ok y /\ shape (List.length bid) C y /\
    forall i b c, nth_error bid i = Some b -> at2 y i c = (at2 x i c * drop_factor p scale (nth (Z.to_nat b) rnd 0%Qc))%Qc.
Proof. exact thm_drop_given. Qed.
Print Assumptions C49_given_batch_id.

(** C49: identity outside training and for drop_prob <= 0. *)
Theorem C49_identity : forall p scale training ne rnd x o d bo, (p <= 0)%Qc \/ training = false ->
  drop_path p scale training ne rnd x o d bo = Ok x.
Proof. exact thm_drop_identity. Qed.
Print Assumptions C49_identity.

(** C49: drop_prob = 1 drops every sample. *)
Theorem C49_all_dropped : forall scale r, (r < 1)%Qc -> drop_factor 1 scale r = 0%Qc.
Proof. exact drop_all. Qed.
Print Assumptions C49_all_dropped.

Example C49_case : wf_octree ex_built2 /\ shape (node_count ex_built2 3 true) 1 (ramp 3 1) /\
  nums (drop_path (Q2Qc (1 # 2)) true true true [Q2Qc (1 # 2); Q2Qc (1 # 4)] (ramp 3 1) ex_built2 3 None) = Ok [[0]; [2]; [0]]%Q.
Proof. split; [exact ex_wf2|]. split; [exact (ramp_shape 3 1)|]. vm_compute. reflexivity. Qed.
