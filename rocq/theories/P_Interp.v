(** Properties C51-C57: interpolation, upsampling, alignment. *)
From Coq Require Import String List ZArith Bool QArith Qcanon.
From Verif Require Import Res Tensor Num Points Octree NnBasic NnInterp Spec SpecNN SpecInterp WF
  InterpFacts UpsampleFacts LinearFacts LinearThms Examples ExampleFacts ConvExamples InterpExamples LinearUpsample.
Import ListNotations.
Open Scope Z_scope.

(** C51: a point in range gets the feature of the node whose cell contains it, zero
    when there is none; with the bound check points out of range get zero. *)
Theorem C51_nearest : forall o d ne bc C data pts, wf_octree o -> (d <= depth o)%nat ->
  shape (node_count o d ne) C data -> Forall (fun p => -32768 <= snd p < 32768) pts ->
  exists cs y, octree_xyzb o d ne = Ok cs /\ octree_nearest_pts C data o d pts ne bc = Ok y /\ shape (List.length pts) C y /\
    forall i p b, nth_error pts i = Some (p, b) ->
      (in_range d p -> (forall j, nth_error cs j = Some (cell_at p b) -> nth_error y i = nth_error data j) /\
                       (~ In (cell_at p b) cs -> nth_error y i = Some (vzero C))) /\
      (~ in_range d p -> bc = true -> nth_error y i = Some (vzero C)).
Proof. exact thm_nearest. Qed.
Print Assumptions C51_nearest.

Example C51_case : wf_octree ex_built /\ (5 <= depth ex_built)%nat /\ shape (node_count ex_built 5 true) 2 (ramp 3 2) /\
  Forall (fun p : qpoint => -32768 <= snd p < 32768) ex_pts /\
  nums (octree_nearest_pts 2 (ramp 3 2) ex_built 5 ex_pts true true) = Ok [[0; 1]; [2; 3]; [0; 0]; [0; 0]]%Q.
Proof. split; [exact ex_wf|]. split; [vm_compute; auto|]. split; [exact (ramp_shape 3 2)|]. split; [repeat constructor; vm_compute; congruence|]. vm_compute. reflexivity. Qed.

(** C52: every child gets its parent's feature, which is nearest interpolation at the
    children's centres. *)
Theorem C52_nearest_upsample : forall o d ne C data, wf_octree o -> (S d <= depth o)%nat -> shape (node_count o d ne) C data ->
  exists ps cs u, octree_xyzb o d ne = Ok ps /\ octree_xyzb o (S d) ne = Ok cs /\
    octree_nearest_upsample data o d ne = Ok u /\ shape (node_count o (S d) ne) C u /\
    (forall j q, nth_error cs j = Some q -> exists i, nth_error ps i = Some (parent_cell q) /\ nth_error u j = nth_error data i) /\
    forall bc, octree_nearest_pts C data o d (map (centre 1) cs) ne bc = Ok u.
Proof. exact thm_nearest_upsample. Qed.
Print Assumptions C52_nearest_upsample.

Example C52_case : wf_octree ex_built /\ (5 <= depth ex_built)%nat /\ shape (node_count ex_built 4 true) 1 (ramp 2 1) /\
  nums (octree_nearest_upsample (ramp 2 1) ex_built 4 true) = Ok [[0]; [1]; [1]]%Q /\
  shape (node_count ex_built 1 false) 1 (ramp 8 1) /\
  nums (octree_nearest_upsample (ramp 8 1) ex_built 1 false) = Ok (map (fun q => [q]) [0; 0; 0; 0; 0; 0; 0; 0; 6; 6; 6; 6; 6; 6; 6; 6]%Q).
Proof. split; [exact ex_wf|]. split; [vm_compute; auto|]. split; [exact (ramp_shape 2 1)|]. split; [vm_compute; reflexivity|]. split; [exact (ramp_shape 8 1)|]. vm_compute. reflexivity. Qed.

(** C53: upsampling to any deeper layer copies the ancestor's feature; the same layer
    is the identity, a coarser one is rejected, no layer means the next one. *)
Theorem C53_upsample : forall o d t ne C data, wf_octree o -> (d <= t <= depth o)%nat -> shape (node_count o d ne) C data ->
  exists ps cs u, octree_xyzb o d ne = Ok ps /\ octree_xyzb o t ne = Ok cs /\
    octree_upsample "nearest" ne C data o d (Some t) = Ok u /\ shape (node_count o t ne) C u /\
    forall j q, nth_error cs j = Some q -> exists i, nth_error ps i = Some (ancestor (t - d) q) /\ nth_error u j = nth_error data i.
Proof. exact thm_upsample. Qed.
Print Assumptions C53_upsample.
Theorem C53_same_layer : forall method o d ne C data, octree_upsample method ne C data o d (Some d) = Ok data.
Proof. exact thm_upsample_same. Qed.
Print Assumptions C53_same_layer.
Theorem C53_coarser_rejected : forall method o d t ne C data, (t < d)%nat -> octree_upsample method ne C data o d (Some t) = Err AssertionError.
Proof. exact thm_upsample_less. Qed.
Print Assumptions C53_coarser_rejected.
Theorem C53_default_target : forall method o d ne C data,
  octree_upsample method ne C data o d None = octree_upsample method ne C data o d (Some (S d)).
Proof. exact thm_upsample_default. Qed.
Print Assumptions C53_default_target.

Example C53_case : wf_octree ex_built /\ (1 <= 5 <= depth ex_built)%nat /\ shape (node_count ex_built 1 true) 1 (ramp 2 1) /\
  nums (octree_upsample "nearest" true 1 (ramp 2 1) ex_built 1 (Some 5%nat)) = Ok [[0]; [1]; [1]]%Q.
Proof. split; [exact ex_wf|]. split; [vm_compute; repeat constructor|]. split; [exact (ramp_shape 2 1)|]. vm_compute. reflexivity. Qed.

(** C54: with the bound check the result is the sum of the features weighted by the
    trilinear weights of the existing cells of the same batch element, divided by the
    sum of the weights plus 1e-12. *)
Theorem C54_linear : forall o d ne C data pts, wf_octree o -> (d <= depth o)%nat ->
  shape (node_count o d ne) C data -> Forall (fun p => -32768 <= snd p < 32768) pts ->
  exists cs y, octree_xyzb o d ne = Ok cs /\ octree_linear_pts C data o d pts ne true = Ok y /\ shape (List.length pts) C y /\
    forall i p b c, nth_error pts i = Some (p, b) -> (c < C)%nat ->
      at2 y i c = (weighted_sum cs data c p b / (weight_sum cs p b + tiny))%Qc.
Proof. exact thm_linear. Qed.
Print Assumptions C54_linear.
(** C54: zero without contributing cells; otherwise a value between any bounds of the
    contributing features, times W/(W+1e-12); constants come back times that factor;
    at the centre of a cell the cell's feature over 1+1e-12. *)
Theorem C54_convex : forall o d ne C data pts, wf_octree o -> (d <= depth o)%nat ->
  shape (node_count o d ne) C data -> Forall (fun p => -32768 <= snd p < 32768) pts ->
  exists cs y, octree_xyzb o d ne = Ok cs /\ octree_linear_pts C data o d pts ne true = Ok y /\ shape (List.length pts) C y /\
    forall i p b c, nth_error pts i = Some (p, b) -> (c < C)%nat ->
      let W := weight_sum cs p b in
      ((forall q, In q cs -> trilinear p b q = 0%Qc) -> at2 y i c = 0%Qc) /\
      (forall q0, In q0 cs -> (0 < trilinear p b q0)%Qc ->
         exists m, at2 y i c = (m * (W / (W + tiny)))%Qc /\
           forall lo hi,
             (forall j q, nth_error cs j = Some q -> (0 < trilinear p b q)%Qc -> (lo <= at2 data j c)%Qc /\ (at2 data j c <= hi)%Qc) ->
             (lo <= m)%Qc /\ (m <= hi)%Qc) /\
      (forall v, (forall j q, nth_error cs j = Some q -> (0 < trilinear p b q)%Qc -> at2 data j c = v) ->
         at2 y i c = (v * (W / (W + tiny)))%Qc) /\
      (forall j q, nth_error cs j = Some q -> centre 0 q = (p, b) -> at2 y i c = (at2 data j c / (1 + tiny))%Qc).
Proof. exact thm_linear_props. Qed.
Print Assumptions C54_convex.

Example C54_case : wf_octree ex_built2 /\ (2 <= depth ex_built2)%nat /\ shape (node_count ex_built2 2 false) 1 ex_ind /\
  Forall (fun p : qpoint => -32768 <= snd p < 32768) [((Q2Qc (13 # 4), qhalf, qhalf), 0)] /\
  nums (octree_linear_pts 1 ex_ind ex_built2 2 [((Q2Qc (13 # 4), qhalf, qhalf), 0)] false true) = Ok [[750000000000 # 1000000000001]]%Q.
Proof.
  split; [exact ex_wf2|]. split; [vm_compute; auto|]. split; [|split; [repeat constructor; vm_compute; congruence|vm_compute; reflexivity]].
  replace (node_count ex_built2 2 false) with 128%nat by (vm_compute; reflexivity). apply ones_shape; vm_compute; reflexivity.
Qed.

(** C55: without the bound check, points half a cell away from the border get the same
    value ... *)
Theorem C55_interior_partial : forall o d ne C data pts, wf_octree o -> (d <= depth o)%nat ->
  shape (node_count o d ne) C data -> Forall (fun p => -32768 <= snd p < 32768) pts ->
  exists cs y, octree_xyzb o d ne = Ok cs /\ octree_linear_pts C data o d pts ne false = Ok y /\ shape (List.length pts) C y /\
    forall i p b c, nth_error pts i = Some (p, b) -> interior d p -> (c < C)%nat ->
      at2 y i c = (weighted_sum cs data c p b / (weight_sum cs p b + tiny))%Qc.
Proof. exact thm_linear_interior. Qed.
Print Assumptions C55_interior_partial.
(** ... but near the border the result depends on cells that are not adjacent: two
    feature tensors that agree on every cell of positive weight give different values. *)
Theorem C55_border_refuted : exists o d ne C data data' pts y y' cs i p b c,
  wf_octree o /\ (d <= depth o)%nat /\ shape (node_count o d ne) C data /\ shape (node_count o d ne) C data' /\
  octree_xyzb o d ne = Ok cs /\
  octree_linear_pts C data o d pts ne false = Ok y /\ octree_linear_pts C data' o d pts ne false = Ok y' /\
  nth_error pts i = Some (p, b) /\ in_range d p /\ 0 <= b < Z.of_nat (batch_size o) /\ (c < C)%nat /\
  (forall j q, nth_error cs j = Some q -> (0 < trilinear p b q)%Qc -> at2 data j c = at2 data' j c) /\
  at2 y i c <> at2 y' i c.
Proof. exact ex_wrap. Qed.
Print Assumptions C55_border_refuted.

Example C55_case : interior 2 (Q2Qc (13 # 4), qhalf, qhalf) /\
  nums (octree_linear_pts 1 ex_ind ex_built2 2 [((Q2Qc (13 # 4), qhalf, qhalf), 0)] false false) = Ok [[750000000000 # 1000000000001]]%Q.
Proof. split; [vm_compute; repeat split; discriminate|]. vm_compute. reflexivity. Qed.

(** C55: OctreeUpsample(method='linear') interpolates at the centres of the nodes of the
    target layer; it does not check bounds either: right away from the border ... *)
Theorem C55_upsample_partial : forall o d t ne C data, wf_octree o -> (d < t <= depth o)%nat -> shape (node_count o d ne) C data ->
  exists ps cs u, octree_xyzb o d ne = Ok ps /\ octree_xyzb o t ne = Ok cs /\
    octree_upsample "linear" ne C data o d (Some t) = Ok u /\ shape (node_count o t ne) C u /\
    forall j q c, nth_error cs j = Some q -> (c < C)%nat ->
      let '(p, b) := centre (t - d) q in
      interior d p -> at2 u j c = (weighted_sum ps data c p b / (weight_sum ps p b + tiny))%Qc.
Proof. exact thm_upsample_linear. Qed.
Print Assumptions C55_upsample_partial.
(** ... and next to the border it uses cells that are not adjacent. *)
Theorem C55_upsample_refuted : exists o d t ne C data data' ps cs u u' j q c,
  wf_octree o /\ (d < t <= depth o)%nat /\ shape (node_count o d ne) C data /\ shape (node_count o d ne) C data' /\
  octree_xyzb o d ne = Ok ps /\ octree_xyzb o t ne = Ok cs /\
  octree_upsample "linear" ne C data o d (Some t) = Ok u /\ octree_upsample "linear" ne C data' o d (Some t) = Ok u' /\
  nth_error cs j = Some q /\ (c < C)%nat /\
  (forall i r, nth_error ps i = Some r -> (0 < trilinear (fst (centre (t - d) q)) (snd (centre (t - d) q)) r)%Qc -> at2 data i c = at2 data' i c) /\
  at2 u j c <> at2 u' j c.
Proof. exact ex_up_wrap. Qed.
Print Assumptions C55_upsample_refuted.
Example C55_upsample_case : wf_octree ex_built2 /\ (2 < 3 <= depth ex_built2)%nat /\ shape (node_count ex_built2 2 false) 1 ex_ind /\
  nth_error (ex_cells ex_built2 3 false) 12 = Some (5, 2, 6, 0) /\ interior 2 (fst (centre (3 - 2) (5, 2, 6, 0))).
Proof.
  split; [exact ex_wf2|]. split; [vm_compute; repeat constructor|]. split.
  { replace (node_count ex_built2 2 false) with 128%nat by (vm_compute; reflexivity). apply ones_shape; vm_compute; reflexivity. }
  split; [vm_compute; reflexivity|]. vm_compute. repeat split; discriminate.
Qed.

(** C56: with rescale_pts=False any sequence of calls on one tensor behaves as if each
    had its own copy of it ... *)
Theorem C56_reuse_partial : forall calls pts k out, nth_error (interp_calls false calls pts) k = Some (Ok out) ->
  exists c, nth_error calls k = Some c /\ icall_run false c pts = Ok (out, pts).
Proof. exact thm_interp_calls. Qed.
Print Assumptions C56_reuse_partial.
(** ... with the default rescale_pts=True every successful call changes a tensor whose
    points lie in [-1, 1] ... *)
Theorem C56_tensor_changes : forall linear ne bc C data o d pts out pts', (1 <= d)%nat -> pts <> [] ->
  Forall (fun p => (- (1) <= fst (fst (fst p)))%Qc) pts ->
  interp_forward linear ne bc true C data o d pts = Ok (out, pts') -> pts' <> pts.
Proof. exact thm_interp_changes. Qed.
Print Assumptions C56_tensor_changes.
(** ... and the same call repeated gives another result. *)
Theorem C56_reuse_refuted : exists c pts out pts' out' pts'',
  icall_run true c pts = Ok (out, pts') /\ icall_run true c pts' = Ok (out', pts'') /\ out <> out' /\
  (let '(_, ne, _, C, data, o, d) := c in wf_octree o /\ (d <= depth o)%nat /\ shape (node_count o d ne) C data) /\
  Forall (fun p : qpoint => let '((x, y, z), _) := p in
    let ok c := (- (1) <= c)%Qc /\ (c < 1)%Qc in ok x /\ ok y /\ ok z) pts.
Proof. exact ex_reuse. Qed.
Print Assumptions C56_reuse_refuted.

Example C56_case : let c := (false, false, false, 1%nat, ramp 16 1, ex_built, 5%nat) : icall in
  map nums (interp_calls false [c; c] ex_pts) = repeat (Ok [[0]; [8]; [0]; [0]]%Q) 2.
Proof. vm_compute. reflexivity. Qed.

(** C57: every node of the query octree gets the value of the node of the source
    octree with the same cell and batch index, zero if there is none ... *)
Theorem C57_align_partial : forall o oq d ne C value, wf_octree o -> wf_octree oq -> (d <= depth o)%nat -> (d <= depth oq)%nat ->
  shape (node_count o d ne) C value -> (0 < node_count o d ne)%nat ->
  exists ps qs y, octree_xyzb o d ne = Ok ps /\ octree_xyzb oq d ne = Ok qs /\
    octree_align C value o oq d ne = Ok y /\ shape (node_count oq d ne) C y /\
    forall j q, nth_error qs j = Some q ->
      (forall i, nth_error ps i = Some q -> nth_error y j = nth_error value i) /\
      (~ In q ps -> nth_error y j = Some (vzero C)).
Proof. exact thm_align. Qed.
Print Assumptions C57_align_partial.
(** ... but a source layer without nodes raises an IndexError instead of giving zeros. *)
Theorem C57_empty_source_refuted : forall o oq d ne C value, wf_octree o -> wf_octree oq -> (d <= depth o)%nat -> (d <= depth oq)%nat ->
  node_count o d ne = O -> shape O C value -> octree_align C value o oq d ne = Err IndexError.
Proof. exact thm_align_empty. Qed.
Print Assumptions C57_empty_source_refuted.

Example C57_case : wf_octree ex_built /\ wf_octree ex_built2 /\ (3 <= depth ex_built)%nat /\ (3 <= depth ex_built2)%nat /\
  shape (node_count ex_built 2 true) 1 (ramp 2 1) /\ (0 < node_count ex_built 2 true)%nat /\ 
  nums (octree_align 1 (ramp 2 1) ex_built ex_built 2 true) = Ok [[0]; [1]]%Q /\
  match nums (octree_align 1 (ramp 16 1) ex_built ex_built2 2 false) with
  | Ok y => firstn 9 y = map (fun q => [q]) [0; 1; 2; 3; 4; 5; 6; 7; 0]%Q /\ firstn 3 (skipn 48 y) = [[8]; [9]; [10]]%Q
  | Err _ => False end.
Proof. split; [exact ex_wf|]. split; [exact ex_wf2|]. split; [vm_compute; auto|]. split; [vm_compute; auto|]. split; [exact (ramp_shape 2 1)|]. split; [vm_compute; auto|]. split; vm_compute; auto. Qed.
Example C57_empty_case : wf_octree ex_void /\ (3 <= depth ex_void)%nat /\ node_count ex_void 3 true = O /\
  octree_align 1 [] ex_void ex_built 3 true = Err IndexError.
Proof. split; [exact ex_void_wf|]. split; [vm_compute; auto|]. split; vm_compute; reflexivity. Qed.
