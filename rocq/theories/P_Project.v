(** C83-C88: metrics, evaluation, label tables, chunks and generated points of the projects. *)
From Coq Require Import String List ZArith Bool QArith Qcanon Lia Permutation.
From Verif Require Import Res Tensor Num NumFacts Octree PointsOps NnBasic NnConv Utils Dataset Net Project WF SpecGrow SpecNN SpecNet SpecDataset SpecProject SpecEval
  MetricFacts EvalFacts ChunkFacts CropFacts LabelFacts Oct2Pts ProjectThms Examples NetExamples DecodeExamples ProjectExamples.
Import ListNotations.
Open Scope Z_scope.

(** C83: IoU_per_shape returns the intersections and unions of the classes and the mean
    IoU of the classes that occur among the labels; it lies in [0, 1), and is 1 up to the
    guard if all predictions are right. *)
Theorem C83_iou : forall logit pred label K, predicts logit pred -> List.length pred = List.length label ->
  exists iou intsc union, IoU_per_shape logit label K = Ok (iou, intsc, union) /\
    List.length intsc = K /\ List.length union = K /\
    (forall k, (k < K)%nat -> nth_error intsc k = Some (qn (both (Z.of_nat k) pred label)) /\
       nth_error union k = Some (qn (either (Z.of_nat k) pred label))) /\
    iou = (sum_n K (class_iou pred label) / (qn (List.length (filter (fun k => present (Z.of_nat k) label) (seq 0 K))) + guard))%Qc /\
    (0 <= iou)%Qc /\ (iou < 1)%Qc /\
    (pred = label -> (exists l, In l label /\ 0 <= l < Z.of_nat K) -> (1 / ((1 + guard) * (1 + guard)) <= iou)%Qc).
Proof. exact thm_iou_spec. Qed.
Print Assumptions C83_iou.

(** C83: the accuracy is the share of the points predicted right; it is 1 only if all are;
    the intersections of all classes add up to it. *)
Theorem C83_accuracy : forall logit pred label, predicts logit pred -> List.length pred = List.length label -> label <> [] ->
  exists a, accuracy logit label = Ok (Some a) /\
    (a * qn (List.length label) = qn (List.length (filter (fun pl => fst pl =? snd pl) (combine pred label))))%Qc /\
    (0 <= a)%Qc /\ (a <= 1)%Qc /\ (a = 1%Qc <-> pred = label) /\
    forall K, (forall l, In l label -> 0 <= l < Z.of_nat K) ->
      (sum_n K (fun k => qn (both (Z.of_nat k) pred label)) = a * qn (List.length label))%Qc.
Proof. exact thm_accuracy_spec. Qed.
Print Assumptions C83_accuracy.

(** C83: neither depends on the order of the points. *)
Theorem C83_order : forall logit label logit' label' K, List.length logit = List.length label -> List.length logit' = List.length label' ->
  Permutation (combine logit label) (combine logit' label') ->
  accuracy logit label = accuracy logit' label' /\ IoU_per_shape logit label K = IoU_per_shape logit' label' K.
Proof. exact thm_metric_order. Qed.
Print Assumptions C83_order.

Example C83_case : predicts ex_logit ex_pred /\ List.length ex_pred = List.length ex_label /\ ex_label <> [] /\ ex_pred <> ex_label /\
  Permutation (combine ex_logit ex_label) (combine (rev ex_logit) (rev ex_label)).
Proof. split; [exact ex_predicts|]. split; [reflexivity|]. split; [discriminate|]. split; [discriminate|]. apply (Permutation_rev (combine ex_logit ex_label)). Qed.

(** C83: the part mIoU reported for a test run is the mean, over the classes above
    LOSS.mask, of the IoU of all test points taken together, however they were batched. *)
Theorem C83_callback : forall m K bs preds outs, -1 <= m < Z.of_nat K - 1 -> bs <> [] ->
  Forall2 (fun b pred => predicts (fst b) pred /\ List.length pred = List.length (snd b)) bs preds -> reported K bs outs ->
  exists r, result_callback m K outs = Ok r /\ (0 <= r)%Qc /\ (r < 1)%Qc /\
    r = (sum_n (Z.to_nat (Z.of_nat K - m - 1)) (fun i => let k := (m + 1 + Z.of_nat i)%Z in
           qn (both k (concat preds) (concat (map snd bs))) / (qn (either k (concat preds) (concat (map snd bs))) + qn (List.length bs) * guard)) / qz (Z.of_nat K - m - 1))%Qc.
Proof. exact thm_callback_spec. Qed.
Print Assumptions C83_callback.

(** C83: with LOSS.mask below -1, or with no class above it, it raises. *)
Theorem C83_callback_bad : forall m K outs, outs <> [] ->
  (m < -1 -> result_callback m K outs = Err KeyError) /\ (m = Z.of_nat K - 1 -> result_callback m K outs = Err ZeroDivisionError).
Proof. exact thm_callback_bad. Qed.
Print Assumptions C83_callback_bad.

Example C83_callback_case : -1 <= 0 < Z.of_nat 3 - 1 /\
  Forall2 (fun b pred => predicts (fst b) pred /\ List.length pred = List.length (snd b)) [(ex_logit, ex_label); (rev ex_logit, rev ex_label)] [ex_pred; rev ex_pred] /\
  exists outs, reported 3 [(ex_logit, ex_label); (rev ex_logit, rev ex_label)] outs /\ List.length outs = 2%nat.
Proof.
  split; [lia|]. split; [|exact ex_reported]. repeat apply Forall2_cons; try apply Forall2_nil; (split; [|reflexivity]); cbn [fst].
  - exact ex_predicts.
  - assert (E : rev ex_pred = map argmax (rev ex_logit)) by (vm_compute; reflexivity). rewrite E. apply predicts_map. apply Forall_rev. unfold ex_logit. cbn [map]. repeat apply Forall_cons; try apply Forall_nil; discriminate.
Qed.

(** C84, the part that holds: after any sequence of evaluation batches without masked
    labels, the stored result of a file is, point by point, the sum of the softmax rows of
    the point over all samples of that file; a clipped point gets nothing. *)
Theorem C84_votes_partial : forall C softmax m bs itss, Forall2 (loads m) bs itss -> Forall (sample_fits softmax C) (concat itss) -> same_size (concat itss) ->
  exists st, foldM (eval_step C softmax m) [] bs = Ok st /\
    forall f, match dlookup st f with
    | None => occ f (concat itss) = []
    | Some v => occ f (concat itss) <> [] /\ (forall mr, In mr (occ f (concat itss)) -> List.length (fst mr) = List.length v) /\
        forall j, (j < List.length v)%nat ->
          nth_error v j = Some (vsum C (map (fun mr => vote C (fst mr) (map softmax (snd mr)) j) (occ f (concat itss))))
    end.
Proof. exact thm_eval. Qed.
Print Assumptions C84_votes_partial.

(** C84 fails when a label is masked: the rows are dropped before they are split. *)
Theorem C84_masked_refuted : forall C softmax m st b, List.length (e_labels b) = List.length (e_logit b) ->
  fold_right Nat.add O (e_npts b) = List.length (e_logit b) -> (exists l, In l (e_labels b) /\ l <= m) ->
  eval_step C softmax m st b = Err RuntimeError.
Proof. exact thm_eval_masked. Qed.
Print Assumptions C84_masked_refuted.

Example C84_case : Forall2 (loads 0) [ex_load [ex_item1; ex_item2] [1; 2; 1]; ex_load [ex_item3] [1; 1; 2]] [[ex_item1; ex_item2]; [ex_item3]] /\
  Forall (sample_fits (fun r => r) 2) (concat [[ex_item1; ex_item2]; [ex_item3]]) /\ same_size (concat [[ex_item1; ex_item2]; [ex_item3]]) /\
  (let b := ex_load [ex_item1; ex_item2] [1; 0; 1] in List.length (e_labels b) = List.length (e_logit b) /\ fold_right Nat.add O (e_npts b) = List.length (e_logit b) /\ exists l, In l (e_labels b) /\ l <= 0).
Proof.
  split; [exact ex_loads|]. split; [exact ex_fits|]. split; [exact ex_same|]. split; [reflexivity|]. split; [reflexivity|]. exists 0. split; [cbn; auto|lia].
Qed.

(** C85: octree2pts gives every sample one point per nonempty node of the finest depth,
    in the order of the nodes, at the centre of its cell displaced along its normal. *)
Theorem C85_points : forall nrm o l signal, wf_octree o -> nth_error (layers o) (depth o) = Some l -> l_features l = Some signal ->
  shape (node_count o (depth o) true) 4 signal ->
  exists cs pieces, octree_xyzb o (depth o) true = Ok cs /\ List.length cs = List.length signal /\
    octree2pts nrm o = Ok pieces /\ List.length pieces = batch_size o /\
    (forall i, (i < batch_size o)%nat -> nth_error pieces i =
       Some (map (fun cr => pt_of nrm (depth o) (fst cr) (snd cr)) (filter (fun cr => snd (fst cr) =? Z.of_nat i) (combine cs signal)))) /\
    fold_right Nat.add O (map (@List.length _) pieces) = node_count o (depth o) true.
Proof. exact thm_octree2pts. Qed.
Print Assumptions C85_points.

(** C85: it succeeds on whatever the decoder generates from a code. *)
Theorem C85_decoded : forall g P lo B dev nrm code, ae_config g -> norms_keep lo P -> (1 <= B)%nat -> Z.of_nat B <= 32768 ->
  (lo <= 8 /\ lo <= 8 ^ a_full g * B)%nat -> shape (8 ^ a_full g * B) (a_code g) code ->
  exists logits signal o cs pieces, ae_decode_code g P 4 dev code = Ok (logits, signal, o) /\
    octree_xyzb o (a_depth g) true = Ok cs /\ List.length cs = List.length signal /\
    octree2pts nrm o = Ok pieces /\ List.length pieces = B /\
    (forall i, (i < B)%nat -> nth_error pieces i =
       Some (map (fun cr => pt_of nrm (a_depth g) (fst cr) (snd cr)) (filter (fun cr => snd (fst cr) =? Z.of_nat i) (combine cs signal)))) /\
    fold_right Nat.add O (map (@List.length _) pieces) = node_count o (a_depth g) true.
Proof. exact thm_decode_points. Qed.
Print Assumptions C85_decoded.

Example C85_case : ae_config ex_ae /\ norms_keep 2 ex_training /\ (2 <= 8 /\ 2 <= 8 ^ a_full ex_ae * 1)%nat /\ shape (8 ^ a_full ex_ae * 1) (a_code ex_ae) (ex_x 8 2).
Proof. split; [exact ex_ae_ok|]. split; [exact ex_norms_training|]. split; [cbn; lia|]. split; [vm_compute; reflexivity|vm_compute; repeat constructor]. Qed.

(** C85: a displacement of at most [r] edges moves the point by at most that much along
    each axis, so [r = 1/2] keeps it in its cell. *)
Theorem C85_near : forall d c n e r, (- r <= e)%Qc -> (e <= r)%Qc -> (let '(x, y, z) := n in within 1 x 0 /\ within 1 y 0 /\ within 1 z 0) ->
  let '(x, y, z) := offset_point d c n e in let '(cx, cy, cz) := cell_centre d c in
  let t := (r * (qz 2 / qz (2 ^ Z.of_nat d)))%Qc in within t x cx /\ within t y cy /\ within t z cz.
Proof. exact thm_offset_near. Qed.
Print Assumptions C85_near.

(** C85: from the displacement of an average point and its unit normal, the plane through
    that point is recovered. *)
Theorem C85_plane : forall d c n avg e, dot3 n n = 1%Qc ->
  (e * (qz 2 / qz (2 ^ Z.of_nat d)) = dot3 (v3zip Qcminus avg (cell_centre d c)) n)%Qc ->
  dot3 (v3zip Qcminus (offset_point d c n e) avg) n = 0%Qc.
Proof. exact thm_offset_plane. Qed.
Print Assumptions C85_plane.

Example C85_plane_case : exists n avg e, dot3 n n = 1%Qc /\ (e * (qz 2 / qz (2 ^ Z.of_nat 2)) = dot3 (v3zip Qcminus avg (cell_centre 2 (3, 1, 0, 0)%Z)) n)%Qc /\ e <> 0%Qc /\ (- Q2Qc (1 # 2) <= e)%Qc /\ (e <= Q2Qc (1 # 2))%Qc.
Proof.
  exists (Q2Qc (3 # 5), Q2Qc (4 # 5), 0%Qc), (Q2Qc (3 # 4), Q2Qc (- 1 # 8), Q2Qc (- 1 # 2)), (Q2Qc (1 # 5)).
  split; [apply Qc_is_canon; reflexivity|]. split; [apply Qc_is_canon; reflexivity|]. split; [discriminate|]. split; unfold Qcle; vm_compute; discriminate.
Qed.

(** C86, the part that holds: the label written for a point of a scene is the class with
    the largest total over the whole-scene file and the chunks 0 to 9 of the scene. *)
Theorem C86_merge_partial : forall C b load load_mask names items, Forall2 (file_of load load_mask) names items ->
  Forall (sample_fits (fun r => r) C) items -> same_size items -> (0 < C <= List.length (class_ids b))%nat ->
  exists out, generate_output_seg C b load load_mask names = Ok out /\
    forall f, match dlookup out f with
    | None => occ f items = []
    | Some labels => occ f items <> [] /\ (forall mr, In mr (occ f items) -> List.length (fst mr) = List.length labels) /\
        forall j, (j < List.length labels)%nat ->
          exists k, best_col (votes C f items j) k /\ nth_error labels j = nth_error (class_ids b) k /\ (k < List.length (class_ids b))%nat
    end.
Proof. exact thm_merge. Qed.
Print Assumptions C86_merge_partial.

(** C86 fails for a chunk whose number has two digits: it adds nothing to its scene, and
    a scene of another name appears. *)
Theorem C86_digits_refuted : forall C load load_mask st scene i rows mask p, (10 <= i < 100)%nat ->
  load (chunk_name scene i) = Ok rows -> load_mask (chunk_name scene i) = Ok mask ->
  mask_put (repeat (vzero C) (List.length mask)) mask rows = Ok p -> forall st', merge_file C load load_mask st (chunk_name scene i) = Ok st' ->
  dlookup st' scene = dlookup st scene /\ dlookup st' (scene ++ ".")%string <> None.
Proof. exact thm_merge_digits. Qed.
Print Assumptions C86_digits_refuted.

Example C86_case : Forall2 (file_of (ex_pick snd) (ex_pick (fun it => snd (fst it)))) ex_files [ex_chunk0; ex_scene; ex_chunk1] /\
  Forall (sample_fits (fun r => r) 2) [ex_chunk0; ex_scene; ex_chunk1] /\ same_size [ex_chunk0; ex_scene; ex_chunk1] /\ (0 < 2 <= List.length (class_ids false))%nat /\
  exists p st', mask_put (repeat (vzero 2) 3) [true; true; false] (snd ex_chunk0) = Ok p /\
    merge_file 2 (fun _ => Ok (snd ex_chunk0)) (fun _ => Ok [true; true; false]) [] (chunk_name "s1" 12) = Ok st'.
Proof. split; [exact ex_file_of|]. split; [exact ex_files_fit|]. split; [exact ex_files_same|]. split; [cbn; lia|]. do 2 eexists. split; reflexivity. Qed.

(** C87, the part that holds: the saved masks are those of boxes of a grid; if no
    coordinate is negative the boxes cover the scene, and the box around a point is saved
    if it holds enough points. *)
Theorem C87_chunks_partial : forall crop s ms vs masks, (0 < s)%Qc -> (s <= crop)%Qc -> generate_chunks crop s ms vs = Ok (Some masks) ->
  exists lo : v3 Qc,
    (Forall (v3le lo) vs /\ (let '(x, y, z) := lo in (exists v, In v vs /\ fst (fst v) = x) /\ (exists v, In v vs /\ snd (fst v) = y) /\ (exists v, In v vs /\ snd v = z))) /\
    (forall mask, In mask masks -> exists i j k, 0 <= i /\ 0 <= j /\ 0 <= k /\ List.length mask = List.length vs /\ ms <= Z.of_nat (List.length (filter (fun b => b) mask)) /\
       forall p v, nth_error vs p = Some v -> (nth_error mask p = Some true <-> in_box crop (corner lo s (i, j, k)) v)) /\
    ((forall v, In v vs -> v3le (0%Qc, 0%Qc, 0%Qc) v) -> forall v, In v vs -> exists i j k, 0 <= i /\ 0 <= j /\ 0 <= k /\ in_box crop (corner lo s (i, j, k)) v /\
       (forall idx, NoDup idx -> (forall p, In p idx -> exists w, nth_error vs p = Some w /\ in_box crop (corner lo s (i, j, k)) w) -> ms <= Z.of_nat (List.length idx) ->
         exists mask, In mask masks /\ forall p w, nth_error vs p = Some w -> (nth_error mask p = Some true <-> in_box crop (corner lo s (i, j, k)) w))).
Proof. exact thm_chunks. Qed.
Print Assumptions C87_chunks_partial.

(** C87 fails for negative coordinates: with the sizes of the code, 3000 points in one
    place are in no chunk. *)
Theorem C87_chunks_refuted : exists vs v masks, generate_chunks (qz 10) (qz 5) 3000 vs = Ok (Some masks) /\
  (forall i, (Z.to_nat 3000 <= i < Z.to_nat 6000)%nat -> nth_error vs i = Some v) /\
  forall mask i, In mask masks -> (Z.to_nat 3000 <= i < Z.to_nat 6000)%nat -> nth_error mask i <> Some true.
Proof. exact thm_chunks_far. Qed.
Print Assumptions C87_chunks_refuted.

(** C87: a scene is left whole exactly if any two points are less than a box apart along
    each axis. *)
Theorem C87_whole : forall crop s ms v t, generate_chunks crop s ms (v :: t) = Ok None <->
  forall a b, In a (v :: t) -> In b (v :: t) -> let '(x, y, z) := a in let '(x', y', z') := b in (x - x' < crop)%Qc /\ (y - y' < crop)%Qc /\ (z - z' < crop)%Qc.
Proof. exact thm_chunks_none. Qed.
Print Assumptions C87_whole.

Example C87_case : (forall v, In v ex_line -> v3le (0%Qc, 0%Qc, 0%Qc) v) /\ (0 < qz 5)%Qc /\ (qz 5 <= qz 10)%Qc /\
  exists masks, generate_chunks (qz 10) (qz 5) 3 ex_line = Ok (Some masks) /\ List.length masks = 2%nat.
Proof. split; [exact ex_line_nonneg|]. split; [reflexivity|]. split; [unfold Qcle; vm_compute; discriminate|exact ex_line_case]. Qed.

(** C88: the ScanNet classes: raw labels below 2048 become the numbers of the benchmark's
    classes (SpecProject.v), 0 for those not in it; predicting the new labels gives the raw ones back. *)
Theorem C88_scannet : forall b labels, Forall (fun c => 0 <= c < 2048) labels ->
  exists new, new_labels b labels = Ok new /\ Forall2 (fun c v => 0 <= v < zlen (scannet_classes b) /\
     (In c (scannet_classes b) -> nth_error (scannet_classes b) (Z.to_nat v) = Some c) /\ (~ In c (scannet_classes b) -> v = 0)) labels new /\
   forall prob, predicts prob new -> old_labels b prob = Ok (map (fun c => if existsb (Z.eqb c) (scannet_classes b) then c else 0) labels).
Proof. exact thm_scannet_spec. Qed.
Print Assumptions C88_scannet.

(** C88: the SemanticKITTI labels, with the instance number in the upper 16 bits. *)
Theorem C88_kitti : forall labels, Forall (fun l => Z.land l 65535 < 260) labels ->
  kitti_labels labels = Ok (map (fun l => kitti_class (l mod 65536)) labels) /\ Forall (fun c => 0 <= c <= 19) (map (fun l => kitti_class (l mod 65536)) labels).
Proof. exact thm_kitti. Qed.
Print Assumptions C88_kitti.

(** C88: an unknown label from 260 on raises. *)
Theorem C88_kitti_bad : forall labels l, In l labels -> 260 <= Z.land l 65535 -> kitti_labels labels = Err IndexError.
Proof. exact thm_kitti_bad. Qed.
Print Assumptions C88_kitti_bad.

Example C88_case : Forall (fun c => 0 <= c < 2048) [3; 13; 1191; 0] /\ Forall (fun l => Z.land l 65535 < 260) [40; 252 + 7 * 65536; 13; -65526] /\ 260 <= Z.land 300 65535.
Proof. split; [repeat constructor; lia|]. split; [repeat constructor; vm_compute; reflexivity|vm_compute; discriminate]. Qed.
