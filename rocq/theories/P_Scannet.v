(** C100-C102: the scores of ScanNet, the labels of its points, the normals of its meshes. *)
From Coq Require Import String List ZArith Bool QArith Qcanon Lia Reals Lra Permutation.
From Verif Require Import Res Tensor Num NumFacts Octree NnBasic Project PointsOps Scannet SpecPoints SpecProject SpecScannet ScannetIou ScannetFacts.
Import ListNotations.
Open Scope Z_scope.

(** C100: the printed IoU is the mean, over all classes, of the IoU of all labelled points
    of all files taken together; the printed accuracy is the mean over the files of the
    share of labelled points predicted right, nan if a file has no labelled point. *)
Theorem C100_scores : forall cls fs, Forall (fun f => List.length (fst f) = List.length (snd f)) fs -> fs <> [] ->
  exists accu iou, calc_iou cls fs = Ok (accu, iou) /\
    iou = (qsum (map (fun k => qn (n_both k (labelled cls fs)) / (qn (n_either k (labelled cls fs)) + guard)) cls) / qn (List.length cls))%Qc /\
    (Exists (fun f => labelled cls [f] = []) fs -> accu = None) /\
    (Forall (fun f => labelled cls [f] <> []) fs ->
       accu = Some (qsum (map (fun f => qn (n_right (labelled cls [f])) / qn (List.length (labelled cls [f]))) fs) / qn (List.length fs))%Qc).
Proof. exact thm_scores. Qed.
Print Assumptions C100_scores.

(** C100: the IoU lies in [0, 1), the accuracy in [0, 1]. *)
Theorem C100_range : forall cls fs accu iou, calc_iou cls fs = Ok (accu, iou) ->
  Forall (fun f => List.length (fst f) = List.length (snd f)) fs -> cls <> [] ->
  ((0 <= iou)%Qc /\ (iou < 1)%Qc) /\ forall a, accu = Some a -> (0 <= a)%Qc /\ (a <= 1)%Qc.
Proof. exact thm_score_range. Qed.
Print Assumptions C100_range.

(** C100: if all labelled points are predicted right, the accuracy is 1, but the IoU is, up
    to the guard, only the share of the classes that occur in the files. *)
Theorem C100_perfect : forall cls fs accu iou, calc_iou cls fs = Ok (accu, iou) ->
  Forall (fun f => List.length (fst f) = List.length (snd f)) fs -> cls <> [] ->
  (forall p g, In (p, g) (labelled cls fs) -> p = g) ->
  (iou <= qn (seen_classes cls (labelled cls fs)) / qn (List.length cls))%Qc /\
  (qn (seen_classes cls (labelled cls fs)) / qn (List.length cls) * (1 / (1 + guard)) <= iou)%Qc /\
  forall a, accu = Some a -> a = 1%Qc.
Proof. exact thm_perfect. Qed.
Print Assumptions C100_perfect.

(** C100: predictions for points without a label in the classes do not matter. *)
Theorem C100_unlabelled : forall cls fs gs, Forall2 (fun f g => snd f = snd g /\ List.length (fst f) = List.length (snd f) /\ List.length (fst g) = List.length (snd g) /\
    forall i l p q, nth_error (snd f) i = Some l -> In l cls -> nth_error (fst f) i = Some p -> nth_error (fst g) i = Some q -> p = q) fs gs ->
  calc_iou cls fs = calc_iou cls gs.
Proof. exact thm_unlabelled. Qed.
Print Assumptions C100_unlabelled.

Example C100_case :
  let cls := tl class_ids20 in let fs := [([1; 1; 2; 7], [1; 0; 2; 2]); ([5; 1], [5; 13])] in
  Forall (fun f => List.length (fst f) = List.length (snd f)) fs /\ cls <> [] /\ labelled cls fs = [(1, 1); (2, 2); (7, 2); (5, 5)] /\
  match calc_iou cls fs with Ok (Some a, iou) => this a = (5 # 6)%Q | _ => False end.
Proof. cbn zeta. split; [repeat constructor|]. split; [discriminate|]. split; [reflexivity|]. vm_compute. reflexivity. Qed.
Example C100_perfect_case :
  let cls := tl class_ids20 in let fs := [([1; 9; 2; 2], [1; 0; 2; 2]); ([5; 1], [5; 13])] in
  Forall (fun pg => fst pg = snd pg) (labelled cls fs) /\ seen_classes cls (labelled cls fs) = 3%nat /\ List.length cls = 20%nat /\
  match calc_iou cls fs with Ok (Some a, iou) => this a = 1%Q /\ Qle_bool (this iou) (15 # 100) = true | _ => False end.
Proof. cbn zeta. split; [repeat constructor|]. split; [reflexivity|]. split; [reflexivity|]. vm_compute. split; reflexivity. Qed.

(** C101: with 200 classes, every point gets the class of the last segment group that
    contains its segment, 0 if there is none; all labels are in the benchmark, and the
    table of new labels takes them to their numbers. *)
Theorem C101_labels : forall table segs groups, exists new,
  List.length (point_labels200 table segs groups) = List.length segs /\
  (forall i s, nth_error segs i = Some s -> exists c, nth_error (point_labels200 table segs groups) i = Some c /\ In c (scannet_classes true) /\
     ((exists a g b, groups = a ++ g :: b /\ In s (g_segments g) /\ (forall h, In h b -> ~ In s (g_segments h)) /\
         class_of (scannet_classes true) table (g_label g) c) \/
      ((forall g, In g groups -> ~ In s (g_segments g)) /\ c = 0))) /\
  new_labels true (point_labels200 table segs groups) = Ok new /\
  Forall2 (fun c v => nth_error (scannet_classes true) (Z.to_nat v) = Some c /\ 0 <= v <= 200) (point_labels200 table segs groups) new.
Proof. exact thm_labels200. Qed.
Print Assumptions C101_labels.

Example C101_case :
  let table := [("wall", 1); ("wall ", 5); ("sofa chair", 24); ("odd", 25); ("wall", 9)]%string in
  let groups := [mkGroup "wall" [10; 11]; mkGroup "sofa chair" [11; 12]; mkGroup "odd" [13]; mkGroup "nothing" [12]] in
  point_labels200 table [10; 11; 12; 13; 14; 10] groups = [1; 24; 0; 0; 0; 1].
Proof. vm_compute. reflexivity. Qed.

(** C102: the normal of a vertex is the sum, over its faces, of the face normals weighted
    with the areas, divided by its length plus 1e-8; a face with a missing corner raises. *)
Theorem C102_normals : forall vs fs, mesh_ok vs fs -> exists ns, vertex_normal vs fs = Ok ns /\ List.length ns = List.length vs /\
  forall i n, nth_error ns i = Some n -> n = vtimes (/ (norm (around vs fs i) + / 100000000)) (around vs fs i) /\ (norm n < 1)%R.
Proof. exact thm_normals. Qed.
Print Assumptions C102_normals.

Theorem C102_bad : forall vs fs, ~ mesh_ok vs fs -> vertex_normal vs fs = Err IndexError.
Proof. exact thm_normals_bad. Qed.
Print Assumptions C102_bad.

(** C102: aligning a mesh by a rotation and a shift keeps the distances, and turns the
    normals with the mesh. *)
Theorem C102_align : forall m t vs fs ns, is_rotation m -> mesh_ok vs fs -> vertex_normal vs fs = Ok ns ->
  vertex_normal (align_to_axis m t vs) fs = Ok (map (rotated m) ns) /\
  (forall i v, nth_error vs i = Some v -> nth_error (align_to_axis m t vs) i = Some (vplus (rotated m v) t)) /\
  (forall u v, dist (vplus (rotated m u) t) (vplus (rotated m v) t) = dist u v).
Proof. exact thm_align_normals. Qed.
Print Assumptions C102_align.

(** C102: neither the order of the faces nor the corner they begin with matters; turning
    all faces over turns all normals over. *)
Theorem C102_order : forall vs fs gs, mesh_ok vs fs -> Permutation fs gs -> vertex_normal vs gs = vertex_normal vs fs.
Proof. exact thm_face_order. Qed.
Print Assumptions C102_order.
Theorem C102_corner : forall vs fs gs, mesh_ok vs fs -> Forall2 turned fs gs -> vertex_normal vs gs = vertex_normal vs fs.
Proof. exact thm_face_turned. Qed.
Print Assumptions C102_corner.
Theorem C102_flip : forall vs fs gs ns, mesh_ok vs fs -> Forall2 flipped fs gs -> vertex_normal vs fs = Ok ns -> vertex_normal vs gs = Ok (map (vtimes (-1)) ns).
Proof. exact thm_face_flipped. Qed.
Print Assumptions C102_flip.

Example C102_case : (let vs := [(0, 0, 0); (1, 0, 0); (0, 1, 0); (0, 0, 1)] in let fs := [(0, 1, 2); (0, 2, 3); (3, 1, 0)]%nat in
  mesh_ok vs fs /\ around vs fs 0 = (1 / 2, 1 / 2, 1 / 2) /\
  is_rotation ((0, -1, 0), (1, 0, 0), (0, 0, 1)) /\ Forall2 turned fs [(1, 2, 0); (3, 0, 2); (3, 1, 0)]%nat /\
  Forall2 flipped fs [(0, 2, 1); (0, 3, 2); (3, 0, 1)]%nat)%R.
Proof.
  cbn zeta. split; [repeat constructor|]. split; [cbn; f_equal; [f_equal|]; field|]. split; [cbn; repeat split; ring|].
  split; [repeat apply Forall2_cons; try apply Forall2_nil; cbn; tauto | repeat constructor].
Qed.
