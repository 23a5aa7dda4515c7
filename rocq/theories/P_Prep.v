(** C93-C95: the transforms of the datasets. *)
From Coq Require Import String Ascii List ZArith Bool QArith Qcanon Lia.
From Verif Require Import Res Num Points Octree PointsOps Dataset SpecPoints SpecDataset SpecProject WF DatasetExamples
  Prep SpecPrep SpecAug PrepFacts AugFacts ElasticFacts ScanFacts PrepExamples.
Import ListNotations.
Open Scope Z_scope.

(** C93: a sample of SemanticKITTI is the scan about the middle of its bounding box, 100
    units to 1, with the density as feature and the classes of the low 16 bits as labels,
    augmented and cut to the box, with its octree; scans under 198 units lose nothing. *)
Theorem C93_kitti : forall nrm c r xyz density labels w, cfg_ok c -> (t_distort c = true -> draw_ok r) -> xyz <> [] ->
  List.length density = List.length xyz -> Forall (fun d => List.length d = w) density -> List.length labels = List.length xyz -> Forall (fun l => Z.land l 65535 < 260) labels ->
  exists lo hi q out, bounding_box lo hi xyz /\ kitti_call nrm c r xyz density labels = Ok out /\
    let p := mkPoints (map (rescale (middle lo hi) (Q2Qc (1 # 100))) xyz) None (Some density) (label_column (map (fun l => kitti_class (l mod 65536)) labels)) None 1 None 0%nat in
    cut_sample nrm c r p q out /\ with_octree nrm c q out /\
    (t_distort c = false -> small_box lo hi (qz 198) -> nothing_lost p q).
Proof. exact thm_kitti_sample. Qed.
Print Assumptions C93_kitti.

(** C93: a shape of the segmentation of ShapeNet is scaled by its longest edge to
    (-0.8, 0.8)^3 before the augmentation and loses no point without it. *)
Theorem C93_segmentation : forall nrm c r xyz normals labels, cfg_ok c -> (t_distort c = true -> draw_ok r) -> xyz <> [] ->
  List.length normals = List.length xyz -> List.length labels = List.length xyz ->
  exists lo hi e q out, bounding_box lo hi xyz /\ longest lo hi e /\ segshape_call nrm c r xyz normals labels = Ok out /\
    let p := mkPoints (map (rescale (middle lo hi) (qz 2 * Q2Qc (8 # 10) / (e + Q2Qc (1 # 1000000)))%Qc) xyz) (Some normals) None (label_column labels) None 1 None 0%nat in
    Forall (SpecPoints.inside (- Q2Qc (8 # 10))%Qc (Q2Qc (8 # 10))) (p_points p) /\
    cut_sample nrm c r p q out /\ with_octree nrm c q out /\ (t_distort c = false -> nothing_lost p q).
Proof. exact thm_segshape_sample. Qed.
Print Assumptions C93_segmentation.

(** C93: a shape of the auto-encoder is divided by the scale; without augmentation it
    keeps all its points if they lie within 0.99 times the scale. *)
Theorem C93_autoencoder : forall nrm c r scale xyz normals, cfg_ok c -> (t_distort c = true -> draw_ok r) -> (0 < scale)%Qc ->
  List.length normals = List.length xyz ->
  exists q out, aeshape_call nrm c r scale xyz normals = Ok out /\
    let p := mkPoints (map (rescale (0, 0, 0)%Qc (1 / scale)%Qc) xyz) (Some normals) None None None 1 None 0%nat in
    cut_sample nrm c r p q out /\ with_octree nrm c q out /\
    (t_distort c = false -> Forall (SpecPoints.inside (- (Q2Qc (99 # 100) * scale))%Qc (Q2Qc (99 # 100) * scale)%Qc) xyz -> nothing_lost p q).
Proof. exact thm_aeshape_sample. Qed.
Print Assumptions C93_autoencoder.

(** C93: a sample for completion holds the whole shape scaled to (-0.95, 0.95)^3 with its
    normals, no point lost, and the noisy input: the drawn points with 0.0095 times the noise
    added, those outside (-0.99, 0.99)^3 left out, and the octrees of both clouds. *)
Theorem C93_completion : forall nrm dep full points normals noise idx, (full <= dep)%nat -> (dep <= 16)%nat -> points <> [] ->
  List.length normals = List.length points -> Forall (fun i => (i < List.length points)%nat) idx -> List.length noise = List.length idx ->
  exists lo hi e octree_in points_in octree_gt points_gt, bounding_box lo hi points /\ longest lo hi e /\
    completion_call nrm dep full points normals noise (map Z.of_nat idx) = Ok (octree_in, points_in, octree_gt, points_gt) /\
    p_points points_gt = map (rescale (middle lo hi) (qz 2 * Q2Qc (95 # 100) / (e + Q2Qc (1 # 1000000)))%Qc) points /\
    p_normals points_gt = Some normals /\
    Forall (SpecPoints.inside (- Q2Qc (95 # 100))%Qc (Q2Qc (95 # 100))) (p_points points_gt) /\
    octree_of nrm dep full points_gt octree_gt /\
    (exists pts, noisy (Q2Qc (95 # 10000)) (p_points points_gt) idx noise pts /\ cut_to (Q2Qc (-99 # 100)) (Q2Qc (99 # 100)) pts (p_points points_in)) /\
    octree_of nrm dep full points_in octree_in.
Proof. exact thm_completion_sample. Qed.
Print Assumptions C93_completion.

(** C93: a scene of ScanNet without distortion is moved to the middle of its floor plan and
    the height 0.5, 10.24 units to 1, with colours between 0 and 1 as features; no octree is
    built here; a scene of less than 20.2752 units, from -9.6376 to 10.6376 high, is kept. *)
Theorem C93_scannet : forall nrm c r g edo enoise xyz normals colors labels, cfg_ok c -> t_distort c = false -> xyz <> [] ->
  List.length normals = List.length xyz -> List.length colors = List.length xyz -> List.length labels = List.length xyz ->
  exists lo hi q out, bounding_box lo hi xyz /\ scannet_call nrm c r g edo enoise xyz normals colors labels = Ok (Some out) /\
    let p := mkPoints (map (rescale (floor_middle lo hi) (Q2Qc (100 # 1024))) xyz) (Some normals) (Some (map (fun v => row3 (rescale (0, 0, 0)%Qc (Q2Qc (1 # 255)) v)) colors)) (label_column labels) None 1 None 0%nat in
    cut_sample nrm c r p q out /\ dlookup out "octree" = None /\
    (small_box lo hi (Q2Qc (202752 # 10000)) -> Forall (fun v => (Q2Qc (-96376 # 10000) < snd v < Q2Qc (106376 # 10000))%Qc) xyz -> nothing_lost p q).
Proof. exact thm_scannet_sample. Qed.
Print Assumptions C93_scannet.

(** C93: with distortion the colours are those of C94 and the points those of C95, before the
    augmentation of all datasets; if a channel has one value only, the features are not numbers. *)
Theorem C93_scannet_distort : forall nrm c r g edo enoise xyz normals colors labels, cfg_ok c -> t_distort c = true -> draw_ok r -> xyz <> [] ->
  List.length normals = List.length xyz -> List.length colors = List.length xyz -> List.length labels = List.length xyz ->
  Exists (fun v => exists k, (1 < channel k v)%Qc) colors ->
  exists lo hi f rows, bounding_box lo hi xyz /\
    let xyz0 := map (rescale (floor_middle lo hi) (Q2Qc (100 # 1024))) xyz in
    elastic_distort edo enoise [(Q2Qc (1 # 10), Q2Qc (2 # 10)); (Q2Qc (4 # 10), Q2Qc (8 # 10))] xyz0 = Ok (map f xyz0) /\
    color_distort g (Q2Qc (1 # 10)) (Q2Qc (5 # 100)) (map (rescale (0, 0, 0)%Qc (Q2Qc (1 # 255))) colors) = Ok rows /\
    ((forall k, exists v w, In v colors /\ In w colors /\ channel k v <> channel k w) ->
     exists feats q out, Forall2 (fun w row => exists a b c, w = (Some a, Some b, Some c) /\ row = [a; b; c]) rows feats /\
       scannet_call nrm c r g edo enoise xyz normals colors labels = Ok (Some out) /\
       cut_sample nrm c r (mkPoints (map f xyz0) (Some normals) (Some feats) (label_column labels) None 1 None 0%nat) q out) /\
    ((exists k, forall v w, In v colors -> In w colors -> channel k v = channel k w) ->
     scannet_call nrm c r g edo enoise xyz normals colors labels = Ok None).
Proof. exact thm_scannet_distort. Qed.
Print Assumptions C93_scannet_distort.

Example C93_case_ok : cfg_ok (ex_pcfg false) /\ cfg_ok (ex_pcfg true) /\ draw_ok ex_draw.
Proof. exact (conj (ex_pcfg_ok false) (conj (ex_pcfg_ok true) ex_draw_ok)). Qed.
Example C93_case_kitti : match cloud_in (kitti_call (fun n => n) (ex_pcfg false) ex_draw ex_xyz ex_dens ex_labs) with
  | Some p => nums (p_points p) = [((-3 # 4), (-19 # 20), (-1 # 20)); ((3 # 4), (-3 # 4), (-1 # 25)); ((-1 # 4), (19 # 20), (1 # 20))]%Q
      /\ option_map (map (map this)) (p_labels p) = Some [[1]; [6]; [12]]%Q
  | None => False end.
Proof. exact ex_kitti. Qed.
Example C93_case_autoencoder : match cloud_in (aeshape_call (fun n => n) (ex_pcfg false) ex_draw (qz 100) ex_xyz ex_nrm) with
  | Some p => nums (p_points p) = [(0, 0, 0)]%Q /\ option_map nums (p_normals p) = Some [(-1 # 1, 0, 0)]%Q
  | None => False end.
Proof. exact ex_aeshape. Qed.
Example C93_case_completion : match completion_call (fun n => n) 3 1 ex_xyz ex_nrm [(qz 1, qz 0, qz (-1)); (qz 0, qz 200, qz 0); (qz 200, qz 0, qz 0)] [2; 0; 1] with
  | Ok (_, pi, _, pg) => npt pi = 2%nat /\ nums (p_points pg) = [(-142500000 # 190000001, -180500000 # 190000001, -9500000 # 190000001);
         (142500000 # 190000001, -142500000 # 190000001, -7600000 # 190000001); (-47500000 # 190000001, 180500000 # 190000001, 9500000 # 190000001)]%Q
  | Err _ => False end.
Proof. exact ex_completion. Qed.
Example C93_case_scannet : match scannet_call (fun n => n) (ex_pcfg true) ex_draw ex_cd 0%Qc (fun _ _ => v3zero) ex_room ex_nrm ex_cols [3; 1; 2] with
  | Ok (Some o) => match cloud_in (Ok o) with Some p => npt p = 3%nat | None => False end
  | _ => False end.
Proof. exact ex_scannet_distort. Qed.

(** C94: each channel of a colour is blended with its position between the smallest and the
    largest value of the channel, then moved by the random shift and by the noise of its
    row, each time kept between 0 and 1; a channel with one value only becomes not a number. *)
Theorem C94_colors : forall g ratio std color, Exists (fun v => exists k, (Q2Qc (1 # 255) < channel k v)%Qc) color ->
  exists lo hi rows, bounding_box lo hi color /\ color_distort g ratio std color = Ok rows /\ List.length rows = List.length color /\
  forall i v k, nth_error color i = Some v -> exists w, nth_error rows i = Some w /\
    (channel k lo = channel k hi -> channel k w = None) /\
    (channel k lo <> channel k hi -> exists t u, channel k w = Some u /\
       stepped (c_do_tr g < Q2Qc (95 # 100))%Qc ((channel k (c_tr g) - Q2Qc (1 # 2)) * qz 2 * ratio)%Qc (blended (c_blend g) (channel k lo) (channel k hi) (channel k v)) t /\
       stepped (c_do_jit g < Q2Qc (95 # 100))%Qc (channel k (c_noise g i) * std)%Qc t u).
Proof. exact thm_color. Qed.
Print Assumptions C94_colors.

(** C94: colours between 0 and 1 stay there. *)
Theorem C94_range : forall g ratio std color rows, (0 <= c_blend g <= 1)%Qc -> Forall (fun v => forall k, (0 <= channel k v <= 1)%Qc) color ->
  color_distort g ratio std color = Ok rows -> Forall (fun w => forall k u, channel k w = Some u -> (0 <= u <= 1)%Qc) rows.
Proof. exact thm_color_range. Qed.
Print Assumptions C94_range.

(** C94: dark clouds (no value above 1/255) are refused. *)
Theorem C94_dark : forall g ratio std color, Forall (fun v => forall k, (channel k v <= Q2Qc (1 # 255))%Qc) color ->
  color_distort g ratio std color = Err (if Nat.eqb (List.length color) 0 then ValueError else AssertionError).
Proof. exact thm_color_dark. Qed.
Print Assumptions C94_dark.

(** C94: colours do not always stay numbers. *)
Theorem C94_numbers_refuted : exists g color rows, Forall (fun v => forall k, (0 <= channel k v <= 1)%Qc) color /\ (0 <= c_blend g <= 1)%Qc /\
  color_distort g (Q2Qc (1 # 10)) (Q2Qc (5 # 100)) color = Ok rows /\ List.length rows = 3%nat /\ Forall (fun w => channel 2 w = None) rows.
Proof. exact ex_constant. Qed.
Print Assumptions C94_numbers_refuted.

Example C94_case : match color_distort ex_cd (q 1 10) (q 5 100) (map (v3map (fun a => (a / qz 255)%Qc)) ex_cols) with
  | Ok rows => cnums rows = [(Some 0, Some (1 # 40), Some (19 # 20)); (Some (253 # 510), Some (1769 # 2040), Some (263 # 1020)); (Some (253 # 255), Some (1117 # 12920), Some (61 # 1020))]%Q
  | Err _ => False end.
Proof. exact ex_color. Qed.

(** C95: one round moves every point by the magnitude times the value at the point of the
    noise on a grid that covers the cloud with one cell to spare, the noise averaged twice
    over three nodes along each axis; between the nodes the value is linear in each
    direction.  Points at the same place move together. *)
Theorem C95_round : forall noise g magnitude coords, (0 < g)%Qc -> coords <> [] ->
  exists lo hi dim n f, bounding_box lo hi coords /\ (forall k, grid_size g (channel k hi - channel k lo)%Qc (channel k dim)) /\ smoothed dim noise n /\
    elastic_round noise g magnitude coords = Ok (map f coords) /\
    forall v, In v coords -> exists d, field_at g lo dim n v d /\ (forall ch, channel ch (f v) = channel ch v + magnitude * channel ch d)%Qc.
Proof. exact thm_elastic_round. Qed.
Print Assumptions C95_round.

(** C95: no point moves farther than the largest noise times the sum of the magnitudes, and
    none moves at all with a draw of 0.95 or more. *)
Theorem C95_distance : forall draw noise params points, points <> [] -> Forall (fun p => (0 < fst p)%Qc) params ->
  exists f, elastic_distort draw noise params points = Ok (map f points) /\
    ((Q2Qc (95 # 100) <= draw)%Qc -> map f points = points) /\
    forall b, (0 <= b)%Qc -> (forall r i, bounded b (noise r i)) -> Forall (fun p => (0 <= snd p)%Qc) params ->
      forall v, In v points -> bounded (b * total (map snd params))%Qc (v3zip Qcminus (f v) v).
Proof. exact thm_elastic. Qed.
Print Assumptions C95_distance.

Example C95_case : match elastic_round (ex_noise 0) (qz 100) (q 1 10) ex_xyz with
  | Ok r => nums r = [(343 # 270, -343 # 270, 0); (1130933 # 7500, 144067 # 7500, 1); (227431 # 4500, 852569 # 4500, 10)]%Q
  | Err _ => False end.
Proof. exact ex_elastic. Qed.
