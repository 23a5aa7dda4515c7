(** Properties C58-C66: point clouds. *)
From Coq Require Import String Ascii List ZArith Bool Sorted QArith Qcanon Reals Lra Lia.
From Verif Require Import Res Tensor Num Points Octree PointsOps SpecGeo SpecBuild WF SpecPoints PointsFacts PointsGeo PointsClip
  Examples ExampleFacts PointsExamples.
Import ListNotations.

(** A cloud over the reals with all attributes. *)
Definition rex : pcloud R := mkPoints [(0, 0, 0); (2, 0, 0); (0, 1 / 2, 0)]%R (Some [(1, 0, 0); (0, -1, 0); (0, 0, 1)]%R)
  (Some [[1]; [2]; [3]]%R) (Some [[0]; [1]; [1]]%R) (Some [0; 0; 1]%Z) 2 (Some [2; 1]%Z) 0.
Example rex_ok : cloud_ok rex. Proof. repeat split. Qed.

(** C58: after any sequence of operations (whether or not some of them raised), every
    attribute still has one row per point, and the cloud consists of some of the
    original points in order, each with its own normal, features, label and batch
    index.  The maps [f] and [g] applied to points and normals depend on the
    operations only, not on the cloud. *)
Theorem C58_attributes_stay_aligned : forall ops, exists f g, forall p, cloud_ok p ->
  cloud_ok (papply_all p ops) /\ exists keep, carried keep f g p (papply_all p ops).
Proof. exact thm_aligned. Qed.
Print Assumptions C58_attributes_stay_aligned.

(** C58: the constructor accepts exactly attributes with one row per point (a batch index
    must be a column) and keeps them. *)
Theorem C58_constructor : forall T dev (pts : list (v3 T)) nm ft lb bid bs,
  match points_new dev pts nm ft lb bid bs with
  | Ok p => cloud_ok p /\ p_points p = pts /\ p_normals p = nm /\ p_features p = ft /\
      p_labels p = option_map (fun a => match a with Lab1 l => map (fun x => [x]) l | Lab2 l => l end) lb /\
      bid = option_map (fun l => Bid2 (map (fun i => [i]) l)) (p_batch_id p) /\ p_batch_size p = bs /\ p_device p = dev
  | Err e => ~ rows_ok (List.length pts) nm \/ ~ rows_ok (List.length pts) ft \/
      (exists a, lb = Some a /\ match a with Lab1 l => List.length l | Lab2 l => List.length l end <> List.length pts) \/
      (exists b, bid = Some b /\ ~ exists l, List.length l = List.length pts /\ b = Bid2 (map (fun i => [i]) l))
  end.
Proof. exact @thm_points_new. Qed.
Print Assumptions C58_constructor.
Example C58_constructor_case : (exists p, points_new 0 [(qz 1, qz 2, qz 3)] (Some [(qz 0, qz 0, qz 1)]) None (Some (Lab1 [qz 5])) (Some (Bid2 [[0%Z]])) 1 = Ok p) /\
  points_new 0 [(qz 1, qz 2, qz 3)] (Some []) None None None 1 = Err AssertionError.
Proof. split; [eexists|]; reflexivity. Qed.

Example C58_case : cloud_ok rex /\
  p_labels (papply_all rex [PTranslate (1, 0, 0)%R; PFlip "xq"; PIndex [true]; PIndex [true; false; true]; PTo 1]) = Some [[0]; [1]]%R /\
  snd (papply rex (PFlip "xq")) = Some KeyError /\ snd (papply rex (PIndex [true])) = Some IndexError.
Proof. split; [exact rex_ok|]. repeat split; reflexivity. Qed.

(** C59 *)
Theorem C59_clip : forall mn mx esp (p : pcloud Qc), cloud_ok p ->
  exists mask q keep, clip qltb Qcplus Qcminus mn mx esp p = Ok (mask, q) /\ List.length mask = npt p /\
    carried keep (fun v => v) (fun v => v) p q /\
    (forall i v, nth_error (p_points p) i = Some v ->
       (In i keep <-> inside (mn + esp) (mx - esp) v) /\ (nth_error mask i = Some true <-> inside (mn + esp) (mx - esp) v)) /\
    p_batch_size q = p_batch_size p /\ p_device q = p_device p.
Proof. exact thm_clip. Qed.
Print Assumptions C59_clip.
(** C59: inbox_mask with bounds per axis selects the points strictly inside the box. *)
Theorem C59_inbox : forall x0 y0 z0 x1 y1 z1 (p : pcloud Qc),
  List.length (inbox_mask qltb (x0, y0, z0) (x1, y1, z1) p) = npt p /\
  forall i x y z, nth_error (p_points p) i = Some (x, y, z) ->
    (nth_error (inbox_mask qltb (x0, y0, z0) (x1, y1, z1) p) i = Some true <->
     ((x0 < x /\ x < x1) /\ (y0 < y /\ y < y1) /\ (z0 < z /\ z < z1))%Qc).
Proof. exact thm_inbox. Qed.
Print Assumptions C59_inbox.
(** C59: after the default clip the octree can be built and the points are in range. *)
Theorem C59_clip_then_build : forall nrm o (pc : pcloud Qc), build_input o pc -> cloud_ok pc ->
  exists mask q, clip qltb Qcplus Qcminus (qz (-1)) (qz 1) (Q2Qc (1 # 100)) pc = Ok (mask, q) /\
    build_input o q /\ Forall in_box (p_points q) /\
    exists o' idx, build_octree nrm o q = Ok (o', idx) /\ wf_octree o'.
Proof. exact thm_clip_build. Qed.
Print Assumptions C59_clip_then_build.
Example C59_case : build_input ex_octree2 ex_batch /\ cloud_ok ex_batch /\
  match clip qltb Qcplus Qcminus (qz (-1)) (qz 1) (Q2Qc (1 # 100)) ex_batch with
  | Ok (mask, q) => mask = map (fun v => let '(x, y, z) := v in
      qltb (Q2Qc (-99 # 100)) x && qltb (Q2Qc (-99 # 100)) y && qltb (Q2Qc (-99 # 100)) z && (qltb x (Q2Qc (99 # 100)) && qltb y (Q2Qc (99 # 100)) && qltb z (Q2Qc (99 # 100))))
      (p_points ex_batch) /\ npt q <> npt ex_batch
  | Err _ => False
  end.
Proof. split; [exact ex_input2|]. split; [repeat split|]. vm_compute. split; [reflexivity|discriminate]. Qed.

(** C60: rotation about the x axis, then y, then z; distances, lengths, angles and
    orientation are preserved, for points and normals. *)
Theorem C60_rotate_is_rigid : forall a p,
  let f := fun v => let '(ax, ay, az) := a in turn_z az (turn_y ay (turn_x ax v)) in
  moved f f p (rotate a p) /\
  (forall u v, dist (f u) (f v) = dist u v) /\ (forall u, norm (f u) = norm u) /\ (forall u v, dot (f u) (f v) = dot u v) /\
  (forall u v w, volume (f u) (f v) (f w) = volume u v w).
Proof. exact thm_rotate. Qed.
Print Assumptions C60_rotate_is_rigid.
Theorem C60_translate : forall dis p,
  let f := fun v => let '(x, y, z) := v in let '(a, b, c) := dis in (x + a, y + b, z + c)%R in
  moved f (fun n => n) p (translate dis p) /\ (forall u v, vsub (f u) (f v) = vsub u v) /\ (forall u v, dist (f u) (f v) = dist u v).
Proof. exact thm_translate. Qed.
Print Assumptions C60_translate.
(** A quarter turn about z sends the x axis to the y axis. *)
Example C60_case : p_points (rotate (0, 0, PI / 2)%R rex) = [(0, 0, 0); (0, 2, 0); (- (1 / 2), 0, 0)]%R.
Proof.
  cbn. rewrite cos_0, sin_0, cos_PI2, sin_PI2.
  repeat (apply f_equal2; [apply f_equal2; [apply f_equal2|]; field|]). reflexivity.
Qed.

(** C61 *)
Theorem C61_flip : forall axis p, Forall (fun a => axis_no a <> None) (list_ascii_of_string axis) ->
  exists q, flip axis p = (q, None) /\ moved (mirror (list_ascii_of_string axis)) (mirror (list_ascii_of_string axis)) p q /\
    flip axis q = (p, None).
Proof. exact thm_flip. Qed.
Print Assumptions C61_flip.
(** C61: an unknown letter raises KeyError; the letters before it have taken effect. *)
Theorem C61_flip_unknown_axis : forall axis p pre a rest, list_ascii_of_string axis = pre ++ a :: rest ->
  Forall (fun a => axis_no a <> None) pre -> axis_no a = None ->
  exists q, flip axis p = (q, Some KeyError) /\ moved (mirror pre) (mirror pre) p q.
Proof. exact thm_flip_unknown. Qed.
Print Assumptions C61_flip_unknown_axis.
Example C61_case : Forall (fun a => axis_no a <> None) (list_ascii_of_string "xzx") /\
  mirror (list_ascii_of_string "xzx") (1, 2, 3)%R = (1, 2, -3)%R /\ mirror (list_ascii_of_string "yz") (1, 2, 3)%R = (1, -2, -3)%R.
Proof. split; [repeat constructor; discriminate|]. split; reflexivity. Qed.

(** C62: the normals' lengths before clamping must exceed the code's 1e-12 threshold. *)
Theorem C62_scale : forall fx fy fz p, (fx <> 0 -> fy <> 0 -> fz <> 0 ->
  let f := fun v => let '(x, y, z) := v in (x * fx, y * fy, z * fz) in
  exists q g, points_scale (fx, fy, fz) p = Ok q /\ moved f g p q /\
    (forall n t, dot n t = 0 -> dot (g n) (f t) = 0) /\
    (fy = fx -> fz = fx -> forall n, g n = n) /\
    (~ (fy = fx /\ fz = fx) -> forall n, let '(x, y, z) := n in 1 / 10 ^ 12 <= norm (x / fx, y / fy, z / fz) -> norm (g n) = 1))%R.
Proof. exact thm_scale. Qed.
Print Assumptions C62_scale.
Theorem C62_zero_factor : forall fx fy fz p, (fx = 0 \/ fy = 0 \/ fz = 0)%R -> points_scale (fx, fy, fz) p = Err AssertionError.
Proof. exact thm_scale_zero. Qed.
Print Assumptions C62_zero_factor.
Example C62_case : (1 <> 0 /\ 2 <> 0 /\ ~ (2 = 1 /\ 1 = 1) /\ dot (1, -1, 0) (1, 1, 5) = 0 /\ 1 / 10 ^ 12 <= norm (1 / 1, 0 / 2, 0 / 1))%R.
Proof.
  split; [lra|]. split; [lra|]. split; [lra|]. split; [cbn; lra|].
  unfold norm, dot. replace (1 / 1 * (1 / 1) + 0 / 2 * (0 / 2) + 0 / 1 * (0 / 1))%R with 1%R by field. rewrite sqrt_1. lra.
Qed.

(** C63 *)
Theorem C63_orient_normal : forall axis i p, axis_no axis = Some i ->
  exists g, (exists q, orient_normal (String axis EmptyString) p = Ok q /\ moved (fun v => v) g p q) /\
    forall n, (0 <= coord i (g n))%R /\ (g n = n \/ g n = vsub (0, 0, 0)%R n) /\ norm (g n) = norm n.
Proof. exact thm_orient. Qed.
Print Assumptions C63_orient_normal.
Theorem C63_orient_xyz : forall p, exists q, orient_normal "xyz" p = Ok q /\
  moved (fun v => v) (fun n => let '(x, y, z) := n in (Rabs x, Rabs y, Rabs z)) p q.
Proof. exact thm_orient_xyz. Qed.
Print Assumptions C63_orient_xyz.
Theorem C63_orient_unknown_axis : forall axis p, p_normals p <> None -> ~ In axis ["x"; "y"; "z"; "xyz"]%string ->
  orient_normal axis p = Err KeyError.
Proof. exact thm_orient_unknown. Qed.
Print Assumptions C63_orient_unknown_axis.
Theorem C63_orient_without_normals : forall axis p, p_normals p = None -> orient_normal axis p = Ok p.
Proof. exact thm_orient_none. Qed.
Print Assumptions C63_orient_without_normals.
Example C63_case : axis_no "y" = Some 1%nat /\ p_normals rex <> None /\ ~ In "w"%string ["x"; "y"; "z"; "xyz"]%string /\
  orient_row 1 (0, -1, 0)%R <> (0, -1, 0)%R.
Proof.
  split; [reflexivity|]. split; [discriminate|]. split; [intros [H|[H|[H|[H|[]]]]]; discriminate|].
  intros H. pose proof (orient_sign 1 (0, -1, 0)%R) as Hs. rewrite H in Hs. cbn in Hs. lra.
Qed.

(** C64 *)
Theorem C64_normalize : forall a b s p, (0 < s)%R -> (forall i, (i < 3)%nat -> (coord i a <= coord i b)%R) ->
  exists f k, moved f (fun n => n) p (normalize a b s p) /\ (0 < k)%R /\
    (forall u v, vsub (f u) (f v) = (k * coord 0 (vsub u v), k * coord 1 (vsub u v), k * coord 2 (vsub u v))%R) /\
    (forall v, between a b v -> forall i, (i < 3)%nat -> (- s < coord i (f v) < s)%R).
Proof. exact thm_normalize. Qed.
Print Assumptions C64_normalize.
(** C64: bbox is the tight bounding box, and normalising by it fits all points. *)
Theorem C64_bbox : forall p, p_points p <> [] -> exists a b, bbox p = Ok (a, b) /\ Forall (between a b) (p_points p) /\
  forall i, (i < 3)%nat -> (exists v, In v (p_points p) /\ coord i a = coord i v) /\ (exists v, In v (p_points p) /\ coord i b = coord i v).
Proof. exact thm_bbox. Qed.
Print Assumptions C64_bbox.
Theorem C64_normalize_by_bbox : forall p s, (0 < s)%R -> p_points p <> [] ->
  exists a b, bbox p = Ok (a, b) /\ npt (normalize a b s p) = npt p /\
    Forall (fun v => forall i, (i < 3)%nat -> (- s < coord i v < s)%R) (p_points (normalize a b s p)).
Proof. exact thm_bbox_normalize. Qed.
Print Assumptions C64_normalize_by_bbox.
Example C64_case : p_points rex <> [] /\ between (0, 0, 0)%R (2, 1, 0)%R (2, 1 / 2, 0)%R.
Proof. split; [discriminate|]. intros i Hi. destruct i as [|[|[|i]]]; cbn; try lra; lia. Qed.

(** C65: to(device) keeps every attribute and the counts per cloud, but the batch size
    only when nothing moves or it is 1; slices keep the batch size and lose the counts. *)
Theorem C65_to_partial : forall T (p : pcloud T) dev,
  p_points (points_to p dev) = p_points p /\ p_normals (points_to p dev) = p_normals p /\ p_features (points_to p dev) = p_features p /\
  p_labels (points_to p dev) = p_labels p /\ p_batch_id (points_to p dev) = p_batch_id p /\ p_batch_npt (points_to p dev) = p_batch_npt p /\
  p_device (points_to p dev) = dev /\
  (p_batch_size (points_to p dev) = p_batch_size p <-> dev = p_device p \/ p_batch_size p = 1%nat).
Proof. exact @thm_to. Qed.
Print Assumptions C65_to_partial.
Theorem C65_slice_partial : forall T (p q : pcloud T) m, points_getitem p m = Ok q ->
  p_batch_size q = p_batch_size p /\ p_device q = p_device p /\ p_batch_npt q = None.
Proof. exact @thm_slice. Qed.
Print Assumptions C65_slice_partial.
Theorem C65_bookkeeping_refuted :
  (exists (p : pcloud Qc) dev, cloud_ok p /\ p_batch_size (points_to p dev) <> p_batch_size p) /\
  (exists (p q : pcloud Qc) m, cloud_ok p /\ points_getitem p m = Ok q /\ p_batch_npt p <> None /\ p_batch_npt q = None).
Proof.
  exact (conj (ex_intro _ ex_merged (ex_intro _ 1%nat (conj ex_merged_ok ex_merged_to)))
              (ex_intro _ ex_merged (ex_intro _ ex_merged_slice (ex_intro _ [true; false; true; true] (conj ex_merged_ok (conj ex_merged_get (conj ex_merged_npt eq_refl))))))).
Qed.
Print Assumptions C65_bookkeeping_refuted.

(** C66: a batch_id of shape (N,) is never accepted; the same ids as (N,1) are. *)
Theorem C66_column_ids_partial : forall T dev (pts : list (v3 T)) n f b bs,
  rows_ok (List.length pts) n -> rows_ok (List.length pts) f -> List.length b = List.length pts ->
  points_new dev pts n f None (Some (Bid1 b)) bs = Err IndexError /\
  exists pc, points_new dev pts n f None (Some (Bid2 (map (fun i => [i]) b))) bs = Ok pc /\
    pc = mkPoints pts n f None (Some b) bs None dev.
Proof. exact @thm_bid1_index. Qed.
Print Assumptions C66_column_ids_partial.
Theorem C66_flat_ids_refuted : forall T dev (pts : list (v3 T)) n f l b bs pc, points_new dev pts n f l (Some (Bid1 b)) bs <> Ok pc.
Proof. exact @thm_bid1. Qed.
Print Assumptions C66_flat_ids_refuted.
(** C66: so to_points raises for every octree. *)
Theorem C66_to_points_refuted : forall o r pc, to_points o r <> Ok pc.
Proof. exact thm_to_points. Qed.
Print Assumptions C66_to_points_refuted.
Example C66_case : to_points ex_built true = Err IndexError /\ to_points ex_built2 false = Err IndexError.
Proof. split; vm_compute; reflexivity. Qed.
