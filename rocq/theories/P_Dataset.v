(** Properties C70, C77 and C78: the data pipeline. *)
From Coq Require Import String Ascii List ZArith Bool QArith Qcanon Lia.
From Verif Require Import Res Tensor Key Num Points Octree PointsOps Spec SpecGeo SpecBuild SpecMerge SpecPoints WF
  Dataset SpecDataset DatasetFacts TransformFacts Pipeline Examples ExampleFacts MergeExamples DatasetExamples.
Import ListNotations.
Open Scope Z_scope.

(** C70: every key of the first sample appears, in order, with the samples' values in
    order, merged as its name asks. *)
Theorem C70_collate : forall mp b0 rest, NoDup (map fst b0) ->
  (forall k, In k (map fst b0) -> clean_key k /\
     exists vs, Forall2 (fun b v => dlookup b k = Some v) (b0 :: rest) vs /\ collatable mp k vs) ->
  exists out, collate mp (b0 :: rest) = Ok out /\ map fst out = map fst b0 /\
    forall k, In k (map fst b0) -> exists vs v, Forall2 (fun b v => dlookup b k = Some v) (b0 :: rest) vs /\
      dlookup out k = Some v /\ collated mp k vs v.
Proof. exact thm_collate. Qed.
Print Assumptions C70_collate.

Example C70_case : exists b0 rest, ex_samples_out = b0 :: rest /\ NoDup (map fst b0) /\ List.length rest = 2%nat /\
  map fst b0 = ["octree"; "points"; "label"; "name"]%string /\
  forall k, In k (map fst b0) -> clean_key k /\ exists vs, Forall2 (fun b v => dlookup b k = Some v) (b0 :: rest) vs /\ collatable true k vs.
Proof. exact ex_collatable. Qed.

(** C70: a key of the first sample that is missing in another sample makes the call raise: a
    KeyError, if the keys before it can be collated. *)
Theorem C70_missing_key : forall mp b0 rest ks k ks' b, map fst b0 = ks ++ k :: ks' -> In b rest -> dlookup b k = None ->
  (exists e, collate mp (b0 :: rest) = Err e) /\
  (NoDup (map fst b0) -> (forall k, In k ks -> clean_key k /\ exists vs, Forall2 (fun b v => dlookup b k = Some v) (b0 :: rest) vs /\ collatable mp k vs) ->
   collate mp (b0 :: rest) = Err KeyError).
Proof. exact thm_collate_missing. Qed.
Print Assumptions C70_missing_key.

Example C70_missing_case : collate false [[("a"%string, VNum 1)]; [("b"%string, VNum 2)]] = Err KeyError.
Proof. reflexivity. Qed.

(** C70 does not hold for keys that contain "label" without being "label": their values
    replace the labels. *)
Theorem C70_label_names_refuted : exists b out, NoDup (map fst b) /\ dlookup b "label" = Some (VNum 3) /\
  collate false [b] = Ok out /\ dlookup out "label" <> Some (OTensor [3]).
Proof.
  exists [("label"%string, VNum 3); ("label_index"%string, VNum 7)]. eexists. split; [|split; [reflexivity|split; [reflexivity|discriminate]]].
  repeat constructor; cbn; intuition discriminate.
Qed.
Print Assumptions C70_label_names_refuted.

(** C77: what Transform returns. *)
Theorem C77_transform : forall nrm c r, cfg_ok c -> (t_distort c = true -> draw_ok r) ->
  forall s xyz normals, sample_ok s xyz normals ->
  let f := if t_distort c then augmented r else (fun v => v) in
  let g := fun n => oriented (t_orient c) (if t_distort c then turned nrm r n else n) in
  exists out q mask keep o idx, transform_call nrm c r s = Ok out /\ NoDup (map fst out) /\
    dlookup out "points" = Some (VPts q) /\ dlookup out "inbox_mask" = Some (VMask mask) /\ dlookup out "octree" = Some (VOct o) /\
    dlookup out "normals" = None /\
    (forall k, ~ In k ["points"; "normals"; "inbox_mask"; "octree"]%string -> dlookup out k = dlookup s k) /\
    (forall k, In k (map fst out) <-> k <> "normals"%string /\ (In k (map fst s) \/ In k ["inbox_mask"; "octree"]%string)) /\
    List.length mask = List.length xyz /\
    carried keep f g (mkPoints xyz (Some normals) None None None 1 None 0) q /\
    (forall i v, nth_error xyz i = Some v ->
       (In i keep <-> inside (Q2Qc (-99 # 100)) (Q2Qc (99 # 100)) (f v)) /\
       (nth_error mask i = Some true <-> inside (Q2Qc (-99 # 100)) (Q2Qc (99 # 100)) (f v))) /\
    good_cloud 1 q /\ Forall in_box (p_points q) /\ p_device q = 0%nat /\
    p_features q = None /\ p_labels q = None /\ p_normals q <> None /\
    build_octree nrm (octree_new (t_cdepth c) (t_cfull c) 1 0) q = Ok (o, idx) /\
    wf_octree o /\ depth o = t_cdepth c /\ full_depth o = t_cfull c /\ batch_size o = 1%nat.
Proof. exact thm_transform. Qed.
Print Assumptions C77_transform.

Example C77_case : cfg_ok ex_cfg /\ draw_ok ex_draw /\ t_distort ex_cfg = true /\ exists xyz n, sample_ok ex_sample1 xyz n /\ List.length xyz = 3%nat /\
  map (augmented ex_draw) xyz <> xyz.
Proof. exact ex_transform_ok. Qed.

(** C78: a transformed and collated batch holds the octree of its points. *)
Theorem C78_pipeline : forall nrm c rs ss, cfg_ok c -> (1 <= t_cfull c)%nat -> List.length rs = List.length ss ->
  ss <> [] -> Z.of_nat (List.length ss) <= 32768 ->
  (t_distort c = true -> Forall draw_ok rs) -> Forall (fun s => exists xyz n, sample_ok s xyz n) ss ->
  (forall s0 k, hd_error ss = Some s0 -> In k (map fst s0) -> ~ In k ["points"; "normals"; "inbox_mask"; "octree"]%string ->
     clean_key k /\ exists vs, Forall2 (fun s v => dlookup s k = Some v) ss vs /\ collatable true k vs) ->
  exists outs batch qs p o ob idx ob',
    mapM (fun '(r, s) => transform_call nrm c r s) (combine rs ss) = Ok outs /\
    collate true outs = Ok batch /\
    Forall2 (fun out q => dlookup out "points" = Some (VPts q)) outs qs /\
    merge_points qs true = Ok p /\ Forall in_box (p_points p) /\
    dlookup batch "points" = Some (OOne (VPts p)) /\ dlookup batch "octree" = Some (OOne (VOct o)) /\
    build_octree nrm (octree_new (t_cdepth c) (t_cfull c) (List.length ss) 0) p = Ok (ob, idx) /\
    construct_all_neigh ob = Ok ob' /\ same_octree o ob' /\
    (forall s0 k vs, hd_error ss = Some s0 -> In k (map fst s0) -> ~ In k ["points"; "normals"; "inbox_mask"; "octree"]%string ->
       Forall2 (fun s v => dlookup s k = Some v) ss vs -> exists v, dlookup batch k = Some v /\ collated true k vs v).
Proof. exact thm_pipeline. Qed.
Print Assumptions C78_pipeline.

Example C78_case : List.length [ex_draw; ex_draw] = List.length [ex_sample1; ex_sample2] /\ Forall draw_ok [ex_draw; ex_draw] /\
  Forall (fun s => exists xyz n, sample_ok s xyz n) [ex_sample1; ex_sample2] /\
  forall s0 k, hd_error [ex_sample1; ex_sample2] = Some s0 -> In k (map fst s0) -> ~ In k ["points"; "normals"; "inbox_mask"; "octree"]%string ->
     clean_key k /\ exists vs, Forall2 (fun s v => dlookup s k = Some v) [ex_sample1; ex_sample2] vs /\ collatable true k vs.
Proof. exact ex_pipeline_ok. Qed.
