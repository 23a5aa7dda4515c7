(** Properties C18 and C29-C32: merging clouds and octrees. *)
From Coq Require Import String List ZArith Bool Qcanon.
From Verif Require Import Res Tensor Key Num Points Octree Spec SpecGeo SpecBuild SpecNeigh SpecMerge WF MergeFacts BuildMerge Examples ExampleFacts MergeExamples.
Import ListNotations.
Open Scope Z_scope.

(** C18: building the merged cloud gives the same octree as merging the octrees
    built from the clouds (all layers: keys, children, counters, signals), and the
    point-to-node map is the joined map. *)
Theorem C18_batched_build : forall normalize dep full dev ps, (full <= dep)%nat -> (dep <= 16)%nat ->
  Z.of_nat (List.length ps) <= 32768 -> clouds_ok dev ps ->
  exists mp ob idx os om idxs ls,
    merge_points ps true = Ok mp /\
    build_octree normalize (octree_new dep full (List.length ps) dev) mp = Ok (ob, idx) /\
    mapM (fun p => r <- build_octree normalize (octree_new dep full 1 dev) p ;; Ok (fst r)) ps = Ok os /\
    mapM (fun p => r <- build_octree normalize (octree_new dep full 1 dev) p ;; Ok (snd r)) ps = Ok idxs /\
    merge_octrees os = Ok om /\ same_octree om ob /\
    Forall2 (fun o l => nth_error (layers o) dep = Some l) os ls /\
    idx = join_rows (map nnum_nempty ls) idxs.
Proof. exact thm_build_merge. Qed.
Print Assumptions C18_batched_build.

Example C18_case : clouds_ok 0 ex_clouds /\ List.length ex_clouds = 3%nat /\
  map (fun p => List.length (p_points p)) ex_clouds = [3; 0; 2]%nat /\
  match merge_points ex_clouds true with
  | Ok mp => match build_octree ex_norm (octree_new 4 1 3 0) mp with
             | Ok (o, idx) => (map nnum (layers o), idx)
             | Err _ => ([], []) end
  | Err _ => ([], []) end = ([3; 24; 24; 24; 32], [0; 1; 1; 3; 2]).
Proof. split; [exact ex_clouds_ok|]. vm_compute. auto. Qed.

(** C29: merge_octrees of single-sample octrees. *)
Theorem C29_merge : forall o0 os, mergeable o0 os ->
  exists o, merge_octrees os = Ok o /\ wf_octree o /\ depth o = depth o0 /\ full_depth o = full_depth o0 /\
    batch_size o = List.length os /\ device o = device o0 /\
    forall d, (d <= depth o0)%nat ->
      exists ls l, Forall2 (fun oi li => nth_error (layers oi) d = Some li) os ls /\
        nth_error (layers o) d = Some l /\ joined (Nat.eqb d (depth o0)) ls l.
Proof. exact thm_merge. Qed.
Print Assumptions C29_merge.

(** C29, seen through xyzb(): the (non-empty) cells of the merged octree are those
    of the members, with the number of the member as batch index. *)
Theorem C29_cells : forall o0 os o d ne, mergeable o0 os -> merge_octrees os = Ok o -> (d <= depth o0)%nat ->
  exists css, mapM (fun oi => octree_xyzb oi d ne) os = Ok css /\ octree_xyzb o d ne = Ok (join_cells css).
Proof. exact thm_merge_cells. Qed.
Print Assumptions C29_cells.

Example C29_case : mergeable ex_m0 ex_ms /\ List.length ex_ms = 3%nat /\
  match merge_octrees ex_ms with Ok o => octree_xyzb o 4 true | Err e => Err e end
  = Ok [(0, 0, 0, 0); (8, 8, 0, 0); (4, 4, 4, 2); (6, 5, 4, 2)].
Proof. split; [exact ex_mergeable|]. vm_compute. auto. Qed.

(** C30 is false: as soon as one member is itself a batch, nodes of different
    samples get the same key and the result is not a well-formed octree. *)
Theorem C30_batched_members_refuted : forall os o oi, merge_octrees os = Ok o -> In oi os -> wf_octree oi ->
  (2 <= batch_size oi)%nat ->
  (exists l ks, nth_error (layers o) 0 = Some l /\ keys l = Some ks /\ ~ NoDup ks) /\ ~ wf_octree o.
Proof. exact thm_merge_batched. Qed.
Print Assumptions C30_batched_members_refuted.

Example C30_case : wf_octree ex_built2 /\ batch_size ex_built2 = 2%nat /\ match merge_octrees [ex_built2; ex_built2] with
  | Ok o => option_map keys (nth_error (layers o) 0) = Some (Some [0; 0; 2 ^ 48; 2 ^ 48])
  | Err _ => False end.
Proof. split; [exact ex_wf2|]. vm_compute. auto. Qed.

(** C31: merge_points concatenates everything and records the batch structure. *)
Theorem C31_merge_points : forall T (ps : list (pcloud T)) p0, hd_error ps = Some p0 ->
  cat_ok p_normals ps -> cat_ok p_features ps -> cat_ok p_labels ps ->
  exists p, merge_points ps true = Ok p /\
    p_points p = concat (map p_points ps) /\ p_normals p = opt_cat p_normals ps /\
    p_features p = opt_cat p_features ps /\ p_labels p = opt_cat p_labels ps /\
    p_batch_size p = List.length ps /\
    p_batch_npt p = Some (map (fun q => Z.of_nat (List.length (p_points q))) ps) /\
    p_batch_id p = Some (batch_ids ps) /\ p_device p = p_device p0.
Proof. exact @thm_merge_points. Qed.
Print Assumptions C31_merge_points.

(** C31: the r-th point of cloud number i has batch_id i. *)
Theorem C31_batch_id : forall T (ps pre : list (pcloud T)) q post r, ps = pre ++ q :: post ->
  (r < List.length (p_points q))%nat ->
  nth_error (batch_ids ps) (List.length (concat (map p_points pre)) + r) = Some (Z.of_nat (List.length pre)).
Proof. exact @batch_ids_nth. Qed.
Print Assumptions C31_batch_id.

(** C31: cutting a concatenated attribute by batch_npt gives back the inputs. *)
Theorem C31_split_recovers : forall T X (ps : list (pcloud T)) (attr : pcloud T -> list X),
  (forall q, In q ps -> List.length (attr q) = List.length (p_points q)) ->
  cut (map (fun q => Z.of_nat (List.length (p_points q))) ps) (concat (map attr ps)) = map attr ps.
Proof. exact @thm_split_recovers. Qed.
Print Assumptions C31_split_recovers.

(** C31: an attribute the first cloud has and another lacks is an error. *)
Theorem C31_missing_attribute : forall T (ps : list (pcloud T)) q b, In q ps ->
  (first_has p_normals ps = true /\ p_normals q = None) \/
  (cat_ok p_normals ps /\ first_has p_features ps = true /\ p_features q = None) \/
  (cat_ok p_normals ps /\ cat_ok p_features ps /\ first_has p_labels ps = true /\ p_labels q = None) ->
  merge_points ps b = Err TypeError.
Proof. exact @thm_missing. Qed.
Print Assumptions C31_missing_attribute.

Example C31_case : hd_error ex_clouds = Some ex_cloud /\
  match merge_points ex_clouds true with
  | Ok p => p_batch_id p = Some [0; 0; 0; 2; 2] /\ p_batch_npt p = Some [3; 0; 2] /\ p_batch_size p = 3%nat
  | Err _ => False end.
Proof. vm_compute. auto. Qed.

(** C32: the tables get_neigh reads from a merged octree are those of the members,
    entries shifted by the number of (non-empty) nodes of the preceding members. *)
Theorem C32_merged_neighbours : forall o0 os o, mergeable o0 os -> (1 <= full_depth o0)%nat ->
  merge_octrees os = Ok o ->
  exists o' os', construct_all_neigh o = Ok o' /\ mapM construct_all_neigh os = Ok os' /\
    forall d kernel stride ne, (1 <= d <= depth o0)%nat -> In kernel kernels -> (stride = 1 \/ stride = 2) ->
    exists ls tss, Forall2 (fun oi li => nth_error (layers oi) d = Some li) os ls /\
      mapM (fun oi => get_neigh oi d kernel stride ne) os' = Ok tss /\
      get_neigh o' d kernel stride ne = Ok (join_tables (map (if ne : bool then nnum_nempty else nnum) ls) tss).
Proof. exact thm_merge_neigh. Qed.
Print Assumptions C32_merged_neighbours.

Example C32_case : mergeable ex_m0 ex_ms /\ (1 <= full_depth ex_m0)%nat /\
  match (o <- merge_octrees ex_ms ;; o <- construct_all_neigh o ;; get_neigh o 4 "222" 1 true) with
  | Ok t => t = [[0; -1; -1; -1; -1; -1; -1; -1]; [1; -1; -1; -1; -1; -1; -1; -1];
                 [2; -1; -1; -1; -1; -1; -1; -1]; [3; -1; -1; -1; -1; -1; -1; -1]]
  | Err _ => False end.
Proof. split; [exact ex_mergeable|]. split; [vm_compute; auto|]. vm_compute. reflexivity. Qed.
