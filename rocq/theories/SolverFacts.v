(** Facts about the training steps. *)
From Coq Require Import String Ascii List ZArith Bool QArith Qcanon Lia.
From Verif Require Import Res Tensor Key Num NumFacts Points Octree PointsOps NnBasic NnConv NnInterp Features Net Dataset Project Shape Solver
  Spec SpecGeo SpecBuild WF SpecNeigh SpecMerge SpecNN SpecInterp SpecNet SpecFeature SpecBatch SpecSolver
  KeyFacts ListFacts KidsFacts ScatterFacts BuildFacts BuildClosed BuildThms WFFacts SearchFacts NeighFacts NeighThms MergeFacts BuildMerge DeviceFacts DatasetFacts
  FeatureFacts NetBatch BatchThms FeatBatch NetBuilt NetSeg NetLoops DecodeBatch.
Import ListNotations.
Open Scope Z_scope.

(** ** moving clouds *)
Section Move.
  Variables (d0 dev : nat).
  Notation mv := (fun p => points_to p dev).

  Lemma mv_eq (p : pcloud Qc) : p_batch_size p = 1%nat -> points_to p dev =
    mkPoints (p_points p) (p_normals p) (p_features p) (p_labels p) (p_batch_id p) 1 (p_batch_npt p) dev.
  Proof.
    intros H. unfold points_to. destruct (Nat.eqb_spec (p_device p) dev) as [E|E]; [|reflexivity]. destruct p. cbn in *. subst. reflexivity.
  Qed.
  Lemma mv_points (p : pcloud Qc) : p_points (points_to p dev) = p_points p.
  Proof. unfold points_to. destruct (Nat.eqb _ _); reflexivity. Qed.
  Lemma mv_normals (p : pcloud Qc) : p_normals (points_to p dev) = p_normals p.
  Proof. unfold points_to. destruct (Nat.eqb _ _); reflexivity. Qed.
  Lemma mv_features (p : pcloud Qc) : p_features (points_to p dev) = p_features p.
  Proof. unfold points_to. destruct (Nat.eqb _ _); reflexivity. Qed.
  Lemma mv_labels (p : pcloud Qc) : p_labels (points_to p dev) = p_labels p.
  Proof. unfold points_to. destruct (Nat.eqb _ _); reflexivity. Qed.
  Lemma mv_device (p : pcloud Qc) : p_device (points_to p dev) = dev.
  Proof. unfold points_to. destruct (Nat.eqb_spec (p_device p) dev) as [E|E]; [exact E|reflexivity]. Qed.
  Lemma mv_good p : good_cloud 1 p -> good_cloud 1 (points_to p dev).
  Proof.
    intros G. rewrite (mv_eq p (gc_size _ _ G)). constructor; cbn [p_batch_size p_batch_id p_points p_normals p_features]; try reflexivity.
    - congruence.
    - lia.
    - apply (gc_normals _ _ G).
    - apply (gc_features _ _ G).
  Qed.
  Lemma mv_cat {B} (f : pcloud Qc -> option (list B)) ps : (forall p, f (points_to p dev) = f p) -> cat_ok f ps -> cat_ok f (map mv ps).
  Proof.
    intros Hf H. unfold cat_ok in *. intros E. assert (E' : first_has f ps = true) by (destruct ps; [discriminate|]; cbn in *; rewrite Hf in E; exact E).
    specialize (H E'). rewrite Forall_forall in *. intros q Hq. apply in_map_iff in Hq. destruct Hq as (p & <- & Hp). rewrite Hf. apply H. exact Hp.
  Qed.
  Lemma moved_ok ps : clouds_ok d0 ps -> clouds_ok dev (map mv ps).
  Proof.
    intros (H1 & H2 & H3 & H4 & H5 & H6 & c & H7). split; [destruct ps; [congruence|discriminate]|]. split; [|split; [|split; [|split; [|split]]]].
    - rewrite Forall_forall in *. intros q Hq. apply in_map_iff in Hq. destruct Hq as (p & <- & Hp). apply mv_good. auto.
    - apply Forall_forall. intros q Hq. apply in_map_iff in Hq. destruct Hq as (p & <- & Hp). apply mv_device.
    - apply mv_cat; [apply mv_normals|exact H4].
    - apply mv_cat; [apply mv_features|exact H5].
    - apply mv_cat; [apply mv_labels|exact H6].
    - exists c. intros q f Hq. apply in_map_iff in Hq. destruct Hq as (p & <- & Hp). rewrite mv_features. apply H7. exact Hp.
  Qed.
End Move.

Lemma batch_ids_ext {T} (f : pcloud T -> pcloud T) ps : (forall p, p_points (f p) = p_points p) -> batch_ids (map f ps) = batch_ids ps.
Proof.
  intros H. unfold batch_ids. generalize 0. induction ps as [|p t IH]; intros i; [reflexivity|]. cbn [map indexed concat]. rewrite H, IH. reflexivity.
Qed.
Lemma opt_cat_ext {A B} (f : A -> option (list B)) (g : A -> A) ps : (forall p, f (g p) = f p) -> opt_cat f (map g ps) = opt_cat f ps.
Proof.
  intros H. unfold opt_cat, cat_some. rewrite map_map. replace (first_has f (map g ps)) with (first_has f ps) by (destruct ps; [reflexivity|cbn; rewrite H; reflexivity]).
  rewrite (map_ext (fun x => match f (g x) with Some r => r | None => [] end) (fun x => match f x with Some r => r | None => [] end)) by (intros a; rewrite H; reflexivity).
  reflexivity.
Qed.

(** ** building and moving *)
Lemma built_dev normalize dep full d0 dev p o1 o2 : good_cloud 1 p -> built_of normalize dep full d0 1 p o1 -> built_of normalize dep full dev 1 (points_to p dev) o2 ->
  o2 = octree_to o1 dev.
Proof.
  intros G (A1 & A2 & A3 & A4 & TA & LA) (B1 & B2 & B3 & B4 & TB & LB). rewrite to_eq. rewrite A1, A2, A3.
  destruct o2 as [d2 f2 b2 v2 l2]. cbn [depth full_depth batch_size device layers] in *. subst d2 f2 b2 v2. f_equal.
  pose proof (t_len _ _ _ _ TA) as LenA. pose proof (t_len _ _ _ _ TB) as LenB. cbn [layers depth] in *. rewrite A1 in LenA.
  apply nth_ext with (d := empty_layer 1) (d' := empty_layer 1); [lia|]. intros i Hi.
  assert (Hd : (i <= dep)%nat) by lia. pose proof (LA i Hd) as HA. pose proof (LB i Hd) as HB.
  apply (nth_error_nth _ _ (empty_layer 1)) in HA. apply (nth_error_nth _ _ (empty_layer 1)) in HB. rewrite HA, HB.
  rewrite (mv_eq dev p (gc_size _ _ G)). destruct p as [x1 x2 x3 x4 x5 x6 x7 x8]. pose proof (gc_size _ _ G) as Hs. cbn in Hs. subst x6. reflexivity.
Qed.
Lemma p2o_eq nrm dep full dev p : points2octree nrm dep full p = (r <- build_octree nrm (octree_new dep full 1 dev) p ;; Ok (fst r)).
Proof. reflexivity. Qed.

Section Process.
  Variables (nrm : v3 Qc -> v3 Qc) (dep full d0 dev : nat) (ps : list (pcloud Qc)).
  Hypothesis Hf : (1 <= full <= dep)%nat.
  Hypothesis H16 : (dep <= 16)%nat.
  Hypothesis Hn : Z.of_nat (length ps) <= 32768.
  Hypothesis Hc : clouds_ok d0 ps.
  Notation qs := (map (fun p => points_to p dev) ps).

  Lemma builds_on dv ps' : clouds_ok dv ps' -> Z.of_nat (length ps') <= 32768 ->
    exists os, mapM (points2octree nrm dep full) ps' = Ok os /\ Forall2 (built_of nrm dep full dv 1) ps' os.
  Proof.
    clear ps Hn Hc. intros Hok Hl. destruct ps' as [|p0 t]; [destruct Hok; congruence|].
    destruct (builds nrm dep full dv p0 t) as (os & E & H); [lia|lia|exact Hok|]. exists os. split; [|exact H]. rewrite <- E. reflexivity.
  Qed.
  Lemma mem_on dv ps' os : clouds_ok dv ps' -> Z.of_nat (length ps') <= 32768 -> Forall2 (built_of nrm dep full dv 1) ps' os ->
    exists oh, mergeable oh os /\ depth oh = dep /\ full_depth oh = full /\ device oh = dv.
  Proof.
    intros Hok Hl H. destruct ps' as [|p0 t]; [destruct Hok; congruence|]. inversion H as [|? oh ? os' Hb Ht]; subst.
    exists oh. destruct (built_mem nrm dep full dv p0 t) with (os := oh :: os') (oh := oh) as (M & _ & D1 & D2 & D3); [exact Hl|exact Hok|exact H|reflexivity|]. auto.
  Qed.

  Lemma moved_builds os os2 : mapM (points2octree nrm dep full) ps = Ok os -> mapM (points2octree nrm dep full) qs = Ok os2 -> os2 = map (fun o => octree_to o dev) os.
  Proof.
    intros E1 E2. destruct (builds_on d0 ps Hc Hn) as (os' & F1 & H1). assert (os' = os) by congruence. subst os'.
    pose proof (moved_ok d0 dev ps Hc) as Hc2. destruct (builds_on dev qs Hc2) as (os' & F2 & H2); [rewrite map_length; exact Hn|]. assert (os' = os2) by congruence. subst os'.
    destruct Hc as (_ & G & _). clear - H1 H2 G. revert os os2 H1 H2. induction G as [|p t Gp G IH]; intros os os2 H1 H2; inversion H1; subst; inversion H2; subst; [reflexivity|].
    cbn [map]. f_equal; [|apply IH; assumption]. apply (built_dev nrm dep full d0 dev p); assumption.
  Qed.

  (** everything that is computed from a list of clouds *)
  Lemma prepared : exists os om o q, mapM (points2octree nrm dep full) ps = Ok os /\ merge_octrees os = Ok om /\ construct_all_neigh om = Ok o /\ merge_points ps true = Ok q /\
     mapM (points2octree nrm dep full) qs = Ok (map (fun o => octree_to o dev) os) /\
     merge_octrees (map (fun o => octree_to o dev) os) = Ok (octree_to om dev) /\ construct_all_neigh (octree_to om dev) = Ok (octree_to o dev) /\
     exists q1, merge_points qs true = Ok q1 /\ same_cloud q1 (points_to q dev) /\ p_batch_size q1 = length ps.
  Proof.
    destruct (builds_on d0 ps Hc Hn) as (os & E & HB). destruct (mem_on d0 ps os Hc Hn HB) as (oh & M & D1 & D2 & D3).
    destruct (thm_batched oh os M) as (o & os' & (om & E1 & E2 & E3) & _); [lia|].
    pose proof (moved_ok d0 dev ps Hc) as Hc2. destruct (builds_on dev qs Hc2) as (os2 & F & _); [rewrite map_length; exact Hn|].
    assert (os2 = map (fun o => octree_to o dev) os) by (apply moved_builds; assumption). subst os2.
    destruct ps as [|p0 t] eqn:Eps; [destruct Hc; congruence|].
    pose proof Hc as (_ & _ & _ & C1 & C2 & C3 & _). pose proof Hc2 as (_ & _ & _ & C4 & C5 & C6 & _).
    exists os, om, o, (joined_cloud (p0 :: t) p0). split; [exact E|]. split; [exact E1|]. split; [exact E2|]. split; [apply merge_points_Ok; assumption|].
    split; [exact F|]. split; [apply thm_to_merge; exact E1|]. split; [apply thm_to_neigh; exact E2|].
    cbn [map] in *. exists (joined_cloud (points_to p0 dev :: map (fun p => points_to p dev) t) (points_to p0 dev)). split; [apply merge_points_Ok; assumption|].
    split; [|cbn [joined_cloud p_batch_size length]; rewrite map_length; reflexivity].
    unfold same_cloud. rewrite mv_points, mv_normals, mv_features, mv_labels, mv_device.
    change (points_to p0 dev :: map (fun p => points_to p dev) t) with (map (fun p => points_to p dev) (p0 :: t)).
    generalize (p0 :: t) as l. intros l. cbn [joined_cloud p_points p_normals p_features p_labels p_device].
    assert (B : p_batch_id (points_to (joined_cloud l p0) dev) = Some (batch_ids l)) by (unfold points_to; destruct (Nat.eqb _ _); reflexivity).
    assert (N : p_batch_npt (points_to (joined_cloud l p0) dev) = Some (map (fun p => Z.of_nat (length (p_points p))) l)) by (unfold points_to; destruct (Nat.eqb _ _); reflexivity).
    rewrite B, N. cbn [joined_cloud p_batch_id p_batch_npt].
    split; [rewrite map_map; f_equal; apply map_ext; intros; apply mv_points|].
    split; [apply opt_cat_ext; apply mv_normals|]. split; [apply opt_cat_ext; apply mv_features|]. split; [apply opt_cat_ext; apply mv_labels|].
    split; [f_equal; apply batch_ids_ext; apply mv_points|]. split; [|apply mv_device].
    f_equal. rewrite map_map. apply map_ext. intros; rewrite mv_points; reflexivity.
  Qed.

  Lemma as_pts_all (g : pcloud Qc -> pcloud Qc) l : mapM (fun v => p <- as_pts v ;; Ok (g p)) (map VPts l) = Ok (map g l).
  Proof. induction l as [|p l IH]; [reflexivity|]. cbn [map mapM as_pts bind]. rewrite IH. reflexivity. Qed.

  (** ** the two ways to prepare a batch *)
  Theorem thm_process : exists os om o q, 
    mapM (fun p => r <- build_octree nrm (octree_new dep full 1 d0) p ;; Ok (fst r)) ps = Ok os /\
    merge_octrees os = Ok om /\ construct_all_neigh om = Ok o /\ merge_points ps true = Ok q /\
    forall b1 b2, dlookup b1 "octree" = None -> dlookup b1 "points" = Some (OList (map VPts ps)) ->
      dlookup b2 "octree" = Some (OOne (VOct o)) -> dlookup b2 "points" = Some (OOne (VPts q)) ->
      exists out1 out2 q1 q2, process_batch nrm dep full dev b1 = Ok out1 /\ process_batch nrm dep full dev b2 = Ok out2 /\
        dlookup out1 "octree" = Some (OOne (VOct (octree_to o dev))) /\ dlookup out2 "octree" = Some (OOne (VOct (octree_to o dev))) /\
        dlookup out1 "points" = Some (OOne (VPts q1)) /\ dlookup out2 "points" = Some (OOne (VPts q2)) /\ same_cloud q1 q2 /\ p_batch_size q1 = length ps /\
        (forall k, k <> "octree"%string -> k <> "points"%string -> dlookup out1 k = dlookup b1 k /\ dlookup out2 k = dlookup b2 k) /\
        forall model CF s ne m, model_forward model CF s ne m out1 = model_forward model CF s ne m out2.
  Proof.
    destruct prepared as (os & om & o & q & E1 & E2 & E3 & E4 & F1 & F2 & F3 & q1 & F4 & SC & SB).
    exists os, om, o, q. split; [rewrite <- E1; reflexivity|]. split; [exact E2|]. split; [exact E3|]. split; [exact E4|].
    intros b1 b2 N1 N2 N3 N4.
    set (x1 := dset (dset b1 "points" (OOne (VPts q1))) "octree" (OOne (VOct (octree_to o dev)))).
    set (x2 := dset (dset b2 "octree" (OOne (VOct (octree_to o dev)))) "points" (OOne (VPts (points_to q dev)))).
    exists x1, x2, q1, (points_to q dev).
    assert (P1 : process_batch nrm dep full dev b1 = Ok x1).
    { unfold process_batch. rewrite N1. unfold dget. rewrite N2. cbn [bind iter]. rewrite as_pts_all. cbn [bind]. rewrite F1. cbn [bind]. rewrite F2. cbn [bind]. rewrite F3. cbn [bind]. rewrite F4. reflexivity. }
    assert (P2 : process_batch nrm dep full dev b2 = Ok x2).
    { unfold process_batch. rewrite N3. cbn [one_oct as_oct bind]. unfold dget. rewrite dlookup_dset, N4. reflexivity. }
    assert (L1 : dlookup x1 "octree" = Some (OOne (VOct (octree_to o dev)))) by (unfold x1; rewrite !dlookup_dset; reflexivity).
    assert (L2 : dlookup x2 "octree" = Some (OOne (VOct (octree_to o dev)))) by (unfold x2; rewrite !dlookup_dset; reflexivity).
    assert (L3 : dlookup x1 "points" = Some (OOne (VPts q1))) by (unfold x1; rewrite !dlookup_dset; reflexivity).
    assert (L4 : dlookup x2 "points" = Some (OOne (VPts (points_to q dev)))) by (unfold x2; rewrite !dlookup_dset; reflexivity).
    do 6 (split; [assumption|]). split; [exact SC|]. split; [exact SB|]. split.
    - intros k K1 K2. unfold x1, x2. rewrite !dlookup_dset. apply String.eqb_neq in K1, K2. rewrite K1, K2. auto.
    - intros model CF s ne m. unfold model_forward, dget. rewrite L1, L2, L3, L4. cbn [bind one_oct as_oct one_pts as_pts].
      destruct SC as (S1 & S2 & S3 & S4 & S5 & S6 & S7). unfold query_points. rewrite S1, S4, S5. reflexivity.
  Qed.
End Process.
