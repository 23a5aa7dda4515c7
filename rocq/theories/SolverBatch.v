(** A segmentation step on several clouds gives what the clouds give on their own. *)
From Coq Require Import String Ascii List ZArith Bool QArith Qcanon Lia.
From Verif Require Import Res Tensor Key Num NumFacts Points Octree PointsOps NnBasic NnConv NnInterp Features Net Dataset Project Shape Solver
  Spec SpecGeo SpecBuild WF SpecNeigh SpecMerge SpecNN SpecInterp SpecNet SpecFeature SpecBatch SpecSolver
  KeyFacts ListFacts KidsFacts ScatterFacts BuildFacts BuildClosed BuildThms WFFacts SearchFacts NeighFacts NeighThms MergeFacts BuildMerge DeviceFacts DatasetFacts
  FeatureFacts NetBatch BatchThms FeatBatch NetBuilt NetSeg NetLoops DecodeBatch NeighSparse SolverFacts.
Import ListNotations.
Open Scope Z_scope.

(** ** collating *)
Lemma collate_clouds ps : ps <> [] -> collate false (map cloud_sample ps) = Ok [("points"%string, OList (map VPts ps))].
Proof.
  intros H. destruct ps as [|p0 t]; [congruence|]. cbn [map collate cloud_sample fst foldM].
  assert (E : mapM (fun b => dget b "points") (cloud_sample p0 :: map cloud_sample t) = Ok (VPts p0 :: map VPts t)).
  { change (cloud_sample p0 :: map cloud_sample t) with (map cloud_sample (p0 :: t)). change (VPts p0 :: map VPts t) with (map VPts (p0 :: t)).
    generalize (p0 :: t). intros l. induction l as [|p l IH]; [reflexivity|]. cbn [map mapM]. rewrite IH. reflexivity. }
  unfold collate_key. change [("points"%string, VPts p0)] with (cloud_sample p0). rewrite E. reflexivity.
Qed.
Lemma collate_octrees ps os om o q : ps <> [] -> length os = length ps -> merge_octrees os = Ok om -> construct_all_neigh om = Ok o -> merge_points ps true = Ok q ->
  collate true (map (fun po => octree_sample (fst po) (snd po)) (combine ps os)) = Ok [("points"%string, OOne (VPts q)); ("octree"%string, OOne (VOct o))].
Proof.
  intros H Hl E1 E2 E3. 
  set (bs := map (fun po => octree_sample (fst po) (snd po)) (combine ps os)).
  assert (EP : mapM (fun b => dget b "points") bs = Ok (map VPts ps)).
  { unfold bs. clear - Hl. revert os Hl. induction ps as [|p l IH]; intros [|o os] Hl; try discriminate; [reflexivity|]. cbn [combine map mapM]. rewrite IH by (cbn in Hl; lia). reflexivity. }
  assert (EO : mapM (fun b => dget b "octree") bs = Ok (map VOct os)).
  { unfold bs. clear - Hl. revert os Hl. induction ps as [|p l IH]; intros [|o os] Hl; try discriminate; [reflexivity|]. cbn [combine map mapM]. rewrite IH by (cbn in Hl; lia). reflexivity. }
  assert (AP : mapM as_pts (map VPts ps) = Ok ps) by (clear; induction ps as [|p l IH]; [reflexivity|]; cbn [map mapM as_pts bind]; rewrite IH; reflexivity).
  assert (AO : mapM as_oct (map VOct os) = Ok os) by (clear; induction os as [|p l IH]; [reflexivity|]; cbn [map mapM as_oct bind]; rewrite IH; reflexivity).
  assert (E0 : exists b0 t, bs = b0 :: t /\ map fst b0 = ["points"; "octree"]%string).
  { unfold bs. destruct ps as [|p l]; [congruence|]. destruct os as [|o' os]; [discriminate|]. cbn [combine map]. eexists. eexists. split; [reflexivity|reflexivity]. }
  destruct E0 as (b0 & t & Eb & Ek). unfold collate. rewrite Eb. rewrite Ek. rewrite <- Eb. cbn [foldM].
  unfold collate_key at 1. rewrite EP. cbn [bind].
  replace (contains "octree" "points") with false by reflexivity. replace (contains "points" "points") with true by reflexivity. replace (contains "label" "points") with false by reflexivity.
  cbn [andb bind]. unfold dget. rewrite dlookup_dset. cbn [String.eqb Ascii.eqb Bool.eqb bind]. rewrite AP. cbn [bind]. rewrite E3. cbn [bind dset].
  unfold collate_key. rewrite EO. cbn [bind].
  replace (contains "octree" "octree") with true by reflexivity. replace (contains "points" "octree") with false by reflexivity. replace (contains "label" "octree") with false by reflexivity.
  rewrite AO. cbn [bind]. rewrite E1. cbn [bind]. rewrite E2. cbn [bind andb]. reflexivity.
Qed.

Theorem thm_two_ways nrm dep full d0 dev ps : (1 <= full <= dep)%nat -> (dep <= 16)%nat -> Z.of_nat (length ps) <= 32768 -> clouds_ok d0 ps ->
  exists os b1 b2 out1 out2 o q1 q2, mapM (fun p => r <- build_octree nrm (octree_new dep full 1 d0) p ;; Ok (fst r)) ps = Ok os /\
    collate false (map cloud_sample ps) = Ok b1 /\ collate true (map (fun po => octree_sample (fst po) (snd po)) (combine ps os)) = Ok b2 /\
    process_batch nrm dep full dev b1 = Ok out1 /\ process_batch nrm dep full dev b2 = Ok out2 /\
    dlookup out1 "octree" = Some (OOne (VOct o)) /\ dlookup out2 "octree" = Some (OOne (VOct o)) /\ device o = dev /\ batch_size o = length ps /\
    dlookup out1 "points" = Some (OOne (VPts q1)) /\ dlookup out2 "points" = Some (OOne (VPts q2)) /\ same_cloud q1 q2 /\
    forall model CF s ne m, model_forward model CF s ne m out1 = model_forward model CF s ne m out2.
Proof.
  intros Hf H16 Hn Hc. destruct (thm_process nrm dep full d0 dev ps Hf H16 Hn Hc) as (os & om & o & q & E1 & E2 & E3 & E4 & HP).
  assert (Hne : ps <> []) by apply Hc.
  destruct (builds_on nrm dep full Hf H16 d0 ps Hc Hn) as (os' & F & HB). change (mapM (points2octree nrm dep full) ps) with (mapM (fun p => r <- build_octree nrm (octree_new dep full 1 d0) p ;; Ok (fst r)) ps) in F.
  assert (os' = os) by congruence. subst os'. pose proof (Forall2_len _ _ _ HB) as Hl.
  destruct (HP [("points"%string, OList (map VPts ps))] [("points"%string, OOne (VPts q)); ("octree"%string, OOne (VOct o))]) as (x1 & x2 & q1 & q2 & P1 & P2 & L1 & L2 & L3 & L4 & SC & SB & _ & MF); try reflexivity.
  eexists os, _, _, x1, x2, (octree_to o dev), q1, q2. split; [exact E1|]. split; [apply collate_clouds; exact Hne|]. split; [apply (collate_octrees ps os om o q); auto|].
  split; [exact P1|]. split; [exact P2|]. split; [exact L1|]. split; [exact L2|]. split; [rewrite to_eq; reflexivity|]. split; [|auto].
  rewrite to_eq. cbn [batch_size]. destruct (mem_on nrm dep full d0 ps os Hc Hn HB) as (oh & M & D1 & D2 & D3).
  destruct (batched_setup oh os o) with (os' := match mapM construct_all_neigh os with Ok l => l | Err _ => [] end) as (kms & _ & Hl' & _ & _ & HB' & _); [exact M|lia| |].
  - destruct (thm_batched oh os M) as (o2 & os2 & (om2 & G1 & G2 & G3) & _); [lia|]. exists om. rewrite G3. auto.
  - rewrite HB', Hl'. exact Hl.
Qed.

(** ** one sample on its own *)
Lemma meanv_length c rows : Forall (fun r => length r = c) rows -> length (meanv c rows) = c.
Proof.
  intros H. unfold meanv, sumv. rewrite map_length. induction H as [|r rows Hr H IH]; cbn [fold_right]; [unfold vzero; apply repeat_length|].
  rewrite SumFacts.vadd_len by (rewrite IH, Hr; reflexivity). exact Hr.
Qed.
Lemma rows_at_in {A} tags k (src : list A) r : In r (rows_at tags k src) -> In r src.
Proof.
  unfold rows_at. intros H. apply in_map_iff in H. destruct H as ((t, r') & <- & H). apply filter_In in H. destruct H as (H & _). apply in_combine_r in H. exact H.
Qed.

Section Member.
  Variables (nrm : v3 Qc -> v3 Qc) (dep full dev : nat) (CF : nat) (s : string).
  Hypothesis Hf : (1 <= full <= dep)%nat.
  Hypothesis H16 : (dep <= 16)%nat.

  (** the octree a cloud gets, with its neighbourhoods *)
  Lemma member_octree p o : good_cloud 1 p -> p_device p = dev -> provides CF s p -> points2octree nrm dep full p = Ok o ->
    exists o', construct_all_neigh o = Ok o' /\ wf_octree o' /\ depth o' = dep /\ full_depth o' = full /\ batch_size o' = 1%nat /\
      (forall ne, layers_ready o' ne 0 1 dep /\ poolable o' ne full dep) /\ carries CF s o'.
  Proof.
    intros G Hd (PN & PF) E. rewrite (p2o_eq nrm dep full dev) in E.
    assert (BI : build_input (octree_new dep full 1 dev) p).
    { constructor; cbn [octree_new depth full_depth batch_size]; [lia|lia|lia| |exact G]. apply new_layers. }
    destruct (thm_built_ready nrm _ p BI) as (o1 & idx & o2 & E1 & E2 & W & D1 & D2 & D3 & RP); [cbn; lia|]. cbn [octree_new depth full_depth batch_size] in *.
    rewrite E1 in E. cbn [bind fst] in E. injection E as <-. exists o2. split; [exact E2|]. split; [exact W|]. split; [exact D1|]. split; [exact D2|]. split; [exact D3|].
    split; [exact RP|].
    destruct (thm_signals nrm _ p BI) as (o1' & idx' & l & E1' & GL & (pts & S1 & S2 & S3) & SN & SF). cbn [octree_new depth] in *.
    rewrite E1 in E1'. injection E1' as <- <-.
    destruct (built_tree nrm (octree_new dep full 1 dev) p) as (o3 & E3 & B1 & B2 & B3 & _ & T & _); cbn [octree_new depth full_depth batch_size]; [lia|lia|lia|apply new_layers|exact G|].
    rewrite E1 in E3. injection E3 as <-. cbn [octree_new depth full_depth batch_size] in *.
    assert (ON : only_neighs o1 o2). { apply only_all; [|lia|exact E2]. exists (bK (octree_new dep full 1 dev) p), (bM (octree_new dep full 1 dev) p). rewrite B1. exact T. }
    assert (HL : nth_error (layers o1) dep = Some l).
    { destruct (t_layer _ _ _ _ T dep (Nat.le_refl _)) as (l' & N & _). destruct (tree_get _ _ _ _ T dep (Nat.le_refl _)) as (l2 & G2 & N2 & _). congruence. }
    destruct (only_layer o1 o2 dep l ON HL) as (l' & N' & Q1 & Q2 & Q3).
    assert (NC : node_count o2 dep true = Z.to_nat (nnum_nempty l)).
    { unfold node_count. rewrite N'. destruct ON as (_ & _ & _ & _ & _ & HO). destruct (HO dep l l' HL N') as (v & Ev). rewrite Ev. reflexivity. }
    unfold carries. rewrite D1, NC. exists l'. split; [exact N'|]. rewrite Q1, Q2, Q3. split; [|split].
    - intros A. specialize (PN A). destruct (p_normals p) as [n|]; [|congruence]. destruct (SN n eq_refl) as (ns & -> & L & _). exists ns. split; [reflexivity|lia].
    - intros _. exists pts. split; [exact S1|lia].
    - intros A. destruct (PF A) as (f & Ef & Fw). destruct (SF f Ef) as (fs & -> & L & HE). exists fs. split; [reflexivity|]. split; [lia|].
      apply Forall_forall. intros r Hr. apply In_nth_error in Hr. destruct Hr as (e & He). rewrite (HE e r He).
      rewrite Forall_forall in Fw. destruct f as [|r0 f].
      + destruct (gc_features _ _ G _ Ef) as (Hl0 & _). destruct (nth_error pts e) as [q|] eqn:Eq.
        * destruct (S3 e q Eq) as (_ & S4). destruct (p_points p) as [|v vs]; [|discriminate Hl0]. unfold rows_at in S4. rewrite combine_nil in S4. cbn in S4. lia.
        * apply nth_error_None in Eq. assert (e < length fs)%nat by (apply nth_error_Some; congruence). lia.
      + cbn [width]. rewrite (Fw r0 (or_introl eq_refl)). apply meanv_length. apply Forall_forall. intros x Hx. apply rows_at_in in Hx. apply Fw. exact Hx.
  Qed.
End Member.

Definition ask (p : pcloud Qc) : list qpoint := map (fun v => (v, 0)) (p_points p).
(** the rows and labels that are kept *)
Definition masked (m : Z) (p : pcloud Qc) (logit : feat) : res (feat * list Qc) :=
  match p_labels p with
  | None => Err AttributeError
  | Some ls =>
      labels <- squeeze1 ls ;;
      let mask := map (fun l => qltb (qz m) l) labels in
      logit <- mask_get logit mask ;;
      labels <- mask_get labels mask ;;
      Ok (logit, labels)
  end.

Lemma squeeze_Ok n ls : shape n 1 ls -> exists labs, squeeze1 ls = Ok labs /\ length labs = n.
Proof.
  intros (<- & H). induction H as [|r ls Hr H IH]; [exists []; auto|]. destruct IH as (labs & E & L). destruct r as [|x [|y r]]; try discriminate.
  exists (x :: labs). unfold squeeze1 in *. cbn [mapM bind]. rewrite E. cbn [bind length]. rewrite L. auto.
Qed.
Lemma squeeze_app a b la lb : squeeze1 a = Ok la -> squeeze1 b = Ok lb -> squeeze1 (a ++ b) = Ok (la ++ lb).
Proof.
  revert la. induction a as [|r a IH]; intros la E1 E2; [injection E1 as <-; exact E2|]. unfold squeeze1 in *. cbn [app mapM] in *.
  destruct r as [|x [|y r]]; cbn [bind] in *; try discriminate. destruct (mapM _ a) as [l|] eqn:E; [|discriminate]. cbn [bind] in E1. injection E1 as <-.
  rewrite (IH l eq_refl E2). reflexivity.
Qed.
Lemma select_app2 {A} m1 m2 (l1 l2 : list A) : length m1 = length l1 -> select (m1 ++ m2) (l1 ++ l2) = select m1 l1 ++ select m2 l2.
Proof. revert l1. induction m1 as [|b m1 IH]; intros [|a l1] H; try discriminate; [reflexivity|]. cbn [app select]. rewrite IH by (cbn in H; lia). destruct b; reflexivity. Qed.

Lemma finish m ps yqs : Forall labelled ps -> Forall2 (fun p (yq : feat * list qpoint) => length (fst yq) = length (p_points p)) ps yqs ->
  exists labs rs, squeeze1 (cat_some p_labels ps) = Ok labs /\ mapM (fun py => masked m (fst py) (fst (snd py))) (combine ps yqs) = Ok rs /\
    mask_get (concat (map fst yqs)) (map (fun l => qltb (qz m) l) labs) = Ok (concat (map fst rs)) /\
    mask_get labs (map (fun l => qltb (qz m) l) labs) = Ok (concat (map snd rs)).
Proof.
  intros HL H. revert HL. induction H as [|p yq ps yqs Hy H IH]; intros HL.
  - exists [], []. repeat split; reflexivity.
  - inversion HL as [|? ? (ls & E & S) HL']; subst. destruct (IH HL') as (labs & rs & E1 & E2 & E3 & E4).
    destruct (squeeze_Ok _ _ S) as (la & E5 & L5).
    set (mk := map (fun l => qltb (qz m) l)). assert (Hmk : length (mk la) = length la) by (unfold mk; apply map_length).
    exists (la ++ labs), ((select (mk la) (fst yq), select (mk la) la) :: rs).
    split; [unfold cat_some; cbn [map concat]; rewrite E; apply squeeze_app; assumption|].
    split; [|split].
    + cbn [combine mapM fst snd]. unfold masked at 1. rewrite E, E5. cbn [bind]. unfold mask_get. fold mk. rewrite Hmk, L5, Hy, Nat.eqb_refl. cbn [bind].
      rewrite E2. reflexivity.
    + fold mk in E3 |- *. replace (mk (la ++ labs)) with (mk la ++ mk labs) by (unfold mk; rewrite map_app; reflexivity). unfold mask_get in *. cbn [map concat fst].
      rewrite !app_length in *. destruct (Nat.eqb_spec (length (mk labs)) (length (concat (map fst yqs)))) as [L|L]; [|discriminate]. injection E3 as E3.
      rewrite Hmk, L5, Hy, L, Nat.eqb_refl. rewrite select_app2 by lia. rewrite E3. reflexivity.
    + fold mk in E4 |- *. replace (mk (la ++ labs)) with (mk la ++ mk labs) by (unfold mk; rewrite map_app; reflexivity). unfold mask_get in *. cbn [map concat snd].
      rewrite !app_length in *. destruct (Nat.eqb_spec (length (mk labs)) (length labs)) as [L|L]; [|discriminate]. injection E4 as E4.
      rewrite Hmk, L, Nat.eqb_refl. rewrite select_app2 by lia. rewrite E4. reflexivity.
Qed.

Lemma query_joined (ps : list (pcloud Qc)) p0 : query_points (joined_cloud ps p0) = Ok (join_points (map ask ps)).
Proof.
  unfold query_points, joined_cloud, join_points, batch_ids. cbn [p_batch_id p_points].
  assert (H : forall i, length (concat (map p_points ps)) = length (concat (map (fun '(i, p) => repeat i (length (p_points p))) (indexed i ps))) /\
     combine (concat (map p_points ps)) (concat (map (fun '(i, p) => repeat i (length (p_points p))) (indexed i ps))) =
     concat (map (fun '(i, pts) => map (fun '(p, _) => (p, i)) pts) (indexed i (map ask ps)))).
  { induction ps as [|p t IH]; intros i; [auto|]. cbn [map indexed concat]. destruct (IH (i + 1)) as (L & E). split; [rewrite !app_length, repeat_length, L; reflexivity|].
    rewrite combine_app2 by (rewrite repeat_length; reflexivity). rewrite E. f_equal. unfold ask. rewrite map_map. clear. induction (p_points p) as [|v vs IH]; [reflexivity|]. cbn [repeat length combine map]. rewrite IH. reflexivity. }
  destruct (H 0) as (L & E). rewrite L, Nat.eqb_refl, E. reflexivity.
Qed.
Lemma mapM_cons_inv {A B} (f : A -> res B) a l r : mapM f (a :: l) = Ok r -> exists b t, f a = Ok b /\ mapM f l = Ok t /\ r = b :: t.
Proof. cbn [mapM]. destruct (f a) as [b|]; [|discriminate]. cbn [bind]. destruct (mapM f l) as [t|]; [|discriminate]. cbn [bind]. intros E. injection E as <-. eauto. Qed.
Lemma mapM_all {A B} (f : A -> res B) l r : mapM f l = Ok r -> Forall2 (fun a b => f a = Ok b) l r.
Proof.
  revert r. induction l as [|a l IH]; intros r E; [injection E as <-; constructor|]. apply mapM_cons_inv in E. destruct E as (b & t & E1 & E2 & ->). constructor; auto.
Qed.

(** What is known about the octree of one cloud. *)
Definition member_ok (dep full : nat) (o : octree) : Prop :=
  wf_octree o /\ depth o = dep /\ full_depth o = full /\ batch_size o = 1%nat /\ forall ne, layers_ready o ne 0 1 dep /\ poolable o ne full dep.

Section Batch.
  Variables (nrm : v3 Qc -> v3 Qc) (dep full d0 dev : nat) (CF cin : nat) (s : string) (ne : bool) (m : Z)
    (model : feat -> octree -> Z -> list qpoint -> res (feat * list qpoint)).
  Hypothesis Hf : (1 <= full <= dep)%nat.
  Hypothesis H16 : (dep <= 16)%nat.
  Hypothesis Hs : asks_any s = true.
  Hypothesis Hcin : channels s CF = cin.
  Hypothesis HM : forall o0 o' os os', mergeable o0 os -> (1 <= full_depth o0)%nat -> depth o0 = dep -> batched os o' os' -> Forall (member_ok dep full) os' ->
    forall xs ptss, Forall2 (fun oi x => shape (node_count oi dep ne) cin x) os' xs -> length ptss = length os' -> Forall (Forall (fun p => snd p = 0)) ptss ->
    exists yqs, mapM (fun oxp => model (snd (fst oxp)) (fst (fst oxp)) (Z.of_nat dep) (snd oxp)) (combine (combine os' xs) ptss) = Ok yqs /\
      model (concat xs) o' (Z.of_nat dep) (join_points ptss) = Ok (concat (map fst yqs), join_points (map snd yqs)) /\
      Forall2 (fun pts (yq : feat * list qpoint) => length (fst yq) = length pts) ptss yqs.

  Notation mv := (fun p => points_to p dev).
  Definition member (p : pcloud Qc) : res (feat * list Qc) :=
    o <- points2octree nrm dep full (points_to p dev) ;;
    o <- construct_all_neigh o ;;
    data <- get_input_feature CF o s ne ;;
    r <- model data o (Z.of_nat dep) (ask p) ;;
    masked m p (fst r).

  Lemma members_run ps : forall os os' xs yqs rs,
    mapM (points2octree nrm dep full) (map mv ps) = Ok os -> mapM construct_all_neigh os = Ok os' ->
    mapM (fun oi => get_input_feature CF oi s ne) os' = Ok xs ->
    mapM (fun oxp => model (snd (fst oxp)) (fst (fst oxp)) (Z.of_nat dep) (snd oxp)) (combine (combine os' xs) (map ask ps)) = Ok yqs ->
    mapM (fun py => masked m (fst py) (fst (snd py))) (combine ps yqs) = Ok rs -> mapM member ps = Ok rs.
  Proof.
    induction ps as [|p ps IH]; intros os os' xs yqs rs E1 E2 E3 E4 E5.
    - exact E5.
    - cbn [map] in E1. apply mapM_cons_inv in E1. destruct E1 as (o & os1 & A1 & E1 & ->). apply mapM_cons_inv in E2. destruct E2 as (o' & os2 & A2 & E2 & ->).
      apply mapM_cons_inv in E3. destruct E3 as (x & xs1 & A3 & E3 & ->). cbn [combine map] in E4. apply mapM_cons_inv in E4. destruct E4 as (yq & yqs1 & A4 & E4 & ->).
      cbn [combine] in E5. apply mapM_cons_inv in E5. destruct E5 as (r & rs1 & A5 & E5 & ->). cbn [fst snd] in *.
      cbn [mapM]. rewrite (IH _ _ _ _ _ E1 E2 E3 E4 E5). unfold member. rewrite A1. cbn [bind]. rewrite A2. cbn [bind]. rewrite A3. cbn [bind]. rewrite A4. cbn [bind]. rewrite A5. reflexivity.
  Qed.

  Lemma opt_labels ps : ps <> [] -> Forall labelled ps -> opt_cat p_labels ps = Some (cat_some p_labels ps).
  Proof. intros Hne H. unfold opt_cat. destruct ps as [|p ps]; [congruence|]. inversion H as [|? ? (ls & E & _) _]; subst. cbn [first_has]. rewrite E. reflexivity. Qed.

  Lemma predict_members ps : Z.of_nat (length ps) <= 32768 -> clouds_ok d0 ps -> Forall labelled ps -> Forall (provides CF s) ps ->
    exists rs, mapM member ps = Ok rs /\ predict nrm dep full dev model CF s ne m ps = Ok (concat (map fst rs), concat (map snd rs)).
  Proof.
    intros Hn Hc HL HP. assert (Hne : ps <> []) by apply Hc. pose proof (moved_ok d0 dev ps Hc) as Hc2.
    assert (Hn2 : Z.of_nat (length (map mv ps)) <= 32768) by (rewrite map_length; exact Hn).
    destruct (builds_on nrm dep full Hf H16 dev (map mv ps) Hc2 Hn2) as (os & E1 & HB).
    destruct (mem_on nrm dep full dev (map mv ps) os Hc2 Hn2 HB) as (oh & Mg & D1 & D2 & D3).
    destruct (thm_batched oh os Mg) as (o' & os' & BT & Hlo); [lia|]. pose proof BT as (om & E2 & E3 & E4).
    assert (HO : Forall (fun o => member_ok dep full o /\ carries CF s o) os').
    { pose proof (mapM_all _ _ _ E1) as F1. pose proof (mapM_all _ _ _ E4) as F2. destruct Hc2 as (_ & G & Gd & _). clear - F1 F2 G Gd HP Hf H16.
      revert os os' F1 F2 G Gd. induction HP as [|p ps Hp HP IH]; intros os os' F1 F2 G Gd; cbn [map] in *.
      - inversion F1; subst. inversion F2; subst. constructor.
      - inversion F1 as [|? o ? os1 A1 F1']; subst. inversion F2 as [|? o2 ? os2 A2 F2']; subst. inversion G; subst. inversion Gd; subst.
        constructor; [|apply (IH os1); assumption].
        destruct (member_octree nrm dep full (p_device (points_to p dev)) CF s Hf H16 (points_to p dev) o) as (o3 & A3 & W & B1 & B2 & B3 & B4 & B5); [assumption|reflexivity| |exact A1|].
        + destruct Hp as (P1 & P2). split; rewrite ?mv_normals, ?mv_features; assumption.
        + assert (o3 = o2) by congruence. subst o3. unfold member_ok. auto 10. }
    destruct (thm_batch_feature oh o' os os' Mg ltac:(lia) BT CF s ne Hs) as (xs & X1 & X2 & X3); [eapply Forall_impl; [|exact HO]; intros o H; apply H|].
    rewrite D1, Hcin in X3.
    destruct (HM oh o' os os' Mg ltac:(lia) D1 BT) with (xs := xs) (ptss := map ask ps) as (yqs & Y1 & Y2 & Y3).
    { eapply Forall_impl; [|exact HO]. intros o H; apply H. }
    { exact X3. }
    { rewrite map_length. rewrite Hlo. pose proof (Forall2_len _ _ _ HB) as HB'. rewrite map_length in HB'. lia. }
    { apply Forall_forall. intros l Hl. apply in_map_iff in Hl. destruct Hl as (p & <- & _). apply Forall_forall. intros q Hq. unfold ask in Hq. apply in_map_iff in Hq. destruct Hq as (v & <- & _). reflexivity. }
    assert (Y4 : Forall2 (fun p (yq : feat * list qpoint) => length (fst yq) = length (p_points p)) ps yqs).
    { clear - Y3. remember (map ask ps) as l eqn:El. revert ps El. induction Y3 as [|pts yq ptss yqs H Y IH]; intros [|p ps] El; try discriminate; constructor.
      - injection El as -> _. rewrite H. unfold ask. apply map_length.
      - apply IH. injection El as _ ->. reflexivity. }
    destruct (finish m ps yqs HL Y4) as (labs & rs & L1 & L2 & L3 & L4).
    exists rs. split; [exact (members_run ps os os' xs yqs rs E1 E4 X1 Y1 L2)|].
    unfold predict. rewrite collate_clouds by exact Hne. cbn [bind].
    assert (PB : exists q0 b, merge_points (map mv ps) true = Ok (joined_cloud (map mv ps) q0) /\ process_batch nrm dep full dev [("points"%string, OList (map VPts ps))] = Ok b /\
       b = [("points"%string, OOne (VPts (joined_cloud (map mv ps) q0))); ("octree"%string, OOne (VOct o'))]).
    { destruct ps as [|p0 t]; [congruence|]. pose proof Hc2 as (_ & _ & _ & C4 & C5 & C6 & _). cbn [map] in C4, C5, C6.
      exists (points_to p0 dev). eexists. assert (EM : merge_points (map mv (p0 :: t)) true = Ok (joined_cloud (map mv (p0 :: t)) (points_to p0 dev))) by (apply merge_points_Ok; assumption).
      split; [exact EM|]. split; [|reflexivity].
      unfold process_batch. cbn [dlookup dget String.eqb Ascii.eqb Bool.eqb]. unfold dget. cbn [dlookup String.eqb Ascii.eqb Bool.eqb bind iter]. rewrite as_pts_all. cbn [bind].
      rewrite E1. cbn [bind]. rewrite E2. cbn [bind]. rewrite E3. cbn [bind]. rewrite EM. reflexivity. }
    destruct PB as (q0 & b & _ & -> & ->). cbn [bind]. unfold model_forward, dget. cbn [dlookup String.eqb Ascii.eqb Bool.eqb bind one_oct as_oct one_pts as_pts].
    rewrite thm_input_feature, X2. cbn [bind]. rewrite query_joined. cbn [bind].
    assert (Dp : depth o' = dep).
    { destruct (batched_setup oh os o' os' Mg ltac:(lia) BT) as (kms & _ & _ & _ & (FT & _) & _). rewrite FT. exact D1. }
    assert (EA : map ask (map mv ps) = map ask ps) by (rewrite map_map; apply map_ext; intros p; unfold ask; rewrite mv_points; reflexivity).
    rewrite EA, Dp, Y2. cbn [bind fst]. cbn [joined_cloud p_labels]. rewrite opt_cat_ext by apply mv_labels. rewrite opt_labels by assumption.
    rewrite L1. cbn [bind]. rewrite L3. cbn [bind]. rewrite L4. reflexivity.
  Qed.

  Lemma single_ok ps p : clouds_ok d0 ps -> In p ps -> clouds_ok d0 [p].
  Proof.
    intros (_ & H2 & H3 & _ & _ & _ & c & H7) Hp. rewrite Forall_forall in H2, H3.
    assert (CO : forall {B} (f : pcloud Qc -> option (list B)), cat_ok f [p]).
    { intros B f. unfold cat_ok. cbn [first_has]. destruct (f p) eqn:E; [|discriminate]. intros _. repeat constructor. congruence. }
    split; [discriminate|]. split; [constructor; [apply H2; exact Hp|constructor]|]. split; [constructor; [apply H3; exact Hp|constructor]|].
    split; [apply CO|]. split; [apply CO|]. split; [apply CO|]. exists c. intros q f [<-|[]]. apply H7. exact Hp.
  Qed.

  Theorem predict_batch ps : Z.of_nat (length ps) <= 32768 -> clouds_ok d0 ps -> Forall labelled ps -> Forall (provides CF s) ps ->
    exists rs, mapM (fun p => predict nrm dep full dev model CF s ne m [p]) ps = Ok rs /\
      predict nrm dep full dev model CF s ne m ps = Ok (concat (map fst rs), concat (map snd rs)).
  Proof.
    intros Hn Hc HL HP. destruct (predict_members ps Hn Hc HL HP) as (rs & E1 & E2). exists rs. split; [|exact E2].
    rewrite <- E1. apply mapM_ext. intros p Hp. rewrite Forall_forall in HL, HP.
    destruct (predict_members [p]) as (r & F1 & F2); [cbn; lia|apply (single_ok ps); assumption|constructor; [auto|constructor]|constructor; [auto|constructor]|].
    apply mapM_cons_inv in F1. destruct F1 as (r1 & t & F1 & F3 & ->). injection F3 as <-. rewrite F2, F1. cbn [map concat]. rewrite !app_nil_r. destruct r1; reflexivity.
  Qed.
End Batch.

(** ** the networks *)
Lemma lens_of {A B C} (F : A * B * list qpoint -> res C) (R : list qpoint -> C -> Prop) : forall (os : list A) (xs : list B) ptss ys,
  length xs = length os -> length ptss = length os -> mapM F (combine (combine os xs) ptss) = Ok ys ->
  (forall o x pts y, In o os -> In (o, x) (combine os xs) -> In pts ptss -> F (o, x, pts) = Ok y -> R pts y) -> Forall2 R ptss ys.
Proof.
  induction os as [|o os IH]; intros [|x xs] [|pts ptss] ys H1 H2 E HR; try discriminate.
  - injection E as <-. constructor.
  - cbn [combine] in E. apply mapM_cons_inv in E. destruct E as (y & t & E1 & E2 & ->). constructor.
    + apply (HR o x); [left; reflexivity|left; reflexivity|left; reflexivity|exact E1].
    + apply (IH xs); [cbn in *; lia|cbn in *; lia|exact E2|]. intros o1 x1 p1 y1 I1 I2 I3. apply HR; right; assumption.
Qed.
Lemma in_shape {P : octree -> list (list Qc) -> Prop} os xs o x : Forall2 P os xs -> In (o, x) (combine os xs) -> P o x.
Proof. induction 1 as [|a b os xs H1 H IH]; [intros []|]. intros [E|Hi]; [injection E as <- <-; exact H1|auto]. Qed.

Theorem thm_predict_unet nrm dep full d0 dev CF cin cout lin s ne m g P ps : (1 <= full <= dep)%nat -> (dep <= 16)%nat ->
  asks_any s = true -> channels s CF = cin -> channel_ok cin -> unet_config g -> eval_mode P -> (length (u_enc_blk g) < dep)%nat ->
  Z.of_nat (length ps) <= 32768 -> clouds_ok d0 ps -> Forall labelled ps -> Forall (provides CF s) ps ->
  let net := predict nrm dep full dev (UNet g P cin cout lin ne) CF s ne m in
  exists rs, mapM (fun p => net [p]) ps = Ok rs /\ net ps = Ok (concat (map fst rs), concat (map snd rs)).
Proof.
  intros Hf H16 Hs Hch Hci Hg HE Hd Hn Hc HL HP. cbv zeta. apply (predict_batch nrm dep full d0 dev CF cin); try assumption.
  intros o0 o' os os' Mg Hf0 Hd0 BT HO xs ptss HX Hpl HZ.
  destruct (thm_batch_unet o0 o' os os' Mg Hf0 BT g P cin cout lin ne dep xs ptss) as (yqs & Y1 & Y2); try assumption; [lia|].
  exists yqs. split; [exact Y1|]. split; [exact Y2|].
  refine (lens_of _ (fun pts (yq : feat * list qpoint) => length (fst yq) = length pts) os' xs ptss yqs _ Hpl Y1 _); [symmetry; symmetry; apply (Forall2_len _ _ _ HX)|].
  intros o x pts y I1 I2 I3 E. cbn [fst snd] in E. rewrite Forall_forall in HO, HZ. destruct (HO o I1) as (W & B1 & B2 & B3 & B4).
  destruct (thm_unet g P cin cout ne o dep 0) with (lin := lin) (x := x) (pts := pts) as (lg & pts' & E' & S'); try assumption.
  - apply eval_keeps. exact HE.
  - lia.
  - intros d Hd'. apply (B4 ne). lia.
  - lia.
  - exact (in_shape _ _ _ _ HX I2).
  - eapply Forall_impl; [|apply HZ; exact I3]. cbn beta. intros a ->. lia.
  - rewrite E in E'. injection E' as ->. cbn [fst]. apply S'.
Qed.

Theorem thm_predict_segnet nrm dep full d0 dev CF cin cout stages lin s m P ps : (1 <= full <= dep)%nat -> (dep <= 16)%nat ->
  asks_any s = true -> channels s CF = cin -> channel_ok cin -> eval_mode P -> (1 <= stages < dep)%nat ->
  Z.of_nat (length ps) <= 32768 -> clouds_ok d0 ps -> Forall labelled ps -> Forall (provides CF s) ps ->
  let net := predict nrm dep full dev (SegNet P cin cout stages lin false) CF s false m in
  exists rs, mapM (fun p => net [p]) ps = Ok rs /\ net ps = Ok (concat (map fst rs), concat (map snd rs)).
Proof.
  intros Hf H16 Hs Hch Hci HE Hd Hn Hc HL HP. cbv zeta. apply (predict_batch nrm dep full d0 dev CF cin); try assumption.
  intros o0 o' os os' Mg Hf0 Hd0 BT HO xs ptss HX Hpl HZ.
  destruct (thm_batch_segnet o0 o' os os' Mg Hf0 BT P cin cout stages lin false dep xs ptss) as (yqs & Y1 & Y2); try assumption; try lia.
  { apply Forall_forall. intros o Ho. intros Ht. discriminate. }
  exists yqs. split; [exact Y1|]. split; [exact Y2|].
  refine (lens_of _ (fun pts (yq : feat * list qpoint) => length (fst yq) = length pts) os' xs ptss yqs _ Hpl Y1 _); [symmetry; symmetry; apply (Forall2_len _ _ _ HX)|].
  intros o x pts y I1 I2 I3 E. cbn [fst snd] in E. rewrite Forall_forall in HO, HZ. destruct (HO o I1) as (W & B1 & B2 & B3 & B4).
  destruct (thm_segnet P cin cout stages false o dep 0) with (lin := lin) (x := x) (pts := pts) as (lg & pts' & E' & S'); try assumption.
  - apply eval_keeps. exact HE.
  - lia.
  - lia.
  - intros d Hd'. apply (B4 false). lia.
  - intros Ht. discriminate Ht.
  - intros Ht. discriminate Ht.
  - lia.
  - exact (in_shape _ _ _ _ HX I2).
  - eapply Forall_impl; [|apply HZ; exact I3]. cbn beta. intros a ->. lia.
  - rewrite E in E'. injection E' as ->. cbn [fst]. apply S'.
Qed.
