(** Loss and accuracy of a classification step are the means of those of the samples. *)
From Coq Require Import String Ascii List ZArith Bool QArith Qcanon Lia.
From Verif Require Import Res Tensor Key Num NumFacts Points Octree PointsOps NnBasic NnConv NnInterp Features Net Dataset Project Shape Solver
  Spec SpecGeo SpecBuild WF SpecNeigh SpecMerge SpecNN SpecInterp SpecNet SpecFeature SpecBatch SpecSolver
  KeyFacts ListFacts KidsFacts ScatterFacts BuildFacts BuildClosed BuildThms WFFacts SearchFacts NeighFacts NeighThms MergeFacts BuildMerge DeviceFacts DatasetFacts
  FeatureFacts NetBatch BatchThms FeatBatch NetBuilt NetSeg NetLoops NetPool NetHr DecodeBatch NeighSparse SolverFacts SolverBatch.
Import ListNotations.
Open Scope Z_scope.

Lemma collate_class os om o ls : os <> [] -> length ls = length os -> merge_octrees os = Ok om -> construct_all_neigh om = Ok o ->
  collate false (map (fun ol => class_sample (fst ol) (snd ol)) (combine os ls)) = Ok [("octree"%string, OOne (VOct o)); ("label"%string, OTensor ls)].
Proof.
  intros H Hl E1 E2. set (bs := map (fun ol => class_sample (fst ol) (snd ol)) (combine os ls)).
  assert (EO : mapM (fun b => dget b "octree") bs = Ok (map VOct os)).
  { unfold bs. clear - Hl. revert ls Hl. induction os as [|p l IH]; intros [|x ls] Hl; try discriminate; [reflexivity|]. cbn [combine map mapM]. rewrite IH by (cbn in Hl; lia). reflexivity. }
  assert (EL : mapM (fun b => dget b "label") bs = Ok (map VNum ls)).
  { unfold bs. clear - Hl. revert ls Hl. induction os as [|p l IH]; intros [|x ls] Hl; try discriminate; [reflexivity|]. cbn [combine map mapM]. rewrite IH by (cbn in Hl; lia). reflexivity. }
  assert (AO : mapM as_oct (map VOct os) = Ok os) by (clear; induction os as [|p l IH]; [reflexivity|]; cbn [map mapM as_oct bind]; rewrite IH; reflexivity).
  assert (AL : mapM as_num (map VNum ls) = Ok ls) by (clear; induction ls as [|p l IH]; [reflexivity|]; cbn [map mapM as_num bind]; rewrite IH; reflexivity).
  assert (E0 : exists b0 t, bs = b0 :: t /\ map fst b0 = ["octree"; "label"]%string).
  { unfold bs. destruct os as [|p l]; [congruence|]. destruct ls as [|x ls]; [discriminate|]. cbn [combine map]. eexists. eexists. split; [reflexivity|reflexivity]. }
  destruct E0 as (b0 & t & Eb & Ek). unfold collate. rewrite Eb. rewrite Ek. rewrite <- Eb. cbn [foldM].
  unfold collate_key at 1. rewrite EO. cbn [bind].
  replace (contains "octree" "octree") with true by reflexivity. replace (contains "points" "octree") with false by reflexivity. replace (contains "label" "octree") with false by reflexivity.
  rewrite AO. cbn [bind]. rewrite E1. cbn [bind]. rewrite E2. cbn [bind andb dset String.eqb Ascii.eqb Bool.eqb].
  unfold collate_key. rewrite EL. cbn [bind].
  replace (contains "octree" "label") with false by reflexivity. replace (contains "points" "label") with false by reflexivity. replace (contains "label" "label") with true by reflexivity.
  cbn [andb bind]. unfold dget. rewrite dlookup_dset. cbn [String.eqb Ascii.eqb Bool.eqb bind]. rewrite AL. reflexivity.
Qed.

Lemma mean_one x : mean [x] = x.
Proof. unfold mean. cbn [fold_right length]. change (qz (Z.of_nat 1)) with 1%Qc. field. discriminate. Qed.

(** one row per sample: loss and correctness of the row *)
Definition hit (row : vec) (l : Z) : Qc := if Z.eqb (argmax row) l then 1%Qc else 0%Qc.
Lemma hits_count rows ls : qcount (zip_with Z.eqb (map argmax rows) ls) = fold_right Qcplus 0%Qc (zip_with hit rows ls).
Proof.
  revert ls. induction rows as [|r rows IH]; intros [|l ls]; try reflexivity. unfold zip_with in *. cbn [map combine fold_right fst snd].
  rewrite <- IH. unfold qcount, hit, count_true. cbn [filter]. destruct (Z.eqb (argmax r) l); cbn [length].
  - rewrite Nat2Z.inj_succ. unfold Z.succ. rewrite qz_add. change (qz 1) with 1%Qc. ring.
  - ring.
Qed.
Lemma step_values ce rows ls : rows <> [] -> length rows = length ls ->
  cross_entropy ce rows ls = Ok (Some (mean (zip_with ce rows ls))) /\ accuracy rows ls = Ok (Some (mean (zip_with hit rows ls))).
Proof.
  intros Hne Hl. assert (Z1 : forall f : vec -> Z -> Qc, length (zip_with f rows ls) = length rows) by (intros f; unfold zip_with; rewrite map_length, combine_length; lia).
  split.
  - unfold cross_entropy. rewrite Hl, Nat.eqb_refl. cbn [negb]. f_equal. unfold qmean. specialize (Z1 ce). destruct (zip_with ce rows ls) as [|x xs] eqn:E; [destruct rows; [congruence|discriminate]|].
    reflexivity.
  - unfold accuracy. rewrite map_length, Hl, Nat.eqb_refl. cbn [negb]. destruct ls as [|l ls]; [destruct rows; [congruence|discriminate]|].
    do 2 f_equal. unfold mean. rewrite hits_count, Z1, Hl. reflexivity.
Qed.
Lemma zip_singles {A B C} (f : A -> B -> C) (ys : list (list A)) : forall bs, Forall (fun y => length y = 1%nat) ys -> length ys = length bs ->
  zip_with f (concat ys) bs = concat (map (fun yb => zip_with f (fst yb) [snd yb]) (combine ys bs)).
Proof.
  induction ys as [|y ys IH]; intros [|b bs] H Hl; try discriminate; [reflexivity|]. inversion H as [|? ? H1 H2]; subst. destruct y as [|a [|a' y]]; try discriminate.
  cbn [concat app combine map fst snd]. unfold zip_with in *. cbn [combine map app]. rewrite IH by (cbn in Hl; auto). reflexivity.
Qed.

Section Cls.
  Variables (nrm : v3 Qc -> v3 Qc) (dep full d0 dev : nat) (ce : vec -> Z -> Qc) (CF cin : nat) (s : string) (ne : bool) (model : feat -> octree -> Z -> res feat).
  Hypothesis Hf : (1 <= full <= dep)%nat.
  Hypothesis H16 : (dep <= 16)%nat.
  Hypothesis Hs : asks_any s = true.
  Hypothesis Hcin : channels s CF = cin.
  Hypothesis HM : forall o0 o' os os', mergeable o0 os -> (1 <= full_depth o0)%nat -> depth o0 = dep -> batched os o' os' -> Forall (member_ok dep full) os' ->
    forall xs, Forall2 (fun oi x => shape (node_count oi dep ne) cin x) os' xs ->
    exists ys, mapM (fun ox => model (snd ox) (fst ox) (Z.of_nat dep)) (combine os' xs) = Ok ys /\
      model (concat xs) o' (Z.of_nat dep) = Ok (concat ys) /\ Forall (fun y => length y = 1%nat) ys.

  Definition member_row (p : pcloud Qc) : res feat :=
    o <- points2octree nrm dep full (points_to p dev) ;;
    o <- construct_all_neigh o ;;
    data <- get_input_feature CF o s ne ;;
    model data o (Z.of_nat dep).

  Lemma rows_run ps : forall os os' xs ys,
    mapM (points2octree nrm dep full) (map (fun p => points_to p dev) ps) = Ok os -> mapM construct_all_neigh os = Ok os' ->
    mapM (fun oi => get_input_feature CF oi s ne) os' = Ok xs ->
    mapM (fun ox => model (snd ox) (fst ox) (Z.of_nat dep)) (combine os' xs) = Ok ys -> mapM member_row ps = Ok ys.
  Proof.
    induction ps as [|p ps IH]; intros os os' xs ys E1 E2 E3 E4.
    - injection E1 as <-. injection E2 as <-. injection E3 as <-. exact E4.
    - cbn [map] in E1. apply mapM_cons_inv in E1. destruct E1 as (o & os1 & A1 & E1 & ->). apply mapM_cons_inv in E2. destruct E2 as (o' & os2 & A2 & E2 & ->).
      apply mapM_cons_inv in E3. destruct E3 as (x & xs1 & A3 & E3 & ->). cbn [combine] in E4. apply mapM_cons_inv in E4. destruct E4 as (y & ys1 & A4 & E4 & ->). cbn [fst snd] in *.
      cbn [mapM]. rewrite (IH _ _ _ _ E1 E2 E3 E4). unfold member_row. rewrite A1. cbn [bind]. rewrite A2. cbn [bind]. rewrite A3. cbn [bind]. rewrite A4. reflexivity.
  Qed.

  Lemma members_ok ps os os' : clouds_ok d0 ps -> Forall (provides CF s) ps -> mapM (points2octree nrm dep full) (map (fun p => points_to p dev) ps) = Ok os ->
    mapM construct_all_neigh os = Ok os' -> Forall (fun o => member_ok dep full o /\ carries CF s o) os'.
  Proof.
    intros Hc HP E1 E4. pose proof (moved_ok d0 dev ps Hc) as Hc2.
    pose proof (mapM_all _ _ _ E1) as F1. pose proof (mapM_all _ _ _ E4) as F2. destruct Hc2 as (_ & G & Gd & _). clear - F1 F2 G Gd HP Hf H16.
    revert os os' F1 F2 G Gd. induction HP as [|p ps Hp HP IH]; intros os os' F1 F2 G Gd; cbn [map] in *.
    - inversion F1; subst. inversion F2; subst. constructor.
    - inversion F1 as [|? o ? os1 A1 F1']; subst. inversion F2 as [|? o2 ? os2 A2 F2']; subst. inversion G; subst. inversion Gd; subst.
      constructor; [|apply (IH os1); assumption].
      destruct (member_octree nrm dep full (p_device (points_to p dev)) CF s Hf H16 (points_to p dev) o) as (o3 & A3 & W & B1 & B2 & B3 & B4 & B5); [assumption|reflexivity| |exact A1|].
      + destruct Hp as (P1 & P2). split; rewrite ?mv_normals, ?mv_features; assumption.
      + assert (o3 = o2) by congruence. subst o3. unfold member_ok. auto 10.
  Qed.

  Lemma classify_rows pls : Z.of_nat (length pls) <= 32768 -> clouds_ok d0 (map fst pls) -> Forall (provides CF s) (map fst pls) ->
    exists ys, mapM member_row (map fst pls) = Ok ys /\ Forall (fun y => length y = 1%nat) ys /\ length ys = length pls /\
      classify nrm dep full dev ce model CF s ne pls = Ok (Some (mean (zip_with ce (concat ys) (map snd pls))), Some (mean (zip_with hit (concat ys) (map snd pls)))).
  Proof.
    intros Hn Hc HP. set (ps := map fst pls) in *. assert (Hl : length ps = length pls) by apply map_length.
    assert (Hne : ps <> []) by apply Hc. rewrite <- Hl in Hn.
    destruct (prepared nrm dep full d0 dev ps Hf H16 Hn Hc) as (os & om & o & q & E1 & E2 & E3 & _ & F1 & F2 & F3 & _).
    set (os1 := map (fun o => octree_to o dev) os) in *.
    destruct (builds_on nrm dep full Hf H16 dev (map (fun p => points_to p dev) ps) (moved_ok d0 dev ps Hc)) as (os2 & F1' & HB); [rewrite map_length; exact Hn|].
    assert (os2 = os1) by congruence. subst os2. clear F1'.
    destruct (mem_on nrm dep full dev (map (fun p => points_to p dev) ps) os1 (moved_ok d0 dev ps Hc) ltac:(rewrite map_length; exact Hn) HB) as (oh & Mg & D1 & D2 & D3).
    destruct (thm_batched oh os1 Mg) as (o2 & os' & (om2 & G1 & G2 & G3) & Hlo); [lia|].
    assert (om2 = octree_to om dev) by congruence. subst om2. assert (o2 = octree_to o dev) by congruence. subst o2.
    assert (BT : batched os1 (octree_to o dev) os') by (exists (octree_to om dev); auto).
    pose proof (members_ok ps os1 os' Hc HP F1 G3) as HO.
    destruct (thm_batch_feature oh (octree_to o dev) os1 os' Mg ltac:(lia) BT CF s ne Hs) as (xs & X1 & X2 & X3); [eapply Forall_impl; [|exact HO]; intros o2 H; apply H|].
    rewrite D1, Hcin in X3.
    destruct (HM oh (octree_to o dev) os1 os' Mg ltac:(lia) D1 BT) with (xs := xs) as (ys & Y1 & Y2 & Y3); [eapply Forall_impl; [|exact HO]; intros o2 H; apply H|exact X3|].
    pose proof (rows_run ps os1 os' xs ys F1 G3 X1 Y1) as MR. pose proof (mapM_length _ _ _ MR) as Ly. exists ys. split; [exact MR|]. split; [exact Y3|]. split; [rewrite Ly; exact Hl|].
    unfold classify. assert (E1' : mapM (fun pl => points2octree nrm dep full (fst pl)) pls = Ok os) by (rewrite <- E1; unfold ps; symmetry; apply mapM_map).
    rewrite E1'. cbn [bind]. assert (Los : length os = length ps) by (apply (mapM_length _ _ _ E1)).
    rewrite (collate_class os om o (map snd pls)); [|destruct os; [destruct ps; [congruence|discriminate]|discriminate]|rewrite map_length, Los, Hl; reflexivity|exact E2|exact E3].
    cbn [bind]. unfold cls_forward, dget. cbn [dlookup String.eqb Ascii.eqb Bool.eqb bind one_oct as_oct].
    rewrite thm_input_feature, X2. cbn [bind].
    assert (Dp : depth (octree_to o dev) = dep).
    { destruct (batched_setup oh os1 (octree_to o dev) os' Mg ltac:(lia) BT) as (kms & _ & _ & _ & (FT & _) & _). rewrite FT. exact D1. }
    rewrite Dp, Y2. cbn [bind].
    assert (Lc : length (concat ys) = length (map snd pls)).
    { rewrite map_length, <- Hl, <- Ly. clear - Y3. induction Y3 as [|y ys H1 H IH]; [reflexivity|]. cbn [concat length]. rewrite app_length, H1, IH. reflexivity. }
    destruct (step_values ce (concat ys) (map snd pls)) as (V1 & V2); [|exact Lc|rewrite V1; cbn [bind]; rewrite V2; reflexivity].
    intros E. rewrite E in Lc. cbn in Lc. rewrite map_length, <- Hl in Lc. destruct ps; [congruence|discriminate].
  Qed.

  Theorem classify_batch pls : Z.of_nat (length pls) <= 32768 -> clouds_ok d0 (map fst pls) -> Forall (provides CF s) (map fst pls) ->
    exists las, mapM (fun pl => classify nrm dep full dev ce model CF s ne [pl]) pls = Ok (map (fun la => (Some (fst la), Some (snd la))) las) /\
      classify nrm dep full dev ce model CF s ne pls = Ok (Some (mean (map fst las)), Some (mean (map snd las))).
  Proof.
    intros Hn Hc HP. destruct (classify_rows pls Hn Hc HP) as (ys & M & H1 & Hl & E).
    exists (map (fun yl => (match fst yl with y :: _ => ce y (snd yl) | [] => 0%Qc end, match fst yl with y :: _ => hit y (snd yl) | [] => 0%Qc end)) (combine ys (map snd pls))).
    assert (Z2 : forall f : vec -> Z -> Qc, zip_with f (concat ys) (map snd pls) = map (fun yl => match fst yl with y :: _ => f y (snd yl) | [] => 0%Qc end) (combine ys (map snd pls))).
    { intros f. rewrite zip_singles by (try exact H1; rewrite map_length; exact Hl). clear - H1. revert pls. induction H1 as [|y ys Hy H IH]; intros pls; [reflexivity|].
      destruct pls as [|pl pls]; [reflexivity|]. cbn [map combine concat fst snd]. rewrite IH. destruct y as [|r [|r' y]]; try discriminate. reflexivity. }
    split.
    - transitivity (Ok (map (fun yl => (Some (match fst yl with y :: _ => ce y (snd yl) | [] => 0%Qc end), Some (match fst yl with y :: _ => hit y (snd yl) | [] => 0%Qc end))) (combine ys (map snd pls)))).
      2:{ rewrite map_map. reflexivity. }
      assert (HS : forall pl, In pl pls -> exists y, member_row (fst pl) = Ok y /\ length y = 1%nat /\
         classify nrm dep full dev ce model CF s ne [pl] = Ok (Some (mean (zip_with ce y [snd pl])), Some (mean (zip_with hit y [snd pl])))).
      { intros pl Hpl. destruct (classify_rows [pl]) as (ys1 & M1 & N1 & L1 & C1); [cbn; lia|cbn [map]; apply (single_ok d0 (map fst pls)); [exact Hc|apply in_map; exact Hpl]|cbn [map]; constructor; [|constructor]; rewrite Forall_forall in HP; apply HP, in_map, Hpl|].
        cbn [map] in M1. apply mapM_cons_inv in M1. destruct M1 as (y & t & M1 & M2 & ->). injection M2 as <-. inversion N1; subst. exists y. split; [exact M1|]. split; [assumption|].
        rewrite C1. cbn [concat map]. rewrite app_nil_r. reflexivity. }
      clear - M H1 HS. revert ys M H1. induction pls as [|pl pls IH]; intros ys M H1; [cbn [map mapM] in M; injection M as <-; reflexivity|].
      cbn [map] in M. apply mapM_cons_inv in M. destruct M as (y & t & M1 & M2 & ->). inversion H1; subst. cbn [mapM map combine].
      destruct (HS pl (or_introl eq_refl)) as (y' & N1 & N2 & N3). assert (y' = y) by congruence. subst y'. rewrite N3. cbn [bind].
      rewrite (IH (fun q Hq => HS q (or_intror Hq)) t M2) by assumption. cbn [bind fst snd]. destruct y as [|r [|r' y]]; try discriminate.
      unfold zip_with. cbn [combine map fst snd]. rewrite !mean_one. reflexivity.
    - rewrite E, !Z2, !map_map. reflexivity.
  Qed.
End Cls.

(** ** the networks *)
Lemma one_row (F : octree -> feat -> res feat) : forall os xs ys, length xs = length os -> mapM (fun ox => F (fst ox) (snd ox)) (combine os xs) = Ok ys ->
  (forall o x y, In o os -> In (o, x) (combine os xs) -> F o x = Ok y -> length y = 1%nat) -> Forall (fun y => length y = 1%nat) ys.
Proof.
  induction os as [|o os IH]; intros [|x xs] ys Hl E HR; try discriminate; [injection E as <-; constructor|].
  cbn [combine] in E. apply mapM_cons_inv in E. destruct E as (y & t & E1 & E2 & ->). constructor.
  - apply (HR o x); [left; reflexivity|left; reflexivity|exact E1].
  - apply (IH xs); [cbn in Hl; lia|exact E2|]. intros o1 x1 y1 I1 I2. apply HR; right; assumption.
Qed.

Theorem thm_classify_lenet nrm dep full d0 dev ce CF cin cout stages s ne P pls : (1 <= full <= 2)%nat -> (dep <= 16)%nat ->
  asks_any s = true -> channels s CF = cin -> channel_ok cin -> eval_mode P -> (dep - stages = 2)%nat -> (1 <= stages)%nat ->
  Z.of_nat (length pls) <= 32768 -> clouds_ok d0 (map fst pls) -> Forall (provides CF s) (map fst pls) ->
  let net := classify nrm dep full dev ce (LeNet P cin cout stages ne) CF s ne in
  exists las, mapM (fun pl => net [pl]) pls = Ok (map (fun la => (Some (fst la), Some (snd la))) las) /\ net pls = Ok (Some (mean (map fst las)), Some (mean (map snd las))).
Proof.
  intros Hf H16 Hs Hch Hci HE Hd Hst Hn Hc HP. cbv zeta. apply (classify_batch nrm dep full d0 dev ce CF cin); try assumption; [lia|].
  intros o0 o' os os' Mg Hf0 Hd0 BT HO xs HX.
  assert (PO : forall o, In o os' -> poolable o ne 2 dep).
  { intros o Ho. rewrite Forall_forall in HO. destruct (HO o Ho) as (_ & _ & _ & _ & B). destruct (B ne) as (_ & B'). intros En d Hd'. apply (B' En). lia. }
  destruct (thm_batch_lenet o0 o' os os' Mg Hf0 BT P cin cout stages dep ne xs) as (ys & Y1 & Y2); try assumption; try lia; [apply Forall_forall; exact PO|].
  exists ys. split; [exact Y1|]. split; [exact Y2|].
  apply (one_row (fun o x => LeNet P cin cout stages ne x o (Z.of_nat dep)) os' xs ys); [apply (Forall2_len _ _ _ HX)|exact Y1|].
  intros o x y I1 I2 E. rewrite Forall_forall in HO. destruct (HO o I1) as (W & B1 & B2 & B3 & B4).
  destruct (thm_lenet P cin cout stages ne o dep 0) with (x := x) as (y' & E' & S'); try assumption; try lia.
  - apply eval_keeps. exact HE.
  - intros d Hd'. apply (B4 ne). lia.
  - rewrite Hd. apply PO. exact I1.
  - exact (in_shape _ _ _ _ HX I2).
  - rewrite E in E'. injection E' as ->. destruct S' as (-> & _). exact B3.
Qed.

Theorem thm_classify_resnet nrm dep full d0 dev ce CF cin cout num stages s ne P pls : (1 <= full <= dep - stages)%nat -> (dep <= 16)%nat ->
  asks_any s = true -> channels s CF = cin -> channel_ok cin -> eval_mode P -> (1 <= stages)%nat -> (1 <= num)%nat ->
  Z.of_nat (length pls) <= 32768 -> clouds_ok d0 (map fst pls) -> Forall (provides CF s) (map fst pls) ->
  let net := classify nrm dep full dev ce (ResNet P cin cout num stages ne) CF s ne in
  exists las, mapM (fun pl => net [pl]) pls = Ok (map (fun la => (Some (fst la), Some (snd la))) las) /\ net pls = Ok (Some (mean (map fst las)), Some (mean (map snd las))).
Proof.
  intros Hf H16 Hs Hch Hci HE Hst Hnum Hn Hc HP. cbv zeta. apply (classify_batch nrm dep full d0 dev ce CF cin); try assumption; [lia|].
  intros o0 o' os os' Mg Hf0 Hd0 BT HO xs HX.
  assert (PO : forall o, In o os' -> poolable o ne (dep - stages) dep).
  { intros o Ho. rewrite Forall_forall in HO. destruct (HO o Ho) as (_ & _ & _ & _ & B). destruct (B ne) as (_ & B'). intros En d Hd'. apply (B' En). lia. }
  destruct (thm_batch_resnet o0 o' os os' Mg Hf0 BT P cin cout num stages dep ne xs) as (ys & Y1 & Y2); try assumption; try lia; [apply Forall_forall; exact PO|].
  exists ys. split; [exact Y1|]. split; [exact Y2|].
  apply (one_row (fun o x => ResNet P cin cout num stages ne x o (Z.of_nat dep)) os' xs ys); [apply (Forall2_len _ _ _ HX)|exact Y1|].
  intros o x y I1 I2 E. rewrite Forall_forall in HO. destruct (HO o I1) as (W & B1 & B2 & B3 & B4).
  destruct (thm_resnet P cin cout num stages ne o dep 0) with (x := x) as (y' & E' & S'); try assumption; try lia.
  - apply eval_keeps. exact HE.
  - intros d Hd'. apply (B4 ne). lia.
  - apply PO. exact I1.
  - exact (in_shape _ _ _ _ HX I2).
  - rewrite E in E'. injection E' as ->. destruct S' as (-> & _). exact B3.
Qed.

Theorem thm_classify_hrnet nrm dep full d0 dev ce CF cin cout num stages s ne P pls : (1 <= full <= 2)%nat -> (stages + 2 <= dep <= 16)%nat -> (1 <= stages <= 4)%nat ->
  asks_any s = true -> channels s CF = cin -> channel_ok cin -> eval_mode P ->
  Z.of_nat (length pls) <= 32768 -> clouds_ok d0 (map fst pls) -> Forall (provides CF s) (map fst pls) ->
  let net := classify nrm dep full dev ce (HRNet P cin cout stages num ne) CF s ne in
  exists las, mapM (fun pl => net [pl]) pls = Ok (map (fun la => (Some (fst la), Some (snd la))) las) /\ net pls = Ok (Some (mean (map fst las)), Some (mean (map snd las))).
Proof.
  intros Hf H16 Hst Hs Hch Hci HE Hn Hc HP. cbv zeta. apply (classify_batch nrm dep full d0 dev ce CF cin); try assumption; [lia|lia|].
  intros o0 o' os os' Mg Hf0 Hd0 BT HO xs HX.
  assert (PO : forall o, In o os' -> poolable o ne 2 dep).
  { intros o Ho. rewrite Forall_forall in HO. destruct (HO o Ho) as (_ & _ & _ & _ & B). destruct (B ne) as (_ & B'). intros En d Hd'. apply (B' En). lia. }
  destruct (thm_batch_hrnet o0 o' os os' Mg Hf0 BT P cin cout num stages dep ne xs) as (ys & Y1 & Y2); try assumption; try lia; [apply Forall_forall; exact PO|].
  exists ys. split; [exact Y1|]. split; [exact Y2|].
  apply (one_row (fun o x => HRNet P cin cout stages num ne x o (Z.of_nat dep)) os' xs ys); [apply (Forall2_len _ _ _ HX)|exact Y1|].
  intros o x y I1 I2 E. rewrite Forall_forall in HO. destruct (HO o I1) as (W & B1 & B2 & B3 & B4).
  destruct (thm_hrnet P cin cout num stages ne o dep 0) with (x := x) as (y' & E' & S'); try assumption; try lia.
  - apply eval_keeps. exact HE.
  - intros d Hd'. apply (B4 ne). lia.
  - apply PO. exact I1.
  - exact (in_shape _ _ _ _ HX I2).
  - rewrite E in E'. injection E' as ->. destruct S' as (-> & _). exact B3.
Qed.
