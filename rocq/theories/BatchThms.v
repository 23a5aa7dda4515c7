(** Networks on a merged octree compute what they compute on the members. *)
From Coq Require Import String List ZArith Bool QArith Qcanon Lia.
From Verif Require Import Res Tensor Key Num NumFacts Points Octree NnBasic NnConv NnInterp Features Net Spec SpecGeo WF SpecNeigh SpecMerge SpecNN SpecInterp SpecNet SpecBatch
  KeyFacts ListFacts KidsFacts WFFacts SearchFacts NeighFacts NeighSparse GetNeigh NeighThms MergeFacts NnFacts SumFacts ConvFacts ConvOct PadFacts MergeConv CatFacts NetBatch.
Import ListNotations.
Open Scope Z_scope.

Section Lists.
  Variables (o0 : octree) (os : list octree).
  Notation n := (length os).
  Lemma list_seq {A} (d : A) xs : length xs = n -> xs = map (fun i => nth i xs d) (seq 0 n).
  Proof.
    intros H. apply nth_ext with (d := d) (d' := nth 0 xs d); [rewrite map_length, seq_length; exact H|]. intros i Hi. rewrite (map_nth (fun i => nth i xs d)), seq_nth by lia. reflexivity.
  Qed.
  Lemma combine_maps {A B} (f : nat -> A) (g : nat -> B) l : combine (map f l) (map g l) = map (fun i => (f i, g i)) l.
  Proof. induction l as [|a l IH]; cbn; [reflexivity|rewrite IH; reflexivity]. Qed.
  Lemma mapM_map {A B} (f : A -> res B) (g : nat -> A) (y : nat -> B) l : (forall i, In i l -> f (g i) = Ok (y i)) -> mapM f (map g l) = Ok (map y l).
  Proof.
    induction l as [|a l IH]; intros H; [reflexivity|]. cbn [map mapM]. rewrite (H a (or_introl eq_refl)). cbn [bind]. rewrite IH by (intros i Hi; apply H; right; exact Hi). reflexivity.
  Qed.
End Lists.

Lemma batched_tables o0 os o' os' kms : mergeable o0 os -> Forall2 (mem_tree o0) os kms -> (1 <= full_depth o0)%nat -> batched os o' os' ->
  (0 < length os')%nat /\ length os' = length os /\
    Forall2 (fun o km => mem_tree o0 o km /\ neigh_upto o (fst km) 1 (depth o0)) os' kms /\
    full_tree (depth o0) o' (mK kms) (mM kms) /\ batch_size o' = length os' /\
    (forall d ks kernel stride ne ci co mb direct W bias xs, (1 <= d <= depth o0)%nat -> In (ks, kernel) kernel_sizes ->
      (stride = 1 \/ stride = 2) -> shape3 (length (box kernel)) ci co W -> bias_ok co bias ->
      Z.of_nat (length (box kernel)) * Z.of_nat ci <= mb ->
      Forall2 (fun oi x => shape (node_count oi d ne) ci x) os' xs ->
      exists ys, mapM (fun ox => OctreeConv (mkCfg ci co ks stride ne mb true) direct W bias (snd ox) (fst ox) d) (combine os' xs) = Ok ys /\
        OctreeConv (mkCfg ci co ks stride ne mb true) direct W bias (concat xs) o' d = Ok (concat ys)).
Proof.
  intros Hm Hk Hf (o & E & E1 & E2). destruct (thm_merge_conv o0 os o Hm Hf E) as (o1 & os1 & F1 & F2 & HC).
  assert (o1 = o') by congruence. assert (os1 = os') by congruence. subst o1 os1.
  rewrite (merge_Ok o0 os kms Hm Hk) in E. assert (o = merged o0 os kms) by congruence. subst o.
  pose proof (merged_tree o0 os kms Hm Hk) as T. destruct (tree_all_neigh (merged o0 os kms) _ _ T Hf) as (o2 & E' & On & T' & N').
  assert (o2 = o') by congruence. subst o2. destruct (mem_all_neigh o0 os kms Hk Hf) as (os2 & Eo & Hk'). assert (os2 = os') by congruence. subst os2.
  assert (Hl : length os' = length os) by (rewrite <- (SearchFacts.Forall2_len _ _ _ Hk'), <- (SearchFacts.Forall2_len _ _ _ Hk); reflexivity).
  destruct On as (O1 & O2 & O3 & O4 & _). assert (Hdo : depth o' = depth o0) by exact O1. rewrite Hdo in T', N'.
  split; [|split; [exact Hl|split; [exact Hk'|split; [split; [exact Hdo|split; assumption]|split; [|exact HC]]]]].
  - rewrite Hl. destruct Hm as (Hh & _). destruct os; [discriminate|cbn; lia].
  - rewrite O3. rewrite Hl. reflexivity.
Qed.
Lemma batched_setup o0 os o' os' : mergeable o0 os -> (1 <= full_depth o0)%nat -> batched os o' os' ->
  exists kms, (0 < length os')%nat /\ length os' = length os /\
    Forall2 (fun o km => mem_tree o0 o km /\ neigh_upto o (fst km) 1 (depth o0)) os' kms /\
    full_tree (depth o0) o' (mK kms) (mM kms) /\ batch_size o' = length os' /\
    (forall d ks kernel stride ne ci co mb direct W bias xs, (1 <= d <= depth o0)%nat -> In (ks, kernel) kernel_sizes ->
      (stride = 1 \/ stride = 2) -> shape3 (length (box kernel)) ci co W -> bias_ok co bias ->
      Z.of_nat (length (box kernel)) * Z.of_nat ci <= mb ->
      Forall2 (fun oi x => shape (node_count oi d ne) ci x) os' xs ->
      exists ys, mapM (fun ox => OctreeConv (mkCfg ci co ks stride ne mb true) direct W bias (snd ox) (fst ox) d) (combine os' xs) = Ok ys /\
        OctreeConv (mkCfg ci co ks stride ne mb true) direct W bias (concat xs) o' d = Ok (concat ys)).
Proof. intros Hm Hf Hb. destruct (mergeable_members _ _ Hm) as (kms & Hk). exists kms. apply (batched_tables o0 os o' os' kms); assumption. Qed.
Lemma thm_batched o0 os : mergeable o0 os -> (1 <= full_depth o0)%nat -> exists o' os', batched os o' os' /\ length os' = length os.
Proof.
  intros Hm Hf. destruct (thm_merge o0 os Hm) as (o & E & _). destruct (thm_merge_conv o0 os o Hm Hf E) as (o' & os' & E1 & E2 & _). assert (B : batched os o' os') by (exists o; auto).
  exists o', os'. split; [exact B|]. destruct (batched_setup o0 os o' os' Hm Hf B) as (kms & _ & Hl & _). exact Hl.
Qed.

Section Nets.
  Variables (o0 o' : octree) (os os' : list octree).
  Hypothesis Hm : mergeable o0 os.
  Hypothesis Hf : (1 <= full_depth o0)%nat.
  Hypothesis HBt : batched os o' os'.
  Notation n := (length os').
  Notation mo := (mo o0 os').
  Lemma count15 : Z.of_nat n <= 32768.
  Proof. destruct (batched_setup o0 os o' os' Hm Hf HBt) as (kms & _ & Hl & _). rewrite Hl. apply Hm. Qed.
  Lemma os_list : os' = map mo (seq 0 n).
  Proof. apply os_seq. Qed.
  Lemma J_of d ne C (xs : list (list (list Qc))) : Forall2 (fun oi x => shape (node_count oi d ne) C x) os' xs -> J os' (nodes o0 os' d ne) C (fun i => nth i xs []) (concat xs).
  Proof.
    intros H. pose proof (GlobalPool.Forall2_len _ _ _ H) as Hl. split.
    - unfold cat. rewrite <- (list_seq os' [] xs) by lia. reflexivity.
    - intros i Hi. apply (SearchFacts.Forall2_nth _ _ _ i _ _ H); apply nth_error_nth'; lia.
  Qed.
  Lemma out_of {S} (G : octree -> list (list Qc) -> res S) xs Y : length xs = n -> (forall i, (i < n)%nat -> G (mo i) (nth i xs []) = Ok (Y i)) ->
    mapM (fun ox => G (fst ox) (snd ox)) (combine os' xs) = Ok (map Y (seq 0 n)).
  Proof.
    intros Hl H. rewrite (list_seq os' [] xs) by exact Hl. rewrite os_list at 1. rewrite combine_maps. apply mapM_map. intros i Hi. cbn [fst snd]. apply H. apply in_seq in Hi. lia.
  Qed.
  Lemma branch_of ne d0 d1 : Forall (fun oi => poolable oi ne d0 d1) os' -> forall d, (d0 <= d < d1)%nat -> branch_all o0 os' ne d.
  Proof. intros H d Hd E i Hi. rewrite Forall_forall in H. apply (H (mo i)); [apply nth_In; exact Hi|exact E|exact Hd]. Qed.
  Lemma rows_of {A} N C X (x : list (list A)) : @J os' A N C X x -> x = concat (map X (seq 0 n)).
  Proof. intros [-> _]. reflexivity. Qed.

  Theorem thm_batch_lenet P cin cout stages dep ne xs : eval_mode P -> (dep <= depth o0)%nat -> (dep - stages = 2)%nat -> (1 <= stages)%nat -> channel_ok cin ->
    Forall (fun oi => poolable oi ne 2 dep) os' -> Forall2 (fun oi x => shape (node_count oi dep ne) cin x) os' xs ->
    exists ys, mapM (fun ox => LeNet P cin cout stages ne (snd ox) (fst ox) (Z.of_nat dep)) (combine os' xs) = Ok ys /\
      LeNet P cin cout stages ne (concat xs) o' (Z.of_nat dep) = Ok (concat ys).
  Proof.
    intros HP Hd H2 Hst Hcin Hb Hx. destruct (batched_setup o0 os o' os' Hm Hf HBt) as (kms & Hn & _ & HK & HT & HB & HC).
    destruct (run_lenet o0 o' os' kms Hn HK HT HB HC P cin cout stages dep ne _ _ HP Hd H2 Hst Hcin (branch_of ne 2 dep Hb) (J_of dep ne cin xs Hx)) as (Y & y & E1 & E2 & HJ).
    exists (map Y (seq 0 n)). split; [|rewrite E2, (rows_of _ _ _ _ HJ); reflexivity]. apply (out_of (fun oi x => LeNet P cin cout stages ne x oi (Z.of_nat dep))); [symmetry; apply (GlobalPool.Forall2_len _ _ _ Hx)|exact E1].
  Qed.
  Theorem thm_batch_resnet P cin cout num stages dep ne xs : eval_mode P -> (stages <= dep <= depth o0)%nat -> (1 <= stages)%nat -> (1 <= num)%nat -> channel_ok cin ->
    Forall (fun oi => poolable oi ne (dep - stages) dep) os' -> Forall2 (fun oi x => shape (node_count oi dep ne) cin x) os' xs ->
    exists ys, mapM (fun ox => ResNet P cin cout num stages ne (snd ox) (fst ox) (Z.of_nat dep)) (combine os' xs) = Ok ys /\
      ResNet P cin cout num stages ne (concat xs) o' (Z.of_nat dep) = Ok (concat ys).
  Proof.
    intros HP Hd Hst Hnum Hcin Hb Hx. destruct (batched_setup o0 os o' os' Hm Hf HBt) as (kms & Hn & _ & HK & HT & HB & HC).
    destruct (run_resnet o0 o' os' kms Hn HK HT HB HC P cin cout num stages dep ne _ _ HP Hd Hst Hnum Hcin (branch_of ne (dep - stages) dep Hb) (J_of dep ne cin xs Hx)) as (Y & y & E1 & E2 & HJ).
    exists (map Y (seq 0 n)). split; [|rewrite E2, (rows_of _ _ _ _ HJ); reflexivity]. apply (out_of (fun oi x => ResNet P cin cout num stages ne x oi (Z.of_nat dep))); [symmetry; apply (GlobalPool.Forall2_len _ _ _ Hx)|exact E1].
  Qed.
  Theorem thm_batch_hrnet P cin cout num stages dep ne xs : eval_mode P -> (stages + 2 <= dep <= depth o0)%nat -> (1 <= stages <= 4)%nat -> channel_ok cin ->
    Forall (fun oi => poolable oi ne 2 dep) os' -> Forall2 (fun oi x => shape (node_count oi dep ne) cin x) os' xs ->
    exists ys, mapM (fun ox => HRNet P cin cout stages num ne (snd ox) (fst ox) (Z.of_nat dep)) (combine os' xs) = Ok ys /\
      HRNet P cin cout stages num ne (concat xs) o' (Z.of_nat dep) = Ok (concat ys).
  Proof.
    intros HP Hd Hst Hcin Hb Hx. destruct (batched_setup o0 os o' os' Hm Hf HBt) as (kms & Hn & _ & HK & HT & HB & HC).
    destruct (run_hrnet o0 o' os' kms Hn HK HT HB HC P cin cout num stages dep ne HP Hd Hst (branch_of ne 2 dep Hb) Hcin _ _ (J_of dep ne cin xs Hx)) as (Y & y & E1 & E2 & HJ).
    exists (map Y (seq 0 n)). split; [|rewrite E2, (rows_of _ _ _ _ HJ); reflexivity]. apply (out_of (fun oi x => HRNet P cin cout stages num ne x oi (Z.of_nat dep))); [symmetry; apply (GlobalPool.Forall2_len _ _ _ Hx)|exact E1].
  Qed.

  Definition ask (ptss : list (list qpoint)) (i : nat) : list qpoint := nth i ptss [].
  Lemma JQ_of ptss : length ptss = n -> Forall (Forall (fun p => snd p = 0)) ptss -> JQ os' (ask ptss) (join_points ptss).
  Proof.
    intros Hl H. split.
    - rewrite (list_seq os' [] ptss) at 1 by exact Hl. exact (join_points_cat os' (ask ptss)).
    - intros i Hi. rewrite Forall_forall in H. apply H. apply nth_In. eapply Nat.lt_le_trans; [exact Hi|]. apply Nat.eq_le_incl. symmetry. exact Hl.
  Qed.
  Lemma out_of2 {S} (G : octree -> list (list Qc) -> list qpoint -> res S) xs ptss Y : length xs = n -> length ptss = n ->
    (forall i, (i < n)%nat -> G (mo i) (nth i xs []) (ask ptss i) = Ok (Y i)) ->
    mapM (fun oxp => G (fst (fst oxp)) (snd (fst oxp)) (snd oxp)) (combine (combine os' xs) ptss) = Ok (map Y (seq 0 n)).
  Proof.
    intros Hl Hl2 H. rewrite (list_seq os' [] xs) by exact Hl. rewrite (list_seq os' [] ptss) by exact Hl2. rewrite os_list at 1. rewrite !combine_maps. apply mapM_map. intros i Hi. cbn [fst snd]. apply H. apply in_seq in Hi. lia.
  Qed.
  Lemma pair_of {N C} Y y : JFQ os' N C Y y -> y = (concat (map fst (map Y (seq 0 n))), join_points (map snd (map Y (seq 0 n)))).
  Proof.
    intros [HJ [E _]]. destruct y as [y q]. cbn [fst snd] in *. rewrite (rows_of _ _ _ _ HJ), E. rewrite !map_map. f_equal. symmetry. apply join_points_cat.
  Qed.
  Theorem thm_batch_unet g P cin cout lin ne dep xs ptss : unet_config g -> eval_mode P -> (length (u_enc_blk g) < dep <= depth o0)%nat -> channel_ok cin ->
    Forall2 (fun oi x => shape (node_count oi dep ne) cin x) os' xs -> length ptss = length os' -> Forall (Forall (fun p => snd p = 0)) ptss ->
    exists yqs, mapM (fun oxp => UNet g P cin cout lin ne (snd (fst oxp)) (fst (fst oxp)) (Z.of_nat dep) (snd oxp)) (combine (combine os' xs) ptss) = Ok yqs /\
      UNet g P cin cout lin ne (concat xs) o' (Z.of_nat dep) (join_points ptss) = Ok (concat (map fst yqs), join_points (map snd yqs)).
  Proof.
    intros HG HP Hd Hcin Hx Hl Hp. destruct (batched_setup o0 os o' os' Hm Hf HBt) as (kms & Hn & _ & HK & HT & HB & HC).
    destruct (run_unet o0 o' os' kms Hn HK HT HB HC g P cin cout dep ne HG HP Hd Hcin lin _ _ _ _ count15 (J_of dep ne cin xs Hx) (JQ_of ptss Hl Hp)) as (Y & y & E1 & E2 & HJ).
    exists (map Y (seq 0 n)). split; [|rewrite E2, (pair_of _ _ HJ); reflexivity]. apply (out_of2 (fun oi x pts => UNet g P cin cout lin ne x oi (Z.of_nat dep) pts)); [symmetry; apply (GlobalPool.Forall2_len _ _ _ Hx)|exact Hl|exact E1].
  Qed.
  Theorem thm_batch_segnet P cin cout stages lin ne dep xs ptss : eval_mode P -> (stages < dep <= depth o0)%nat -> (1 <= stages)%nat -> channel_ok cin ->
    Forall (fun oi => poolable oi ne (dep - stages) dep) os' ->
    (ne = true -> Forall (fun oi => node_count oi (dep - stages) true = node_count oi (dep - stages) false) os') ->
    Forall2 (fun oi x => shape (node_count oi dep ne) cin x) os' xs -> length ptss = length os' -> Forall (Forall (fun p => snd p = 0)) ptss ->
    exists yqs, mapM (fun oxp => SegNet P cin cout stages lin ne (snd (fst oxp)) (fst (fst oxp)) (Z.of_nat dep) (snd oxp)) (combine (combine os' xs) ptss) = Ok yqs /\
      SegNet P cin cout stages lin ne (concat xs) o' (Z.of_nat dep) (join_points ptss) = Ok (concat (map fst yqs), join_points (map snd yqs)).
  Proof.
    intros HP Hd Hst Hcin Hb He Hx Hl Hp. destruct (batched_setup o0 os o' os' Hm Hf HBt) as (kms & Hn & _ & HK & HT & HB & HC).
    assert (He' : ne = true -> forall i, (i < n)%nat -> nodes o0 os' (dep - stages) true i = nodes o0 os' (dep - stages) false i).
    { intros E i Hi. specialize (He E). rewrite Forall_forall in He. apply (He (mo i)). apply nth_In. exact Hi. }
    destruct (run_segnet o0 o' os' kms Hn HK HT HB HC P cin cout stages dep ne HP Hd Hst (branch_of ne (dep - stages) dep Hb) Hcin lin _ _ _ _ count15 He' (J_of dep ne cin xs Hx) (JQ_of ptss Hl Hp)) as (Y & y & E1 & E2 & HJ).
    exists (map Y (seq 0 n)). split; [|rewrite E2, (pair_of _ _ HJ); reflexivity]. apply (out_of2 (fun oi x pts => SegNet P cin cout stages lin ne x oi (Z.of_nat dep) pts)); [symmetry; apply (GlobalPool.Forall2_len _ _ _ Hx)|exact Hl|exact E1].
  Qed.
End Nets.
