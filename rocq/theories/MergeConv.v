(** Convolution on a merged octree. *)
From Coq Require Import String List ZArith Bool QArith Qcanon Lia Field.
From Verif Require Import Res Tensor Num NumFacts Points Octree NnBasic NnConv Spec SpecGeo SpecNeigh SpecMerge SpecNN WF ListFacts ScatterFacts SumFacts NnFacts
  KidsFacts WFFacts SearchFacts NeighFacts NeighSparse GetNeigh NeighThms MergeFacts ConvFacts PadFacts ConvOct Deconv DwGroup.
Import ListNotations.
Open Scope Z_scope.

Lemma fill_app {A} m : forall m' (l l' z z' : list A), length m = length l -> count_true m = length z ->
  fill (m ++ m') (l ++ l') (z ++ z') = fill m l z ++ fill m' l' z'.
Proof.
  induction m as [|b m IH]; intros m' l l' z z' Hl Hc.
  - destruct l; [|discriminate]. destruct z; [|discriminate]. reflexivity.
  - destruct l as [|a l]; [discriminate|]. rewrite count_true_cons in Hc. cbn [length] in Hl. destruct b.
    + destruct z as [|v z]; [discriminate|]. cbn [app fill]. cbn [length] in Hc. rewrite IH by lia. reflexivity.
    + cbn [app fill]. rewrite IH by lia. reflexivity.
Qed.
Lemma grow_shift C (pre x post : feat) row : Forall (fun e => e < Z.of_nat (length x)) row ->
  grow C (pre ++ x ++ post) (map (shift_row (zlen pre)) row) = grow C x row.
Proof.
  intros H. unfold grow. rewrite map_map. apply map_ext_in. intros e He. rewrite Forall_forall in H. specialize (H e He). unfold shift_row.
  destruct (e <? 0) eqn:E.
  - destruct (Z.leb_spec 0 e); [lia|]. reflexivity.
  - destruct (Z.leb_spec 0 e); [|lia]. destruct (Z.leb_spec 0 (e + zlen pre)); [|unfold zlen in *; lia].
    unfold zlen. rewrite app_nth2 by lia. rewrite app_nth1 by lia. f_equal. lia.
Qed.
Lemma cv_join Ci Co W K tss : forall pre xs, Forall2 (fun t x => table_ok t K (length x)) tss xs ->
  map (fun row => vecmat Co (concat (grow Ci (pre ++ concat xs) row)) (concat W))
    (concat (map (fun '(n, t) => map (map (shift_row n)) t) (combine (starts (zlen pre) (map zlen xs)) tss)))
  = concat (map (fun tx => cv Ci Co (snd tx) W (fst tx)) (combine tss xs)).
Proof.
  induction tss as [|t tss IH]; intros pre xs HF; inversion HF as [|? x ? xs' Ht HF']; subst; cbn [map starts combine concat]; [reflexivity|].
  rewrite map_app. f_equal.
  - unfold cv. cbn [fst snd]. rewrite map_map. apply map_ext_in. intros row Hrow. rewrite grow_shift; [reflexivity|].
    unfold table_ok in Ht. rewrite Forall_forall in Ht. apply Ht. exact Hrow.
  - specialize (IH (pre ++ x) xs' HF'). rewrite <- app_assoc in IH. rewrite <- IH.
    replace (zlen (pre ++ x)) with (zlen pre + zlen x) by (unfold zlen; rewrite app_length; lia). reflexivity.
Qed.
Lemma cv_joined Ci Co W K tss xs : Forall2 (fun t x => table_ok t K (length x)) tss xs ->
  cv Ci Co (concat xs) W (join_tables (map zlen xs) tss) = concat (map (fun tx => cv Ci Co (snd tx) W (fst tx)) (combine tss xs)).
Proof. intros H. apply (cv_join Ci Co W K tss [] xs H). Qed.

Definition fin (stride : Z) (ne : bool) (co : nat) (M : list bool) (z : feat) : feat :=
  if (stride =? 2) && negb ne then fill M (repeat (repeat 0%Qc co) (length M)) z else z.

(** A member, or the merged octree, with its neighbourhoods. *)
Definition full_tree (L : nat) (o : octree) (K : nat -> list Z) (M : nat -> list bool) : Prop :=
  depth o = L /\ tree_upto o L K M /\ neigh_upto o K 1 L.
Lemma full_ready L o K M d ks kernel stride : full_tree L o K M -> (1 <= d <= L)%nat -> In (ks, kernel) kernel_sizes ->
  (stride = 1 \/ stride = 2) -> conv_ready o d kernel stride.
Proof.
  intros (HL & T & N) Hd Hk Hs. split; [exists K, M; rewrite HL; exact T|]. split; [lia|].
  split; [apply (upto_has_neigh o L K M d T); [lia|apply (neigh_upto_sub o K 1 L); [lia|exact N]]|].
  split; [apply (ksize_ok ks kernel 1 1 1 false 0 true Hk)|]. destruct Hs; [left; assumption|right; split; [assumption|lia]].
Qed.
Lemma full_conv L o K M d ks kernel stride ne ci co mb direct x W bias : full_tree L o K M -> (1 <= d <= L)%nat -> In (ks, kernel) kernel_sizes ->
  (stride = 1 \/ stride = 2) -> shape (node_count o d ne) ci x -> shape3 (length (box kernel)) ci co W -> bias_ok co bias ->
  Z.of_nat (length (box kernel)) * Z.of_nat ci <= mb ->
  exists t, get_neigh o d kernel stride ne = Ok t /\ table_ok t (length (box kernel)) (length x) /\
    (stride = 2 -> ne = false -> length t = count_true (M (d - 1)%nat)) /\
    OctreeConv (mkCfg ci co ks stride ne mb true) direct W bias x o d = Ok (fin stride ne co (M (d - 1)%nat) (add_bias bias (cv ci co x W t))).
Proof.
  intros F Hd Hk Hs Hx HW Hb Hm. pose proof (full_ready L o K M d ks kernel stride F Hd Hk Hs) as R.
  destruct (OctreeConv_Ok o d kernel stride ne ci co ks mb direct x W bias R Hk) as (t & E & Ht & Hl & ->); [right; left; exact Hm|assumption..|].
  exists t. split; [exact E|]. split; [destruct Hx as [-> _]; exact Ht|]. destruct F as (HL & T & _).
  destruct (mask_len o L K M T (d - 1)%nat ltac:(lia)) as [M1 M2].
  split; [intros -> ->; rewrite Hl, M2; reflexivity|]. unfold finish, fin. destruct (stride =? 2) eqn:E2; [|reflexivity]. destruct ne; [reflexivity|]. cbn [negb andb].
  replace (Z.of_nat d - 1) with (Z.of_nat (d - 1)) by lia. rewrite (tree_pad o L K M T); [rewrite M1; reflexivity|lia|].
  destruct (add_bias_shape (length t) co bias (cv ci co x W t) Hb (cv_shape _ _ _ _ _)) as [-> _].
  rewrite Hl. unfold out_count. replace (stride =? 1) with false by lia. reflexivity.
Qed.
Lemma add_bias_concat bias (zs : list feat) : add_bias bias (concat zs) = concat (map (add_bias bias) zs).
Proof.
  destruct bias as [b|]; cbn [add_bias]; [rewrite concat_map; reflexivity|]. rewrite map_id. reflexivity.
Qed.
Lemma add_bias_len bias z : length (add_bias bias z) = length z.
Proof. destruct bias; [apply map_length|reflexivity]. Qed.
Lemma repeat_plus {A} (a : A) n m : repeat a (n + m) = repeat a n ++ repeat a m.
Proof. apply repeat_app. Qed.
Lemma fin_concat stride ne co ms : forall zs, Forall2 (fun m z => stride = 2 -> ne = false -> length z = count_true m) ms zs ->
  fin stride ne co (concat ms) (concat zs) = concat (map (fun mz => fin stride ne co (fst mz) (snd mz)) (combine ms zs)).
Proof.
  unfold fin. destruct ((stride =? 2) && negb ne) eqn:E.
  - apply andb_true_iff in E. destruct E as [E1 E2]. apply negb_true_iff in E2. assert (Hs : stride = 2) by lia. clear E1.
    induction ms as [|m ms IH]; intros zs HF; inversion HF as [|? z ? zs' Hz HF']; subst; cbn [concat map combine fst snd]; [reflexivity|].
    rewrite app_length, repeat_app, fill_app; [|rewrite repeat_length; reflexivity|symmetry; apply Hz; reflexivity]. f_equal. apply IH. exact HF'.
  - induction ms as [|m ms IH]; intros zs HF; inversion HF as [|? z ? zs' Hz HF']; subst; cbn [concat map combine fst snd]; [reflexivity|].
    f_equal. apply IH. exact HF'.
Qed.
Lemma full_members L d ks kernel stride ne ci co mb direct W bias os kms xs :
  Forall2 (fun o km => full_tree L o (fst km) (snd km)) os kms -> (1 <= d <= L)%nat -> In (ks, kernel) kernel_sizes ->
  (stride = 1 \/ stride = 2) -> Forall2 (fun o x => shape (node_count o d ne) ci x) os xs -> shape3 (length (box kernel)) ci co W -> bias_ok co bias ->
  Z.of_nat (length (box kernel)) * Z.of_nat ci <= mb ->
  exists tss, mapM (fun o => get_neigh o d kernel stride ne) os = Ok tss /\
    Forall2 (fun t x => table_ok t (length (box kernel)) (length x)) tss xs /\
    Forall2 (fun m z => stride = 2 -> ne = false -> length z = count_true m) (map (fun km => snd km (d - 1)%nat) kms)
      (map (fun tx => add_bias bias (cv ci co (snd tx) W (fst tx))) (combine tss xs)) /\
    mapM (fun ox => OctreeConv (mkCfg ci co ks stride ne mb true) direct W bias (snd ox) (fst ox) d) (combine os xs) =
    Ok (map (fun mz => fin stride ne co (fst mz) (snd mz))
         (combine (map (fun km => snd km (d - 1)%nat) kms) (map (fun tx => add_bias bias (cv ci co (snd tx) W (fst tx))) (combine tss xs)))).
Proof.
  intros HF Hd Hk Hs Hx HW Hb Hm. revert xs Hx. induction HF as [|o km os kms Ho HF IH]; intros xs Hx; inversion Hx as [|? x ? xs' Hx1 Hx2]; subst.
  - exists []. cbn. repeat split; constructor.
  - destruct (full_conv L o (fst km) (snd km) d ks kernel stride ne ci co mb direct x W bias Ho Hd Hk Hs Hx1 HW Hb Hm) as (t & E & Ht & Hl & EC).
    destruct (IH xs' Hx2) as (tss & I1 & I2 & I3 & I4). exists (t :: tss). cbn [mapM map combine fst snd]. rewrite E. cbn [bind]. rewrite I1. cbn [bind].
    split; [reflexivity|]. split; [constructor; assumption|]. split.
    + constructor; [|exact I3]. intros H1 H2. rewrite add_bias_len. unfold cv. rewrite map_length. apply Hl; assumption.
    + rewrite EC. cbn [bind]. rewrite I4. reflexivity.
Qed.
Lemma thm_merge_conv o0 os o : mergeable o0 os -> (1 <= full_depth o0)%nat -> merge_octrees os = Ok o ->
  exists o' os', construct_all_neigh o = Ok o' /\ mapM construct_all_neigh os = Ok os' /\
    forall d ks kernel stride ne ci co mb direct W bias xs, (1 <= d <= depth o0)%nat -> In (ks, kernel) kernel_sizes ->
      (stride = 1 \/ stride = 2) -> shape3 (length (box kernel)) ci co W -> bias_ok co bias ->
      Z.of_nat (length (box kernel)) * Z.of_nat ci <= mb ->
      Forall2 (fun oi x => shape (node_count oi d ne) ci x) os' xs ->
      exists ys, mapM (fun ox => OctreeConv (mkCfg ci co ks stride ne mb true) direct W bias (snd ox) (fst ox) d) (combine os' xs) = Ok ys /\
        OctreeConv (mkCfg ci co ks stride ne mb true) direct W bias (concat xs) o' d = Ok (concat ys).
Proof.
  intros Hm Hf E. destruct (thm_merge_neigh o0 os o Hm Hf E) as (o' & os' & E1 & E2 & TN). exists o', os'. split; [exact E1|]. split; [exact E2|].
  destruct (mergeable_members _ _ Hm) as (kms & Hk). rewrite (merge_Ok o0 os kms Hm Hk) in E.
  assert (o = merged o0 os kms) by congruence. subst o. clear E.
  pose proof (merged_tree o0 os kms Hm Hk) as T.
  destruct (tree_all_neigh (merged o0 os kms) _ _ T Hf) as (o2 & E' & On & T' & N'). rewrite E1 in E'. assert (o2 = o') by congruence. subst o2. clear E'.
  destruct (mem_all_neigh o0 os kms Hk Hf) as (os2 & Eo & Hk'). rewrite E2 in Eo. assert (os2 = os') by congruence. subst os2. clear Eo.
  assert (Hdo : depth o' = depth o0) by (destruct On as (O1 & _); exact O1). rewrite Hdo in T', N'.
  assert (FT : full_tree (depth o0) o' (mK kms) (mM kms)) by (split; [exact Hdo|]; split; assumption).
  assert (FM : Forall2 (fun o km => full_tree (depth o0) o (fst km) (snd km)) os' kms).
  { clear - Hk'. induction Hk' as [|o km os kms ((T & _ & D & _) & N) H IH]; constructor; [|exact IH]. split; [exact D|]. split; assumption. }
  intros d ks kernel stride ne ci co mb direct W bias xs Hd Hks Hs HW Hb Hmb Hxs.
  destruct (full_members (depth o0) d ks kernel stride ne ci co mb direct W bias os' kms xs FM Hd Hks Hs Hxs HW Hb Hmb) as (tss & I1 & I2 & I3 & I4).
  eexists. split; [exact I4|].
  assert (Hkk : In kernel kernels) by apply (ksize_ok ks kernel 1 1 1 false 0 true Hks).
  destruct (TN d kernel stride ne Hd Hkk Hs) as (ls & tss2 & J1 & J2 & J3). rewrite I1 in J2. assert (tss2 = tss) by congruence. subst tss2. clear J2.
  assert (Hsz : map (if ne then nnum_nempty else nnum) ls = map zlen xs).
  { clear - J1 Hk Hk' Hxs Hd. revert ls xs J1 os' Hxs Hk'. induction Hk as [|o km os kms Hmem Hk IH]; intros ls xs J1 os' Hxs Hk'.
    - inversion J1; subst. inversion Hk'; subst. inversion Hxs; subst. reflexivity.
    - inversion J1 as [|? l ? ls' Hl J1']; subst. inversion Hk' as [|o' ? os'' ? [(T' & _) _] Hk'']; subst. inversion Hxs as [|? x ? xs' Hx Hxs']; subst. cbn [map]. f_equal.
      + destruct Hmem as (T & _). destruct Hx as [Hx _]. unfold zlen. rewrite Hx.
        rewrite (node_count_sel o' (depth o0) _ _ T') by lia. rewrite <- (node_count_sel o (depth o0) _ _ T) by lia.
        destruct (layer_counts o (depth o0) _ _ T d ltac:(lia)) as (l' & _ & El & C1 & C2). rewrite Hl in El. injection El as <-. destruct ne; assumption.
      + eapply IH; eassumption. }
  assert (Nc : length (concat xs) = node_count o' d ne).
  { rewrite (node_count_sel o' (depth o0) _ _ T') by lia. rewrite (merged_sel kms o0 os) by (auto; lia). rewrite jk_length.
    clear - Hk' Hxs Hd. revert xs Hxs. induction Hk' as [|o km os kms [(T & _) _] H IH]; intros xs Hxs; inversion Hxs as [|? x ? xs' [Hx _] Hxs']; subst; [reflexivity|].
    cbn [concat map]. rewrite !app_length, (IH xs' Hxs'). f_equal. rewrite Hx. apply (node_count_sel o (depth o0) _ _ T). lia. }
  assert (Sx : shape (node_count o' d ne) ci (concat xs)).
  { split; [exact Nc|]. clear - Hxs. induction Hxs as [|o x os xs [_ H] Hxs IH]; cbn [concat]; [constructor|]. apply Forall_app. split; assumption. }
  destruct (full_conv (depth o0) o' (mK kms) (mM kms) d ks kernel stride ne ci co mb direct (concat xs) W bias FT Hd Hks Hs Sx HW Hb Hmb) as (t & Et & _ & _ & ->).
  rewrite J3, Hsz in Et. assert (t = join_tables (map zlen xs) tss) by congruence. subst t. f_equal.
  rewrite (cv_joined ci co W (length (box kernel)) tss xs I2), add_bias_concat, map_map. unfold mM at 1. apply fin_concat. exact I3.
Qed.
