(** Moving a shape: stride 2, transposed convolution, interpolation, the segmentation network. *)
From Coq Require Import String List ZArith Bool QArith Qcanon Lia Permutation.
From Verif Require Import Res Tensor Key Num NumFacts Points Octree NnBasic NnConv NnInterp Features Net Spec SpecGeo SpecNeigh SpecNN SpecInterp SpecNet SpecBatch SpecMove SpecMoveSeg
  WF ListFacts WFFacts Family SearchFacts SumFacts NnFacts ConvOct Deconv PadFacts PoolFacts GlobalPool VoxelThm NetFacts NetLoops NetPool NetSeg NetBatch MoveFacts MoveNet.
Import ListNotations.
Open Scope Z_scope.

(** flags and cells *)
Lemma flag_iff o d flags cs ca i q : wf_octree o -> (d <= depth o)%nat -> nempty_mask o (Z.of_nat d) = Ok flags ->
  octree_xyzb o d true = Ok cs -> octree_xyzb o d false = Ok ca -> nth_error ca i = Some q ->
  exists f, nth_error flags i = Some f /\ (f = true <-> In q cs).
Proof.
  intros (K & M & T) Hd Hf Ec Ea Hi. rewrite (tree_xyzb o (depth o) K M) in Ec by (assumption || lia). rewrite (tree_xyzb o (depth o) K M) in Ea by (assumption || lia). injection Ec as <-. injection Ea as <-.
  rewrite (tree_mask o (depth o) K M T d Hd) in Hf. injection Hf as <-. pose proof (t_mask _ _ _ _ T d Hd) as LM. cbn [sel] in *.
  rewrite nth_error_map in Hi. destruct (nth_error (K d) i) as [k|] eqn:Ek; [|discriminate]. cbn [option_map] in Hi. injection Hi as <-.
  assert (KI : forall j k', nth_error (K d) j = Some k' -> coords d k' = coords d k -> j = i).
  { intros j k' Hj E. pose proof (sel_vkey o (depth o) K M T false d Hd) as V. rewrite Forall_forall in V. cbn [sel] in V.
    assert (k' = k) by (apply (coords_inj (batch_size o) d); [apply (d16 o (depth o) K M T d Hd)|apply V; eapply nth_error_In; eassumption..|exact E]). subst k'.
    apply (sorted_nth_inj _ (sel_sorted o (depth o) K M T false d Hd) j i k); assumption. }
  destruct (nth_error (M d) i) as [f|] eqn:Em; [|apply nth_error_None in Em; assert (i < length (K d))%nat by (apply nth_error_Some; congruence); lia].
  exists f. split; [reflexivity|]. split.
  - intros ->. apply in_map. apply in_select. exists i. auto.
  - intros Hin. apply in_map_iff in Hin as (k' & E & Hin). apply in_select in Hin as (j & Hj1 & Hj2). assert (j = i) by (apply (KI j k'); assumption). subst j. congruence.
Qed.

Section Seg.
  Variables (e : nat) (s : nat -> Z * Z * Z * Z -> Z * Z * Z * Z) (turn : Z * Z * Z -> Z * Z * Z) (o o' : octree).
  Variables (ne : bool) (lo : nat).
  Hypothesis Hlo : (e <= lo)%nat /\ (ne = false -> (S e <= lo)%nat).
  Context {renum : Z -> Z}.
  Hypothesis HM : motion_to renum e s turn.
  Hypothesis HF : keeps_first e s.
  Hypothesis HO : moved e s o o'.
  Hypothesis HW : wf_octree o.
  Hypothesis HW' : wf_octree o'.
  Notation R := (R s o o' ne).

  Lemma move_conv2 d ks kernel ci co mb x x' W W' bias : (lo <= d)%nat -> conv_ready o (S d) kernel 2 -> conv_ready o' (S d) kernel 2 -> In (ks, kernel) kernel_sizes ->
    R (S d) ci x x' ->
    shape3 (length (box kernel)) ci co W -> shape3 (length (box kernel)) ci co W' -> turned turn kernel W W' -> bias_ok co bias ->
    Z.of_nat (length (box kernel)) * Z.of_nat ci <= mb ->
    exists y y', OctreeConv (mkCfg ci co ks 2 ne mb true) false W bias x o (S d) = Ok y /\
      OctreeConv (mkCfg ci co ks 2 ne mb true) false W' bias x' o' (S d) = Ok y' /\ R d co y y'.
  Proof.
    intros He Q Q' Hk (Hx & Hx' & Hc) HWt HWt' Ht Hb Hm. pose proof Q as (_ & Hd & _). pose proof HO as (D & B & HOc).
    destruct (thm_dense2 o d ks kernel ne ci co mb x W bias Q Hk Hx HWt Hb Hm) as (vox & cs & fl & y & V & Ec & Ef & Ey & Sy & Y).
    destruct (thm_dense2 o' d ks kernel ne ci co mb x' W' bias Q' Hk Hx' HWt' Hb Hm) as (vox' & cs' & fl' & y' & V' & Ec' & Ef' & Ey' & Sy' & Y').
    destruct (cells e s turn o o' ne lo Hlo HM HO HW HW' d ltac:(lia)) as (k1 & k2 & E1 & E2 & L1 & L2 & N1 & N2 & Hq). rewrite Ec in E1. injection E1 as <-. rewrite Ec' in E2. injection E2 as <-.
    destruct (cells e s turn o o' ne lo Hlo HM HO HW HW' (S d) ltac:(lia)) as (ds & ds' & Ed & Ed' & _).
    exists y, y'. split; [exact Ey|]. split; [exact Ey'|]. rewrite L1 in Sy. rewrite L2 in Sy'. split; [exact Sy|]. split; [exact Sy'|].
    intros a a' i j q A A' Hi Hj. rewrite Ec in A. injection A as <-. rewrite Ec' in A'. injection A' as <-.
    assert (Li : (i < node_count o d ne)%nat) by (rewrite <- L1; apply nth_error_Some; congruence).
    assert (Lj : (j < node_count o' d ne)%nat) by (rewrite <- L2; apply nth_error_Some; congruence).
    rewrite (nth_error_nth' y []) by (rewrite (proj1 Sy); exact Li). rewrite (nth_error_nth' y' []) by (rewrite (proj1 Sy'); exact Lj). f_equal.
    apply nth_ext with 0%Qc 0%Qc; [rewrite (shape_nth _ _ _ _ Sy Li), (shape_nth _ _ _ _ Sy' Lj); reflexivity|].
    intros c Hcc. rewrite (shape_nth _ _ _ _ Sy Li) in Hcc. change (at2 y i c = at2 y' j c).
    assert (Hel : (e <= d)%nat) by (pose proof (proj1 Hlo); lia).
    assert (FL : ne = false -> exists f, nth_error fl i = Some f /\ nth_error fl' j = Some f).
    { intros Hne. rewrite Hne in Ec, Ec'. destruct (cells0 e s o o' HO HW HW' true d ltac:(lia)) as (ts & ts' & F1 & F2 & _).
      destruct (flag_iff o d fl ts cs i q HW ltac:(lia) Ef F1 Ec Hi) as (f & G1 & G2). destruct (flag_iff o' d fl' ts' cs' j (s d q) HW' ltac:(lia) Ef' F2 Ec' Hj) as (f' & G1' & G2').
      exists f. split; [exact G1|]. pose proof (HOc d ts ts' ltac:(lia) F1 F2 q) as G. replace f with f'; [exact G1'|]. destruct f, f'; intuition congruence. }
    destruct q as [[[X Y0] Z0] b]. destruct (s d (X, Y0, Z0, b)) as [[[X' Y1] Z1] b1] eqn:Es.
    pose proof (HF d (X, Y0, Z0, b) Hel) as Hfst. rewrite Es in Hfst. cbn [first_child] in Hfst.
    destruct (Y i X Y0 Z0 b c Hi Hcc) as [Yt Yf]. destruct (Y' j X' Y1 Z1 b1 c Hj Hcc) as [Yt' Yf'].
    assert (CASE : (ne = true \/ (nth_error fl i = Some true /\ nth_error fl' j = Some true)) \/ (ne = false /\ nth_error fl i = Some false /\ nth_error fl' j = Some false)).
    { destruct (bool_dec ne true) as [E|E]; [left; left; exact E|]. apply not_true_is_false in E. destruct (FL E) as ([|] & G1 & G2); [left; right; auto|right; auto]. }
    destruct CASE as [CASE|(C0 & C1 & C2)]; [|rewrite Yf, Yf' by assumption; reflexivity].
    rewrite Yt by tauto. rewrite Yt' by tauto. f_equal. unfold dense_conv.
    assert (Hbb : 0 <= b < Z.of_nat (batch_size o)).
    { assert (SH : shape (node_count o d ne) 0 (repeat (@nil Qc) (node_count o d ne))) by apply (shape_repeat _ 0 0%Qc).
      destruct (thm_voxel o d ne 0 (repeat [] (node_count o d ne)) HW ltac:(lia) SH) as (cs1 & vox1 & F1 & _ & _ & _ & _ & F2 & _). rewrite Ec in F1. injection F1 as <-.
      destruct (F2 i _ _ _ _ Hi) as (_ & H & _). exact H. }
    assert (Hbb1 : 0 <= b1 < Z.of_nat (batch_size o')).
    { assert (SH : shape (node_count o' d ne) 0 (repeat (@nil Qc) (node_count o' d ne))) by apply (shape_repeat _ 0 0%Qc).
      destruct (thm_voxel o' d ne 0 (repeat [] (node_count o' d ne)) HW' ltac:(lia) SH) as (cs1 & vox1 & F1 & _ & _ & _ & _ & F2 & _). rewrite Ec' in F1. injection F1 as <-.
      destruct (F2 j _ _ _ _ Hj) as (_ & H & _). exact H. }
    pose (F := fun (vx : list vec) B2 X2 Y2 Z2 (vw : (Z * Z * Z) * list vec) => let '(dx, dy, dz) := fst vw in
      sum_n ci (fun c0 => (voxel (S d) vx B2 (X2 + dx) (Y2 + dy) (Z2 + dz) c0 * at2 (snd vw) c0 c)%Qc)).
    assert (G : forall vx B2 X2 Y2 Z2 WW, length WW = length (box kernel) -> sum_n (length (box kernel)) (fun k => let '(dx, dy, dz) := nth k (box kernel) (0, 0, 0) in
        sum_n ci (fun c0 => (voxel (S d) vx B2 (X2 + dx) (Y2 + dy) (Z2 + dz) c0 * at3 WW k c0 c)%Qc)) = lsum (F vx B2 X2 Y2 Z2) (combine (box kernel) WW)).
    { intros vx B2 X2 Y2 Z2 WW LL. rewrite <- (lsum_nth _ ((0, 0, 0), [])), combine_length, LL, Nat.min_id. apply sum_ext. intros k Hkk.
      rewrite combine_nth by congruence. unfold F. cbn [fst snd]. destruct (nth k (box kernel) (0, 0, 0)) as [[dx dy] dz]. reflexivity. }
    rewrite (G vox _ _ _ _ W) by apply HWt. rewrite (G vox' _ _ _ _ W') by apply HWt'.
    rewrite <- (lsum_perm _ _ _ (turned_perm turn kernel W W' (turn_inj e s turn ne lo Hlo HM) (box_nodup _ (kernel_in _ _ Hk)) (proj1 HWt) (proj1 HWt') Ht)).
    rewrite lsum_map. apply lsum_ext. intros [v w] _. unfold F. cbn [fst snd].
    destruct v as [[dx dy] dz]. destruct (turn (dx, dy, dz)) as [[ex ey] ez] eqn:Et. apply sum_ext. intros c0 _. f_equal.
    symmetry. apply (move_voxel e s turn o o' ne lo Hlo HM HO HW HW' (S d) ci x x' ds ds' vox vox'); try assumption; [lia|].
    change (2 * X + dx, 2 * Y0 + dy, 2 * Z0 + dz, b) with (step (2 * X, 2 * Y0, 2 * Z0, b) (dx, dy, dz)). rewrite (mo_step _ _ _ _ HM) by lia. rewrite Hfst, Et. reflexivity.
  Qed.

  (** sums over corresponding rows *)
  Lemma sum_rows d (f f' : nat -> Qc) : (lo <= d <= depth o)%nat ->
    (forall cs cs' i j q, octree_xyzb o d ne = Ok cs -> octree_xyzb o' d ne = Ok cs' -> nth_error cs i = Some q -> nth_error cs' j = Some (s d q) -> f i = f' j) ->
    sum_n (node_count o d ne) f = sum_n (node_count o' d ne) f'.
  Proof.
    intros Hd H. destruct (cells e s turn o o' ne lo Hlo HM HO HW HW' d Hd) as (cs & cs' & Ec & Ec' & L1 & L2 & _).
    set (n := node_count o d ne) in *. set (n' := node_count o' d ne) in *.
    pose (x := map (fun i => [f i]) (seq 0 n)). pose (x' := map (fun i => [f' i]) (seq 0 n')).
    assert (Hx : R d 1 x x').
    { split; [|split].
      - split; [unfold x; rewrite map_length, seq_length; reflexivity|]. apply Forall_map, Forall_forall. reflexivity.
      - split; [unfold x'; rewrite map_length, seq_length; reflexivity|]. apply Forall_map, Forall_forall. reflexivity.
      - intros a a' i j q A A' Hi Hj. unfold x, x'. rewrite !nth_error_map.
        assert (Li : (i < n)%nat) by (rewrite <- L1; rewrite Ec in A; injection A as <-; apply nth_error_Some; congruence).
        assert (Lj : (j < n')%nat) by (rewrite <- L2; rewrite Ec' in A'; injection A' as <-; apply nth_error_Some; congruence).
        rewrite !(nth_error_nth' (seq 0 _) O) by (rewrite seq_length; assumption). rewrite !seq_nth by assumption. cbn [option_map Nat.add]. rewrite (H a a' i j q A A' Hi Hj). reflexivity. }
    pose proof (cells_perm e s turn o o' ne lo Hlo HM HO HW HW' d 1 x x' cs cs' Hd Hx Ec Ec') as Pm.
    pose (h := fun p : (Z * Z * Z * Z) * vec => nth 0 (snd p) 0%Qc).
    assert (G : forall n0 (g : nat -> Qc) (kk : list (Z * Z * Z * Z)), length kk = n0 -> sum_n n0 g = lsum h (combine kk (map (fun i => [g i]) (seq 0 n0)))).
    { intros n0 g kk Hk. rewrite <- (lsum_nth h ((0, 0, 0, 0), [])), combine_length, map_length, seq_length, Hk, Nat.min_id. apply sum_ext. intros k Hkn.
      rewrite combine_nth by (rewrite map_length, seq_length; exact Hk). unfold h. cbn [snd].
      rewrite (nth_map_lt (fun i => [g i]) (seq 0 n0) k O []) by (rewrite seq_length; exact Hkn). rewrite seq_nth by exact Hkn. reflexivity. }
    rewrite (G n f (map (s d) cs)) by (rewrite map_length; exact L1). rewrite (G n' f' cs') by exact L2. apply lsum_perm. exact Pm.
  Qed.
  Lemma inner_rows d C x x' y y' : (lo <= d <= depth o)%nat -> R d C x x' -> R d C y y' -> inner (node_count o d ne) C x y = inner (node_count o' d ne) C x' y'.
  Proof.
    intros Hd (_ & _ & Hx) (_ & _ & Hy). unfold inner. apply sum_rows; [exact Hd|]. intros cs cs' i j q E E' Hi Hj. apply sum_ext. intros c _. unfold at2.
    rewrite (nth_error_nth_eq x x' i j (Hx cs cs' i j q E E' Hi Hj)), (nth_error_nth_eq y y' i j (Hy cs cs' i j q E E' Hi Hj)). reflexivity.
  Qed.

  (** a convolution of either stride *)
  Lemma move_conv_any st d ks kernel ci co mb x x' W W' bias : (st = 1 \/ st = 2) -> (lo <= d)%nat -> conv_ready o (up d st) kernel st -> conv_ready o' (up d st) kernel st -> In (ks, kernel) kernel_sizes ->
    R (up d st) ci x x' ->
    shape3 (length (box kernel)) ci co W -> shape3 (length (box kernel)) ci co W' -> turned turn kernel W W' -> bias_ok co bias ->
    Z.of_nat (length (box kernel)) * Z.of_nat ci <= mb ->
    exists y y', OctreeConv (mkCfg ci co ks st ne mb true) false W bias x o (up d st) = Ok y /\
      OctreeConv (mkCfg ci co ks st ne mb true) false W' bias x' o' (up d st) = Ok y' /\ R d co y y'.
  Proof.
    intros [->| ->] He Q Q' Hk HR HWt HWt' Ht Hb Hm.
    - unfold up in *. cbn [Z.eqb Pos.eqb] in *. destruct HR as (Hx & Hx' & Hc).
      destruct (move_conv e s turn o o' ne lo Hlo HM HO HW HW' d ks kernel ci co mb x x' W W' bias He Q Q' Hk Hx Hx' Hc HWt HWt' Ht Hb Hm) as (y & y' & A & B & C & D & E).
      exists y, y'. unfold MoveNet.R. auto.
    - unfold up in *. cbn [Z.eqb Pos.eqb] in *. replace (d + 1)%nat with (S d) in * by lia. apply move_conv2 with kernel; assumption.
  Qed.

  Lemma unit_rows d C r j c cs cs' q : (lo <= d <= depth o)%nat -> octree_xyzb o d ne = Ok cs -> octree_xyzb o' d ne = Ok cs' -> nth_error cs r = Some q -> nth_error cs' j = Some (s d q) ->
    R d C (unit2 (node_count o d ne) C r c) (unit2 (node_count o' d ne) C j c).
  Proof.
    intros Hd Ec Ec' Hr Hj. destruct (cells e s turn o o' ne lo Hlo HM HO HW HW' d Hd) as (k1 & k2 & E1 & E2 & L1 & L2 & N1 & N2 & _). rewrite Ec in E1. injection E1 as <-. rewrite Ec' in E2. injection E2 as <-.
    split; [apply tabulate_shape|]. split; [apply tabulate_shape|]. intros a a' u v p A A' Hu Hv. rewrite Ec in A. injection A as <-. rewrite Ec' in A'. injection A' as <-.
    assert (Lu : (u < node_count o d ne)%nat) by (rewrite <- L1; apply nth_error_Some; congruence).
    assert (Lv : (v < node_count o' d ne)%nat) by (rewrite <- L2; apply nth_error_Some; congruence).
    assert (S1 : shape (node_count o d ne) C (unit2 (node_count o d ne) C r c)) by apply tabulate_shape.
    assert (S2 : shape (node_count o' d ne) C (unit2 (node_count o' d ne) C j c)) by apply tabulate_shape.
    rewrite (nth_error_nth' _ []) by (rewrite (proj1 S1); exact Lu). rewrite (nth_error_nth' (unit2 _ _ j c) []) by (rewrite (proj1 S2); exact Lv). f_equal.
    apply nth_ext with 0%Qc 0%Qc; [rewrite (shape_nth _ _ _ _ S1 Lu), (shape_nth _ _ _ _ S2 Lv); reflexivity|].
    intros k Hk. rewrite (shape_nth _ _ _ _ S1 Lu) in Hk. change (at2 (unit2 (node_count o d ne) C r c) u k = at2 (unit2 (node_count o' d ne) C j c) v k).
    unfold unit2. rewrite !at2_tabulate by assumption.
    assert (E : Nat.eqb u r = Nat.eqb v j).
    { destruct (Nat.eqb_spec u r) as [->|Nu], (Nat.eqb_spec v j) as [->|Nv]; try reflexivity; exfalso.
      - assert (p = q) by congruence. subst p. apply Nv. rewrite NoDup_nth_error in N2. apply N2; [apply nth_error_Some|]; congruence.
      - assert (s d p = s d q) as Eq by congruence. apply (mo_inj _ _ _ _ HM) in Eq; [|pose proof (proj1 Hlo); lia]. subst p. apply Nu. rewrite NoDup_nth_error in N1. apply N1; [apply nth_error_Some|]; congruence. }
    rewrite E. reflexivity.
  Qed.

  (** the transposed convolution, by the adjoint property *)
  Lemma move_deconv st d ks kernel ci co mb y y' W W' : (st = 1 \/ st = 2) -> (lo <= d)%nat -> conv_ready o (up d st) kernel st -> conv_ready o' (up d st) kernel st -> In (ks, kernel) kernel_sizes ->
    R d co y y' -> shape3 (length (box kernel)) ci co W -> shape3 (length (box kernel)) ci co W' -> turned turn kernel W W' ->
    Z.of_nat (length (box kernel)) * Z.of_nat ci <= mb ->
    exists z z', OctreeDeconv (mkCfg co ci ks st ne mb false) false W None y o d = Ok z /\
      OctreeDeconv (mkCfg co ci ks st ne mb false) false W' None y' o' d = Ok z' /\ R (up d st) ci z z'.
  Proof.
    intros Hs He Q Q' Hk HR HWt HWt' Ht Hm. pose proof HR as (Hy & Hy' & _). pose proof Q as (_ & Hd & _). pose proof HO as (D & _).
    assert (Hdu : (d <= up d st)%nat) by (unfold up; destruct (st =? 2); lia).
    assert (X0 : forall oo n C, shape (node_count oo n ne) C (tabulate (node_count oo n ne) C (fun _ _ => 0%Qc))) by (intros; apply tabulate_shape).
    destruct (thm_deconv_transpose o d ks kernel st ne ci co mb mb _ y W Q Hk (X0 o _ ci) Hy HWt Hm Hm) as (_ & z & _ & _ & Ez & Sz & _).
    destruct (thm_deconv_transpose o' d ks kernel st ne ci co mb mb _ y' W' Q' Hk (X0 o' _ ci) Hy' HWt' Hm Hm) as (_ & z' & _ & _ & Ez' & Sz' & _).
    exists z, z'. split; [exact Ez|]. split; [exact Ez'|]. split; [exact Sz|]. split; [exact Sz'|].
    destruct (cells e s turn o o' ne lo Hlo HM HO HW HW' (up d st) ltac:(lia)) as (cs & cs' & Ec & Ec' & L1 & L2 & _).
    intros a a' i j q A A' Hi Hj. rewrite Ec in A. injection A as <-. rewrite Ec' in A'. injection A' as <-.
    assert (Li : (i < node_count o (up d st) ne)%nat) by (rewrite <- L1; apply nth_error_Some; congruence).
    assert (Lj : (j < node_count o' (up d st) ne)%nat) by (rewrite <- L2; apply nth_error_Some; congruence).
    rewrite (nth_error_nth' z []) by (rewrite (proj1 Sz); exact Li). rewrite (nth_error_nth' z' []) by (rewrite (proj1 Sz'); exact Lj). f_equal.
    apply nth_ext with 0%Qc 0%Qc; [rewrite (shape_nth _ _ _ _ Sz Li), (shape_nth _ _ _ _ Sz' Lj); reflexivity|].
    intros c Hc. rewrite (shape_nth _ _ _ _ Sz Li) in Hc. change (at2 z i c = at2 z' j c).
    pose proof (unit_rows (up d st) ci i j c cs cs' q ltac:(lia) Ec Ec' Hi Hj) as HU.
    destruct (move_conv_any st d ks kernel ci co mb _ _ W W' None Hs He Q Q' Hk HU HWt HWt' Ht I Hm) as (v & v' & Ev & Ev' & HV).
    destruct (thm_deconv_transpose o d ks kernel st ne ci co mb mb _ y W Q Hk (proj1 HU) Hy HWt Hm Hm) as (cx & dy & F1 & _ & F3 & _ & F5).
    destruct (thm_deconv_transpose o' d ks kernel st ne ci co mb mb _ y' W' Q' Hk (proj1 (proj2 HU)) Hy' HWt' Hm Hm) as (cx' & dy' & F1' & _ & F3' & _ & F5').
    assert (Eq : forall (a b : feat), Ok a = Ok b -> a = b) by (intros; congruence).
    rewrite Ev in F1. rewrite Ev' in F1'. rewrite Ez in F3. rewrite Ez' in F3'. apply Eq in F1, F1', F3, F3'. rewrite <- F1, <- F3 in F5. rewrite <- F1', <- F3' in F5'.
    rewrite inner_unit in F5, F5' by assumption. rewrite <- F5, <- F5'. apply (inner_rows d co); [lia|exact HV|exact HR].
  Qed.
End Seg.
