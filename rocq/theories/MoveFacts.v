(** Moving a shape moves what convolution and pooling compute. *)
From Coq Require Import String List ZArith Bool QArith Qcanon Lia Permutation.
From Verif Require Import Res Tensor Key Num NumFacts Points Octree NnBasic NnConv NnInterp Features Net Spec SpecGeo SpecNeigh SpecNN SpecNet SpecBatch SpecMove
  WF WFFacts SumFacts SearchFacts NeighFacts Family NnFacts Unpool ConvOct Deconv PoolFacts GlobalPool VoxelThm.
Import ListNotations.
Open Scope Z_scope.

(** ** sums over lists *)
Fixpoint lsum {A} (f : A -> Qc) (l : list A) : Qc := match l with [] => 0%Qc | a :: l => (f a + lsum f l)%Qc end.
Lemma lsum_nth {A} (f : A -> Qc) d l : sum_n (length l) (fun k => f (nth k l d)) = lsum f l.
Proof. induction l as [|a l IH]; [reflexivity|]. cbn [length lsum]. rewrite sum_S. cbn [nth]. rewrite IH. reflexivity. Qed.
Lemma lsum_perm {A} (f : A -> Qc) l l' : Permutation l l' -> lsum f l = lsum f l'.
Proof. induction 1; cbn [lsum]; [reflexivity|rewrite IHPermutation; reflexivity|ring|congruence]. Qed.
Lemma lsum_map {A B} (f : B -> Qc) (g : A -> B) l : lsum f (map g l) = lsum (fun a => f (g a)) l.
Proof. induction l as [|a l IH]; [reflexivity|]. cbn [map lsum]. rewrite IH. reflexivity. Qed.
Lemma lsum_ext {A} (f g : A -> Qc) l : (forall a, In a l -> f a = g a) -> lsum f l = lsum g l.
Proof. induction l as [|a l IH]; intros H; [reflexivity|]. cbn [lsum]. rewrite (H a (or_introl eq_refl)), IH by (intros; apply H; right; assumption). reflexivity. Qed.

Lemma nd_map_in {A B} (f : A -> B) l : (forall a b, In a l -> In b l -> f a = f b -> a = b) -> NoDup l -> NoDup (map f l).
Proof.
  induction l as [|a l IH]; intros Hf H; [constructor|]. inversion H; subst. cbn [map]. constructor.
  - intros Hi. apply in_map_iff in Hi as (b & E & Hb). assert (b = a) by (apply Hf; [right; exact Hb|left; reflexivity|exact E]). subst. contradiction.
  - apply IH; [|assumption]. intros x y Hx Hy. apply Hf; right; assumption.
Qed.
Lemma nd_combine {A B} (l : list A) (m : list B) : NoDup l -> NoDup (combine l m).
Proof.
  intros H. revert m; induction H as [|a l Ha H IH]; intros [|b m]; try constructor; [|apply IH].
  intros Hi. apply in_combine_l in Hi. contradiction.
Qed.

Lemma nth_error_combine {A B} (l : list A) (m : list B) k :
  nth_error (combine l m) k = match nth_error l k, nth_error m k with Some a, Some b => Some (a, b) | _, _ => None end.
Proof. revert l m; induction k as [|k IH]; intros [|a l] [|b m]; cbn [combine nth_error]; try reflexivity; [destruct (nth_error l k); reflexivity|apply IH]. Qed.

Lemma nth_error_nth_eq {A} (l l' : list (list A)) i j : nth_error l i = nth_error l' j -> nth i l [] = nth j l' [].
Proof.
  intros H. destruct (nth_error l i) eqn:E; symmetry in H.
  - rewrite (nth_error_nth _ _ _ E), (nth_error_nth _ _ _ H). reflexivity.
  - apply nth_error_None in E, H. rewrite !nth_overflow by assumption. reflexivity.
Qed.

(** The index pairs of a turned kernel. *)
Lemma turned_perm turn kernel W W' : (forall v w, turn v = turn w -> v = w) -> NoDup (box kernel) -> length W = length (box kernel) -> length W' = length (box kernel) ->
  turned turn kernel W W' -> Permutation (map (fun vw => (turn (fst vw), snd vw)) (combine (box kernel) W)) (combine (box kernel) W').
Proof.
  intros Ht Hn L L' H. apply NoDup_Permutation_bis.
  - apply nd_map_in; [|apply nd_combine; exact Hn]. intros [v w] [v' w'] _ _ E. cbn [fst snd] in E. inversion E as [[E1 E2]]. f_equal. apply Ht. exact E1.
  - rewrite map_length, !combine_length. lia.
  - intros [v w] Hi. apply in_map_iff in Hi as ([v0 w0] & E & Hi). cbn [fst snd] in E. inversion E; subst.
    apply In_nth_error in Hi as (k & Hk). rewrite nth_error_combine in Hk.
    destruct (nth_error (box kernel) k) as [v1|] eqn:E1; [|discriminate]. destruct (nth_error W k) as [w1|] eqn:E2; [|discriminate]. injection Hk as <- <-.
    destruct (H k v1 E1) as (k' & B & C). rewrite E2 in C. apply nth_error_In with k'. rewrite nth_error_combine, B, C. reflexivity.
Qed.

Definition cell_dec (a b : Z * Z * Z * Z) : {a = b} + {a <> b}.
Proof. decide equality; [apply Z.eq_dec|decide equality; [apply Z.eq_dec|decide equality; apply Z.eq_dec]]. Defined.
Definition off_dec (a b : Z * Z * Z) : {a = b} + {a <> b}.
Proof. decide equality; [apply Z.eq_dec|decide equality; apply Z.eq_dec]. Defined.
Lemma box_nodup kernel : In kernel kernels -> NoDup (box kernel).
Proof.
  intros H. assert (E : nodup off_dec (box kernel) = box kernel).
  { unfold kernels in H. cbn [In] in H. repeat (destruct H as [<-|H]; [vm_compute; reflexivity|]). contradiction. }
  rewrite <- E. apply NoDup_nodup.
Qed.
Lemma kernel_in ks kernel : In (ks, kernel) kernel_sizes -> In kernel kernels.
Proof. intros H. unfold kernel_sizes in H. cbn [In] in H. unfold kernels. cbn [In]. repeat (destruct H as [H|H]; [injection H as <- <-; tauto|]). contradiction. Qed.

(** The nodes of a layer are the children of the non-empty nodes of the layer above. *)
Lemma cell_by_parent q r : parent_cell q = parent_cell r -> child_no q = child_no r -> q = r.
Proof.
  destruct q as [[[x y] z] b], r as [[[x' y'] z'] b']. unfold parent_cell, child_no. intros E H.
  assert (J : x / 2 = x' / 2 /\ y / 2 = y' / 2 /\ z / 2 = z' / 2 /\ b = b') by (repeat split; congruence). destruct J as (J1 & J2 & J3 & <-).
  pose proof (Z.div_mod x 2 ltac:(lia)). pose proof (Z.div_mod y 2 ltac:(lia)). pose proof (Z.div_mod z 2 ltac:(lia)).
  pose proof (Z.div_mod x' 2 ltac:(lia)). pose proof (Z.div_mod y' 2 ltac:(lia)). pose proof (Z.div_mod z' 2 ltac:(lia)).
  pose proof (Z.mod_pos_bound x 2 ltac:(lia)). pose proof (Z.mod_pos_bound y 2 ltac:(lia)). pose proof (Z.mod_pos_bound z 2 ltac:(lia)).
  pose proof (Z.mod_pos_bound x' 2 ltac:(lia)). pose proof (Z.mod_pos_bound y' 2 ltac:(lia)). pose proof (Z.mod_pos_bound z' 2 ltac:(lia)).
  assert (x = x' /\ y = y' /\ z = z') by lia. destruct H12 as (-> & -> & ->). reflexivity.
Qed.
Lemma all_cells o d qs cs q : wf_octree o -> (S d <= depth o)%nat -> octree_xyzb o d true = Ok qs -> octree_xyzb o (S d) false = Ok cs ->
  (In q cs <-> In (parent_cell q) qs).
Proof.
  intros (K & M & T) Hd Eq Ec. rewrite (tree_xyzb o (depth o) K M) in Eq by (assumption || lia). rewrite (tree_xyzb o (depth o) K M) in Ec by (assumption || lia).
  injection Eq as <-. injection Ec as <-. cbn [sel]. split; intros H.
  - apply in_map_iff in H. destruct H as (c & <- & Hc). apply In_nth_error in Hc. destruct Hc as (i & Hi).
    destruct (family_inv o (depth o) K M T d i c Hd Hi) as (r & j & p & _ & _ & Hp & E & _). rewrite E. apply in_map. eapply nth_error_In. exact Hp.
  - apply in_map_iff in H. destruct H as (p & Ep & Hp). apply In_nth_error in Hp. destruct Hp as (r & Hr). pose proof (child_no_range q) as Hq.
    destruct (family o (depth o) K M T d r (Z.to_nat (child_no q)) p Hd Hr ltac:(lia)) as (c & Hc & E1 & E2).
    apply in_map_iff. exists c. split; [|eapply nth_error_In; exact Hc]. apply cell_by_parent; [congruence|]. rewrite E2. lia.
Qed.

Lemma lowest_ok ne e : (e <= lowest ne e)%nat /\ (ne = false -> (S e <= lowest ne e)%nat).
Proof. destruct ne; cbn; split; try lia; discriminate. Qed.

Section Moves.
  Variables (e : nat) (s : nat -> Z * Z * Z * Z -> Z * Z * Z * Z) (turn : Z * Z * Z -> Z * Z * Z) (o o' : octree).
  Variables (ne : bool) (lo : nat).
  Hypothesis Hlo : (e <= lo)%nat /\ (ne = false -> (S e <= lo)%nat).
  Context {renum : Z -> Z}.
  Hypothesis HM : motion_to renum e s turn.
  Hypothesis HO : moved e s o o'.
  Hypothesis HW : wf_octree o.
  Hypothesis HW' : wf_octree o'.

  Lemma turn_inj v w : turn v = turn w -> v = w.
  Proof.
    intros H. assert (E : s e (step (0, 0, 0, 0) v) = s e (step (0, 0, 0, 0) w)) by (rewrite !(mo_step _ _ _ _ HM) by lia; congruence).
    apply (mo_inj _ _ _ _ HM) in E; [|lia]. destruct v as [[a b] c], w as [[a' b'] c']. cbn [step] in E. 
    assert (Eq : forall a b c d a' b' c' d' : Z, (a, b, c, d) = (a', b', c', d') -> a = a' /\ b = b' /\ c = c') by (intros * X; inversion X; auto).
    apply Eq in E as (E1 & E2 & E3). repeat f_equal; lia.
  Qed.

  (** The cells of a layer of both octrees. *)
  Lemma cells0 ne' d : (d <= depth o)%nat -> exists cs cs', octree_xyzb o d ne' = Ok cs /\ octree_xyzb o' d ne' = Ok cs' /\
    length cs = node_count o d ne' /\ length cs' = node_count o' d ne' /\ NoDup cs /\ NoDup cs'.
  Proof.
    clear Hlo. intros Hd. destruct HO as (D & _ & Hc).
    destruct (thm_voxel o d ne' 0 (repeat [] (node_count o d ne')) HW ltac:(lia)) as (cs & _ & E1 & L1 & N1 & _).
    { apply (shape_repeat (node_count o d ne') 0 0%Qc). }
    destruct (thm_voxel o' d ne' 0 (repeat [] (node_count o' d ne')) HW' ltac:(lia)) as (cs' & _ & E2 & L2 & N2 & _).
    { apply (shape_repeat (node_count o' d ne') 0 0%Qc). }
    rewrite repeat_length in L1, L2. exists cs, cs'. repeat (split; [assumption|]). assumption.
  Qed.
  Lemma cells d : (lo <= d <= depth o)%nat -> exists cs cs', octree_xyzb o d ne = Ok cs /\ octree_xyzb o' d ne = Ok cs' /\
    length cs = node_count o d ne /\ length cs' = node_count o' d ne /\ NoDup cs /\ NoDup cs' /\ (forall q, In (s d q) cs' <-> In q cs).
  Proof.
    intros Hd. destruct HO as (D & _ & Hc). destruct (cells0 ne d ltac:(lia)) as (cs & cs' & E1 & E2 & L1 & L2 & N1 & N2). exists cs, cs'. repeat (split; [assumption|]).
    destruct Hlo as [H1 H2]. clear Hlo. destruct ne; [apply (Hc d); try assumption; lia|]. specialize (H2 eq_refl). destruct d as [|d]; [lia|].
    destruct (cells0 true d ltac:(lia)) as (qs & qs' & F1 & F2 & _). intros q. rewrite (all_cells o' d qs' cs') by (assumption || lia). rewrite (all_cells o d qs cs) by (assumption || lia).
    rewrite (mo_parent _ _ _ _ HM) by lia. apply (Hc d qs qs' ltac:(lia) F1 F2).
  Qed.
  Lemma count_eq d : (lo <= d <= depth o)%nat -> node_count o' d ne = node_count o d ne.
  Proof.
    intros Hd. destruct (cells d Hd) as (cs & cs' & E1 & E2 & L1 & L2 & N1 & N2 & Hc).
    rewrite <- L1, <- L2, <- (map_length (s d) cs). apply Permutation_length. symmetry. apply NoDup_Permutation; [|exact N2|].
    - apply nd_map_in; [|exact N1]. intros a b _ _. apply (mo_inj _ _ _ _ HM). lia.
    - intros q'. destruct (mo_onto _ _ _ _ HM d q' ltac:(lia)) as (q & <-). rewrite Hc. rewrite in_map_iff. split.
      + intros (r & E & Hr). apply (mo_inj _ _ _ _ HM) in E; [|lia]. subst. exact Hr.
      + intros Hq. exists q. auto.
  Qed.

  (** The value of a voxel. *)
  Lemma voxel_val u d C x cs vox : wf_octree u -> (d <= depth u)%nat -> shape (node_count u d ne) C x -> octree_xyzb u d ne = Ok cs ->
    octree2voxel C x u d ne = Ok vox ->
    (forall i X Y Z b c, nth_error cs i = Some (X, Y, Z, b) -> voxel d vox b X Y Z c = at2 x i c) /\
    (forall X Y Z b c, 0 <= b < Z.of_nat (batch_size u) -> ~ In (X, Y, Z, b) cs -> voxel d vox b X Y Z c = 0%Qc).
  Proof.
    intros U Hd Hx Ec Ev. destruct (thm_voxel u d ne C x U Hd Hx) as (cs1 & vox1 & E1 & _ & _ & E2 & _ & V1 & V2).
    rewrite Ec in E1. injection E1 as <-. rewrite Ev in E2. injection E2 as <-. unfold voxel. split.
    - intros i X Y Z b c Hi. destruct (V1 i X Y Z b Hi) as (I1 & _ & I2). rewrite I1. unfold at2.
      erewrite nth_error_nth_eq by exact I2. reflexivity.
    - intros X Y Z b c Hb Hn. destruct (inside d X Y Z) eqn:I; [|reflexivity]. pose proof (V2 X Y Z b I Hb Hn) as E.
      unfold at2. rewrite (nth_error_nth _ _ _ E). apply nth_repeat.
  Qed.

  Lemma move_voxel d C x x' cs cs' vox vox' : (lo <= d <= depth o)%nat -> shape (node_count o d ne) C x -> shape (node_count o' d ne) C x' ->
    octree_xyzb o d ne = Ok cs -> octree_xyzb o' d ne = Ok cs' -> carried ne s o o' d x x' ->
    octree2voxel C x o d ne = Ok vox -> octree2voxel C x' o' d ne = Ok vox' ->
    forall X Y Z b X' Y' Z' b' c, 0 <= b < Z.of_nat (batch_size o) -> 0 <= b' < Z.of_nat (batch_size o') -> s d (X, Y, Z, b) = (X', Y', Z', b') -> voxel d vox' b' X' Y' Z' c = voxel d vox b X Y Z c.
  Proof.
    intros Hd Hx Hx' E1 E2 Hc V V' X Y Z b X' Y' Z' b' c Hb Hb' Hs. pose proof HO as (D & B & Hq).
    destruct (voxel_val o d C x cs vox HW ltac:(lia) Hx E1 V) as [I1 I2]. destruct (voxel_val o' d C x' cs' vox' HW' ltac:(lia) Hx' E2 V') as [J1 J2].
    destruct (cells d Hd) as (k1 & k2 & F1 & F2 & _ & _ & _ & _ & Hqq). rewrite E1 in F1. injection F1 as <-. rewrite E2 in F2. injection F2 as <-. pose proof (Hqq (X, Y, Z, b)) as Hi. rewrite Hs in Hi.
    destruct (in_dec cell_dec (X, Y, Z, b) cs) as [Hin|Hn].
    - pose proof (proj2 Hi Hin) as Hin'. apply In_nth_error in Hin as (i & Ei). apply In_nth_error in Hin' as (j & Ej).
      rewrite (I1 _ _ _ _ _ c Ei), (J1 _ _ _ _ _ c Ej). unfold at2. f_equal. symmetry. apply nth_error_nth_eq.
      apply (Hc cs cs' i j (X, Y, Z, b)); try assumption. rewrite Hs. exact Ej.
    - rewrite I2 by assumption. apply J2; [exact Hb'|]. intros Hn'. apply Hn, Hi, Hn'.
  Qed.

  Lemma move_conv d ks kernel ci co mb x x' W W' bias : (lo <= d)%nat -> conv_ready o d kernel 1 -> conv_ready o' d kernel 1 -> In (ks, kernel) kernel_sizes ->
    shape (node_count o d ne) ci x -> shape (node_count o' d ne) ci x' -> carried ne s o o' d x x' ->
    shape3 (length (box kernel)) ci co W -> shape3 (length (box kernel)) ci co W' -> turned turn kernel W W' -> bias_ok co bias ->
    Z.of_nat (length (box kernel)) * Z.of_nat ci <= mb ->
    exists y y', OctreeConv (mkCfg ci co ks 1 ne mb true) false W bias x o d = Ok y /\
      OctreeConv (mkCfg ci co ks 1 ne mb true) false W' bias x' o' d = Ok y' /\
      shape (node_count o d ne) co y /\ shape (node_count o' d ne) co y' /\ carried ne s o o' d y y'.
  Proof.
    intros He R R' Hk Hx Hx' Hc HWt HWt' Ht Hb Hm. pose proof R as (_ & Hd & _).
    destruct (thm_dense1 o d ks kernel ne ci co mb x W bias R Hk Hx HWt Hb Hm) as (vox & cs & y & V & Ec & Ey & Sy & Y).
    destruct (thm_dense1 o' d ks kernel ne ci co mb x' W' bias R' Hk Hx' HWt' Hb Hm) as (vox' & cs' & y' & V' & Ec' & Ey' & Sy' & Y').
    destruct (cells d ltac:(lia)) as (k1 & k2 & E1 & E2 & L1 & L2 & N1 & N2 & Hq). rewrite Ec in E1. injection E1 as <-. rewrite Ec' in E2. injection E2 as <-.
    exists y, y'. split; [exact Ey|]. split; [exact Ey'|]. rewrite L1 in Sy. rewrite L2 in Sy'. split; [exact Sy|]. split; [exact Sy'|].
    intros a a' i j q A A' Hi Hj. rewrite Ec in A. injection A as <-. rewrite Ec' in A'. injection A' as <-.
    assert (Li : (i < node_count o d ne)%nat) by (rewrite <- L1; apply nth_error_Some; congruence).
    assert (Lj : (j < node_count o' d ne)%nat) by (rewrite <- L2; apply nth_error_Some; congruence).
    rewrite (nth_error_nth' y []) by (rewrite (proj1 Sy); exact Li). rewrite (nth_error_nth' y' []) by (rewrite (proj1 Sy'); exact Lj). f_equal.
    apply nth_ext with 0%Qc 0%Qc; [rewrite (shape_nth _ _ _ _ Sy Li), (shape_nth _ _ _ _ Sy' Lj); reflexivity|].
    intros c Hcc. rewrite (shape_nth _ _ _ _ Sy Li) in Hcc. change (at2 y i c = at2 y' j c).
    destruct q as [[[X Y0] Z0] b]. destruct (s d (X, Y0, Z0, b)) as [[[X' Y1] Z1] b1] eqn:Es.
    rewrite (Y i X Y0 Z0 b c Hi Hcc), (Y' j X' Y1 Z1 b1 c Hj Hcc). f_equal. unfold dense_conv.
    pose proof HO as (D & B & _).
    assert (Hbb : 0 <= b < Z.of_nat (batch_size o)).
    { destruct (thm_voxel o d ne ci x HW ltac:(lia) Hx) as (cs1 & vox1 & F1 & _ & _ & _ & _ & F2 & _). rewrite Ec in F1. injection F1 as <-.
      destruct (F2 i _ _ _ _ Hi) as (_ & H & _). exact H. }
    assert (Hbb1 : 0 <= b1 < Z.of_nat (batch_size o')).
    { destruct (thm_voxel o' d ne ci x' HW' ltac:(lia) Hx') as (cs1 & vox1 & F1 & _ & _ & _ & _ & F2 & _). rewrite Ec' in F1. injection F1 as <-.
      destruct (F2 j _ _ _ _ Hj) as (_ & H & _). exact H. }
    pose (F := fun (vx : list vec) B2 X2 Y2 Z2 (vw : (Z * Z * Z) * list vec) => let '(dx, dy, dz) := fst vw in
      sum_n ci (fun c0 => (voxel d vx B2 (X2 + dx) (Y2 + dy) (Z2 + dz) c0 * at2 (snd vw) c0 c)%Qc)).
    assert (G : forall vx B2 X2 Y2 Z2 WW, length WW = length (box kernel) -> sum_n (length (box kernel)) (fun k => let '(dx, dy, dz) := nth k (box kernel) (0, 0, 0) in
        sum_n ci (fun c0 => (voxel d vx B2 (X2 + dx) (Y2 + dy) (Z2 + dz) c0 * at3 WW k c0 c)%Qc)) = lsum (F vx B2 X2 Y2 Z2) (combine (box kernel) WW)).
    { intros vx B2 X2 Y2 Z2 WW LL. rewrite <- (lsum_nth _ ((0, 0, 0), [])), combine_length, LL, Nat.min_id. apply sum_ext. intros k Hkk.
      rewrite combine_nth by congruence. unfold F. cbn [fst snd]. destruct (nth k (box kernel) (0, 0, 0)) as [[dx dy] dz]. reflexivity. }
    rewrite (G vox b X Y0 Z0 W) by apply HWt. rewrite (G vox' b1 X' Y1 Z1 W') by apply HWt'.
    rewrite <- (lsum_perm _ _ _ (turned_perm turn kernel W W' turn_inj (box_nodup _ (kernel_in _ _ Hk)) (proj1 HWt) (proj1 HWt') Ht)).
    rewrite lsum_map. apply lsum_ext. intros [v w] _. unfold F. cbn [fst snd].
    destruct v as [[dx dy] dz]. destruct (turn (dx, dy, dz)) as [[ex ey] ez] eqn:Et. apply sum_ext. intros c0 _. f_equal.
    symmetry. apply (move_voxel d ci x x' cs cs' vox vox'); try assumption; [lia|].
    change (X + dx, Y0 + dy, Z0 + dz, b) with (step (X, Y0, Z0, b) (dx, dy, dz)). rewrite (mo_step _ _ _ _ HM) by lia. rewrite Es, Et. reflexivity.
  Qed.
End Moves.
