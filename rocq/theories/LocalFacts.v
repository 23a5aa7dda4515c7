(** How far convolutions look: proofs. *)
From Coq Require Import String List ZArith Bool QArith Qcanon Lia Permutation.
From Verif Require Import Res Tensor Key Num NumFacts Points Octree NnBasic NnConv NnInterp Features Net Spec SpecGeo SpecNeigh SpecNN SpecNet SpecBatch SpecMove SpecMoveSeg SpecLocal
  WF ListFacts WFFacts SumFacts NnFacts Unpool ConvFacts ConvOct Deconv VoxelThm NetBatch MoveFacts MoveNet MoveSeg.
Import ListNotations.
Open Scope Z_scope.
Notation cell := (Z * Z * Z * Z)%type.

(** ** sums over the rows near a place *)
Lemma lsum_filter {A} (f : A -> Qc) (b : A -> bool) l : (forall a, In a l -> b a = false -> f a = 0%Qc) -> lsum f (filter b l) = lsum f l.
Proof.
  induction l as [|a l IH]; intros H; [reflexivity|]. cbn [filter lsum]. pose proof (H a (or_introl eq_refl)) as Ha. rewrite <- IH by (intros; apply H; [right|]; assumption).
  destruct (b a); cbn [lsum]; [reflexivity|]. rewrite Ha by reflexivity. ring.
Qed.
Lemma sum_pairs (cs : list cell) (f : nat -> Qc) : sum_n (length cs) f = lsum (fun p : cell * Qc => snd p) (combine cs (map f (seq 0 (length cs)))).
Proof.
  rewrite <- (lsum_nth (fun p : cell * Qc => snd p) ((0, 0, 0, 0), 0%Qc)), combine_length, map_length, seq_length, Nat.min_id. apply sum_ext. intros k Hk.
  rewrite combine_nth by (rewrite map_length, seq_length; reflexivity). cbn [snd]. rewrite (nth_map_lt f (seq 0 (length cs)) k O 0%Qc) by (rewrite seq_length; exact Hk). rewrite seq_nth by exact Hk. reflexivity.
Qed.
Lemma in_pairs (cs : list cell) (f : nat -> Qc) q v : In (q, v) (combine cs (map f (seq 0 (length cs)))) <-> exists i, nth_error cs i = Some q /\ v = f i.
Proof.
  assert (G : forall i, nth_error (map f (seq 0 (length cs))) i = if (i <? length cs)%nat then Some (f i) else None).
  { intros i. rewrite nth_error_map. destruct (Nat.ltb_spec i (length cs)) as [H|H].
    - rewrite (nth_error_nth' (seq 0 (length cs)) O) by (rewrite seq_length; exact H). rewrite seq_nth by exact H. reflexivity.
    - replace (nth_error (seq 0 (length cs)) i) with (@None nat); [reflexivity|]. symmetry. apply nth_error_None. rewrite seq_length. exact H. }
  split.
  - intros H. apply In_nth_error in H as (i & H). rewrite nth_error_combine, G in H. destruct (nth_error cs i) as [q'|] eqn:E; [|discriminate H].
    destruct (Nat.ltb_spec i (length cs)) as [L|L]; [|discriminate H]. inversion H; subst. exists i. auto.
  - intros (i & Hi & ->). apply nth_error_In with i. rewrite nth_error_combine, G, Hi. assert (L : (i < length cs)%nat) by (apply nth_error_Some; congruence).
    rewrite (proj2 (Nat.ltb_lt _ _) L). reflexivity.
Qed.
Lemma sum_near (cs cs' : list cell) (near : cell -> bool) (f f' : nat -> Qc) : NoDup cs -> NoDup cs' ->
  (forall i q, nth_error cs i = Some q -> near q = false -> f i = 0%Qc) -> (forall i q, nth_error cs' i = Some q -> near q = false -> f' i = 0%Qc) ->
  (forall q, near q = true -> (In q cs <-> In q cs')) ->
  (forall i j q, nth_error cs i = Some q -> nth_error cs' j = Some q -> near q = true -> f i = f' j) ->
  sum_n (length cs) f = sum_n (length cs') f'.
Proof.
  intros N N' Z0 Z1 HI HE. rewrite !sum_pairs. set (b := fun p : cell * Qc => near (fst p)).
  rewrite <- (lsum_filter _ b (combine cs _)), <- (lsum_filter _ b (combine cs' _)).
  - apply lsum_perm. apply NoDup_Permutation; try (apply NoDup_filter, nd_combine; assumption).
    intros [q v]. rewrite !filter_In, !in_pairs. unfold b. cbn [fst]. split; intros ((i & Hi & ->) & Hn).
    + pose proof (proj1 (HI q Hn) (nth_error_In _ _ Hi)) as H. apply In_nth_error in H as (j & Hj). split; [|exact Hn]. exists j. split; [exact Hj|]. apply (HE i j q); assumption.
    + pose proof (proj2 (HI q Hn) (nth_error_In _ _ Hi)) as H. apply In_nth_error in H as (j & Hj). split; [|exact Hn]. exists j. split; [exact Hj|]. symmetry. apply (HE j i q); assumption.
  - intros [q v] H Hn. apply in_pairs in H as (i & Hi & ->). cbn [snd]. apply (Z1 i q Hi). exact Hn.
  - intros [q v] H Hn. apply in_pairs in H as (i & Hi & ->). cbn [snd]. apply (Z0 i q Hi). exact Hn.
Qed.

Lemma cells_of o d ne : wf_octree o -> (d <= depth o)%nat -> exists cs, octree_xyzb o d ne = Ok cs /\ length cs = node_count o d ne /\ NoDup cs /\
  Forall (fun q => 0 <= sample_of q < Z.of_nat (batch_size o)) cs.
Proof.
  intros HW Hd. assert (SH : shape (node_count o d ne) 0 (repeat (@nil Qc) (node_count o d ne))) by apply (shape_repeat _ 0 0%Qc).
  destruct (thm_voxel o d ne 0 (repeat [] (node_count o d ne)) HW Hd SH) as (cs & vox & E & L & N & _ & _ & V & _). exists cs. split; [exact E|].
  split; [rewrite L, repeat_length; reflexivity|]. split; [exact N|]. apply Forall_forall. intros q Hq. apply In_nth_error in Hq as (i & Hi). destruct q as [[[X Y] Z0] b]. apply (V i X Y Z0 b Hi).
Qed.

Section Two.
  Variables (o o' : octree) (ne : bool).
  Hypothesis HW : wf_octree o.
  Hypothesis HW' : wf_octree o'.
  Definition L (near : cell -> Prop) (d C : nat) (x x' : feat) : Prop := shape (node_count o d ne) C x /\ shape (node_count o' d ne) C x' /\ features_agree o o' ne d near x x'.

  Lemma L_mono (near near' : cell -> Prop) d C x x' : (forall q, near q -> near' q) -> L near' d C x x' -> L near d C x x'.
  Proof. intros H (A & B & D). split; [exact A|]. split; [exact B|]. intros cs cs' i j q E E' Hi Hj Hq. apply (D cs cs' i j q); auto. Qed.
  (** entry by entry *)
  Lemma L_at (near : cell -> Prop) d C x x' : shape (node_count o d ne) C x -> shape (node_count o' d ne) C x' -> (d <= depth o)%nat -> (d <= depth o')%nat ->
    (forall cs cs' i j q c, octree_xyzb o d ne = Ok cs -> octree_xyzb o' d ne = Ok cs' -> nth_error cs i = Some q -> nth_error cs' j = Some q -> near q ->
      (i < node_count o d ne)%nat -> (j < node_count o' d ne)%nat -> (c < C)%nat -> at2 x i c = at2 x' j c) -> L near d C x x'.
  Proof.
    intros Sx Sx' D D' H. split; [exact Sx|]. split; [exact Sx'|]. intros cs cs' i j q E E' Hi Hj Hq.
    destruct (cells_of o d ne HW D) as (k1 & E1 & L1 & _). rewrite E in E1. injection E1 as <-. destruct (cells_of o' d ne HW' D') as (k2 & E2 & L2 & _). rewrite E' in E2. injection E2 as <-.
    assert (Li : (i < node_count o d ne)%nat) by (rewrite <- L1; apply nth_error_Some; congruence).
    assert (Lj : (j < node_count o' d ne)%nat) by (rewrite <- L2; apply nth_error_Some; congruence).
    rewrite (nth_error_nth' x []) by (rewrite (proj1 Sx); exact Li). rewrite (nth_error_nth' x' []) by (rewrite (proj1 Sx'); exact Lj). f_equal.
    apply nth_ext with 0%Qc 0%Qc; [rewrite (shape_nth _ _ _ _ Sx Li), (shape_nth _ _ _ _ Sx' Lj); reflexivity|].
    intros c Hc. rewrite (shape_nth _ _ _ _ Sx Li) in Hc. apply (H cs cs' i j q c); assumption.
  Qed.
  Lemma L_entry (near : cell -> Prop) d C x x' cs cs' i j q c : L near d C x x' -> octree_xyzb o d ne = Ok cs -> octree_xyzb o' d ne = Ok cs' -> nth_error cs i = Some q -> nth_error cs' j = Some q -> near q ->
    at2 x i c = at2 x' j c.
  Proof. intros (_ & _ & H) E E' Hi Hj Hq. unfold at2. rewrite (nth_error_nth_eq x x' i j (H cs cs' i j q E E' Hi Hj Hq)). reflexivity. Qed.

  Lemma local_voxel (near : cell -> Prop) d C x x' vox vox' (X Y Z b : Z) c : (d <= depth o)%nat -> (d <= depth o')%nat -> nodes_agree o o' ne d near -> L near d C x x' ->
    octree2voxel C x o d ne = Ok vox -> octree2voxel C x' o' d ne = Ok vox' -> near (X, Y, Z, b) -> 0 <= b < Z.of_nat (batch_size o) -> 0 <= b < Z.of_nat (batch_size o') ->
    voxel d vox b X Y Z c = voxel d vox' b X Y Z c.
  Proof.
    intros D D' HN HL V V' Hq Hb Hb'. destruct (cells_of o d ne HW D) as (cs & E & _). destruct (cells_of o' d ne HW' D') as (cs' & E' & _). pose proof HL as (Hx & Hx' & _).
    destruct (voxel_val ne o d C x cs vox HW D Hx E V) as [I1 I2]. destruct (voxel_val ne o' d C x' cs' vox' HW' D' Hx' E' V') as [J1 J2].
    pose proof (HN cs cs' _ E E' Hq) as Hi. destruct (in_dec cell_dec (X, Y, Z, b) cs) as [Hin|Hn].
    - pose proof (proj1 Hi Hin) as Hin'. apply In_nth_error in Hin as (i & Ei). apply In_nth_error in Hin' as (j & Ej). rewrite (I1 _ _ _ _ _ c Ei), (J1 _ _ _ _ _ c Ej).
      apply (L_entry near d C x x' cs cs' i j (X, Y, Z, b)); assumption.
    - rewrite I2 by assumption. symmetry. apply J2; [exact Hb'|]. intros H. apply Hn, Hi, H.
  Qed.
  Lemma local_dense d C vox vox' kernel W (X Y Z b : Z) c :
    (forall dx dy dz c, In (dx, dy, dz) (box kernel) -> voxel d vox b (X + dx) (Y + dy) (Z + dz) c = voxel d vox' b (X + dx) (Y + dy) (Z + dz) c) ->
    dense_conv d vox kernel C W b X Y Z c = dense_conv d vox' kernel C W b X Y Z c.
  Proof.
    intros Hk. unfold dense_conv. apply sum_ext. intros k Hkk. pose proof (nth_In (box kernel) (0, 0, 0) Hkk) as Hin.
    destruct (nth k (box kernel) (0, 0, 0)) as [[dx dy] dz]. apply sum_ext. intros c0 _. f_equal. apply Hk. exact Hin.
  Qed.

  (** the rows of a convolution at the cells [zo], from the voxels it reads *)
  Lemma voxel_conv st d ks kernel ci co mb x x' W bias (zo : cell -> Prop) : (st = 1 \/ st = 2) -> conv_ready o (up d st) kernel st -> conv_ready o' (up d st) kernel st -> In (ks, kernel) kernel_sizes ->
    shape (node_count o (up d st) ne) ci x -> shape (node_count o' (up d st) ne) ci x' ->
    (forall vox vox' q X Y Z b c, octree2voxel ci x o (up d st) ne = Ok vox -> octree2voxel ci x' o' (up d st) ne = Ok vox' -> zo q -> reads st kernel q (X, Y, Z, b) ->
       0 <= b < Z.of_nat (batch_size o) -> 0 <= b < Z.of_nat (batch_size o') -> voxel (up d st) vox b X Y Z c = voxel (up d st) vox' b X Y Z c) ->
    (ne = false -> st = 2 -> nodes_agree o o' true d zo) -> shape3 (length (box kernel)) ci co W -> bias_ok co bias -> Z.of_nat (length (box kernel)) * Z.of_nat ci <= mb ->
    exists y y', OctreeConv (mkCfg ci co ks st ne mb true) false W bias x o (up d st) = Ok y /\ OctreeConv (mkCfg ci co ks st ne mb true) false W bias x' o' (up d st) = Ok y' /\ L zo d co y y'.
  Proof.
    intros Hs Q Q' Hk Hx Hx' HV HT HWt Hb Hm. pose proof Q as (_ & Hd & _). pose proof Q' as (_ & Hd' & _).
    assert (BB : forall oo n cs i X Y Z b, wf_octree oo -> (n <= depth oo)%nat -> octree_xyzb oo n ne = Ok cs -> nth_error cs i = Some (X, Y, Z, b) -> 0 <= b < Z.of_nat (batch_size oo)).
    { intros oo n cs i X Y Z0 b A B E Hi. destruct (cells_of oo n ne A B) as (k & F & _ & _ & G). rewrite E in F. injection F as <-. rewrite Forall_forall in G. apply (G _ (nth_error_In _ _ Hi)). }
    destruct Hs as [-> | ->].
    - unfold up in *. cbn [Z.eqb Pos.eqb] in *.
      destruct (thm_dense1 o d ks kernel ne ci co mb x W bias Q Hk Hx HWt Hb Hm) as (vox & cs & y & V & Ec & Ey & Sy & Y).
      destruct (thm_dense1 o' d ks kernel ne ci co mb x' W bias Q' Hk Hx' HWt Hb Hm) as (vox' & cs' & y' & V' & Ec' & Ey' & Sy' & Y').
      destruct (cells_of o d ne HW Hd) as (k1 & E1 & L1 & _). rewrite Ec in E1. injection E1 as <-. destruct (cells_of o' d ne HW' Hd') as (k2 & E2 & L2 & _). rewrite Ec' in E2. injection E2 as <-.
      rewrite L1 in Sy. rewrite L2 in Sy'. exists y, y'. split; [exact Ey|]. split; [exact Ey'|]. apply L_at; try assumption.
      intros a a' i j q c A A' Hi Hj Hq _ _ Hc. rewrite Ec in A. injection A as <-. rewrite Ec' in A'. injection A' as <-. destruct q as [[[X Y0] Z0] b].
      rewrite (Y i X Y0 Z0 b c Hi Hc), (Y' j X Y0 Z0 b c Hj Hc). f_equal. apply local_dense. intros dx dy dz c0 Hv. apply (HV vox vox' (X, Y0, Z0, b)); try assumption; [|apply (BB o d cs i X Y0 Z0); assumption|apply (BB o' d cs' j X Y0 Z0); assumption].
      exists dx, dy, dz. split; [exact Hv|]. rewrite !Z.mul_1_l. reflexivity.
    - unfold up in *. cbn [Z.eqb Pos.eqb] in *. replace (d + 1)%nat with (S d) in * by lia.
      destruct (thm_dense2 o d ks kernel ne ci co mb x W bias Q Hk Hx HWt Hb Hm) as (vox & cs & fl & y & V & Ec & Ef & Ey & Sy & Y).
      destruct (thm_dense2 o' d ks kernel ne ci co mb x' W bias Q' Hk Hx' HWt Hb Hm) as (vox' & cs' & fl' & y' & V' & Ec' & Ef' & Ey' & Sy' & Y').
      destruct (cells_of o d ne HW ltac:(lia)) as (k1 & E1 & L1 & _). rewrite Ec in E1. injection E1 as <-. destruct (cells_of o' d ne HW' ltac:(lia)) as (k2 & E2 & L2 & _). rewrite Ec' in E2. injection E2 as <-.
      rewrite L1 in Sy. rewrite L2 in Sy'. exists y, y'. split; [exact Ey|]. split; [exact Ey'|]. apply L_at; try assumption; try lia.
      intros a a' i j q c A A' Hi Hj Hq _ _ Hc. rewrite Ec in A. injection A as <-. rewrite Ec' in A'. injection A' as <-.
      assert (FL : ne = false -> exists f, nth_error fl i = Some f /\ nth_error fl' j = Some f).
      { intros Hne. rewrite Hne in Ec, Ec'. destruct (cells_of o d true HW ltac:(lia)) as (ts & F1 & _). destruct (cells_of o' d true HW' ltac:(lia)) as (ts' & F2 & _).
        destruct (flag_iff o d fl ts cs i q HW ltac:(lia) Ef F1 Ec Hi) as (f & G1 & G2). destruct (flag_iff o' d fl' ts' cs' j q HW' ltac:(lia) Ef' F2 Ec' Hj) as (f' & G1' & G2').
        exists f. split; [exact G1|]. pose proof (HT Hne eq_refl ts ts' q F1 F2 Hq) as G. replace f with f'; [exact G1'|]. destruct f, f'; intuition congruence. }
      destruct q as [[[X Y0] Z0] b].
      destruct (Y i X Y0 Z0 b c Hi Hc) as [Yt Yf]. destruct (Y' j X Y0 Z0 b c Hj Hc) as [Yt' Yf'].
      assert (CASE : (ne = true \/ (nth_error fl i = Some true /\ nth_error fl' j = Some true)) \/ (ne = false /\ nth_error fl i = Some false /\ nth_error fl' j = Some false)).
      { destruct (bool_dec ne true) as [E|E]; [left; left; exact E|]. apply not_true_is_false in E. destruct (FL E) as ([|] & G1 & G2); [left; right; auto|right; auto]. }
      destruct CASE as [CASE|(C0 & C1 & C2)]; [|rewrite Yf, Yf' by assumption; reflexivity].
      rewrite Yt by tauto. rewrite Yt' by tauto. f_equal. apply local_dense. intros dx dy dz c0 Hv. apply (HV vox vox' (X, Y0, Z0, b)); try assumption; [|apply (BB o d cs i X Y0 Z0); [assumption|lia|assumption..]|apply (BB o' d cs' j X Y0 Z0); [assumption|lia|assumption..]].
      exists dx, dy, dz. auto.
  Qed.
  Lemma local_conv st d ks kernel ci co mb x x' W bias (zi zo : cell -> Prop) : (st = 1 \/ st = 2) -> conv_ready o (up d st) kernel st -> conv_ready o' (up d st) kernel st -> In (ks, kernel) kernel_sizes ->
    (forall q p, zo q -> reads st kernel q p -> zi p) -> nodes_agree o o' ne (up d st) zi -> (ne = false -> st = 2 -> nodes_agree o o' true d zo) ->
    L zi (up d st) ci x x' -> shape3 (length (box kernel)) ci co W -> bias_ok co bias -> Z.of_nat (length (box kernel)) * Z.of_nat ci <= mb ->
    exists y y', OctreeConv (mkCfg ci co ks st ne mb true) false W bias x o (up d st) = Ok y /\ OctreeConv (mkCfg ci co ks st ne mb true) false W bias x' o' (up d st) = Ok y' /\ L zo d co y y'.
  Proof.
    intros Hs Q Q' Hk Hz HN HT HL HWt Hb Hm. pose proof HL as (Hx & Hx' & _). apply (voxel_conv st d ks kernel); try assumption.
    intros vox vox' q X Y Z0 b c V V' Hq Hr B B'. apply (local_voxel zi (up d st) ci x x'); try assumption; [apply Q|apply Q'|]. apply (Hz q); assumption.
  Qed.
End Two.

(** The voxels of a tensor with a single one. *)
Lemma unit_voxel o ne d C i c cs q vox X Y Z b c0 : wf_octree o -> (d <= depth o)%nat -> octree_xyzb o d ne = Ok cs -> nth_error cs i = Some q ->
  octree2voxel C (unit2 (node_count o d ne) C i c) o d ne = Ok vox -> 0 <= b < Z.of_nat (batch_size o) -> (c0 < C)%nat ->
  voxel d vox b X Y Z c0 = if cell_dec (X, Y, Z, b) q then (if Nat.eqb c0 c then 1%Qc else 0%Qc) else 0%Qc.
Proof.
  intros HW D E Hi V Hb Hc. destruct (cells_of o d ne HW D) as (k & F & Lk & N & _). rewrite E in F. injection F as <-.
  assert (Sx : shape (node_count o d ne) C (unit2 (node_count o d ne) C i c)) by apply tabulate_shape.
  destruct (voxel_val ne o d C _ cs vox HW D Sx E V) as [I1 I2]. destruct (in_dec cell_dec (X, Y, Z, b) cs) as [Hin|Hn].
  - apply In_nth_error in Hin as (r & Hr). rewrite (I1 r _ _ _ _ c0 Hr). assert (Lr : (r < node_count o d ne)%nat) by (rewrite <- Lk; apply nth_error_Some; congruence).
    unfold unit2. rewrite at2_tabulate by assumption. destruct (cell_dec (X, Y, Z, b) q) as [Eq|Nq].
    + assert (r = i) by (rewrite NoDup_nth_error in N; apply N; [apply nth_error_Some|]; congruence). subst r. rewrite Nat.eqb_refl. reflexivity.
    + rewrite (proj2 (Nat.eqb_neq r i)) by (intros ->; congruence). reflexivity.
  - rewrite I2 by assumption. destruct (cell_dec (X, Y, Z, b) q) as [Eq|Nq]; [|reflexivity]. exfalso. apply Hn. rewrite Eq. apply nth_error_In with i. exact Hi.
Qed.
Lemma zero_voxel o ne d C vox X Y Z b c0 : wf_octree o -> (d <= depth o)%nat ->
  octree2voxel C (tabulate (node_count o d ne) C (fun _ _ => 0%Qc)) o d ne = Ok vox -> 0 <= b < Z.of_nat (batch_size o) -> (c0 < C)%nat -> voxel d vox b X Y Z c0 = 0%Qc.
Proof.
  intros HW D V Hb Hc. destruct (cells_of o d ne HW D) as (cs & E & Lk & N & _).
  assert (Sx : shape (node_count o d ne) C (tabulate (node_count o d ne) C (fun _ _ => 0%Qc))) by apply tabulate_shape.
  destruct (voxel_val ne o d C _ cs vox HW D Sx E V) as [I1 I2]. destruct (in_dec cell_dec (X, Y, Z, b) cs) as [Hin|Hn]; [|apply I2; assumption].
  apply In_nth_error in Hin as (r & Hr). rewrite (I1 r _ _ _ _ c0 Hr). apply at2_tabulate; [|exact Hc]. rewrite <- Lk. apply nth_error_Some. congruence.
Qed.
Definition readsb (st : Z) (kernel : string) (p q : cell) : bool :=
  existsb (fun v => let '(dx, dy, dz) := v in let '(x, y, z, b) := p in if cell_dec q (st * x + dx, st * y + dy, st * z + dz, b) then true else false) (box kernel).
Lemma readsb_iff st kernel p q : readsb st kernel p q = true <-> reads st kernel p q.
Proof.
  unfold readsb, reads. rewrite existsb_exists. destruct p as [[[x y] z] b]. split.
  - intros ([[dx dy] dz] & Hv & H). exists dx, dy, dz. split; [exact Hv|]. destruct (cell_dec q _) as [E|]; [exact E|discriminate H].
  - intros (dx & dy & dz & Hv & E). exists (dx, dy, dz). split; [exact Hv|]. destruct (cell_dec q _) as [|N]; [reflexivity|contradiction].
Qed.

Section Two2.
  Variables (o o' : octree) (ne : bool).
  Hypothesis HW : wf_octree o.
  Hypothesis HW' : wf_octree o'.
  Lemma voxel_small d C vox x oo b X Y Z c : wf_octree oo -> (d <= depth oo)%nat -> shape (node_count oo d ne) C x -> octree2voxel C x oo d ne = Ok vox -> 0 <= b < Z.of_nat (batch_size oo) ->
    (C <= c)%nat -> voxel d vox b X Y Z c = 0%Qc.
  Proof.
    intros W D Sx V Hb Hc. destruct (cells_of oo d ne W D) as (cs & E & Lk & N & _). destruct (voxel_val ne oo d C x cs vox W D Sx E V) as [I1 I2].
    destruct (in_dec cell_dec (X, Y, Z, b) cs) as [Hin|Hn]; [|apply I2; assumption]. apply In_nth_error in Hin as (r & Hr). rewrite (I1 r _ _ _ _ c Hr). unfold at2. apply nth_overflow.
    rewrite (shape_nth _ _ _ _ Sx); [exact Hc|]. rewrite <- Lk. apply nth_error_Some. congruence.
  Qed.
  (** a convolution of a single one is zero at the cells that do not read it *)
  Lemma conv_unit_zero oo st d ks kernel ci co mb W cs cu i c q r p k v : wf_octree oo -> (st = 1 \/ st = 2) -> conv_ready oo (up d st) kernel st -> In (ks, kernel) kernel_sizes ->
    shape3 (length (box kernel)) ci co W -> Z.of_nat (length (box kernel)) * Z.of_nat ci <= mb -> octree_xyzb oo (up d st) ne = Ok cu -> nth_error cu i = Some q ->
    OctreeConv (mkCfg ci co ks st ne mb true) false W None (unit2 (node_count oo (up d st) ne) ci i c) oo (up d st) = Ok v ->
    octree_xyzb oo d ne = Ok cs -> nth_error cs r = Some p -> ~ reads st kernel p q -> (k < co)%nat -> at2 v r k = 0%Qc.
  Proof.
    intros W0 Hs Q Hk HWt Hm Eu Hi Ev Ec Hr Hn Hkc. pose proof Q as (_ & D & _). assert (Dd : (d <= up d st)%nat) by (unfold up; destruct (st =? 2); lia).
    set (x := unit2 (node_count oo (up d st) ne) ci i c) in *. set (x0 := tabulate (node_count oo (up d st) ne) ci (fun _ _ => 0%Qc)).
    assert (Sx : shape (node_count oo (up d st) ne) ci x) by apply tabulate_shape. assert (Sx0 : shape (node_count oo (up d st) ne) ci x0) by apply tabulate_shape.
    destruct (voxel_conv oo oo ne W0 W0 st d ks kernel ci co mb x x0 W None (fun p => ~ reads st kernel p q) Hs Q Q Hk Sx Sx0) as (y & y0 & Ey & Ey0 & HL); try assumption; try exact I.
    - intros vox vox' s X Y Z0 b c0 V V' Hs' Hrd B _. destruct (Nat.lt_ge_cases c0 ci) as [Hc|Hc].
      + rewrite (zero_voxel oo ne (up d st) ci vox' X Y Z0 b c0) by assumption. rewrite (unit_voxel oo ne (up d st) ci i c cu q vox X Y Z0 b c0) by assumption.
        destruct (cell_dec (X, Y, Z0, b) q) as [Eq|]; [|reflexivity]. exfalso. apply Hs'. rewrite <- Eq. exact Hrd.
      + rewrite (voxel_small (up d st) ci vox x oo) by assumption. rewrite (voxel_small (up d st) ci vox' x0 oo) by assumption. reflexivity.
    - intros _ _ k1 k2 s E1 E2 _. rewrite E1 in E2. injection E2 as <-. tauto.
    - assert (Eq : forall (a b : feat), Ok a = Ok b -> a = b) by (intros; congruence). rewrite Ev in Ey. apply Eq in Ey. subst y.
      rewrite (L_entry oo oo ne _ d co v y0 cs cs r r p k HL Ec Ec Hr Hr Hn).
      destruct (cells_of oo d ne W0 ltac:(lia)) as (k1 & E1 & L1 & _). rewrite Ec in E1. injection E1 as <-. assert (Lr : (r < node_count oo d ne)%nat) by (rewrite <- L1; apply nth_error_Some; congruence).
      destruct (thm_deconv_transpose oo d ks kernel st ne ci co mb mb x0 (unit2 (node_count oo d ne) co r k) W Q Hk Sx0 (tabulate_shape _ _ _) HWt Hm Hm) as (cx & dy & F1 & _ & _ & _ & F5).
      rewrite Ey0 in F1. apply Eq in F1. subst cx. rewrite <- (inner_unit (node_count oo d ne) co r k y0 Lr Hkc), inner_comm, F5.
      unfold inner. apply sum_zero. intros u Hu. apply sum_zero. intros w Hw. unfold x0. rewrite at2_tabulate by assumption. ring.
  Qed.
  Lemma local_deconv st d ks kernel ci co mb y y' W (zi zo : cell -> Prop) : (st = 1 \/ st = 2) -> conv_ready o (up d st) kernel st -> conv_ready o' (up d st) kernel st -> In (ks, kernel) kernel_sizes ->
    (forall q p, zo q -> reads st kernel p q -> zi p) -> nodes_agree o o' ne d zi -> (ne = false -> st = 2 -> nodes_agree o o' true d zi) ->
    L o o' ne zi d co y y' -> shape3 (length (box kernel)) ci co W -> Z.of_nat (length (box kernel)) * Z.of_nat ci <= mb ->
    exists z z', OctreeDeconv (mkCfg co ci ks st ne mb false) false W None y o d = Ok z /\ OctreeDeconv (mkCfg co ci ks st ne mb false) false W None y' o' d = Ok z' /\ L o o' ne zo (up d st) ci z z'.
  Proof.
    intros Hs Q Q' Hk Hz HN HT HL HWt Hm. pose proof HL as (Hy & Hy' & _). pose proof Q as (_ & D & _). pose proof Q' as (_ & D' & _). assert (Dd : (d <= up d st)%nat) by (unfold up; destruct (st =? 2); lia).
    assert (X0 : forall oo n C, shape (node_count oo n ne) C (tabulate (node_count oo n ne) C (fun _ _ => 0%Qc))) by (intros; apply tabulate_shape).
    destruct (thm_deconv_transpose o d ks kernel st ne ci co mb mb _ y W Q Hk (X0 o _ ci) Hy HWt Hm Hm) as (_ & z & _ & _ & Ez & Sz & _).
    destruct (thm_deconv_transpose o' d ks kernel st ne ci co mb mb _ y' W Q' Hk (X0 o' _ ci) Hy' HWt Hm Hm) as (_ & z' & _ & _ & Ez' & Sz' & _).
    exists z, z'. split; [exact Ez|]. split; [exact Ez'|]. apply L_at; try assumption.
    intros cu cu' i j q c Eu Eu' Hi Hj Hq Li Lj Hc.
    set (x := unit2 (node_count o (up d st) ne) ci i c). set (x' := unit2 (node_count o' (up d st) ne) ci j c).
    assert (Sx : shape (node_count o (up d st) ne) ci x) by apply tabulate_shape. assert (Sx' : shape (node_count o' (up d st) ne) ci x') by apply tabulate_shape.
    destruct (voxel_conv o o' ne HW HW' st d ks kernel ci co mb x x' W None (fun p => reads st kernel p q) Hs Q Q' Hk Sx Sx') as (v & v' & Ev & Ev' & HV); try assumption; try exact I.
    { intros vox vox' s X Y Z0 b c0 V V' Hs' Hrd B B'. destruct (Nat.lt_ge_cases c0 ci) as [Hc0|Hc0].
      - rewrite (unit_voxel o ne (up d st) ci i c cu q vox X Y Z0 b c0) by assumption. rewrite (unit_voxel o' ne (up d st) ci j c cu' q vox' X Y Z0 b c0) by assumption. reflexivity.
      - rewrite (voxel_small (up d st) ci vox x o) by assumption. rewrite (voxel_small (up d st) ci vox' x' o') by assumption. reflexivity. }
    { intros A B k1 k2 s E1 E2 Hsq. apply (HT A B k1 k2 s E1 E2). apply (Hz q); assumption. }
    destruct (thm_deconv_transpose o d ks kernel st ne ci co mb mb x y W Q Hk Sx Hy HWt Hm Hm) as (cx & dy & F1 & _ & F3 & _ & F5).
    destruct (thm_deconv_transpose o' d ks kernel st ne ci co mb mb x' y' W Q' Hk Sx' Hy' HWt Hm Hm) as (cx' & dy' & F1' & _ & F3' & _ & F5').
    assert (Eq : forall (a b : feat), Ok a = Ok b -> a = b) by (intros; congruence).
    rewrite Ev in F1. rewrite Ev' in F1'. rewrite Ez in F3. rewrite Ez' in F3'. apply Eq in F1, F1', F3, F3'. rewrite <- F1, <- F3 in F5. rewrite <- F1', <- F3' in F5'. unfold x in F5. unfold x' in F5'.
    rewrite inner_unit in F5, F5' by assumption. rewrite <- F5, <- F5'. unfold inner.
    destruct (cells_of o d ne HW ltac:(lia)) as (cs & Ec & L1 & N1 & _). destruct (cells_of o' d ne HW' ltac:(lia)) as (cs' & Ec' & L2 & N2 & _). rewrite <- L1, <- L2.
    apply (sum_near cs cs' (fun p => readsb st kernel p q)); try assumption.
    - intros r p Hr Hn. apply sum_zero. intros k Hkc. rewrite (conv_unit_zero o st d ks kernel ci co mb W cs cu i c q r p k v); try assumption; [ring|].
      intros Hrd. apply readsb_iff in Hrd. congruence.
    - intros r p Hr Hn. apply sum_zero. intros k Hkc. rewrite (conv_unit_zero o' st d ks kernel ci co mb W cs' cu' j c q r p k v'); try assumption; [ring|].
      intros Hrd. apply readsb_iff in Hrd. congruence.
    - intros p Hp. apply readsb_iff in Hp. apply (HN cs cs' p Ec Ec'). apply (Hz q); assumption.
    - intros r r' p Hr Hr' Hp. apply readsb_iff in Hp. apply sum_ext. intros k _.
      rewrite (L_entry o o' ne _ d co v v' cs cs' r r' p k HV Ec Ec' Hr Hr' Hp). rewrite (L_entry o o' ne zi d co y y' cs cs' r r' p k HL Ec Ec' Hr Hr'); [reflexivity|]. apply (Hz q); assumption.
  Qed.
End Two2.
