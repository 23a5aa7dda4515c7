(** The layers of the networks on a merged octree. *)
From Coq Require Import String List ZArith Bool QArith Qcanon Lia.
From Verif Require Import Res Tensor Key Num NumFacts Points Octree NnBasic NnConv NnInterp Features Net Spec SpecGeo WF SpecNeigh SpecMerge SpecNN SpecInterp SpecNet SpecBatch
  KeyFacts ListFacts KidsFacts WFFacts SearchFacts NeighFacts NeighSparse GetNeigh NeighThms MergeFacts NnFacts SumFacts ConvFacts ConvOct Deconv PadFacts DwGroup MergeConv
  InterpFacts LinearFacts NetLoops NetPool NetSeg NetHr NetAe Family PoolFacts Unpool Finite GlobalPool VoxelThm NetFacts NetLoops NetPool CatFacts.
Import ListNotations.
Open Scope Z_scope.

Lemma inner_app C (a a' b b' : feat) : length a = length b ->
  inner (length (a ++ a')) C (a ++ a') (b ++ b') = (inner (length a) C a b + inner (length a') C a' b')%Qc.
Proof.
  intros H. unfold inner. rewrite app_length. 
  assert (G : forall m f, sum_n (length a + m) f = (sum_n (length a) f + sum_n m (fun i => f (length a + i)%nat))%Qc).
  { induction m as [|m IH]; intros f; [rewrite Nat.add_0_r; cbn [sum_n]; ring|]. rewrite Nat.add_succ_r. cbn [sum_n]. rewrite IH. ring. }
  rewrite G. f_equal; apply sum_ext; intros i Hi; apply sum_ext; intros c Hc; unfold at2.
  - rewrite !app_nth1 by lia. reflexivity.
  - rewrite !app_nth2 by lia. rewrite <- H. replace (length a + i - length a)%nat with i by lia. reflexivity.
Qed.
Definition qsum (l : list nat) (f : nat -> Qc) : Qc := fold_right (fun i s => (f i + s)%Qc) 0%Qc l.
Lemma inner_catl C l (X Y : nat -> feat) : (forall i, In i l -> length (X i) = length (Y i)) ->
  inner (length (concat (map X l))) C (concat (map X l)) (concat (map Y l)) = qsum l (fun i => inner (length (X i)) C (X i) (Y i)).
Proof.
  induction l as [|a l IH]; intros H; [reflexivity|]. cbn [map concat qsum fold_right]. rewrite inner_app by (apply H; left; reflexivity).
  f_equal. apply IH. intros i Hi. apply H. right. exact Hi.
Qed.
Lemma qsum_one l j f : NoDup l -> In j l -> (forall i, In i l -> i <> j -> f i = 0%Qc) -> qsum l f = f j.
Proof.
  induction l as [|a l IH]; intros Hn Hj H; [contradiction|]. inversion Hn as [|? ? Ha Hl]; subst. cbn [qsum fold_right]. destruct Hj as [->|Hj].
  - assert (E : qsum l f = 0%Qc).
    { clear -H Ha. assert (G : forall i, In i l -> f i = 0%Qc) by (intros i Hi; apply H; [right; exact Hi|intros ->; contradiction]). clear -G.
      induction l as [|b l IH]; [reflexivity|]. cbn [qsum fold_right]. rewrite (G b) by (left; reflexivity). unfold qsum in IH. rewrite IH; [ring|]. intros i Hi. apply G. right. exact Hi. }
    unfold qsum in E. rewrite E. ring.
  - rewrite (H a); [|left; reflexivity|intros ->; contradiction]. unfold qsum in IH. rewrite IH; [ring|exact Hl|exact Hj|]. intros i Hi. apply H. right. exact Hi.
Qed.
(** the tensor with a one at (r, c) *)
Definition unit2 (n C r c : nat) : feat := tabulate n C (fun i k => if Nat.eqb i r && Nat.eqb k c then 1%Qc else 0%Qc).
Lemma sum_single m j f : (j < m)%nat -> (forall i, (i < m)%nat -> i <> j -> f i = 0%Qc) -> sum_n m f = f j.
Proof.
  intros Hj H. induction m as [|m IH]; [lia|]. cbn [sum_n]. destruct (Nat.eq_dec m j) as [->|N].
  - assert (E : sum_n j f = 0%Qc). { clear -H. assert (G : forall i, (i < j)%nat -> f i = 0%Qc) by (intros i Hi; apply H; lia). clear -G. induction j as [|j IH]; [reflexivity|]. cbn [sum_n]. rewrite IH, (G j); [ring|lia|]. intros i Hi. apply G. lia. }
    rewrite E. ring.
  - rewrite IH; [|lia|intros i Hi; apply H; lia]. rewrite (H m); [ring|lia|lia].
Qed.
Lemma inner_unit n C r c y : (r < n)%nat -> (c < C)%nat -> inner n C (unit2 n C r c) y = at2 y r c.
Proof.
  intros Hr Hc. unfold inner. rewrite (sum_single n r); [|exact Hr|].
  - rewrite (sum_single C c); [|exact Hc|].
    + unfold unit2. rewrite at2_tabulate by assumption. rewrite !Nat.eqb_refl. cbn [andb]. ring.
    + intros i Hi Hn. unfold unit2. rewrite at2_tabulate by assumption. rewrite Nat.eqb_refl, (proj2 (Nat.eqb_neq i c) Hn). cbn [andb]. ring.
  - intros i Hi Hn. assert (E : sum_n C (fun k => at2 (unit2 n C r c) i k * at2 y i k)%Qc = sum_n C (fun _ => 0%Qc)).
    { apply sum_ext. intros k Hk. unfold unit2. rewrite at2_tabulate by assumption. rewrite (proj2 (Nat.eqb_neq i r) Hn). cbn [andb]. ring. }
    rewrite E. clear. induction C as [|C IH]; [reflexivity|]. cbn [sum_n]. rewrite IH. ring.
Qed.

Section Batch.
  Variables (o0 o : octree) (os : list octree) (kms : list KM).
  Notation L := (depth o0).
  Notation n := (length os).
  Hypothesis Hn : (0 < n)%nat.
  Hypothesis HK : Forall2 (fun o' km => mem_tree o0 o' km /\ neigh_upto o' (fst km) 1 L) os kms.
  Hypothesis HT : full_tree L o (mK kms) (mM kms).
  Hypothesis HB : batch_size o = n.
  Hypothesis HC : forall d ks kernel stride ne ci co mb direct W bias xs, (1 <= d <= L)%nat -> In (ks, kernel) kernel_sizes ->
      (stride = 1 \/ stride = 2) -> shape3 (length (box kernel)) ci co W -> bias_ok co bias ->
      Z.of_nat (length (box kernel)) * Z.of_nat ci <= mb ->
      Forall2 (fun oi x => shape (node_count oi d ne) ci x) os xs ->
      exists ys, mapM (fun ox => OctreeConv (mkCfg ci co ks stride ne mb true) direct W bias (snd ox) (fst ox) d) (combine os xs) = Ok ys /\
        OctreeConv (mkCfg ci co ks stride ne mb true) direct W bias (concat xs) o d = Ok (concat ys).

  Definition kdef : KM := (fun _ => [], fun _ => []).
  Definition mo (i : nat) : octree := nth i os o0.
  Definition Ki (i : nat) : KM := nth i kms kdef.
  Notation cat := (cat n).

  Lemma os_seq : os = map mo (seq 0 n).
  Proof. apply nth_ext with (d := o0) (d' := mo 0); [rewrite map_length, seq_length; reflexivity|]. intros i Hi. rewrite map_nth, seq_nth by exact Hi. reflexivity. Qed.
  Lemma klen : length kms = n.
  Proof. apply (SearchFacts.Forall2_len _ _ _ HK). Qed.
  Lemma kms_seq : kms = map Ki (seq 0 n).
  Proof. rewrite <- klen. apply nth_ext with (d := kdef) (d' := Ki 0); [rewrite map_length, seq_length; reflexivity|]. intros i Hi. rewrite map_nth, seq_nth by exact Hi. reflexivity. Qed.
  Lemma mem i : (i < n)%nat -> mem_tree o0 (mo i) (Ki i) /\ neigh_upto (mo i) (fst (Ki i)) 1 L.
  Proof.
    intros Hi. apply (SearchFacts.Forall2_nth _ _ _ i _ _ HK); apply nth_error_nth'; [exact Hi|rewrite klen; exact Hi].
  Qed.
  Lemma mtree i : (i < n)%nat -> tree_upto (mo i) L (fst (Ki i)) (snd (Ki i)).
  Proof. intros Hi. apply (mem i Hi). Qed.
  Lemma mwf i : (i < n)%nat -> wf_octree (mo i).
  Proof. intros Hi. destruct (mem i Hi) as ((T & _ & D & _) & _). exists (fst (Ki i)), (snd (Ki i)). rewrite D. exact T. Qed.
  Lemma mdepth i : (i < n)%nat -> depth (mo i) = L.
  Proof. intros Hi. apply (mem i Hi). Qed.
  Lemma mbatch i : (i < n)%nat -> batch_size (mo i) = 1%nat.
  Proof. intros Hi. apply (mem i Hi). Qed.
  Lemma mneigh i d : (i < n)%nat -> (1 <= d <= L)%nat -> has_neigh (mo i) d.
  Proof. intros Hi Hd. destruct (mem i Hi) as (_ & N). apply (upto_has_neigh (mo i) L _ _ d (mtree i Hi)); [lia|]. apply (neigh_upto_sub (mo i) (fst (Ki i)) 1 L); [lia|exact N]. Qed.
  Lemma owf : wf_octree o.
  Proof. destruct HT as (D & T & _). exists (mK kms), (mM kms). rewrite D. exact T. Qed.
  Lemma odepth : depth o = L.
  Proof. apply HT. Qed.
  Lemma otree : tree_upto o L (mK kms) (mM kms).
  Proof. apply HT. Qed.
  Lemma oneigh d : (1 <= d <= L)%nat -> has_neigh o d.
  Proof. intros Hd. destruct HT as (_ & T & N). apply (upto_has_neigh o L _ _ d T); [lia|]. apply (neigh_upto_sub o (mK kms) 1 L); [lia|exact N]. Qed.
  Lemma memT : Forall2 (mem_tree o0) os kms.
  Proof. clear -HK. revert HK. generalize os kms. induction 1 as [|a b l l' [T _] H IH]; [apply Forall2_nil|apply Forall2_cons; [exact T|exact (IH H)]]. Qed.
  Lemma L16 : (L <= 16)%nat.
  Proof. pose proof (t_depth _ _ _ _ otree). rewrite odepth in H. exact H. Qed.
  Lemma mM_cat d : mM kms d = cat (fun i => snd (Ki i) d).
  Proof. unfold mM. rewrite kms_seq at 1. rewrite map_map. reflexivity. Qed.
  Lemma sel_cat ne d : (d <= L)%nat -> length (sel (mK kms) (mM kms) ne d) = length (cat (fun i => sel_of (Ki i) ne d)).
  Proof. intros Hd. rewrite (merged_sel kms o0 os) by (assumption || exact memT). rewrite jk_length. rewrite kms_seq at 1. rewrite map_map. reflexivity. Qed.

  (** A tensor of the merged octree made of tensors of the members, [N i] rows each. *)
  Definition J {A} (N : nat -> nat) (C : nat) (X : nat -> list (list A)) (x : list (list A)) : Prop :=
    x = cat X /\ forall i, (i < n)%nat -> shape (N i) C (X i).
  Definition nodes (d : nat) (ne : bool) (i : nat) : nat := node_count (mo i) d ne.
  Lemma J_ext {A} N C (X Y : nat -> list (list A)) x : (forall i, (i < n)%nat -> X i = Y i) -> J N C X x -> J N C Y x.
  Proof. intros H [E S]. split; [rewrite E; apply cat_ext; exact H|]. intros i Hi. rewrite <- H by exact Hi. apply S. exact Hi. Qed.
  Lemma J_rows {A} N C (X : nat -> list (list A)) x : J N C X x -> Forall (fun r => length r = C) x.
  Proof. intros [-> S]. apply cat_Forall. intros i Hi. apply S. exact Hi. Qed.
  Lemma count_cat d ne : (d <= L)%nat -> node_count o d ne = length (cat (fun i => repeat tt (nodes d ne i))).
  Proof.
    intros Hd. rewrite (node_count_sel o L _ _ otree) by exact Hd. rewrite sel_cat by exact Hd. apply cat_len. intros i Hi. rewrite repeat_length.
    unfold nodes. rewrite (node_count_sel (mo i) L _ _ (mtree i Hi)) by exact Hd. reflexivity.
  Qed.
  Lemma J_shape {A} d ne C (X : nat -> list (list A)) x : (d <= L)%nat -> J (nodes d ne) C X x -> shape (node_count o d ne) C x.
  Proof.
    intros Hd HJ. split; [|apply (J_rows _ _ _ _ HJ)]. destruct HJ as [-> S]. rewrite count_cat by exact Hd. apply cat_len. intros i Hi. rewrite repeat_length. apply S. exact Hi.
  Qed.

  (** ** padding *)
  Lemma pad_join {A} C d (v : A) X x Y : (d <= L)%nat -> J (nodes d true) C X x ->
    (forall i, (i < n)%nat -> octree_pad C (X i) (mo i) (Z.of_nat d) v = Ok (Y i)) ->
    exists y, octree_pad C x o (Z.of_nat d) v = Ok y /\ J (nodes d false) C Y y.
  Proof.
    intros Hd HJ HY. rewrite (tree_pad o L _ _ otree) by (try exact Hd; apply (J_shape d true C X x Hd HJ)). destruct HJ as [-> S].
    assert (Em : forall i, (i < n)%nat -> Y i = fill (snd (Ki i) d) (repeat (repeat v C) (nodes d false i)) (X i)).
    { intros i Hi. specialize (HY i Hi). rewrite (tree_pad (mo i) L _ _ (mtree i Hi)) in HY by (try exact Hd; apply S; exact Hi).
      assert (Eq : forall (a b : list (list A)), Ok a = Ok b -> b = a) by (intros; congruence). apply Eq. exact HY. }
    assert (Hm : forall i, (i < n)%nat -> length (snd (Ki i) d) = nodes d false i /\ count_true (snd (Ki i) d) = nodes d true i).
    { intros i Hi. apply (mask_len (mo i) L _ _ (mtree i Hi)). exact Hd. }
    eexists. split; [reflexivity|]. split.
    - rewrite mM_cat, (cat_repeat n _ (nodes d false)) by (apply count_cat; exact Hd).
      rewrite cat_fill; [apply cat_ext; intros i Hi; symmetry; apply Em; exact Hi|]. intros i Hi. rewrite repeat_length. destruct (Hm i Hi) as [-> ->]. split; [reflexivity|symmetry; apply S; exact Hi].
    - intros i Hi. rewrite Em by exact Hi. split; [rewrite fill_length; apply repeat_length|]. apply fill_Forall; [|apply S; exact Hi].
      apply Forall_forall. intros r Hr. apply repeat_spec in Hr. subst r. apply repeat_length.
  Qed.
  Lemma depad_join {A} C d (X : nat -> list (list A)) x Y : (d <= L)%nat -> J (nodes d false) C X x ->
    (forall i, (i < n)%nat -> octree_depad (X i) (mo i) (Z.of_nat d) = Ok (Y i)) ->
    exists y, octree_depad x o (Z.of_nat d) = Ok y /\ J (nodes d true) C Y y.
  Proof.
    intros Hd HJ HY. rewrite (tree_depad o L _ _ otree) by (try exact Hd; apply (J_shape d false C X x Hd HJ)). destruct HJ as [-> S].
    assert (Em : forall i, (i < n)%nat -> Y i = select (snd (Ki i) d) (X i)).
    { intros i Hi. specialize (HY i Hi). rewrite (tree_depad (mo i) L _ _ (mtree i Hi)) in HY by (try exact Hd; apply S; exact Hi).
      assert (Eq : forall (a b : list (list A)), Ok a = Ok b -> b = a) by (intros; congruence). apply Eq. exact HY. }
    assert (Hm : forall i, (i < n)%nat -> length (snd (Ki i) d) = nodes d false i /\ count_true (snd (Ki i) d) = nodes d true i).
    { intros i Hi. apply (mask_len (mo i) L _ _ (mtree i Hi)). exact Hd. }
    eexists. split; [reflexivity|]. split.
    - rewrite mM_cat, cat_select; [apply cat_ext; intros i Hi; symmetry; apply Em; exact Hi|]. intros i Hi. destruct (Hm i Hi) as [-> _]. symmetry. apply S. exact Hi.
    - intros i Hi. rewrite Em by exact Hi. split.
      + rewrite select_length by (destruct (Hm i Hi) as [-> _]; symmetry; apply S; exact Hi). apply Hm. exact Hi.
      + apply Forall_forall. intros r Hr. apply in_select in Hr. destruct Hr as (p & _ & Hr). apply nth_error_In in Hr. destruct (S i Hi) as [_ F]. rewrite Forall_forall in F. apply F. exact Hr.
  Qed.

  (** ** programs run on the members and on the merged octree *)
  Definition run {S} (R : (nat -> S) -> S -> Prop) (F : nat -> res S) (f : res S) : Prop :=
    exists Y y, (forall i, (i < n)%nat -> F i = Ok (Y i)) /\ f = Ok y /\ R Y y.
  Lemma run_ret {S} (R : (nat -> S) -> S -> Prop) X x : R X x -> run R (fun i => Ok (X i)) (Ok x).
  Proof. intros H. exists X, x. auto. Qed.
  Lemma run_bind {S T} (R : (nat -> S) -> S -> Prop) (Q : (nat -> T) -> T -> Prop) F f G g : run R F f ->
    (forall Y y, R Y y -> run Q (fun i => G i (Y i)) (g y)) -> run Q (fun i => bind (F i) (G i)) (bind f g).
  Proof.
    intros (Y & y & E1 & E2 & H) HG. destruct (HG Y y H) as (Z & z & F1 & F2 & HQ). exists Z, z. split; [|split; [|exact HQ]].
    - intros i Hi. rewrite E1 by exact Hi. exact (F1 i Hi).
    - rewrite E2. exact F2.
  Qed.
  Lemma run_ext {S} (R : (nat -> S) -> S -> Prop) F F' f f' : (forall i, (i < n)%nat -> F i = F' i) -> f = f' -> run R F f -> run R F' f'.
  Proof. intros E <- (Y & y & E1 & E2 & H). exists Y, y. split; [|auto]. intros i Hi. rewrite <- E by exact Hi. auto. Qed.
  Lemma run_weak {S} (R Q : (nat -> S) -> S -> Prop) F f : (forall Y y, R Y y -> Q Y y) -> run R F f -> run Q F f.
  Proof. intros W (Y & y & E1 & E2 & H). exists Y, y. auto. Qed.
  Lemma run_const {S T} (Q : (nat -> T) -> T -> Prop) (r : res S) v G g : r = Ok v -> run Q (fun i => G i v) (g v) -> run Q (fun i => bind r (G i)) (bind r g).
  Proof. intros ->. auto. Qed.
  Lemma run_fold {S} (R : nat -> (nat -> S) -> S -> Prop) (g : nat -> S -> Z -> res S) (f : S -> Z -> res S) m X x : R O X x ->
    (forall k X x, (k < m)%nat -> R k X x -> run (R (Datatypes.S k)) (fun i => g i (X i) (Z.of_nat k)) (f x (Z.of_nat k))) ->
    run (R m) (fun i => foldM (g i) (X i) (arange m)) (foldM f x (arange m)).
  Proof.
    intros H0 H. induction m as [|m IH]; [apply (run_ret (R O)); exact H0|].
    apply (run_ext _ (fun i => bind (foldM (g i) (X i) (arange m)) (fun s => g i s (Z.of_nat m))) _ (bind (foldM f x (arange m)) (fun s => f s (Z.of_nat m)))).
    - intros i Hi. rewrite arange_S, foldM_app. destruct (foldM (g i) (X i) (arange m)); [|reflexivity]. cbn [bind foldM]. destruct (g i a (Z.of_nat m)); reflexivity.
    - rewrite arange_S, foldM_app. destruct (foldM f x (arange m)); [|reflexivity]. cbn [bind foldM]. destruct (f a (Z.of_nat m)); reflexivity.
    - eapply run_bind; [apply IH; intros k Y y Hk HR; apply H; [lia|exact HR]|]. intros Y y HR. apply (H m Y y); [lia|exact HR].
  Qed.

  (** ** row by row *)
  Lemma J_map {A B} N C D (f : list A -> list B) X x : (forall r, length r = C -> length (f r) = D) -> J N C X x -> J N D (fun i => map f (X i)) (map f x).
  Proof.
    intros Hf [-> S]. split; [apply cat_map|]. intros i Hi. destruct (S i Hi) as [E F]. split; [rewrite map_length; exact E|]. apply Forall_map.
    eapply Forall_impl; [|exact F]. exact Hf.
  Qed.
  Lemma J_relu N C X x : J N C X x -> J N C (fun i => relu (X i)) (relu x).
  Proof. apply (J_map N C C (map _)). intros r. apply eq_trans. apply map_length. Qed.
  Lemma J_tanh P N C X x : J N C X x -> J N C (fun i => tanh_ P (X i)) (tanh_ P x).
  Proof. apply (J_map N C C (map _)). intros r. apply eq_trans. apply map_length. Qed.
  Lemma mul_one_row (P : params) p k : forall (r : vec) s, (forall p i c, p_mask P p i c = 1%Qc) ->
    map (fun cv => (snd cv * p_mask P p k (fst cv))%Qc) (combine (seq s (length r)) r) = r.
  Proof. induction r as [|a r IH]; intros s H; [reflexivity|]. cbn [length seq combine map fst snd]. rewrite IH, H by exact H. f_equal. ring. Qed.
  Lemma dropout_id P p x : eval_mode P -> dropout P p x = x.
  Proof.
    intros [_ H]. unfold dropout. generalize 0%nat at 2 as s. induction x as [|r x IH]; intros s; [reflexivity|]. cbn [length seq combine map fst snd]. rewrite IH.
    rewrite mul_one_row by exact H. reflexivity.
  Qed.
  Lemma run_norm P p N C X x : eval_mode P -> J N C X x -> run (J N C) (fun i => p_norm P p C (X i)) (p_norm P p C x).
  Proof.
    intros [H _] HJ. destruct (H p C) as (f & Hf). exists (fun i => map f (X i)), (map f x). split; [|split].
    - intros i Hi. apply (Hf (X i)). apply HJ. exact Hi.
    - apply (Hf x). apply (J_rows _ _ _ _ HJ).
    - destruct HJ as [-> S]. split; [apply cat_map|]. intros i Hi. destruct (S i Hi) as [E F]. split; [rewrite map_length; exact E|]. apply (Hf (X i) F).
  Qed.
  Lemma mm_ok m A B k : Forall (fun r => length r = k) A -> length B = k -> mm m A B = Ok (map (fun r => vecmat m r B) A).
  Proof.
    intros HA Hb. unfold mm. replace (forallb (fun r => Nat.eqb (length r) (length B)) A) with true; [reflexivity|]. symmetry. apply forallb_forall. intros r Hr.
    rewrite Forall_forall in HA. rewrite (HA r Hr), Hb. apply Nat.eqb_refl.
  Qed.
  Lemma run_linear P p ci co ub N X x : J N ci X x -> run (J N co) (fun i => linear P p ci co ub (X i)) (linear P p ci co ub x).
  Proof.
    intros HJ. set (B := transpose ci (tensor2 co ci (p_weight P p 0%nat))). assert (HBl : length B = ci) by apply transpose_len.
    set (f := fun r => match (if ub then Some (tensor1 co (p_bias P p)) else None) with None => vecmat co r B | Some b => vadd (vecmat co r B) b end).
    assert (E : forall x, Forall (fun r => length r = ci) x -> linear P p ci co ub x = Ok (map f x)).
    { intros z Hz. unfold linear. fold B. rewrite (mm_ok co z B ci Hz HBl). cbn [bind]. unfold add_bias, f. destruct ub; [rewrite map_map|]; reflexivity. }
    exists (fun i => map f (X i)), (map f x). split; [intros i Hi; apply E; apply HJ; exact Hi|]. split; [apply E; apply (J_rows _ _ _ _ HJ)|].
    apply (J_map N ci co f); [|exact HJ]. intros r Hr. unfold f. destruct ub.
    - rewrite vadd_len; unfold vecmat; rewrite map_length, seq_length; [reflexivity|]. symmetry. apply tensor1_len.
    - unfold vecmat. rewrite map_length, seq_length. reflexivity.
  Qed.
  Lemma run_conv1x1_bn P p ci co N X x : eval_mode P -> J N ci X x -> run (J N co) (fun i => conv1x1_bn P p ci co (X i)) (conv1x1_bn P p ci co x).
  Proof. intros HP HJ. eapply run_bind; [apply run_linear; exact HJ|]. intros Y y H. apply run_norm; assumption. Qed.
  Lemma run_conv1x1_bn_relu P p ci co N X x : eval_mode P -> J N ci X x -> run (J N co) (fun i => conv1x1_bn_relu P p ci co (X i)) (conv1x1_bn_relu P p ci co x).
  Proof.
    intros HP HJ. eapply run_bind; [apply run_linear; exact HJ|]. intros Y y H. eapply run_bind; [apply run_norm; eassumption|]. intros Z z HZ. apply run_ret, J_relu, HZ.
  Qed.
  Lemma run_fc_bn_relu P p ci co N X x : eval_mode P -> J N ci X x -> run (J N co) (fun i => fc_bn_relu P p ci co (X i)) (fc_bn_relu P p ci co x).
  Proof. apply run_conv1x1_bn_relu. Qed.
  Lemma run_head P p ci ch co N X x : eval_mode P -> J N ci X x -> run (J N co) (fun i => head P p ci ch co (X i)) (head P p ci ch co x).
  Proof. intros HP HJ. eapply run_bind; [apply run_conv1x1_bn_relu; eassumption|]. intros Y y H. apply run_linear. exact H. Qed.
  Lemma J_len {A B} N C D X x Y y : J N C X x -> J N D Y y -> @length (list A) x = @length (list B) y.
  Proof. intros [-> SX] [-> SY]. apply cat_len. intros i Hi. transitivity (N i); [apply SX|symmetry; apply SY]; exact Hi. Qed.
  Lemma J_zip N C D E (f : vec -> vec -> vec) X x Y y : (forall a b, length a = C -> length b = D -> length (f a b) = E) -> J N C X x -> J N D Y y ->
    J N E (fun i => zip_with f (X i) (Y i)) (zip_with f x y).
  Proof.
    intros Hf [-> SX] [-> SY]. split; [apply cat_zip; intros i Hi; transitivity (N i); [apply SX|symmetry; apply SY]; exact Hi|].
    intros i Hi. destruct (SX i Hi) as [L1 F1], (SY i Hi) as [L2 F2]. split; [apply zip_len; assumption|]. unfold zip_with. apply Forall_map. apply Forall_forall. intros [a b] Hab.
    rewrite Forall_forall in F1, F2. apply Hf; [apply F1; eapply in_combine_l; exact Hab|apply F2; eapply in_combine_r; exact Hab].
  Qed.
  Lemma add_feat_ok x y C : length x = length y -> Forall (fun r => length r = C) x -> Forall (fun r => length r = C) y -> add_feat x y = Ok (zip_with vadd x y).
  Proof.
    intros E Fx Fy. unfold add_feat. rewrite E, Nat.eqb_refl. cbn [andb].
    replace (forallb _ _) with true; [reflexivity|]. symmetry. apply forallb_forall. intros [a b] Hab. cbn [fst snd]. rewrite Forall_forall in Fx, Fy.
    rewrite (Fx a), (Fy b) by (eauto using in_combine_l, in_combine_r). apply Nat.eqb_refl.
  Qed.
  Lemma run_add N C X x Y y : J N C X x -> J N C Y y -> run (J N C) (fun i => add_feat (X i) (Y i)) (add_feat x y).
  Proof.
    intros HX HY. exists (fun i => zip_with vadd (X i) (Y i)), (zip_with vadd x y). split; [|split].
    - intros i Hi. destruct HX as [_ SX], HY as [_ SY]. destruct (SX i Hi) as [L1 F1], (SY i Hi) as [L2 F2]. apply (add_feat_ok _ _ C); [congruence|assumption|assumption].
    - apply (add_feat_ok _ _ C); [apply (J_len _ _ _ _ _ _ _ HX HY)|apply (J_rows _ _ _ _ HX)|apply (J_rows _ _ _ _ HY)].
    - apply (J_zip N C C C); try assumption. intros a b Ha Hb'. rewrite vadd_len; congruence.
  Qed.
  Lemma run_cat N C D X x Y y : J N C X x -> J N D Y y -> run (J N (C + D)) (fun i => cat_cols [X i; Y i]) (cat_cols [x; y]).
  Proof.
    intros HX HY. exists (fun i => zip_with (@app Qc) (X i) (Y i)), (zip_with (@app Qc) x y). split; [|split].
    - intros i Hi. destruct HX as [_ SX], HY as [_ SY]. destruct (SX i Hi) as [L1 F1], (SY i Hi) as [L2 F2]. cbn [cat_cols foldM]. rewrite L1, L2, Nat.eqb_refl. reflexivity.
    - cbn [cat_cols foldM]. rewrite (J_len _ _ _ _ _ _ _ HX HY), Nat.eqb_refl. reflexivity.
    - apply (J_zip N C D (C + D)); try assumption. intros a b Ha Hb. rewrite app_length. congruence.
  Qed.

  (** ** convolutions *)
  Lemma choose {S} (F : nat -> res S) (Q : nat -> S -> Prop) : (forall i, (i < n)%nat -> exists y, F i = Ok y /\ Q i y) ->
    exists Y, forall i, (i < n)%nat -> F i = Ok (Y i) /\ Q i (Y i).
  Proof.
    intros H. destruct (H O Hn) as (y0 & _ & _). exists (fun i => match F i with Ok y => y | Err _ => y0 end). intros i Hi. destruct (H i Hi) as (y & -> & Hy). auto.
  Qed.
  Lemma mapM_all {S} (F : octree * feat -> res S) X Y : (forall i, (i < n)%nat -> F (mo i, X i) = Ok (Y i)) ->
    mapM F (combine os (map X (seq 0 n))) = Ok (map Y (seq 0 n)).
  Proof.
    intros H. rewrite os_seq at 1. assert (G : forall i, In i (seq 0 n) -> F (mo i, X i) = Ok (Y i)) by (intros i Hi; apply H, in_seq0, Hi). clear H.
    induction (seq 0 n) as [|a l IH]; [reflexivity|]. cbn [map combine mapM]. rewrite (G a) by (left; reflexivity). cbn [bind]. rewrite IH; [reflexivity|]. intros i Hi. apply G. right. exact Hi.
  Qed.
  Lemma members_shape d ne C (X : nat -> feat) : (forall i, (i < n)%nat -> shape (nodes d ne i) C (X i)) -> Forall2 (fun oi x => shape (node_count oi d ne) C x) os (map X (seq 0 n)).
  Proof.
    intros H. rewrite os_seq at 1. assert (G : forall i, In i (seq 0 n) -> shape (nodes d ne i) C (X i)) by (intros i Hi; apply H, in_seq0, Hi). clear H.
    induction (seq 0 n) as [|a l IH]; [apply Forall2_nil|]. cbn [map]. apply Forall2_cons; [apply G; left; reflexivity|]. apply IH. intros i Hi. apply G. right. exact Hi.
  Qed.
  Lemma conv_cat d ks kernel st ne ci co mb W X Y : (1 <= d <= L)%nat -> In (ks, kernel) kernel_sizes -> (st = 1 \/ st = 2) ->
    shape3 (length (box kernel)) ci co W -> Z.of_nat (length (box kernel)) * Z.of_nat ci <= mb ->
    (forall i, (i < n)%nat -> shape (nodes d ne i) ci (X i)) ->
    (forall i, (i < n)%nat -> OctreeConv (mkCfg ci co ks st ne mb true) false W None (X i) (mo i) d = Ok (Y i)) ->
    OctreeConv (mkCfg ci co ks st ne mb true) false W None (cat X) o d = Ok (cat Y).
  Proof.
    intros Hd Hk Hs HW Hm HX HY. destruct (HC d ks kernel st ne ci co mb false W None (map X (seq 0 n)) Hd Hk Hs HW I Hm (members_shape d ne ci X HX)) as (ys & E1 & E2).
    rewrite (mapM_all _ X Y) in E1 by exact HY. assert (Eq : forall (a b : list feat), Ok a = Ok b -> a = b) by (intros; congruence).
    apply Eq in E1. rewrite <- E1 in E2. exact E2.
  Qed.
  Lemma wf_o_upto : wf_upto o L.
  Proof. destruct HT as (D & T & _). exists (mK kms), (mM kms). exact T. Qed.
  Lemma wf_m_upto i : (i < n)%nat -> wf_upto (mo i) L.
  Proof. intros Hi. exists (fst (Ki i)), (snd (Ki i)). apply mtree. exact Hi. Qed.
  Lemma run_conv P p ci co ks st ne d X x : (ks = [3] \/ ks = [2])%nat -> (1 <= d <= L)%nat -> (st = 1 \/ st = 2) -> Z.of_nat ci <= 5000000 ->
    J (nodes d ne) ci X x -> run (J (nodes (down d st) ne) co) (fun i => conv P p ci co ks st ne (X i) (mo i) (Z.of_nat d)) (conv P p ci co ks st ne x o (Z.of_nat d)).
  Proof.
    intros Hk Hd Hs Hc HJ. destruct (choose (fun i => conv P p ci co ks st ne (X i) (mo i) (Z.of_nat d)) (fun i y => shape (nodes (down d st) ne i) co y)) as (Y & HY).
    { intros i Hi. apply (conv_shape (mo i) L ne P (wf_m_upto i Hi)); [exact Hk|lia|apply mneigh; assumption| |exact Hc|apply HJ; exact Hi]. destruct Hs as [->| ->]; [left; reflexivity|right; split; [reflexivity|lia]]. }
    exists Y, (cat Y). split; [intros i Hi; apply HY; exact Hi|]. split; [|split; [reflexivity|intros i Hi; apply HY; exact Hi]].
    destruct (std_kernel ks ci co st ne true Hk) as (m & k & E & E1 & E2 & E3 & Hin & Hk2 & Hle).
    assert (G : forall z oo, conv P p ci co ks st ne z oo (Z.of_nat d) = OctreeConv (mkCfg ci co ks st ne 200000000 true) false (tensor3 (m_kdim m) (m_inconv m) (m_outconv m) (p_weight P p)) None z oo d).
    { intros z oo. unfold conv. rewrite E. cbn [bind]. unfold at_depth. replace (Z.of_nat d <? 0) with false by (symmetry; apply Z.ltb_ge; lia). rewrite Nat2Z.id. reflexivity. }
    rewrite G. destruct HJ as [-> S]. apply (conv_cat d ks k st ne ci co); [exact Hd|exact Hin|exact Hs|rewrite E1, E2, E3; apply tensor3_shape|nia|exact S|].
    intros i Hi. rewrite <- G. apply HY. exact Hi.
  Qed.
  Lemma run_deconv P p ci co ks st ne d X x : (ks = [3] \/ ks = [2])%nat -> (1 <= up d st <= L)%nat -> (st = 1 \/ st = 2) -> Z.of_nat co <= 5000000 ->
    J (nodes d ne) ci X x -> run (J (nodes (up d st) ne) co) (fun i => deconv P p ci co ks st ne (X i) (mo i) (Z.of_nat d)) (deconv P p ci co ks st ne x o (Z.of_nat d)).
  Proof.
    intros Hk Hd Hs Hc HJ. destruct (choose (fun i => deconv P p ci co ks st ne (X i) (mo i) (Z.of_nat d)) (fun i y => shape (nodes (up d st) ne i) co y)) as (Y & HY).
    { intros i Hi. apply (deconv_shape (mo i) L ne P (wf_m_upto i Hi)); [exact Hk|lia|apply mneigh; assumption|exact Hs|exact Hc|apply HJ; exact Hi]. }
    assert (Hd' : (d <= L)%nat) by (unfold up in Hd; destruct (st =? 2); lia).
    destruct (deconv_shape o L ne P wf_o_upto p ci co ks st d x Hk ltac:(lia) (oneigh _ Hd) Hs Hc (J_shape d ne ci X x Hd' HJ)) as (z & Ez & Hz).
    exists Y, z. split; [intros i Hi; apply HY; exact Hi|]. split; [exact Ez|]. split; [|intros i Hi; apply HY; exact Hi].
    destruct (cat_cut n (nodes (up d st) ne) z) as (Z & EZ & LZ). { rewrite <- count_cat by lia. apply Hz. }
    assert (SZ : forall i, (i < n)%nat -> shape (nodes (up d st) ne i) co (Z i)).
    { intros i Hi. split; [apply LZ; exact Hi|]. destruct Hz as [_ F]. rewrite EZ in F. apply Forall_forall. intros r Hr. rewrite Forall_forall in F. apply F.
      unfold Verif.CatFacts.cat. apply in_concat. exists (Z i). split; [|exact Hr]. apply in_map. apply in_seq. lia. }
    rewrite EZ. apply cat_ext. intros i Hi. apply (shape_ext (nodes (up d st) ne i) co); [apply SZ; exact Hi|apply HY; exact Hi|]. intros r c Hr Hcc.
    destruct (std_kernel ks ci co st ne false Hk) as (m & k & E & E1 & E2 & E3 & Hin & Hk2 & Hle).
    set (W := tensor3 (m_kdim m) (m_inconv m) (m_outconv m) (p_weight P p)).
    assert (HW : shape3 (length (box k)) co ci W) by (unfold W; rewrite E1, E2, E3; apply tensor3_shape).
    assert (G : forall z oo, deconv P p ci co ks st ne z oo (Z.of_nat d) = OctreeDeconv (mkCfg ci co ks st ne 200000000 false) false W None z oo d).
    { intros z' oo. unfold deconv. rewrite E. cbn [bind]. unfold at_depth. replace (Z.of_nat d <? 0) with false by (symmetry; apply Z.ltb_ge; lia). rewrite Nat2Z.id. reflexivity. }
    set (U := fun j => if Nat.eqb j i then unit2 (nodes (up d st) ne i) co r c else tabulate (nodes (up d st) ne j) co (fun _ _ => 0%Qc)).
    assert (SU : forall j, (j < n)%nat -> shape (nodes (up d st) ne j) co (U j)).
    { intros j Hj. unfold U. destruct (Nat.eqb_spec j i) as [->|]; apply tabulate_shape. }
    assert (Hcr : conv_ready o (up d st) k st) by (split; [exact owf|split; [rewrite odepth; lia|split; [apply oneigh; exact Hd|split; [exact Hk2|destruct Hs as [->| ->]; [left; reflexivity|right; split; [reflexivity|lia]]]]]]).
    assert (Hcm : forall j, (j < n)%nat -> conv_ready (mo j) (up d st) k st) by (intros j Hj; split; [apply mwf; exact Hj|split; [rewrite mdepth by exact Hj; lia|split; [apply mneigh; assumption|split; [exact Hk2|destruct Hs as [->| ->]; [left; reflexivity|right; split; [reflexivity|lia]]]]]]).
    destruct (choose (fun j => OctreeConv (mkCfg co ci ks st ne 200000000 true) false W None (U j) (mo j) (up d st))
      (fun j v => shape (nodes d ne j) ci v /\ inner (nodes d ne j) ci v (X j) = inner (nodes (up d st) ne j) co (U j) (Y j))) as (V & HV).
    { intros j Hj. destruct (thm_deconv_transpose (mo j) d ks k st ne co ci 200000000 200000000 (U j) (X j) W (Hcm j Hj) Hin (SU j Hj)) as (cx & dy & F1 & F2 & F3 & F4 & F5);
        [apply HJ; exact Hj|exact HW|nia|nia|]. exists cx. split; [exact F1|]. split; [exact F2|]. destruct (HY j Hj) as [EY _]. rewrite G in EY.
      rewrite EY in F3. assert (Eq : forall (a b : feat), Ok a = Ok b -> a = b) by (intros; congruence). apply Eq in F3. rewrite F3. exact F5. }
    assert (SUo : shape (node_count o (up d st) ne) co (cat U)).
    { apply (J_shape (up d st) ne co U); [lia|]. split; [reflexivity|exact SU]. }
    destruct (thm_deconv_transpose o d ks k st ne co ci 200000000 200000000 (cat U) x W Hcr Hin SUo (J_shape d ne ci X x Hd' HJ) HW) as (cx & dy & F1 & F2 & F3 & F4 & F5); [nia|nia|].
    rewrite (conv_cat (up d st) ks k st ne co ci 200000000 W U V Hd Hin Hs HW ltac:(nia) SU (fun j Hj => proj1 (HV j Hj))) in F1.
    rewrite G in Ez. rewrite Ez in F3. assert (Eq : forall (a b : feat), Ok a = Ok b -> a = b) by (intros; congruence). apply Eq in F1. apply Eq in F3. rewrite <- F1, <- F3 in F5.
    destruct HJ as [Ex SX]. rewrite EZ, Ex in F5.
    assert (A1 : inner (node_count o d ne) ci (cat V) (cat X) = qsum (seq 0 n) (fun j => inner (length (V j)) ci (V j) (X j))).
    { replace (node_count o d ne) with (length (cat V)) by (rewrite F1; apply F2). apply inner_catl. intros j Hj. apply in_seq0 in Hj. transitivity (nodes d ne j); [apply HV; exact Hj|symmetry; apply SX; exact Hj]. }
    assert (A2 : inner (node_count o (up d st) ne) co (cat U) (cat Z) = qsum (seq 0 n) (fun j => inner (length (U j)) co (U j) (Z j))).
    { replace (node_count o (up d st) ne) with (length (cat U)) by apply SUo. apply inner_catl. intros j Hj. apply in_seq0 in Hj. transitivity (nodes (up d st) ne j); [apply SU; exact Hj|symmetry; apply SZ; exact Hj]. }
    rewrite A1, A2 in F5.
    assert (ND : NoDup (seq 0 n)) by apply seq_NoDup. assert (Hii : In i (seq 0 n)) by (apply in_seq; lia).
    assert (U0 : forall m y, inner m co (tabulate m co (fun _ _ => 0%Qc)) y = 0%Qc).
    { intros m' y'. unfold inner. transitivity (sum_n m' (fun _ => 0%Qc)); [|clear; induction m' as [|m' IH]; [reflexivity|cbn [sum_n]; rewrite IH; ring]].
      apply sum_ext. intros a Ha. transitivity (sum_n co (fun _ => 0%Qc)); [|clear; induction co as [|m IH]; [reflexivity|cbn [sum_n]; rewrite IH; ring]].
      apply sum_ext. intros b Hb. rewrite at2_tabulate by assumption. ring. }
    rewrite (qsum_one (seq 0 n) i (fun j => inner (length (U j)) co (U j) (Z j)) ND Hii) in F5.
    2: { intros j Hj Nj. apply in_seq0 in Hj. destruct (SU j Hj) as [-> _]. unfold U. rewrite (proj2 (Nat.eqb_neq j i) Nj). apply U0. }
    rewrite (qsum_one (seq 0 n) i _ ND Hii) in F5.
    2: { intros j Hj Nj. apply in_seq0 in Hj. destruct (HV j Hj) as [_ [[-> _] ->]]. unfold U. rewrite (proj2 (Nat.eqb_neq j i) Nj). apply U0. }
    destruct (HV i Hi) as [_ [[El _] Ei]]. rewrite El, Ei in F5. destruct (SU i Hi) as [El' _]. rewrite El' in F5.
    unfold U in F5. rewrite Nat.eqb_refl in F5. rewrite !inner_unit in F5 by assumption. symmetry. exact F5.
  Qed.
  Lemma run_conv_bn P p ci co ks st ne d X x : eval_mode P -> (ks = [3] \/ ks = [2])%nat -> (1 <= d <= L)%nat -> (st = 1 \/ st = 2) -> Z.of_nat ci <= 5000000 ->
    J (nodes d ne) ci X x -> run (J (nodes (down d st) ne) co) (fun i => conv_bn P p ci co ks st ne (X i) (mo i) (Z.of_nat d)) (conv_bn P p ci co ks st ne x o (Z.of_nat d)).
  Proof. intros HP Hk Hd Hs Hc HJ. eapply run_bind; [apply run_conv; eassumption|]. intros Y y H. apply run_norm; assumption. Qed.
  Lemma run_conv_bn_relu P p ci co ks st ne d X x : eval_mode P -> (ks = [3] \/ ks = [2])%nat -> (1 <= d <= L)%nat -> (st = 1 \/ st = 2) -> Z.of_nat ci <= 5000000 ->
    J (nodes d ne) ci X x -> run (J (nodes (down d st) ne) co) (fun i => conv_bn_relu P p ci co ks st ne (X i) (mo i) (Z.of_nat d)) (conv_bn_relu P p ci co ks st ne x o (Z.of_nat d)).
  Proof.
    intros HP Hk Hd Hs Hc HJ. eapply run_bind; [apply run_conv; eassumption|]. intros Y y H. eapply run_bind; [apply run_norm; eassumption|]. intros Z z HZ. apply run_ret, J_relu, HZ.
  Qed.
  Lemma run_deconv_bn_relu P p ci co ks st ne d X x : eval_mode P -> (ks = [3] \/ ks = [2])%nat -> (1 <= up d st <= L)%nat -> (st = 1 \/ st = 2) -> Z.of_nat co <= 5000000 ->
    J (nodes d ne) ci X x -> run (J (nodes (up d st) ne) co) (fun i => deconv_bn_relu P p ci co ks st ne (X i) (mo i) (Z.of_nat d)) (deconv_bn_relu P p ci co ks st ne x o (Z.of_nat d)).
  Proof.
    intros HP Hk Hd Hs Hc HJ. eapply run_bind; [apply run_deconv; eassumption|]. intros Y y H. eapply run_bind; [apply run_norm; eassumption|]. intros Z z HZ. apply run_ret, J_relu, HZ.
  Qed.

  (** ** residual blocks *)
  Lemma run_proj P p ci co N X x : eval_mode P -> J N ci X x ->
    run (J N co) (fun i => if Nat.eqb ci co then Ok (X i) else conv1x1_bn P p ci co (X i)) (if Nat.eqb ci co then Ok x else conv1x1_bn P p ci co x).
  Proof. intros HP HJ. destruct (Nat.eqb_spec ci co) as [->|]; [apply (run_ret (J N co)); exact HJ|apply run_conv1x1_bn; assumption]. Qed.
  Lemma run_res_block P p ci co bk ne d X x : eval_mode P -> (1 <= d <= L)%nat -> bk <> O -> channel_ok co -> J (nodes d ne) ci X x ->
    run (J (nodes d ne) co) (fun i => res_block P p ci co 1 bk ne (X i) (mo i) (Z.of_nat d)) (res_block P p ci co 1 bk ne x o (Z.of_nat d)).
  Proof.
    intros HP Hd Hb Hc HJ. unfold res_block, bottleneck_channels. rewrite (proj2 (Nat.eqb_neq bk 0) Hb). cbn [bind Z.eqb Pos.eqb].
    pose proof (Nat.div_le_upper_bound co bk co Hb ltac:(nia)) as Hcb. unfold channel_ok in Hc.
    eapply run_bind; [apply run_conv1x1_bn_relu; eassumption|]. intros Y1 y1 H1.
    eapply run_bind; [apply (run_conv_bn_relu P _ _ (co / bk) [3%nat] 1 ne d); [exact HP|left; reflexivity|exact Hd|left; reflexivity|lia|exact H1]|]. intros Y2 y2 H2.
    eapply run_bind; [apply run_conv1x1_bn; [exact HP|exact H2]|]. intros Y3 y3 H3.
    eapply run_bind; [apply run_proj; eassumption|]. intros Y4 y4 H4.
    eapply run_bind; [apply (run_add (nodes d ne) co); [exact H3|exact H4]|]. intros Y5 y5 H5. apply run_ret, J_relu, H5.
  Qed.
  Lemma run_res_block2 P p ci co bk ne d X x : eval_mode P -> (1 <= d <= L)%nat -> bk <> O -> channel_ok co -> Z.of_nat ci <= 5000000 -> J (nodes d ne) ci X x ->
    run (J (nodes d ne) co) (fun i => res_block2 P p ci co 1 bk ne (X i) (mo i) (Z.of_nat d)) (res_block2 P p ci co 1 bk ne x o (Z.of_nat d)).
  Proof.
    intros HP Hd Hb Hc Hci HJ. unfold res_block2, bottleneck_channels. rewrite (proj2 (Nat.eqb_neq bk 0) Hb). cbn [bind Z.eqb Pos.eqb].
    pose proof (Nat.div_le_upper_bound co bk co Hb ltac:(nia)) as Hcb. unfold channel_ok in Hc.
    eapply run_bind; [apply (run_conv_bn_relu P _ _ (co / bk) [3%nat] 1 ne d); [exact HP|left; reflexivity|exact Hd|left; reflexivity|exact Hci|exact HJ]|]. intros Y2 y2 H2.
    eapply run_bind; [apply (run_conv_bn P _ _ co [3%nat] 1 ne d); [exact HP|left; reflexivity|exact Hd|left; reflexivity|lia|exact H2]|]. intros Y3 y3 H3.
    eapply run_bind; [apply run_proj; eassumption|]. intros Y4 y4 H4.
    eapply run_bind; [apply (run_add (nodes d ne) co); [exact H3|exact H4]|]. intros Y5 y5 H5. apply run_ret, J_relu, H5.
  Qed.
  Lemma run_res_blocks P p ci co num bk ne basic d X x : eval_mode P -> (1 <= d <= L)%nat -> bk <> O -> channel_ok co -> Z.of_nat ci <= 5000000 -> (num <> O \/ ci = co) -> J (nodes d ne) ci X x ->
    run (J (nodes d ne) co) (fun i => res_blocks P p ci co num bk ne basic (X i) (mo i) (Z.of_nat d)) (res_blocks P p ci co num bk ne basic x o (Z.of_nat d)).
  Proof.
    intros HP Hd Hb Hc Hci Hnum HJ. unfold res_blocks.
    apply (run_weak (J (nodes d ne) (nth num (ci :: repeat co num) O))).
    { intros Y y. destruct num as [|m]; [destruct Hnum as [N|E]; [contradiction|cbn [nth]; rewrite E; auto]|]. cbn [nth]. rewrite nth_repeat' by lia. auto. }
    apply (run_fold (fun k => J (nodes d ne) (nth k (ci :: repeat co num) O))); [exact HJ|]. intros k Y y Hk HY.
    apply (run_const _ _ (nth k (ci :: repeat co num) O)); [apply tget_len; cbn [length]; rewrite repeat_length; lia|].
    apply (run_const _ _ (nth (S k) (ci :: repeat co num) O)); [replace (Z.of_nat k + 1) with (Z.of_nat (S k)) by lia; apply tget_len; cbn [length]; rewrite repeat_length; lia|].
    assert (E : nth (S k) (ci :: repeat co num) O = co) by (cbn [nth]; apply nth_repeat'; exact Hk). 
    assert (E' : Z.of_nat (nth k (ci :: repeat co num) O) <= 5000000) by (destruct k as [|k]; cbn [nth]; [exact Hci|rewrite nth_repeat' by lia; unfold channel_ok in Hc; lia]).
    rewrite E. destruct basic; [apply run_res_block2; assumption|apply run_res_block; assumption].
  Qed.

  (** ** pooling *)
  Definition J2 {A B} (N M : nat -> nat) (C : nat) (Y : nat -> list (list A) * list (list B)) (y : list (list A) * list (list B)) : Prop :=
    J N C (fun i => fst (Y i)) (fst y) /\ J M C (fun i => snd (Y i)) (snd y).
  Lemma run_unpack {A B S} N M C (Q : (nat -> S) -> S -> Prop) F f G g : run (@J2 A B N M C) F f ->
    (forall Y y Z z, J N C Y y -> J M C Z z -> run Q (fun i => G i (Y i) (Z i)) (g y z)) ->
    run Q (fun i => bind (F i) (fun ab => let '(a, b) := ab in G i a b)) (bind f (fun ab => let '(a, b) := ab in g a b)).
  Proof.
    intros H K. eapply run_bind; [exact H|]. intros Y y [H1 H2]. eapply run_ext; [| |apply (K _ _ _ _ H1 H2)].
    - intros i Hi. cbn beta. destruct (Y i). reflexivity.
    - destruct y. reflexivity.
  Qed.
  Lemma run_pad {A} C d (v : A) X x : (d <= L)%nat -> J (nodes d true) C X x -> run (J (nodes d false) C) (fun i => octree_pad C (X i) (mo i) (Z.of_nat d) v) (octree_pad C x o (Z.of_nat d) v).
  Proof.
    intros Hd HJ. destruct (choose (fun i => octree_pad C (X i) (mo i) (Z.of_nat d) v) (fun _ _ => True)) as (Y & HY).
    { intros i Hi. rewrite (tree_pad (mo i) L _ _ (mtree i Hi)) by (try exact Hd; apply HJ; exact Hi). eauto. }
    destruct (pad_join C d v X x Y Hd HJ (fun i Hi => proj1 (HY i Hi))) as (y & E & H). exists Y, y. split; [intros i Hi; apply HY; exact Hi|auto].
  Qed.
  Lemma run_depad {A} C d (X : nat -> list (list A)) x : (d <= L)%nat -> J (nodes d false) C X x -> run (J (nodes d true) C) (fun i => octree_depad (X i) (mo i) (Z.of_nat d)) (octree_depad x o (Z.of_nat d)).
  Proof.
    intros Hd HJ. destruct (choose (fun i => octree_depad (X i) (mo i) (Z.of_nat d)) (fun _ _ => True)) as (Y & HY).
    { intros i Hi. rewrite (tree_depad (mo i) L _ _ (mtree i Hi)) by (try exact Hd; apply HJ; exact Hi). eauto. }
    destruct (depad_join C d X x Y Hd HJ (fun i Hi => proj1 (HY i Hi))) as (y & E & H). exists Y, y. split; [intros i Hi; apply HY; exact Hi|auto].
  Qed.
  (** the result of a pooling of blocks of eight rows *)
  Lemma run_octree_max_pool C d ne X x : (S d <= L)%nat -> J (nodes (S d) ne) C X x ->
    run (J2 (nodes d ne) (nodes d true) C) (fun i => octree_max_pool C (X i) (mo i) (S d) ne) (octree_max_pool C x o (S d) ne).
  Proof.
    intros Hd HJ. unfold octree_max_pool.
    eapply (run_bind (J (nodes (S d) false) C)).
    { destruct ne; [apply (run_pad C (S d) (@None Qc)); [exact Hd|]|apply (run_ret (J (nodes (S d) false) C))]; apply (J_map _ C C (map (@Some Qc))); try exact HJ; intros r Hr; rewrite map_length; exact Hr. }
    intros Y y HY. 
    assert (Hv : exists V, (forall i, (i < n)%nat -> view_rows 8 (Y i) = Ok (V i)) /\ view_rows 8 y = Ok (cat V) /\ forall i, (i < n)%nat -> length (V i) = nodes d true i).
    { destruct HY as [-> SY]. destruct (choose (fun i => view_rows 8 (Y i)) (fun i v => length v = nodes d true i)) as (V & HV).
      - intros i Hi. pose proof (proj1 (SY i Hi)) as E. unfold nodes in E. rewrite (node_count_sel (mo i) L _ _ (mtree i Hi)) in E by exact Hd. cbn [sel] in E.
        pose proof (t_link _ _ _ _ (mtree i Hi) d ltac:(lia)) as Ek. rewrite pick_select in Ek.
        assert (E8 : length (Y i) = (8 * nodes d true i)%nat).
        { rewrite E, Ek. unfold nodes. rewrite (node_count_sel (mo i) L _ _ (mtree i Hi)) by lia. cbn [sel]. rewrite flat_kids_length. reflexivity. }
        unfold view_rows. rewrite E8. rewrite Nat.mul_comm, Nat.mod_mul, Nat.div_mul by discriminate. cbn [Nat.eqb negb andb]. eexists. split; [reflexivity|]. apply chunk_shape. rewrite E8. lia.
      - exists V. split; [intros i Hi; apply HV; exact Hi|]. split; [apply cat_view8; [exact Hn|intros i Hi; apply HV; exact Hi]|intros i Hi; apply HV; exact Hi]. }
    destruct Hv as (V & EV & Ev & LV).
    apply (run_ext _ (fun i => 
      let best := map (fun rows => map (fun c => max_first (column None c rows)) (seq 0 C)) (V i) in
      out <- (if ne then Ok (map (map fst) best) else octree_pad C (map (map fst) best) (mo i) (Z.of_nat (S d) - 1) (Some (0%Qc))) ;; Ok (out, map (map snd) best))
      _ (let best := map (fun rows => map (fun c => max_first (column None c rows)) (seq 0 C)) (cat V) in
      out <- (if ne then Ok (map (map fst) best) else octree_pad C (map (map fst) best) o (Z.of_nat (S d) - 1) (Some (0%Qc))) ;; Ok (out, map (map snd) best))).
    { intros i Hi. rewrite EV by exact Hi. reflexivity. } { rewrite Ev. reflexivity. }
    set (best := fun v => map (fun rows => map (fun c => max_first (column None c rows)) (seq 0 C)) v). cbn zeta.
    assert (JB : forall T (f : xnum * Z -> T), J (nodes d true) C (fun i => map (map f) (best (V i))) (map (map f) (best (cat V)))).
    { intros T f. split; [unfold best; rewrite !cat_map; reflexivity|]. intros i Hi. split; [rewrite map_length; unfold best; rewrite map_length; apply LV; exact Hi|].
      apply Forall_map, Forall_map, Forall_forall. intros r _. rewrite !map_length, seq_length. reflexivity. }
    eapply (run_bind (J (nodes d ne) C)).
    - destruct ne; [apply (run_ret (J (nodes d true) C)); apply JB|]. replace (Z.of_nat (S d) - 1) with (Z.of_nat d) by lia. apply run_pad; [lia|apply JB].
    - intros Z z HZ. apply (run_ret (J2 (nodes d ne) (nodes d true) C) (fun i => (Z i, map (map snd) (best (V i))))). split; [exact HZ|]. cbn [snd]. apply JB.
  Qed.

  (** ** pooling of networks *)
  Definition branch_all (ne : bool) (d : nat) : Prop := ne = true -> forall i, (i < n)%nat -> branching (mo i) d.
  Definition JI (M : nat -> nat) (C : nat) (I : nat -> list (list Z)) (z : list (list Z)) : Prop :=
    J M C I z /\ forall i, (i < n)%nat -> Forall (Forall (fun s => 0 <= s < 8)) (I i).
  Definition JP (N M : nat -> nat) (C : nat) (Y : nat -> feat * list (list Z)) (y : feat * list (list Z)) : Prop :=
    J N C (fun i => fst (Y i)) (fst y) /\ JI M C (fun i => snd (Y i)) (snd y).
  Lemma run_max_pool_ind C d ne X x : (S d <= L)%nat -> branch_all ne d -> J (nodes (S d) ne) C X x ->
    run (JP (nodes d ne) (nodes d true) C) (fun i => max_pool_ind C ne (X i) (mo i) (Z.of_nat (S d))) (max_pool_ind C ne x o (Z.of_nat (S d))).
  Proof.
    intros Hd Hb HJ. destruct (run_octree_max_pool C d ne X x Hd HJ) as (V & v & EV & Ev & [J1 J2']).
    destruct (choose (fun i => max_pool_ind C ne (X i) (mo i) (Z.of_nat (S d))) (fun i yi => shape (nodes d ne i) C (fst yi) /\ Forall (Forall (fun s => 0 <= s < 8)) (snd yi))) as (Y & HY).
    { intros i Hi. destruct (max_pool_ok (mo i) ne C d (X i) (mwf i Hi)) as (y & idx & E & S1 & S2 & S3); [rewrite mdepth by exact Hi; lia|intros En; apply Hb; assumption|apply HJ; exact Hi|].
      exists (y, idx). auto. }
    assert (A : forall z oo, max_pool_ind C ne z oo (Z.of_nat (S d)) = ('(y, idx) <- octree_max_pool C z oo (S d) ne ;; y <- finite_rows y ;; Ok (y, idx))).
    { intros z oo. unfold max_pool_ind, at_depth. replace (Z.of_nat (S d) <? 0) with false by (symmetry; apply Z.ltb_ge; lia). rewrite Nat2Z.id. reflexivity. }
    assert (B : forall i, (i < n)%nat -> finite_rows (fst (V i)) = Ok (fst (Y i)) /\ snd (V i) = snd (Y i)).
    { intros i Hi. destruct (HY i Hi) as [E _]. rewrite A, EV in E by exact Hi. cbn [bind] in E. destruct (V i) as [out idx]. cbn [fst snd]. destruct (finite_rows out) as [y|]; [|discriminate].
      cbn [bind] in E. assert (Eq : forall (a b : feat * list (list Z)), Ok a = Ok b -> a = b) by (intros; congruence). apply Eq in E. rewrite <- E. auto. }
    exists Y, (cat (fun i => fst (Y i)), snd v). split; [intros i Hi; apply HY; exact Hi|]. split.
    - rewrite A, Ev. cbn [bind]. destruct v as [out idx]. cbn [fst snd] in *. destruct J1 as [-> S1]. unfold finite_rows at 1. rewrite (cat_mapM n _ _ (fun i => fst (Y i))); [reflexivity|].
      intros i Hi. apply (B i Hi).
    - split; [split; [reflexivity|]; intros i Hi; cbn [fst]; apply HY; exact Hi|]. cbn [snd]. split; [|intros i Hi; apply HY; exact Hi].
      apply (J_ext _ _ (fun i => snd (V i))); [intros i Hi; apply B; exact Hi|exact J2'].
  Qed.
  Lemma run_max_pool C d ne X x : (S d <= L)%nat -> branch_all ne d -> J (nodes (S d) ne) C X x ->
    run (J (nodes d ne) C) (fun i => max_pool C ne (X i) (mo i) (Z.of_nat (S d))) (max_pool C ne x o (Z.of_nat (S d))).
  Proof.
    intros Hd Hb HJ. eapply run_bind; [apply run_max_pool_ind; eassumption|]. intros Y y [H _]. apply (run_ext _ (fun i => Ok (fst (Y i))) _ (Ok (fst y))).
    - intros i Hi. destruct (Y i). reflexivity.
    - destruct y. reflexivity.
    - apply (run_ret (J (nodes d ne) C)). exact H.
  Qed.
  Lemma kid_rows d i : (i < n)%nat -> (S d <= L)%nat -> nodes (S d) false i = (8 * nodes d true i)%nat.
  Proof.
    intros Hi Hd. unfold nodes. rewrite !(node_count_sel (mo i) L _ _ (mtree i Hi)) by lia. cbn [sel]. rewrite (t_link _ _ _ _ (mtree i Hi) d) by lia.
    rewrite pick_select, flat_kids_length. reflexivity.
  Qed.
  Lemma J_rows8 d C (f : vec -> list vec) X x : (S d <= L)%nat -> (forall r, length r = C -> shape 8 C (f r)) -> J (nodes d true) C X x ->
    J (nodes (S d) false) C (fun i => flat_map f (X i)) (flat_map f x).
  Proof.
    intros Hd Hf [-> S]. split; [apply map_cat|]. intros i Hi. destruct (S i Hi) as [E F]. rewrite kid_rows by assumption. split.
    - rewrite <- E. clear E. induction F as [|r l Hr F IH]; [reflexivity|]. cbn [flat_map length]. rewrite app_length, IH. rewrite (proj1 (Hf r Hr)). lia.
    - clear E. induction F as [|r l Hr F IH]; [constructor|]. cbn [flat_map]. apply Forall_app. split; [apply Hf; exact Hr|exact IH].
  Qed.
  Lemma run_upsample C d ne X x : (S d <= L)%nat -> J (nodes d ne) C X x ->
    run (J (nodes (S d) ne) C) (fun i => octree_upsample "nearest" ne C (X i) (mo i) d None) (octree_upsample "nearest" ne C x o d None).
  Proof.
    intros Hd HJ. assert (A : forall z oo, octree_upsample "nearest" ne C z oo d None = octree_nearest_upsample z oo d ne).
    { intros z oo. unfold octree_upsample. rewrite (proj2 (Nat.eqb_neq (S d) d)) by lia. replace (Nat.leb d (S d)) with true by (symmetry; apply Nat.leb_le; lia).
      rewrite Nat.eqb_refl. reflexivity. }
    eapply run_ext; [intros i Hi; symmetry; apply A|symmetry; apply A|]. unfold octree_nearest_upsample.
    apply (run_ext _ (fun i => out <- (if ne then Ok (X i) else octree_depad (X i) (mo i) (Z.of_nat d)) ;; if ne then octree_depad (flat_map (fun r => repeat r 8) out) (mo i) (Z.of_nat d + 1) else Ok (flat_map (fun r => repeat r 8) out)) _
      (out <- (if ne then Ok x else octree_depad x o (Z.of_nat d)) ;; if ne then octree_depad (flat_map (fun r => repeat r 8) out) o (Z.of_nat d + 1) else Ok (flat_map (fun r => repeat r 8) out))).
    { intros i Hi. rewrite (tree_check (mo i) L _ _ (mtree i Hi) d ne (X i)); [reflexivity|lia|]. apply HJ. exact Hi. }
    { rewrite (tree_check o L _ _ otree d ne x); [reflexivity|lia|]. apply (J_shape d ne C X x); [lia|exact HJ]. }
    eapply (run_bind (J (nodes d true) C)).
    { destruct ne; [apply (run_ret (J (nodes d true) C)); exact HJ|apply run_depad; [lia|exact HJ]]. }
    intros Y y HY. assert (H8 : J (nodes (S d) false) C (fun i => flat_map (fun r => repeat r 8) (Y i)) (flat_map (fun r => repeat r 8) y)).
    { apply J_rows8; [exact Hd| |exact HY]. intros r Hr. split; [apply repeat_length|]. apply Forall_forall. intros q Hq. apply repeat_spec in Hq. subst q. exact Hr. }
    destruct ne; [|apply (run_ret (J (nodes (S d) false) C)); exact H8]. replace (Z.of_nat d + 1) with (Z.of_nat (S d)) by lia. apply run_depad; [exact Hd|exact H8].
  Qed.
  Definition blk (ri : vec * list Z) : list vec :=
    map (fun s => map (fun xj => if Nat.eqb (snd xj) s then fst xj else 0%Qc) (combine (fst ri) (map Z.to_nat (snd ri)))) (seq 0 8).
  Lemma run_unpool C d ne X x I i0 : (S d <= L)%nat -> J (nodes d ne) C X x -> JI (nodes d true) C I i0 ->
    run (J (nodes (S d) ne) C) (fun i => octree_max_unpool (X i) (I i) (mo i) d ne) (octree_max_unpool x i0 o d ne).
  Proof.
    intros Hd HJ [HI Hr]. unfold octree_max_unpool. eapply (run_bind (J (nodes d true) C)).
    { destruct ne; [apply (run_ret (J (nodes d true) C)); exact HJ|apply run_depad; [lia|exact HJ]]. }
    intros Y y HY. assert (A : forall (a : feat) (b : list (list Z)), length a = length b -> Forall (fun r => length r = C) a -> Forall (fun r => length r = C) b -> Forall (Forall (fun s => 0 <= s < 8)) b ->
      (if Nat.eqb (length b) (length a) && forallb (fun ri => Nat.eqb (length (fst ri)) (length (snd ri))) (combine a b)
       then mapM (fun ri => unpool_row (fst ri) (snd ri)) (combine a b) else Err IndexError) = Ok (map blk (combine a b))).
    { intros a b E Fa Fb Fr. rewrite E, Nat.eqb_refl. rewrite Forall_forall in Fa, Fb, Fr. replace (forallb _ _) with true.
      - cbn [andb]. apply mapM_Ok. intros [r k] Hrk. apply unpool_row_Ok. apply Fr. eapply in_combine_r. exact Hrk.
      - symmetry. apply forallb_forall. intros [r k] Hrk. cbn [fst snd]. rewrite (Fa r), (Fb k) by (eauto using in_combine_l, in_combine_r). apply Nat.eqb_refl. }
    assert (Hir : Forall (Forall (fun s => 0 <= s < 8)) i0). { destruct HI as [-> _]. apply cat_Forall. exact Hr. }
    assert (Hz : J (nodes (S d) false) C (fun i => concat (map blk (combine (Y i) (I i)))) (concat (map blk (combine y i0)))).
    { destruct HY as [-> SY], HI as [-> SI]. split.
      - rewrite cat_combine by (intros i Hi; transitivity (nodes d true i); [apply SY|symmetry; apply SI]; exact Hi). rewrite <- !flat_map_concat_map, map_cat.
        apply cat_ext. intros i Hi. apply flat_map_concat_map.
      - intros i Hi. rewrite kid_rows by assumption. destruct (SY i Hi) as [E1 F1], (SI i Hi) as [E2 F2].
        assert (Fc : Forall (fun ri : vec * list Z => length (combine (fst ri) (map Z.to_nat (snd ri))) = C) (combine (Y i) (I i))).
        { apply Forall_forall. intros [r k] Hrk. cbn [fst snd]. rewrite combine_length, map_length. rewrite Forall_forall in F1, F2.
          rewrite (F1 r), (F2 k) by (eauto using in_combine_l, in_combine_r). apply Nat.min_id. }
        assert (Ec : length (combine (Y i) (I i)) = nodes d true i) by (rewrite combine_length, E1, E2; apply Nat.min_id).
        rewrite <- Ec. clear Ec. split.
        + induction (combine (Y i) (I i)) as [|ri l IH]; [reflexivity|]. inversion Fc; subst. cbn [map concat length]. rewrite app_length, IH by assumption. unfold blk at 1. rewrite map_length, seq_length. lia.
        + apply Forall_concat, Forall_map. eapply Forall_impl; [|exact Fc]. intros ri Hri. unfold blk. apply Forall_map, Forall_forall. intros s _. rewrite map_length. exact Hri. }
    apply (run_ext _ (fun i => if ne then octree_depad (concat (map blk (combine (Y i) (I i)))) (mo i) (Z.of_nat d + 1) else Ok (concat (map blk (combine (Y i) (I i))))) _
      (if ne then octree_depad (concat (map blk (combine y i0))) o (Z.of_nat d + 1) else Ok (concat (map blk (combine y i0))))).
    { intros i Hi. destruct HY as [_ SY], HI as [_ SI]. destruct (SY i Hi) as [E1 F1], (SI i Hi) as [E2 F2]. rewrite A; [reflexivity|congruence|exact F1|exact F2|apply Hr; exact Hi]. }
    { rewrite A; [reflexivity|apply (J_len _ _ _ _ _ _ _ HY HI)|apply (J_rows _ _ _ _ HY)|apply (J_rows _ _ _ _ HI)|exact Hir]. }
    destruct ne; [|apply (run_ret (J (nodes (S d) false) C)); exact Hz]. replace (Z.of_nat d + 1) with (Z.of_nat (S d)) by lia. apply run_depad; [exact Hd|exact Hz].
  Qed.

  (** ** rows of samples *)
  Definition one (_ : nat) : nat := 1%nat.
  Lemma cat_one {A} (f : nat -> A) : cat (fun i => [f i]) = map f (seq 0 n).
  Proof. unfold Verif.CatFacts.cat. induction (seq 0 n) as [|a l IH]; [reflexivity|]. cbn [map concat]. rewrite IH. reflexivity. Qed.
  Lemma sel_lens d ne C (X : nat -> feat) : (d <= L)%nat -> (forall i, (i < n)%nat -> shape (nodes d ne i) C (X i)) ->
    Forall2 (fun ks x => length ks = length x) (map (fun km => sel_of km ne d) kms) (map X (seq 0 n)).
  Proof.
    intros Hd S. rewrite kms_seq at 1. rewrite map_map. assert (G : forall i, In i (seq 0 n) -> length (sel_of (Ki i) ne d) = length (X i)).
    { intros i Hi. apply in_seq0 in Hi. destruct (S i Hi) as [-> _]. unfold nodes. rewrite (node_count_sel (mo i) L _ _ (mtree i Hi)) by exact Hd. reflexivity. }
    induction (seq 0 n) as [|a l IH]; cbn [map]; constructor; [apply G; left; reflexivity|]. apply IH. intros i Hi. apply G. right. exact Hi.
  Qed.
  Lemma run_global C d ne X x : (d <= L)%nat -> J (nodes d ne) C X x ->
    run (J one C) (fun i => octree_global_pool C (X i) (mo i) d ne) (octree_global_pool C x o d ne).
  Proof.
    intros Hd HJ. pose proof L16. exists (fun i => [gmean C (X i)]), (map (fun i => gmean C (X i)) (seq 0 n)). split; [|split; [|split]].
    - intros i Hi. rewrite (tree_global (mo i) L _ _ d ne C (X i) (mtree i Hi) Hd) by (apply HJ; exact Hi). rewrite mbatch by exact Hi. cbn [seq map]. do 2 f_equal. f_equal.
      change (Z.of_nat 0) with 0.
      assert (El : map (fun k => k / 2 ^ 48) (sel (fst (Ki i)) (snd (Ki i)) ne d) = repeat 0 (length (X i))).
      { destruct HJ as [_ S]. rewrite (proj1 (S i Hi)). unfold nodes. rewrite (node_count_sel (mo i) L _ _ (mtree i Hi)) by exact Hd.
        pose proof (sel_vkey (mo i) L _ _ (mtree i Hi) ne d Hd) as V. rewrite mbatch in V by exact Hi. clear - V Hd H.
        induction V as [|k ks Hk V IH]; cbn [map length repeat]; [reflexivity|]. f_equal; [|exact IH]. pose proof (vkey_batch 1 d k ltac:(lia) Hk). lia. }
      rewrite El, rows_at_const. reflexivity.
    - rewrite (tree_global o L _ _ d ne C x otree Hd (J_shape d ne C X x Hd HJ)). f_equal. rewrite (merged_sel kms o0 os ne d memT Hd).
      rewrite jk_samples with (d := d) by (lia || exact (mem_sel_vkey o0 os kms d ne memT Hd)). destruct HJ as [-> S]. rewrite (indexed_lengths _ _ (sel_lens d ne C X Hd S)). rewrite HB.
      apply map_ext_in. intros b Hb. apply in_seq0 in Hb. unfold Verif.CatFacts.cat. rewrite rows_at_blocks by lia. rewrite Z.sub_0_r, Nat2Z.id.
      rewrite (nth_indep _ [] (X n)) by (rewrite map_length, seq_length; exact Hb). rewrite map_nth, seq_nth by exact Hb. reflexivity.
    - symmetry. apply (cat_one (fun i => gmean C (X i))).
    - intros i Hi. split; [reflexivity|]. constructor; [|constructor]. unfold gmean. rewrite map_length.
      assert (G : forall rows acc, length acc = C -> Forall (fun r => length r = C) rows -> length (fold_left vadd rows acc) = C).
      { induction rows as [|r rows IH]; intros acc Ha F; [exact Ha|]. inversion F; subst. cbn [fold_left]. apply IH; [rewrite vadd_len; congruence|assumption]. }
      apply G; [apply repeat_length|]. apply HJ. exact Hi.
  Qed.

  (** ** rows of a member within the merged octree *)
  Definition off (d : nat) (ne : bool) (i : nat) : nat := length (concat (map (fun j => sel_of (Ki j) ne d) (seq 0 i))).
  Lemma sel_row d ne i k0 : (d <= L)%nat -> (i < n)%nat -> 0 <= k0 < 2 ^ 48 ->
    rowno (sel (mK kms) (mM kms) ne d) (Z.of_nat i * 2 ^ 48 + k0) = shift_row (Z.of_nat (off d ne i)) (rowno (sel_of (Ki i) ne d) k0).
  Proof.
    intros Hd Hi Hk. pose proof L16. rewrite (merged_sel kms o0 os ne d memT Hd). replace (Z.of_nat i) with (0 + Z.of_nat i) at 1 by lia.
    rewrite (rowno_jk d 0 (map (fun km => sel_of km ne d) kms) i (sel_of (Ki i) ne d) k0).
    - f_equal. f_equal. f_equal. f_equal. rewrite kms_seq at 1. rewrite map_map, firstn_map. f_equal. replace n with (i + (n - i))%nat by lia. rewrite seq_app, firstn_app, seq_length, Nat.sub_diag, firstn_O, app_nil_r.
      rewrite (firstn_all2 (seq 0 i)) by (rewrite seq_length; lia). reflexivity.
    - lia.
    - apply (mem_sel_vkey o0 os); [exact memT|exact Hd].
    - rewrite kms_seq at 1. rewrite map_map. apply Forall_map, Forall_forall. intros j Hj. apply in_seq0 in Hj. apply (sel_sorted (mo j) L _ _ (mtree j Hj)). exact Hd.
    - rewrite nth_error_map. unfold Ki. rewrite (nth_error_nth' kms kdef) by (rewrite klen; exact Hi). reflexivity.
    - exact Hk.
  Qed.
  Lemma cat_split {A} (X : nat -> list A) i : (i < n)%nat -> exists post, cat X = concat (map X (seq 0 i)) ++ X i ++ post.
  Proof.
    intros Hi. exists (concat (map X (seq (S i) (n - S i)))). unfold Verif.CatFacts.cat. replace n with (i + S (n - S i))%nat at 1 by lia. rewrite seq_app, map_app, concat_app. cbn [seq map concat]. reflexivity.
  Qed.
  Lemma cat_row {A} d ne C (X : nat -> list (list A)) x i r : (d <= L)%nat -> J (nodes d ne) C X x -> (i < n)%nat -> (r < nodes d ne i)%nat ->
    nth_error x (off d ne i + r) = nth_error (X i) r.
  Proof.
    intros Hd [-> S] Hi Hr. destruct (cat_split X i Hi) as (post & ->).
    assert (E : off d ne i = length (concat (map X (seq 0 i)))).
    { unfold off. assert (G : forall j, In j (seq 0 i) -> length (sel_of (Ki j) ne d) = length (X j)).
      { intros j Hj. apply in_seq in Hj. assert (Hjn : (j < n)%nat) by lia. destruct (S j Hjn) as [-> _]. unfold nodes. rewrite (node_count_sel (mo j) L _ _ (mtree j Hjn)) by exact Hd. reflexivity. }
      clear -G. induction (seq 0 i) as [|a l IH]; [reflexivity|]. cbn [map concat]. rewrite !app_length, IH; [rewrite (G a); [reflexivity|left; reflexivity]|]. intros j Hj. apply G. right. exact Hj. }
    rewrite E, nth_error_app2 by lia. replace (length (concat (map X (seq 0 i))) + r - length (concat (map X (seq 0 i))))%nat with r by lia.
    apply nth_error_app1. rewrite (proj1 (S i Hi)). exact Hr.
  Qed.
  Lemma rowno_lt d ne i k : (d <= L)%nat -> (i < n)%nat -> 0 <= rowno (sel_of (Ki i) ne d) k -> (Z.to_nat (rowno (sel_of (Ki i) ne d) k) < nodes d ne i)%nat.
  Proof.
    intros Hd Hi H. destruct (rowno_found (sel_of (Ki i) ne d) k) as [[_ E]|[E _]]; [|lia].
    assert (Z.to_nat (rowno (sel_of (Ki i) ne d) k) < length (sel_of (Ki i) ne d))%nat by (apply nth_error_Some; rewrite E; discriminate).
    unfold nodes. rewrite (node_count_sel (mo i) L _ _ (mtree i Hi)) by exact Hd. exact H0.
  Qed.
  Lemma shift_back m r : -1 <= r -> (r = -1 /\ shift_row (Z.of_nat m) r = -1) \/ (0 <= r /\ shift_row (Z.of_nat m) r = r + Z.of_nat m).
  Proof. intros H. unfold shift_row. destruct (Z.ltb_spec r 0); [left|right]; lia. Qed.
  Lemma rowno_ge ks k : -1 <= rowno ks k.
  Proof. unfold rowno. destruct (index_of k ks); lia. Qed.
  Lemma key_split d b x y z : key_of d b x y z = b * 2 ^ 48 + key_of d 0 x y z.
  Proof. unfold key_of. lia. Qed.
  Lemma key_small d x y z : (d <= L)%nat -> 0 <= key_of d 0 x y z < 2 ^ 48.
  Proof. intros Hd. pose proof L16. pose proof (pow8_lt48 d ltac:(lia)). pose proof (morton_range d x y z). unfold key_of. lia. Qed.

  Lemma nth_error_ext_lt {A} (l m : list A) : length l = length m -> (forall q, (q < length l)%nat -> nth_error l q = nth_error m q) -> l = m.
  Proof.
    intros E H. apply ListFacts.nth_error_ext. intros q. destruct (Nat.lt_ge_cases q (length l)) as [Hq|Hq]; [apply H; exact Hq|].
    rewrite (proj2 (nth_error_None l q) Hq). symmetry. apply nth_error_None. lia.
  Qed.

  (** ** voxels *)
  Lemma vox_row_split d i x y z : in_cube d x y z -> vox_row d (Z.of_nat i) x y z = (i * 8 ^ d + vox_row d 0 x y z)%nat.
  Proof.
    intros (Hx & Hy & Hz). unfold in_grid in *. unfold vox_row. apply Nat2Z.inj. rewrite Nat2Z.inj_add, Nat2Z.inj_mul, pow8_nat. set (p := 2 ^ Z.of_nat d) in *.
    assert (E : 8 ^ Z.of_nat d = p * p * p) by (unfold p; change 8 with (2 * 2 * 2); rewrite !Z.pow_mul_l; ring). rewrite E, !Z2Nat.id by nia. ring.
  Qed.
  Lemma vox_row_onto d q : (q < 8 ^ d)%nat -> exists x y z, in_cube d x y z /\ vox_row d 0 x y z = q.
  Proof.
    intros Hq. set (p := 2 ^ Z.of_nat d). assert (Hp : 0 < p) by (apply Z.pow_pos_nonneg; lia).
    assert (E : 8 ^ Z.of_nat d = p * p * p) by (unfold p; change 8 with (2 * 2 * 2); rewrite !Z.pow_mul_l; ring).
    assert (Hq' : Z.of_nat q < p * p * p) by (rewrite <- E, <- pow8_nat; lia).
    exists (Z.of_nat q / p / p), (Z.of_nat q / p mod p), (Z.of_nat q mod p). unfold in_cube, in_grid, vox_row. fold p. split.
    - split; [|split; apply Z.mod_pos_bound; exact Hp]. split; [apply Z.div_pos; [apply Z.div_pos; lia|exact Hp]|]. apply Z.div_lt_upper_bound; [exact Hp|]. apply Z.div_lt_upper_bound; [exact Hp|]. lia.
    - apply Nat2Z.inj. rewrite Z2Nat.id.
      + pose proof (Z.div_mod (Z.of_nat q) p ltac:(lia)). pose proof (Z.div_mod (Z.of_nat q / p) p ltac:(lia)). nia.
      + pose proof (Z.mod_pos_bound (Z.of_nat q) p Hp). pose proof (Z.mod_pos_bound (Z.of_nat q / p) p Hp). assert (0 <= Z.of_nat q / p / p) by (apply Z.div_pos; [apply Z.div_pos; lia|exact Hp]). nia.
  Qed.
  Lemma run_voxel C d ne X x : (d <= L)%nat -> J (nodes d ne) C X x ->
    run (J (fun _ => (8 ^ d)%nat) C) (fun i => octree2voxel C (X i) (mo i) d ne) (octree2voxel C x o d ne).
  Proof.
    intros Hd HJ. pose proof L16 as H16.
    destruct (choose (fun i => octree2voxel C (X i) (mo i) d ne) (fun i vox => shape (8 ^ d) C vox /\ forall a b c, in_cube d a b c ->
      nth_error vox (vox_row d 0 a b c) = let e := rowno (sel_of (Ki i) ne d) (key_of d 0 a b c) in if e <? 0 then Some (vzero C) else nth_error (X i) (Z.to_nat e))) as (V & HV).
    { intros i Hi. destruct (tree_voxel (mo i) L _ _ C (X i) d ne (mtree i Hi) Hd) as (vox & E & S & V1 & V2); [apply HJ; exact Hi|]. exists vox. split; [exact E|]. rewrite mbatch, Nat.mul_1_l in S by exact Hi. split; [exact S|].
      intros a b c Hc. cbn zeta. destruct (rowno_found (sel_of (Ki i) ne d) (key_of d 0 a b c)) as [[E0 E1]|[E0 E1]].
      - rewrite (proj2 (Z.ltb_ge _ _) E0). apply V1; [exact E1|exact Hc].
      - rewrite E0. cbn [Z.ltb Z.compare]. apply V2; [exact Hc|rewrite mbatch by exact Hi; lia|exact E1]. }
    destruct (tree_voxel o L _ _ C x d ne otree Hd (J_shape d ne C X x Hd HJ)) as (vox & E & S & V1 & V2).
    exists V, vox. split; [intros i Hi; apply HV; exact Hi|]. split; [exact E|]. split; [|intros i Hi; apply HV; exact Hi].
    assert (El : length (cat (fun i => repeat tt (8 ^ d))) = (n * 8 ^ d)%nat).
    { unfold Verif.CatFacts.cat. rewrite <- (seq_length n 0) at 2. induction (seq 0 n) as [|a l IH]; [reflexivity|]. cbn [map concat length]. rewrite app_length, repeat_length, IH. reflexivity. }
    destruct (cat_cut n (fun _ => (8 ^ d)%nat) vox) as (Z & EZ & LZ). { rewrite El, <- HB. apply S. }
    rewrite EZ. apply cat_ext. intros i Hi. apply nth_error_ext_lt; [rewrite LZ by exact Hi; symmetry; apply HV; exact Hi|]. intros q Hq. rewrite LZ in Hq by exact Hi.
    destruct (vox_row_onto d q Hq) as (a & b & c & Hc & <-). destruct (HV i Hi) as [_ [_ HVi]]. rewrite (HVi a b c Hc). clear HVi. cbn zeta.
    assert (EQ : nth_error (Z i) (vox_row d 0 a b c) = nth_error vox (vox_row d (Z.of_nat i) a b c)).
    { rewrite (vox_row_split d i a b c Hc), EZ. destruct (cat_split Z i Hi) as (post & ->).
      assert (E8 : length (concat (map Z (seq 0 i))) = (i * 8 ^ d)%nat).
      { rewrite <- (seq_length i 0) at 2. assert (G : forall j, In j (seq 0 i) -> length (Z j) = (8 ^ d)%nat) by (intros j Hj; apply in_seq in Hj; apply LZ; lia). clear -G.
        induction (seq 0 i) as [|s l IH]; [reflexivity|]. cbn [map concat length]. rewrite app_length, IH; [rewrite (G s); [reflexivity|left; reflexivity]|]. intros j Hj. apply G. right. exact Hj. }
      rewrite nth_error_app2 by lia. rewrite E8. replace (i * 8 ^ d + vox_row d 0 a b c - i * 8 ^ d)%nat with (vox_row d 0 a b c) by lia.
      rewrite nth_error_app1; [reflexivity|]. rewrite LZ by exact Hi. exact Hq. }
    rewrite EQ. pose proof (sel_row d ne i (key_of d 0 a b c) Hd Hi (key_small d a b c Hd)) as ER. rewrite <- key_split in ER.
    destruct (shift_back (off d ne i) _ (rowno_ge (sel_of (Ki i) ne d) (key_of d 0 a b c))) as [[F1 F2]|[F1 F2]]; rewrite F2 in ER.
    - rewrite F1. cbn [Z.ltb Z.compare]. apply V2; [exact Hc|rewrite HB; lia|]. destruct (rowno_found (sel (mK kms) (mM kms) ne d) (key_of d (Z.of_nat i) a b c)) as [[G _]|[_ G]]; [lia|exact G].
    - rewrite (proj2 (Z.ltb_ge _ _) F1). destruct (rowno_found (sel (mK kms) (mM kms) ne d) (key_of d (Z.of_nat i) a b c)) as [[_ G]|[G _]]; [|lia].
      rewrite (V1 _ _ _ _ _ G Hc), ER. replace (Z.to_nat (rowno (sel_of (Ki i) ne d) (key_of d 0 a b c) + Z.of_nat (off d ne i))) with (off d ne i + Z.to_nat (rowno (sel_of (Ki i) ne d) (key_of d 0 a b c)))%nat by lia.
      apply (cat_row d ne C X x i _ Hd HJ Hi). apply rowno_lt; assumption.
  Qed.
  Lemma chunk_cat {A} v (V : nat -> list A) l : (forall i, In i l -> length (V i) = v) -> chunk_rows (length l) v (concat (map V l)) = map V l.
  Proof.
    induction l as [|a l IH]; intros H; [reflexivity|]. cbn [length map concat chunk_rows]. pose proof (H a (or_introl eq_refl)) as E.
    rewrite firstn_app, <- E, Nat.sub_diag, firstn_O, app_nil_r, firstn_all. rewrite skipn_app, skipn_all, Nat.sub_diag. cbn [skipn app]. rewrite E, IH; [reflexivity|]. intros i Hi. apply H. right. exact Hi.
  Qed.
  Lemma J_flatten C v X x : J (fun _ => v) C X x -> J one (v * C) (fun i => flatten_vox 1 v (X i)) (flatten_vox n v x).
  Proof.
    intros [-> S]. assert (E : forall i, (i < n)%nat -> flatten_vox 1 v (X i) = [concat (X i)]).
    { intros i Hi. unfold flatten_vox. cbn [chunk_rows map]. rewrite <- (proj1 (S i Hi)), firstn_all. reflexivity. }
    split.
    - unfold flatten_vox at 1. rewrite <- (seq_length n 0) at 1. unfold Verif.CatFacts.cat at 1. rewrite chunk_cat by (intros i Hi; apply in_seq0 in Hi; apply S; exact Hi).
      rewrite map_map, <- (cat_one (fun i => concat (X i))). apply cat_ext. intros i Hi. symmetry. apply E. exact Hi.
    - intros i Hi. rewrite E by exact Hi. split; [reflexivity|]. constructor; [|constructor]. destruct (S i Hi) as [E1 F1]. rewrite (concat_len C) by exact F1. rewrite E1. reflexivity.
  Qed.

  (** ** interpolation at query points *)
  Definition nrow (C : nat) (ks : list Z) (data : feat) (d : nat) (p : qpoint) : vec :=
    let e := rowno ks (pkey d p) in if -1 <? e then nth (Z.to_nat e) data [] else vzero C.
  Definition lsum (ks : list Z) (d : nat) (p : qpoint) (f : Z -> Qc) : Qc :=
    sum_n 8 (fun k => let g := nth k corner_grid g0 in let e := rowno ks (pkey d (cell_pt (corner_of p g))) in
      if (-1 <? e) && (negb false || in_bound d (fst (cell_pt (corner_of p g)))) then (corner_weight (fst p) g * f e)%Qc else 0%Qc).
  Definition lrow (C : nat) (ks : list Z) (data : feat) (d : nat) (p : qpoint) : vec :=
    map (fun c => (lsum ks d p (fun e => at2 data (Z.to_nat e) c) / (lsum ks d p (fun _ => 1%Qc) + tiny))%Qc) (seq 0 C).
  Lemma nearest_map oo K M d ne C data pts : tree_upto oo L K M -> (d <= L)%nat -> shape (node_count oo d ne) C data -> Forall batch_in pts ->
    octree_nearest_pts C data oo d pts ne false = Ok (map (nrow C (sel K M ne d) data d) pts).
  Proof.
    intros T Hd Hx Hb. destruct (tree_search_pts oo L K M T d ne pts Hd Hb) as (idx & Es & Hl & Hf). unfold octree_nearest_pts.
    rewrite (tree_check oo L K M T) by (exact Hd || apply Hx). cbn [bind]. rewrite Es. cbn [bind]. unfold valid_mask.
    rewrite (put_rows data (vzero C) idx (map (fun i => -1 <? i) idx) (length pts)); [|exact Hl|rewrite map_length; exact Hl|].
    - f_equal. apply nth_error_ext_lt; [rewrite map_length; apply zip_len; [exact Hl|rewrite map_length; exact Hl]|]. intros q Hq. rewrite (zip_len _ _ _ (length pts)) in Hq by (try rewrite map_length; exact Hl).
      destruct (nth_error pts q) as [p|] eqn:Ep; [|apply nth_error_None in Ep; lia]. destruct (nth_error idx q) as [e|] eqn:Ee; [|apply nth_error_None in Ee; lia].
      rewrite (zip_nth_error _ _ _ _ _ _ Ee (map_nth_error _ _ _ Ee)), (map_nth_error _ _ _ Ep). f_equal. unfold nrow, put_row.
      rewrite (found_unique (sel K M ne d) (pkey d p) e (rowno (sel K M ne d) (pkey d p))); [reflexivity|apply (sel_sorted oo L K M T); exact Hd|apply (Hf q); assumption|apply rowno_found].
    - intros i e Ee Ht. rewrite (map_nth_error _ _ _ Ee) in Ht. apply some_inj in Ht. apply Z.ltb_lt in Ht.
      destruct (nth_error pts i) as [p|] eqn:Ep; [|apply nth_error_None in Ep; assert (i < length idx)%nat by (apply nth_error_Some; rewrite Ee; discriminate); lia].
      apply (found_row oo L K M T d ne (pkey d p) e C data Hd Hx (Hf i p e Ep Ee)). lia.
  Qed.
  Lemma linear_map oo K M d ne C data pts : tree_upto oo L K M -> (d <= L)%nat -> shape (node_count oo d ne) C data -> Forall batch_in pts ->
    octree_linear_pts C data oo d pts ne false = Ok (map (lrow C (sel K M ne d) data d) pts).
  Proof.
    intros T Hd Hx Hb. destruct (tree_search_pts oo L K M T d ne (corners pts) Hd (corner_batch pts Hb)) as (idx & Es & Hl & Hf).
    assert (Hcl : length (corners pts) = (length pts * 8)%nat) by (apply blocks_len; intros; reflexivity).
    destruct (linear_form oo d ne false C data pts idx) as (y & E & Sy & F).
    - apply (tree_check oo L K M T); [exact Hd|apply Hx].
    - apply Hx.
    - exact Es.
    - exact Hl.
    - intros m Hm. destruct (nth_error idx m) as [e|] eqn:Ee; [|rewrite nth_overflow in Hm by (apply nth_error_None; exact Ee); lia].
      rewrite (nth_of_error _ _ _ (-1) Ee) in *. destruct (nth_error (corners pts) m) as [p|] eqn:Ep.
      + apply (found_row oo L K M T d ne (pkey d p) e C data Hd Hx (Hf m p e Ep Ee)). lia.
      + exfalso. apply nth_error_None in Ep. assert (m < length idx)%nat by (apply nth_error_Some; rewrite Ee; discriminate). lia.
    - rewrite E. f_equal. apply (shape_ext (length pts) C); [exact Sy| |].
      + split; [apply map_length|]. apply Forall_map, Forall_forall. intros p _. unfold lrow. rewrite map_length. apply seq_length.
      + intros r c Hr Hc. rewrite (F r c Hr Hc). cbn zeta.
        assert (E2 : at2 (map (lrow C (sel K M ne d) data d) pts) r c = (lsum (sel K M ne d) d (nth r pts p0) (fun e => at2 data (Z.to_nat e) c) / (lsum (sel K M ne d) d (nth r pts p0) (fun _ => 1%Qc) + tiny))%Qc).
        { unfold at2 at 1. rewrite (nth_map_lt (lrow C (sel K M ne d) data d) pts r p0 []) by exact Hr. unfold lrow. rewrite nth_map_seq by exact Hc. reflexivity. }
        rewrite E2.
        assert (G : forall f, lsum (sel K M ne d) d (nth r pts p0) f = sum_n 8 (fun k => let g := nth k corner_grid g0 in let e := nth (r * 8 + k) idx (-1) in let p := nth r pts p0 in
          if (-1 <? e) && (negb false || in_bound d (fst (cell_pt (corner_of p g)))) then (corner_weight (fst p) g * f e)%Qc else 0%Qc)).
        { intros f. apply sum_ext. intros k Hk. cbn zeta.
          rewrite (found_unique (sel K M ne d) (pkey d (cell_pt (corner_of (nth r pts p0) (nth k corner_grid g0)))) (rowno (sel K M ne d) (pkey d (cell_pt (corner_of (nth r pts p0) (nth k corner_grid g0))))) (nth (r * 8 + k) idx (-1)));
            [reflexivity|apply (sel_sorted oo L K M T); exact Hd|apply rowno_found|]. apply (Hf (r * 8 + k)%nat).
          - rewrite <- (nth_map_lt (fun g => cell_pt (corner_of (nth r pts p0) g)) corner_grid k g0 p0) by exact Hk. rewrite <- (nth_blocks (fun p => map (fun g => cell_pt (corner_of p g)) corner_grid) pts 8 r k p0) by (reflexivity || assumption).
            fold (corners pts). apply nth_error_nth'. nia.
          - apply nth_error_nth'. nia. }
        rewrite !G. reflexivity.
  Qed.
  Definition tag (i : nat) (p : qpoint) : qpoint := (fst p, Z.of_nat i).
  Lemma pkey_tag d i p : snd p = 0 -> pkey d (tag i p) = Z.of_nat i * 2 ^ 48 + pkey d p.
  Proof. destruct p as [[[x y] z] b]. cbn [snd tag fst pkey]. intros ->. apply key_split. Qed.
  Lemma pkey_small d p : (d <= L)%nat -> snd p = 0 -> 0 <= pkey d p < 2 ^ 48.
  Proof. destruct p as [[[x y] z] b]. cbn [snd pkey]. intros Hd ->. apply key_small. exact Hd. Qed.
  Lemma corner_tag i p g : cell_pt (corner_of (tag i p) g) = tag i (cell_pt (corner_of p g)).
  Proof. destruct p as [v b]. destruct g as [[gx gy] gz]. unfold tag. cbn [fst corner_of]. destruct (base_of v) as [[x y] z]. reflexivity. Qed.
  Lemma corner_zero p g : snd p = 0 -> snd (cell_pt (corner_of p g)) = 0.
  Proof. destruct p as [v b]. destruct g as [[gx gy] gz]. cbn [snd corner_of]. destruct (base_of v) as [[x y] z]. auto. Qed.
  Lemma nrow_tag C d ne X x i p : (d <= L)%nat -> (i < n)%nat -> snd p = 0 -> J (nodes d ne) C X x ->
    nrow C (sel (mK kms) (mM kms) ne d) x d (tag i p) = nrow C (sel_of (Ki i) ne d) (X i) d p.
  Proof.
    intros Hd Hi Hp HJ. unfold nrow. rewrite pkey_tag, sel_row by (assumption || apply pkey_small; assumption).
    destruct (shift_back (off d ne i) _ (rowno_ge (sel_of (Ki i) ne d) (pkey d p))) as [[F1 F2]|[F1 F2]]; rewrite F2; [rewrite F1; reflexivity|].
    rewrite (proj2 (Z.ltb_lt _ _)) by lia. rewrite (proj2 (Z.ltb_lt (-1) _)) by lia.
    pose proof (rowno_lt d ne i (pkey d p) Hd Hi F1) as Hlt. pose proof (cat_row d ne C X x i _ Hd HJ Hi Hlt) as E.
    replace (Z.to_nat (rowno (sel_of (Ki i) ne d) (pkey d p) + Z.of_nat (off d ne i))) with (off d ne i + Z.to_nat (rowno (sel_of (Ki i) ne d) (pkey d p)))%nat by lia.
    destruct (nth_error (X i) (Z.to_nat (rowno (sel_of (Ki i) ne d) (pkey d p)))) as [v|] eqn:Ev.
    - rewrite (nth_of_error _ _ _ [] E), (nth_of_error _ _ _ [] Ev). reflexivity.
    - apply nth_error_None in Ev. destruct HJ as [_ S]. rewrite (proj1 (S i Hi)) in Ev. lia.
  Qed.
  Lemma lsum_tag d ne i p f f' : (d <= L)%nat -> (i < n)%nat -> snd p = 0 ->
    (forall e, 0 <= e -> (Z.to_nat e < nodes d ne i)%nat -> f (e + Z.of_nat (off d ne i)) = f' e) ->
    lsum (sel (mK kms) (mM kms) ne d) d (tag i p) f = lsum (sel_of (Ki i) ne d) d p f'.
  Proof.
    intros Hd Hi Hp Hf. unfold lsum. apply sum_ext. intros k Hk. cbn zeta. rewrite corner_tag. set (q := cell_pt (corner_of p (nth k corner_grid g0))).
    assert (Hq : snd q = 0) by (apply corner_zero; exact Hp). rewrite pkey_tag, sel_row by (assumption || apply pkey_small; assumption). cbn [negb orb]. rewrite !andb_true_r.
    destruct (shift_back (off d ne i) _ (rowno_ge (sel_of (Ki i) ne d) (pkey d q))) as [[F1 F2]|[F1 F2]]; rewrite F2; [rewrite F1; reflexivity|].
    rewrite (proj2 (Z.ltb_lt (-1) _)) by lia. rewrite (proj2 (Z.ltb_lt (-1) (rowno _ _))) by lia. cbn [tag fst]. rewrite Hf; [reflexivity|exact F1|]. apply rowno_lt; assumption.
  Qed.
  Lemma lrow_tag C d ne X x i p : (d <= L)%nat -> (i < n)%nat -> snd p = 0 -> J (nodes d ne) C X x ->
    lrow C (sel (mK kms) (mM kms) ne d) x d (tag i p) = lrow C (sel_of (Ki i) ne d) (X i) d p.
  Proof.
    intros Hd Hi Hp HJ. unfold lrow. apply map_ext. intros c. rewrite (lsum_tag d ne i p (fun _ => 1%Qc) (fun _ => 1%Qc) Hd Hi Hp) by reflexivity.
    rewrite (lsum_tag d ne i p (fun e => at2 x (Z.to_nat e) c) (fun e => at2 (X i) (Z.to_nat e) c) Hd Hi Hp); [reflexivity|].
    intros e He Hlt. pose proof (cat_row d ne C X x i _ Hd HJ Hi Hlt) as E. replace (Z.to_nat (e + Z.of_nat (off d ne i))) with (off d ne i + Z.to_nat e)%nat by lia.
    unfold at2. destruct (nth_error (X i) (Z.to_nat e)) as [v|] eqn:Ev.
    - rewrite (nth_of_error _ _ _ [] E), (nth_of_error _ _ _ [] Ev). reflexivity.
    - apply nth_error_None in Ev. destruct HJ as [_ S]. rewrite (proj1 (S i Hi)) in Ev. lia.
  Qed.
  (** the points of the members as one query *)
  Definition JQ (Q : nat -> list qpoint) (q : list qpoint) : Prop := q = cat (fun i => map (tag i) (Q i)) /\ forall i, (i < n)%nat -> Forall (fun p => snd p = 0) (Q i).
  Definition counts (Q : nat -> list qpoint) (i : nat) : nat := length (Q i).
  Definition JFQ (N : nat -> nat) (C : nat) (Y : nat -> feat * list qpoint) (y : feat * list qpoint) : Prop :=
    J N C (fun i => fst (Y i)) (fst y) /\ JQ (fun i => snd (Y i)) (snd y).
  Lemma run_interp lin ne C d X x Q q : (d <= L)%nat -> Z.of_nat n <= 32768 -> J (nodes d ne) C X x -> JQ Q q ->
    run (JFQ (counts Q) C) (fun i => interp lin ne C (X i) (mo i) (Z.of_nat d) (Q i)) (interp lin ne C x o (Z.of_nat d) q).
  Proof.
    intros Hd H15 HJ [Eq Hq]. set (resc := fun p : qpoint => (v3map (fun c => (c + 1) * q2pow (Z.of_nat d - 1))%Qc (fst p), snd p)).
    assert (A : forall z oo pts, interp lin ne C z oo (Z.of_nat d) pts =
      (out <- (if lin then octree_linear_pts C z oo d (map resc pts) ne false else octree_nearest_pts C z oo d (map resc pts) ne false) ;; Ok (out, map resc pts))).
    { intros z oo pts. unfold interp, at_depth. replace (Z.of_nat d <? 0) with false by (symmetry; apply Z.ltb_ge; lia). rewrite Nat2Z.id. unfold interp_forward.
      replace (map (fun '(p, b) => (v3map (fun c => (c + 1) * q2pow (Z.of_nat d - 1))%Qc p, b)) pts) with (map resc pts); [reflexivity|]. apply map_ext. intros [p b]. reflexivity. }
    assert (Et : map resc q = cat (fun i => map (tag i) (map resc (Q i)))).
    { rewrite Eq, cat_map. apply cat_ext. intros i Hi. rewrite !map_map. apply map_ext. intros p. reflexivity. }
    assert (Hz : forall i, (i < n)%nat -> Forall (fun p => snd p = 0) (map resc (Q i))).
    { intros i Hi. apply Forall_map. eapply Forall_impl; [|apply Hq; exact Hi]. intros p Hp. exact Hp. }
    assert (Bi : forall i, (i < n)%nat -> Forall batch_in (map resc (Q i))).
    { intros i Hi. eapply Forall_impl; [|apply Hz; exact Hi]. intros p Hp. unfold batch_in. rewrite Hp. lia. }
    assert (Bq : Forall batch_in (map resc q)).
    { rewrite Et. apply cat_Forall. intros i Hi. apply Forall_map, Forall_forall. intros p _. unfold batch_in. cbn [tag snd]. lia. }
    set (row := fun ks z => if lin then lrow C ks z d else nrow C ks z d).
    exists (fun i => (map (row (sel_of (Ki i) ne d) (X i)) (map resc (Q i)), map resc (Q i))), (map (row (sel (mK kms) (mM kms) ne d) x) (map resc q), map resc q).
    split; [|split; [|split]].
    - intros i Hi. rewrite A. unfold row. destruct HJ as [_ S]. destruct lin; [rewrite (linear_map (mo i) _ _ d ne C (X i) _ (mtree i Hi) Hd (S i Hi) (Bi i Hi))|rewrite (nearest_map (mo i) _ _ d ne C (X i) _ (mtree i Hi) Hd (S i Hi) (Bi i Hi))]; reflexivity.
    - rewrite A. unfold row. destruct lin; [rewrite (linear_map o _ _ d ne C x _ otree Hd (J_shape d ne C X x Hd HJ) Bq)|rewrite (nearest_map o _ _ d ne C x _ otree Hd (J_shape d ne C X x Hd HJ) Bq)]; reflexivity.
    - cbn [fst]. split.
      + rewrite Et, cat_map. apply cat_ext. intros i Hi. rewrite map_map. apply map_ext_in. intros p Hp. pose proof (Hz i Hi) as F. rewrite Forall_forall in F. specialize (F p Hp).
        unfold row. destruct lin; [apply lrow_tag|apply nrow_tag]; assumption.
      + intros i Hi. split; [rewrite !map_length; reflexivity|]. apply Forall_map, Forall_forall. intros p _. unfold row. destruct lin.
        * unfold lrow. rewrite map_length. apply seq_length.
        * unfold nrow. destruct (Z.ltb_spec (-1) (rowno (sel_of (Ki i) ne d) (pkey d p))); [|apply repeat_length].
          apply (shape_nth (nodes d ne i) C); [apply HJ; exact Hi|]. apply rowno_lt; [exact Hd|exact Hi|lia].
    - split; [exact Et|exact Hz].
  Qed.
  Lemma run_open {S} N C (R : (nat -> S) -> S -> Prop) F f G g : run (JFQ N C) F f ->
    (forall Y y Z z, J N C Y y -> JQ Z z -> run R (fun i => G i (Y i) (Z i)) (g y z)) ->
    run R (fun i => bind (F i) (fun ab => let '(a, b) := ab in G i a b)) (bind f (fun ab => let '(a, b) := ab in g a b)).
  Proof.
    intros H K. eapply run_bind; [exact H|]. intros Y y [H1 H2]. eapply run_ext; [| |apply (K _ _ _ _ H1 H2)].
    - intros i Hi. cbn beta. destruct (Y i). reflexivity.
    - destruct y. reflexivity.
  Qed.
  Lemma join_points_cat Q : join_points (map Q (seq 0 n)) = cat (fun i => map (tag i) (Q i)).
  Proof using.
    clear. unfold join_points, Verif.CatFacts.cat. f_equal. change 0 with (Z.of_nat 0). generalize 0%nat as s. generalize n as m. induction m as [|m IH]; intros s; [reflexivity|].
    cbn [seq map indexed]. f_equal; [apply map_ext; intros [p b]; reflexivity|]. replace (Z.of_nat s + 1) with (Z.of_nat (S s)) by lia. apply IH.
  Qed.

  (** ** networks *)
  Ltac small := apply chan_le; try assumption.
  Lemma last_is_nth (l : list nat) m : length l = S m -> last l O = nth m l O.
  Proof.
    revert m. induction l as [|a l IH]; intros m H; [discriminate|]. destruct l as [|b l]; [cbn in H; assert (m = O) by lia; subst; reflexivity|].
    destruct m as [|m]; [discriminate|]. change (last (b :: l) O = nth m (b :: l) O). apply IH. cbn in H |- *. lia.
  Qed.
  Section BUnet.
    Variables (g : unet_cfg) (P : params) (cin cout dep : nat) (ne : bool).
    Hypothesis G : unet_config g.
    Hypothesis HP : eval_mode P.
    Notation es := (length (u_enc_blk g)).
    Notation ds := (length (u_dec_blk g)).
    Notation enc j := (nth j (u_enc_ch g) O).
    Notation dec j := (nth j (u_dec_ch g) O).
    Hypothesis Hdep : (es < dep <= L)%nat.
    Hypothesis Hcin : channel_ok cin.
    Definition JD (k : nat) (D : nat -> ddict feat) (c : ddict feat) : Prop := forall j, (j <= k)%nat ->
      run (J (nodes (dep - j) ne) (enc j)) (fun i => dfind (D i) (Z.of_nat (dep - j))) (dfind c (Z.of_nat (dep - j))).
    Lemma run_unet_down k D c : (k < es)%nat -> JD k D c ->
      run (JD (S k)) (fun i => unet_down g P ne (mo i) (Z.of_nat dep) (D i) (Z.of_nat k)) (unet_down g P ne o (Z.of_nat dep) c (Z.of_nat k)).
    Proof.
      intros Hk H. pose proof (uc_enc g G) as Hl. unfold unet_down. rewrite (tget_len _ k O) by lia. cbn [bind].
      replace (Z.of_nat k + 1) with (Z.of_nat (S k)) by lia. rewrite (tget_len _ (S k) O) by lia. cbn [bind]. rewrite (tget_len (u_enc_blk g) k O) by lia. cbn [bind].
      replace (Z.of_nat dep - Z.of_nat k) with (Z.of_nat (dep - k)) by lia. eapply run_bind; [apply (H k); lia|]. intros X x HX.
      replace (Z.of_nat (dep - k) - 1) with (Z.of_nat (dep - S k)) by lia. assert (Hdn : down (dep - k) 2 = (dep - S k)%nat) by (unfold down; cbn [Z.eqb Pos.eqb]; lia).
      eapply run_bind; [apply (run_conv_bn_relu P _ _ (enc (S k)) [2%nat] 2 ne (dep - k) X x HP); [auto|lia|auto|small; apply forall_nth_ok, G|exact HX]|]. rewrite Hdn.
      intros Y y HY. eapply run_bind; [apply (run_res_blocks P _ (enc (S k)) (enc (S k)) _ _ ne (u_basic g) (dep - S k) Y y HP); [lia|apply G|apply forall_nth_ok, G|small; apply forall_nth_ok, G|auto|exact HY]|].
      intros U u HU. apply run_ret. intros j Hj. destruct (Nat.eq_dec j (S k)) as [->|N].
      - rewrite dfind_put, Z.eqb_refl. apply (run_ext _ (fun i => Ok (U i)) _ (Ok u)); [|reflexivity|apply run_ret; exact HU]. intros i Hi. rewrite dfind_put, Z.eqb_refl. reflexivity.
      - assert (E : (Z.of_nat (dep - j) =? Z.of_nat (dep - S k)) = false) by (apply Z.eqb_neq; lia). rewrite dfind_put, E.
        eapply run_ext; [|reflexivity|apply (H j); lia]. intros i Hi. cbn beta. rewrite dfind_put, E. reflexivity.
    Qed.
    Lemma run_unet_encoder X x : J (nodes dep ne) cin X x -> run (JD es) (fun i => unet_encoder g P cin ne (X i) (mo i) (Z.of_nat dep)) (unet_encoder g P cin ne x o (Z.of_nat dep)).
    Proof.
      intros HX. pose proof (uc_enc g G) as Hl. unfold unet_encoder. change 0 with (Z.of_nat 0). rewrite (tget_len _ 0 O) by lia. cbn [bind].
      eapply run_bind; [apply (run_conv_bn_relu P _ cin (enc 0) [3%nat] 1 ne dep X x HP); [auto|lia|auto|small|exact HX]|].
      intros Y y HY. apply (run_fold JD (fun i => unet_down g P ne (mo i) (Z.of_nat dep)) (unet_down g P ne o (Z.of_nat dep)) es (fun i => dput [] (Z.of_nat dep) (Y i)) (dput [] (Z.of_nat dep) y)).
      - intros j Hj. assert (j = O) by lia. subst j. rewrite Nat.sub_0_r, dfind_put, Z.eqb_refl. apply (run_ext _ (fun i => Ok (Y i)) _ (Ok y)); [|reflexivity|apply run_ret; exact HY].
        intros i Hi. rewrite dfind_put, Z.eqb_refl. reflexivity.
      - intros k D c Hk HD. apply run_unet_down; assumption.
    Qed.
    Lemma run_unet_up D c k X x : JD es D c -> (k < ds)%nat -> J (nodes (dep - es + k) ne) (dec k) X x ->
      run (J (nodes (dep - es + S k) ne) (dec (S k))) (fun i => unet_up g P ne (mo i) (Z.of_nat (dep - es)) (D i) (X i) (Z.of_nat k)) (unet_up g P ne o (Z.of_nat (dep - es)) c x (Z.of_nat k)).
    Proof.
      intros H Hk HX. pose proof (uc_enc g G) as Hl. pose proof (uc_dec g G) as Hl2. pose proof (uc_stages g G) as Hst. unfold unet_up.
      rewrite (tget_len _ k O) by lia. cbn [bind]. replace (Z.of_nat k + 1) with (Z.of_nat (S k)) by lia. rewrite (tget_len _ (S k) O) by lia. cbn [bind].
      replace (- Z.of_nat k - 2) with (- Z.of_nat (k + 2)) by lia. rewrite (tget_neg _ (k + 2) O) by lia. cbn [bind]. rewrite (tget_len (u_dec_blk g) k O) by lia. cbn [bind].
      replace (Z.of_nat (dep - es) + Z.of_nat k) with (Z.of_nat (dep - es + k)) by lia. replace (Z.of_nat (dep - es + k) + 1) with (Z.of_nat (dep - es + S k)) by lia.
      assert (Hup : up (dep - es + k) 2 = (dep - es + S k)%nat) by (unfold up; cbn [Z.eqb Pos.eqb]; lia).
      pose proof (forall_nth_ok _ (S k) (uc_dec_small g G)) as Hc1. pose proof (forall_nth_ok _ (length (u_enc_ch g) - (k + 2)) (uc_enc_small g G)) as Hc2.
      eapply run_bind; [apply (run_deconv_bn_relu P _ (dec k) (dec (S k)) [2%nat] 2 ne (dep - es + k) X x HP); [auto|rewrite Hup; lia|auto|small|exact HX]|]. rewrite Hup.
      intros Y y HY. eapply run_bind; [pose proof (H (es - S k)%nat ltac:(lia)) as R; replace (dep - (es - S k))%nat with (dep - es + S k)%nat in R by lia; exact R|]. intros U u HU.
      eapply run_bind; [apply (run_cat _ _ _ U u Y y HU HY)|]. intros V v HV. replace (es - S k)%nat with (length (u_enc_ch g) - (k + 2))%nat in HV by lia. rewrite (Nat.add_comm (enc _)) in HV.
      apply run_res_blocks; [exact HP|lia|apply G|exact Hc1|unfold channel_ok in Hc1, Hc2; lia| |exact HV].
      left. intros E. pose proof (uc_blocks g G) as F. rewrite Forall_forall in F. apply (F (nth k (u_dec_blk g) O)); [apply nth_In; exact Hk|exact E].
    Qed.
    Lemma run_unet lin X x Q q : Z.of_nat n <= 32768 -> J (nodes dep ne) cin X x -> JQ Q q ->
      run (JFQ (counts Q) cout) (fun i => UNet g P cin cout lin ne (X i) (mo i) (Z.of_nat dep) (Q i)) (UNet g P cin cout lin ne x o (Z.of_nat dep) q).
    Proof.
      intros H15 HX HQ. pose proof (uc_enc g G) as Hl. pose proof (uc_dec g G) as Hl2. pose proof (uc_stages g G) as Hst. unfold UNet.
      replace (Z.of_nat dep - zlen (u_enc_blk g)) with (Z.of_nat (dep - es)) by (unfold zlen; lia).
      replace (Z.of_nat (dep - es) + zlen (u_dec_blk g)) with (Z.of_nat (dep - es + ds)) by (unfold zlen; lia).
      eapply run_bind; [apply run_unet_encoder; exact HX|]. intros D c HD. eapply (run_bind (J (nodes (dep - es + ds) ne) (dec ds))).
      { unfold unet_decoder. eapply run_bind; [apply (HD es); lia|]. intros Y y HY.
        apply (run_fold (fun k => J (nodes (dep - es + k) ne) (dec k)) (fun i => unet_up g P ne (mo i) (Z.of_nat (dep - es)) (D i)) (unet_up g P ne o (Z.of_nat (dep - es)) c)).
        - rewrite Nat.add_0_r, (uc_joint g G), (last_is_nth _ es Hl). exact HY.
        - intros k V v Hk HV. apply run_unet_up; assumption. }
      intros Y y HY. change (-1) with (- Z.of_nat 1). rewrite (tget_neg _ 1 O) by lia. cbn [bind]. replace (length (u_dec_ch g) - 1)%nat with ds by lia.
      eapply run_open; [apply run_interp; [lia|exact H15|exact HY|exact HQ]|]. intros V v U u HV HU.
      eapply run_bind; [apply (run_head P _ _ _ cout _ _ _ HP HV)|]. intros A a HA. apply run_ret. split; [exact HA|exact HU].
    Qed.
  End BUnet.
  Lemma run_lenet P cin cout stages dep ne X x : eval_mode P -> (dep <= L)%nat -> (dep - stages = 2)%nat -> (1 <= stages)%nat -> channel_ok cin ->
    (forall d, (2 <= d < dep)%nat -> branch_all ne d) -> J (nodes dep ne) cin X x ->
    run (J one cout) (fun i => LeNet P cin cout stages ne (X i) (mo i) (Z.of_nat dep)) (LeNet P cin cout stages ne x o (Z.of_nat dep)).
  Proof.
    intros HP Hdep H2 Hst Hcin HBr HX. unfold LeNet. assert (Hl : length (cin :: stage_channels 7 stages) = S stages) by (cbn [length]; rewrite stage_len; reflexivity).
    eapply (run_bind (J (nodes 2 ne) 64)).
    { apply (run_weak (J (nodes (dep - stages) ne) (nth stages (cin :: stage_channels 7 stages) O))).
      { intros Y y HY. rewrite H2 in HY. replace stages with (S (stages - 1)) in HY at 1 by lia. cbn [nth] in HY. rewrite (stage_last 7 stages) in HY by lia. exact HY. }
      apply (run_fold (fun k => J (nodes (dep - k) ne) (nth k (cin :: stage_channels 7 stages) O)) (fun i => lenet_stage P (cin :: stage_channels 7 stages) ne (mo i) (Z.of_nat dep))
        (lenet_stage P (cin :: stage_channels 7 stages) ne o (Z.of_nat dep))).
      - rewrite Nat.sub_0_r. exact HX.
      - intros k V v Hk HV. unfold lenet_stage. rewrite (tget_len _ k O) by lia. cbn [bind]. replace (Z.of_nat k + 1) with (Z.of_nat (S k)) by lia. rewrite (tget_len _ (S k) O) by lia. cbn [bind].
        replace (Z.of_nat dep - Z.of_nat k) with (Z.of_nat (dep - k)) by lia.
        eapply run_bind; [apply (run_conv_bn_relu P _ _ (nth (S k) (cin :: stage_channels 7 stages) O) [3%nat] 1 ne (dep - k) V v HP); [auto|lia|auto|small; apply cons_stage_ok; [lia|exact Hcin]|exact HV]|].
        intros Y y HY. change (down (dep - k) 1) with (dep - k)%nat in HY. replace (dep - k)%nat with (S (dep - S k)) in HY |- * by lia. apply run_max_pool; [lia| |exact HY]. apply HBr. lia. }
    intros Y y HY. change (-1) with (- Z.of_nat 1). rewrite (tget_neg _ 1 O) by (rewrite Hl; lia). cbn [bind]. rewrite Hl.
    replace (nth (S stages - 1) (cin :: stage_channels 7 stages) O) with 64%nat
      by (replace (S stages - 1)%nat with (S (stages - 1)) by lia; cbn [nth]; symmetry; apply (stage_last 7 stages); lia).
    replace (Z.of_nat dep - Z.of_nat stages) with (Z.of_nat 2) by lia. unfold at_depth. change (Z.of_nat 2 <? 0) with false. cbv iota. rewrite Nat2Z.id.
    eapply run_bind; [apply run_voxel; [lia|exact HY]|]. intros V v HV. cbn zeta.
    assert (A : J one 4096 (fun i => flatten_vox (batch_size (mo i)) (8 ^ 2) (V i)) (flatten_vox (batch_size o) (8 ^ 2) v)).
    { rewrite HB. eapply J_ext; [|apply (J_flatten 64 _ V v HV)]. intros i Hi. cbn beta. rewrite mbatch by exact Hi. reflexivity. }
    destruct HP as [HP1 HP2]. assert (HP : eval_mode P) by (split; assumption).
    rewrite !(dropout_id P _ _ HP). eapply run_ext; [|reflexivity|].
    { intros i Hi. rewrite !(dropout_id P _ _ HP). reflexivity. }
    eapply run_bind; [apply (run_fc_bn_relu P _ 4096 128 _ _ _ HP A)|]. intros B b HB'. rewrite !(dropout_id P _ _ HP). eapply run_ext; [|reflexivity|apply run_linear; exact HB'].
    intros i Hi. cbn beta. rewrite !(dropout_id P _ _ HP). reflexivity.
  Qed.
  Lemma run_resnet P cin cout num stages dep ne X x : eval_mode P -> (stages <= dep <= L)%nat -> (1 <= stages)%nat -> (1 <= num)%nat -> channel_ok cin ->
    (forall d, (dep - stages <= d < dep)%nat -> branch_all ne d) -> J (nodes dep ne) cin X x ->
    run (J one cout) (fun i => ResNet P cin cout num stages ne (X i) (mo i) (Z.of_nat dep)) (ResNet P cin cout num stages ne x o (Z.of_nat dep)).
  Proof.
    intros HP Hdep Hst Hnum Hcin HBr HX. unfold ResNet. pose proof (stage_len 9 stages) as Hl. cbv zeta.
    change (tget (stage_channels 9 stages) 0) with (tget (stage_channels 9 stages) (Z.of_nat 0)).
    rewrite (tget_len _ 0 O) by lia. cbn [bind].
    eapply run_bind; [apply (run_conv_bn_relu P _ cin (nth 0 (stage_channels 9 stages) O) [3%nat] 1 ne dep X x HP); [auto|lia|auto|small|exact HX]|].
    intros Y y HY. change (down dep 1) with dep in HY. eapply (run_bind (J (nodes (dep - 1) ne) (nth 0 (stage_channels 9 stages) O))).
    { replace dep with (S (dep - 1)) in HY |- * by lia. replace (S (dep - 1) - 1)%nat with (dep - 1)%nat by lia. apply run_max_pool; [lia| |exact HY]. apply HBr. lia. }
    intros U u HU. eapply (run_bind (J (nodes (dep - S (stages - 1)) ne) (nth (stages - 1) (stage_channels 9 stages) O))).
    { apply (run_fold (fun k => J (nodes (dep - S k) ne) (nth k (stage_channels 9 stages) O)) (fun i => resnet_stage P (stage_channels 9 stages) num ne (mo i) (Z.of_nat dep))
        (resnet_stage P (stage_channels 9 stages) num ne o (Z.of_nat dep))).
      - exact HU.
      - intros k V v Hk HV. unfold resnet_stage. rewrite (tget_len _ k O) by lia. cbn [bind]. replace (Z.of_nat k + 1) with (Z.of_nat (S k)) by lia. rewrite (tget_len _ (S k) O) by lia. cbn [bind].
        replace (Z.of_nat dep - Z.of_nat k - 1) with (Z.of_nat (dep - S k)) by lia.
        eapply run_bind; [apply (run_res_blocks P _ (nth k (stage_channels 9 stages) O) (nth (S k) (stage_channels 9 stages) O) num 4 ne false (dep - S k) V v HP); [lia|lia|apply stage_ok; lia|apply chan_le, stage_ok; lia|lia|exact HV]|].
        intros A a HA. replace (dep - S k)%nat with (S (dep - S (S k))) in HA |- * by lia. apply run_max_pool; [lia| |exact HA]. apply HBr. lia. }
    intros V v HV. change (-1) with (- Z.of_nat 1). rewrite (tget_neg _ 1 O) by lia. cbn [bind]. rewrite Hl. replace (S (stages - 1)) with stages in HV by lia.
    replace (Z.of_nat dep - Z.of_nat stages) with (Z.of_nat (dep - stages)) by lia. unfold at_depth. replace (Z.of_nat (dep - stages) <? 0) with false by (symmetry; apply Z.ltb_ge; lia). rewrite Nat2Z.id.
    eapply run_bind; [apply run_global; [lia|exact HV]|]. intros A a HA. eapply run_bind; [apply (run_fc_bn_relu P _ _ 512 _ _ _ HP HA)|]. intros B b HB'. rewrite !(dropout_id P _ _ HP).
    eapply run_ext; [|reflexivity|apply run_linear; exact HB']. intros i Hi. cbn beta. rewrite !(dropout_id P _ _ HP). reflexivity.
  Qed.

  Section BSegnet.
    Variables (P : params) (cin cout stages dep : nat) (ne : bool).
    Hypothesis HP : eval_mode P.
    Hypothesis Hdep : (stages < dep <= L)%nat.
    Hypothesis Hst : (1 <= stages)%nat.
    Hypothesis HBr : forall d, (dep - stages <= d < dep)%nat -> branch_all ne d.
    Hypothesis Hcin : channel_ok cin.
    Notation st := (stage_channels 8 stages).
    Notation chs := (cin :: st).
    Notation ch i := (nth i chs O).
    Notation chs2 := (rev st ++ [nth 0 st O]).
    Lemma bseg : (stages <= dep <= depth o)%nat.
    Proof. rewrite odepth. lia. Qed.
    Definition JM (k : nat) (M : nat -> ddict (list (list Z))) (m : ddict (list (list Z))) : Prop := forall j, (j < k)%nat ->
      run (JI (nodes (dep - S j) true) (ch (S j))) (fun i => dfind (M i) (Z.of_nat (dep - j))) (dfind m (Z.of_nat (dep - j))).
    Lemma run_segnet_down k (V : nat -> feat * ddict (list (list Z))) v : (k < stages)%nat -> J (nodes (dep - k) ne) (ch k) (fun i => fst (V i)) (fst v) /\ JM k (fun i => snd (V i)) (snd v) ->
      run (fun V v => J (nodes (dep - S k) ne) (ch (S k)) (fun i => fst (V i)) (fst v) /\ JM (S k) (fun i => snd (V i)) (snd v))
        (fun i => segnet_down P chs ne (mo i) (Z.of_nat dep) (V i) (Z.of_nat k)) (segnet_down P chs ne o (Z.of_nat dep) v (Z.of_nat k)).
    Proof.
      intros Hk [HV HM]. pose proof (seg_len cin stages) as Hl.
      eapply (run_ext _ (fun i => let '(x, indices) := (fst (V i), snd (V i)) in segnet_down P chs ne (mo i) (Z.of_nat dep) (x, indices) (Z.of_nat k)) _ (segnet_down P chs ne o (Z.of_nat dep) (fst v, snd v) (Z.of_nat k))).
      { intros i Hi. destruct (V i). reflexivity. } { destruct v. reflexivity. }
      unfold segnet_down. rewrite (tget_len _ k O) by lia. cbn [bind]. replace (Z.of_nat k + 1) with (Z.of_nat (S k)) by lia. rewrite (tget_len _ (S k) O) by lia. cbn [bind].
      replace (Z.of_nat dep - Z.of_nat k) with (Z.of_nat (dep - k)) by lia.
      eapply run_bind; [apply (run_conv_bn_relu P _ (ch k) (ch (S k)) [3%nat] 1 ne (dep - k) _ _ HP); [auto|lia|auto|apply chan_le, cons_stage_ok; [lia|exact Hcin]|exact HV]|].
      intros Y y HY. change (down (dep - k) 1) with (dep - k)%nat in HY.
      eapply (run_bind (JP (nodes (dep - S k) ne) (nodes (dep - S k) true) (ch (S k)))).
      { replace (dep - k)%nat with (S (dep - S k)) in HY |- * by lia. apply run_max_pool_ind; [lia| |exact HY]. apply HBr. lia. }
      intros U u [HU1 HU2]. eapply (run_ext _ (fun i => Ok (fst (U i), dput (snd (V i)) (Z.of_nat (dep - k)) (snd (U i)))) _ (Ok (fst u, dput (snd v) (Z.of_nat (dep - k)) (snd u)))).
      { intros i Hi. destruct (U i). reflexivity. } { destruct u. reflexivity. }
      apply (run_ret (fun V v => J (nodes (dep - S k) ne) (ch (S k)) (fun i => fst (V i)) (fst v) /\ JM (S k) (fun i => snd (V i)) (snd v)) (fun i => (fst (U i), dput (snd (V i)) (Z.of_nat (dep - k)) (snd (U i)))) (fst u, dput (snd v) (Z.of_nat (dep - k)) (snd u))).
      cbn [fst snd]. split; [exact HU1|]. intros j Hj. destruct (Nat.eq_dec j k) as [->|N].
      - rewrite dfind_put, Z.eqb_refl. eapply (run_ext _ (fun i => Ok (snd (U i))) _ (Ok (snd u))); [|reflexivity|].
        + intros i Hi. rewrite dfind_put, Z.eqb_refl. reflexivity.
        + apply (run_ret _ (fun i => snd (U i)) (snd u)). exact HU2.
      - assert (E : (Z.of_nat (dep - j) =? Z.of_nat (dep - k)) = false) by (apply Z.eqb_neq; lia). rewrite dfind_put, E.
        eapply run_ext; [|reflexivity|apply (HM j); lia]. intros i Hi. cbn beta. rewrite dfind_put, E. reflexivity.
    Qed.
    Lemma run_segnet_up M m k X x : JM stages M m -> (k < stages)%nat -> J (nodes (dep - stages + k) ne) (nth k chs2 O) X x ->
      run (J (nodes (dep - stages + S k) ne) (nth (S k) chs2 O)) (fun i => segnet_up P chs2 ne (mo i) (Z.of_nat (dep - stages)) (M i) (X i) (Z.of_nat k))
        (segnet_up P chs2 ne o (Z.of_nat (dep - stages)) m x (Z.of_nat k)).
    Proof.
      intros HM Hk HX. pose proof (seg_len2 stages o dep bseg Hst) as Hl. unfold segnet_up.
      rewrite (tget_len _ k O) by lia. cbn [bind]. replace (Z.of_nat k + 1) with (Z.of_nat (S k)) by lia. rewrite (tget_len _ (S k) O) by lia. cbn [bind].
      replace (Z.of_nat (dep - stages) + Z.of_nat k + 1) with (Z.of_nat (dep - (stages - S k))) by lia.
      eapply run_bind; [apply (HM (stages - S k)%nat); lia|]. intros I i0 HI.
      replace (dep - S (stages - S k))%nat with (dep - stages + k)%nat in HI by lia. replace (S (stages - S k)) with (stages - k)%nat in HI by lia. rewrite <- (seg_rev cin stages o dep bseg Hst k Hk) in HI.
      replace (Z.of_nat (dep - stages) + Z.of_nat k) with (Z.of_nat (dep - stages + k)) by lia. unfold at_depth.
      replace (Z.of_nat (dep - stages + k) <? 0) with false by (symmetry; apply Z.ltb_ge; lia). rewrite Nat2Z.id.
      eapply run_bind; [apply (run_unpool (nth k chs2 O) (dep - stages + k) ne X x I i0); [lia|exact HX|exact HI]|]. intros Y y HY.
      replace (dep - (stages - S k))%nat with (S (dep - stages + k)) by lia. replace (dep - stages + S k)%nat with (S (dep - stages + k)) by lia.
      apply (run_conv_bn_relu P _ (nth k chs2 O) (nth (S k) chs2 O) [3%nat] 1 ne (S (dep - stages + k)) Y y HP); [auto|lia|auto| |exact HY].
      apply chan_le. apply (seg2_ok cin stages o dep bseg Hst Hcin).
    Qed.
    Lemma run_segnet lin X x Q q : Z.of_nat n <= 32768 -> (ne = true -> forall i, (i < n)%nat -> nodes (dep - stages) true i = nodes (dep - stages) false i) ->
      J (nodes dep ne) cin X x -> JQ Q q ->
      run (JFQ (counts Q) cout) (fun i => SegNet P cin cout stages lin ne (X i) (mo i) (Z.of_nat dep) (Q i)) (SegNet P cin cout stages lin ne x o (Z.of_nat dep) q).
    Proof.
      intros H15 He HX HQ. pose proof (seg_len cin stages) as Hl. pose proof (seg_len2 stages o dep bseg Hst) as Hl2. pose proof (stage_len 8 stages) as Hl3. unfold SegNet. cbv zeta.
      eapply (run_bind (fun V v => J (nodes (dep - stages) ne) (ch stages) (fun i => fst (V i)) (fst v) /\ JM stages (fun i => snd (V i)) (snd v))).
      { apply (run_fold (fun k V v => J (nodes (dep - k) ne) (ch k) (fun i => fst (V i)) (fst v) /\ JM k (fun i => snd (V i)) (snd v)) (fun i => segnet_down P chs ne (mo i) (Z.of_nat dep)) (segnet_down P chs ne o (Z.of_nat dep))
          stages (fun i => (X i, [])) (x, [])).
        - cbn [fst snd]. rewrite Nat.sub_0_r. split; [exact HX|]. intros j Hj. lia.
        - intros k V v Hk H. apply run_segnet_down; assumption. }
      intros V v [HV HM]. change (-1) with (- Z.of_nat 1). rewrite (tget_neg chs 1 O) by lia. rewrite Hl. replace (S stages - 1)%nat with stages by lia.
      replace (Z.of_nat dep - Z.of_nat stages) with (Z.of_nat (dep - stages)) by lia.
      change (tget st 0) with (tget st (Z.of_nat 0)). rewrite (tget_len st 0 O) by lia. cbn [bind]. rewrite (tget_neg chs2 1 O) by lia. rewrite Hl2. replace (S stages - 1)%nat with stages by lia. cbn [bind].
      match goal with |- run ?R ?F ?f => set (F0 := F); set (f0 := f) end.
      eapply (run_ext _ (fun i => x <- conv_bn_relu P [("bottleneck"%string, 0)] (ch stages) (ch stages) [3%nat] 1 false (fst (V i)) (mo i) (Z.of_nat (dep - stages)) ;;
          x <- foldM (segnet_up P chs2 ne (mo i) (Z.of_nat (dep - stages)) (snd (V i))) x (arange stages) ;;
          '(x, pts) <- interp lin ne (nth stages chs2 O) x (mo i) (Z.of_nat dep) (Q i) ;;
          logits <- head P [("header"%string, 0)] (nth stages chs2 O) 64 cout x ;; Ok (logits, pts)) _
        (x <- conv_bn_relu P [("bottleneck"%string, 0)] (ch stages) (ch stages) [3%nat] 1 false (fst v) o (Z.of_nat (dep - stages)) ;;
          x <- foldM (segnet_up P chs2 ne o (Z.of_nat (dep - stages)) (snd v)) x (arange stages) ;;
          '(x, pts) <- interp lin ne (nth stages chs2 O) x o (Z.of_nat dep) q ;;
          logits <- head P [("header"%string, 0)] (nth stages chs2 O) 64 cout x ;; Ok (logits, pts))).
      { intros i Hi. unfold F0. destruct (V i). reflexivity. } { unfold f0. destruct v. reflexivity. }
      clear F0 f0.
      eapply (run_bind (J (nodes (dep - stages) false) (ch stages))).
      { apply (run_conv_bn_relu P _ (ch stages) (ch stages) [3%nat] 1 false (dep - stages) (fun i => fst (V i)) (fst v) HP); [auto|lia|auto|apply chan_le, cons_stage_ok; [lia|exact Hcin]|].
        destruct ne eqn:Ene; [|exact HV]. destruct HV as [E S]. split; [exact E|]. intros i Hi. rewrite <- (He eq_refl i Hi). apply S. exact Hi. }
      intros Y y HY. assert (HY' : J (nodes (dep - stages) ne) (ch stages) Y y).
      { destruct ne eqn:Ene; [|exact HY]. destruct HY as [E S]. split; [exact E|]. intros i Hi. rewrite (He eq_refl i Hi). apply S. exact Hi. }
      eapply (run_bind (J (nodes (dep - stages + stages) ne) (nth stages chs2 O))).
      { apply (run_fold (fun k => J (nodes (dep - stages + k) ne) (nth k chs2 O)) (fun i => segnet_up P chs2 ne (mo i) (Z.of_nat (dep - stages)) (snd (V i))) (segnet_up P chs2 ne o (Z.of_nat (dep - stages)) (snd v)) stages Y y).
        - rewrite Nat.add_0_r, (seg_rev cin stages o dep bseg Hst 0) by lia. rewrite Nat.sub_0_r. exact HY'.
        - intros k A a Hk HA. apply (run_segnet_up (fun i => snd (V i)) (snd v) k A a HM Hk HA). }
      intros A a HA. replace (dep - stages + stages)%nat with dep in HA by lia.
      eapply run_open; [apply run_interp; [lia|exact H15|exact HA|exact HQ]|]. intros B b U u HBb HU.
      eapply run_bind; [apply (run_head P _ _ _ cout _ _ _ HP HBb)|]. intros E e HE. apply run_ret. split; [exact HE|exact HU].
    Qed.
  End BSegnet.

  (** lists of tensors *)
  Definition JL (Q : nat -> (nat -> feat) -> feat -> Prop) (m : nat) (Xs : nat -> list feat) (xs : list feat) : Prop :=
    (forall i, (i < n)%nat -> length (Xs i) = m) /\ length xs = m /\ forall k, (k < m)%nat -> Q k (fun i => nth k (Xs i) []) (nth k xs []).
  Definition local (Q : nat -> (nat -> feat) -> feat -> Prop) : Prop := forall k X X' x, (forall i, (i < n)%nat -> X i = X' i) -> Q k X x -> Q k X' x.
  Lemma J_local N C : local (fun k => J (N k) (C k)).
  Proof. intros k X X' x E H. eapply J_ext; [exact E|exact H]. Qed.
  Lemma run_mapM Q F f m : local Q -> (forall k, (k < m)%nat -> run (Q k) (fun i => F i (Z.of_nat k)) (f (Z.of_nat k))) ->
    run (JL Q m) (fun i => mapM (F i) (arange m)) (mapM f (arange m)).
  Proof.
    intros HL. induction m as [|m IH]; intros H.
    - apply (run_ret (JL Q 0) (fun _ => []) []). split; [reflexivity|]. split; [reflexivity|]. intros k Hk. lia.
    - destruct IH as (Ys & ys & E1 & E2 & L1 & L2 & HQ); [intros k Hk; apply H; lia|]. destruct (H m ltac:(lia)) as (Y & y & F1 & F2 & HQ').
      exists (fun i => Ys i ++ [Y i]), (ys ++ [y]). split; [|split].
      + intros i Hi. rewrite arange_S, mapM_app, E1 by exact Hi. cbn [bind mapM]. rewrite F1 by exact Hi. reflexivity.
      + rewrite arange_S, mapM_app, E2. cbn [bind mapM]. rewrite F2. reflexivity.
      + split; [intros i Hi; rewrite app_length, L1 by exact Hi; cbn; lia|]. split; [rewrite app_length, L2; cbn; lia|]. intros k Hk. destruct (Nat.eq_dec k m) as [->|N].
        * rewrite app_nth2 by lia. rewrite L2, Nat.sub_diag. cbn [nth]. eapply HL; [|exact HQ']. intros i Hi. cbn beta. rewrite app_nth2 by (rewrite L1 by exact Hi; lia). rewrite L1, Nat.sub_diag by exact Hi. reflexivity.
        * rewrite app_nth1 by lia. eapply HL; [|apply (HQ k); lia]. intros i Hi. cbn beta. rewrite app_nth1 by (rewrite L1 by exact Hi; lia). reflexivity.
  Qed.
  Lemma JL_tl Q m Xs xs : local Q -> JL Q (S m) Xs xs -> JL (fun k => Q (S k)) m (fun i => tl (Xs i)) (tl xs).
  Proof.
    intros HL (L1 & L2 & H). split; [intros i Hi; specialize (L1 i Hi); destruct (Xs i); cbn in *; lia|]. split; [destruct xs; cbn in *; lia|].
    intros k Hk. specialize (H (S k) ltac:(lia)). destruct xs as [|x xs]; [cbn in L2; lia|]. cbn [tl]. cbn [nth] in H. eapply HL; [|exact H].
    intros i Hi. cbn beta. specialize (L1 i Hi). destruct (Xs i); [cbn in L1; lia|]. reflexivity.
  Qed.
  Lemma run_foldl (Acc : nat -> (nat -> feat) -> feat -> Prop) f : forall m Q k0 A a Xs xs, local Q -> Acc k0 A a -> JL Q m Xs xs ->
    (forall k A a Y y, (k < m)%nat -> Acc (k0 + k)%nat A a -> Q k Y y -> run (Acc (S (k0 + k))) (fun i => f (A i) (Y i)) (f a y)) ->
    run (Acc (k0 + m)%nat) (fun i => foldM f (A i) (Xs i)) (foldM f a xs).
  Proof.
    induction m as [|m IH]; intros Q k0 A a Xs xs HL HA HX H.
    - rewrite Nat.add_0_r. destruct HX as (L1 & L2 & _). destruct xs as [|y xs]; [|cbn in L2; lia]. eapply (run_ext _ (fun i => Ok (A i)) _ (Ok a)); [|reflexivity|apply run_ret; exact HA].
      intros i Hi. specialize (L1 i Hi). destruct (Xs i); [reflexivity|cbn in L1; lia].
    - pose proof (JL_tl Q m Xs xs HL HX) as HT'. destruct HX as (L1 & L2 & HQ). destruct xs as [|y xs]; [cbn in L2; lia|]. cbn [foldM tl] in *.
      eapply (run_ext _ (fun i => bind (f (A i) (nth 0 (Xs i) [])) (fun s => foldM f s (tl (Xs i))))); [|reflexivity|].
      { intros i Hi. specialize (L1 i Hi). destruct (Xs i); [cbn in L1; lia|reflexivity]. }
      eapply run_bind; [pose proof (H 0%nat A a (fun i => nth 0 (Xs i) []) y ltac:(lia)) as H0; rewrite Nat.add_0_r in H0; apply (H0 HA); exact (HQ 0%nat ltac:(lia))|].
      intros B b HBb. replace (k0 + S m)%nat with (S k0 + m)%nat by lia. apply (IH (fun k => Q (S k))); [intros k; apply HL|exact HBb|exact HT'|].
      intros k A' a' Y y' Hk HA' HY. specialize (H (S k) A' a' Y y' ltac:(lia)). replace (k0 + S k)%nat with (S k0 + k)%nat in H by lia. apply H; assumption.
  Qed.
  Lemma run_sums N C m Xs xs : (m <> 0)%nat -> JL (fun _ => J N C) m Xs xs -> run (J N C) (fun i => sum_feats (Xs i)) (sum_feats xs).
  Proof.
    intros Hm HX. destruct m as [|m]; [congruence|]. pose proof (J_local (fun _ => N) (fun _ => C)) as Hlc. pose proof (JL_tl _ m Xs xs Hlc HX) as HT'. destruct HX as (L1 & L2 & HQ). destruct xs as [|y xs]; [cbn in L2; lia|].
    cbn [sum_feats tl] in *. eapply (run_ext _ (fun i => foldM add_feat (nth 0 (Xs i) []) (tl (Xs i)))); [|reflexivity|].
    { intros i Hi. specialize (L1 i Hi). destruct (Xs i); [cbn in L1; lia|reflexivity]. }
    apply (run_foldl (fun _ => J N C) add_feat m (fun _ => J N C) 0 _ _ _ _ Hlc (HQ 0%nat ltac:(lia)) HT'). intros k A a Y y' _ HA HY. apply run_add; assumption.
  Qed.
  Lemma run_cats N cs m Xs xs : (m <> 0)%nat -> length cs = m -> JL (fun k => J N (nth k cs O)) m Xs xs -> run (J N (fold_right Nat.add O cs)) (fun i => cat_cols (Xs i)) (cat_cols xs).
  Proof.
    intros Hm Hc HX. destruct m as [|m]; [congruence|]. destruct cs as [|c cs]; [discriminate|]. cbn in Hc.
    pose proof (J_local (fun _ => N) (fun k => nth k (c :: cs) O)) as Hlc. pose proof (JL_tl _ m Xs xs Hlc HX) as HT'. destruct HX as (L1 & L2 & HQ). destruct xs as [|y xs]; [cbn in L2; lia|].
    cbn [cat_cols tl nth] in *. set (f := fun acc y : feat => if Nat.eqb (length acc) (length y) then Ok (zip_with (@app Qc) acc y) else Err RuntimeError).
    eapply (run_ext _ (fun i => foldM f (nth 0 (Xs i) []) (tl (Xs i)))); [|reflexivity|].
    { intros i Hi. specialize (L1 i Hi). destruct (Xs i); [cbn in L1; lia|reflexivity]. }
    apply (run_weak (J N (c + fold_right Nat.add O (firstn m cs)))).
    { intros Y y' HY. rewrite firstn_all2 in HY by lia. exact HY. }
    apply (run_foldl (fun k => J N (c + fold_right Nat.add O (firstn k cs))) f m (fun k => J N (nth k cs O)) 0 _ _ _ _ (J_local (fun _ => N) (fun k => nth k cs O))); [|exact HT'|].
    - cbn [firstn fold_right]. rewrite Nat.add_0_r. exact (HQ 0%nat ltac:(lia)).
    - intros k A a Y y' Hk HA HY. cbn [plus Nat.add] in *. assert (E : forall a b, f a b = cat_cols [a; b]).
      { intros a0 b0. unfold f. cbn [cat_cols foldM]. destruct (Nat.eqb (length a0) (length b0)); reflexivity. }
      rewrite E. eapply run_ext; [intros i Hi; symmetry; apply E|reflexivity|]. replace (c + fold_right Nat.add O (firstn (S k) cs))%nat with ((c + fold_right Nat.add O (firstn k cs)) + nth k cs O)%nat.
      + apply run_cat; assumption.
      + clear - Hk Hc. assert (Hk' : (k < length cs)%nat) by lia. clear Hk Hc. revert k Hk'. induction cs as [|b cs IH]; intros [|k] Hk; cbn [length] in Hk; try lia; [cbn; lia|].
        specialize (IH k ltac:(lia)). cbn [firstn fold_right nth] in *. lia.
  Qed.

  Section BHr.
    Variables (P : params) (cin cout num stages dep : nat) (ne : bool).
    Hypothesis HP : eval_mode P.
    Hypothesis Hdep : (stages + 2 <= dep <= L)%nat.
    Hypothesis Hst : (1 <= stages <= 4)%nat.
    Hypothesis HBr : forall d, (2 <= d < dep)%nat -> branch_all ne d.
    Hypothesis Hcin : channel_ok cin.
    Notation ch i := (nth i hr_channels O).
    Notation D := (dep - 1)%nat.
    Definition HD (k : nat) : (nat -> feat) -> feat -> Prop := J (nodes (D - k) ne) (ch k).
    Lemma HD_local : local HD.
    Proof. apply (J_local (fun k => nodes (D - k) ne) (fun k => ch k)). Qed.
    Lemma hch_ok i : channel_ok (ch i).
    Proof. unfold channel_ok. do 4 (destruct i as [|i]; [cbn; lia|]). cbn. destruct i; cbn; lia. Qed.
    Lemma hch_len m : (m <= 4)%nat -> length (firstn m hr_channels) = m.
    Proof. intros H. rewrite firstn_length. cbn [hr_channels length]. lia. Qed.
    Lemma run_pools C m d X x : (2 <= d)%nat -> (d + m < dep)%nat -> J (nodes (d + m) ne) C X x ->
      run (J (nodes d ne) C) (fun i => foldM (fun x j => max_pool C ne x (mo i) (Z.of_nat (d + m) - j)) (X i) (arange m)) (foldM (fun x j => max_pool C ne x o (Z.of_nat (d + m) - j)) x (arange m)).
    Proof.
      intros Hd Hm HX. apply (run_weak (J (nodes (d + m - m) ne) C)). { intros Y y HY. replace (d + m - m)%nat with d in HY by lia. exact HY. }
      apply (run_fold (fun k => J (nodes (d + m - k) ne) C) (fun i x j => max_pool C ne x (mo i) (Z.of_nat (d + m) - j)) (fun x j => max_pool C ne x o (Z.of_nat (d + m) - j))).
      - rewrite Nat.sub_0_r. exact HX.
      - intros k V v Hk HV. cbn beta. replace (Z.of_nat (d + m) - Z.of_nat k) with (Z.of_nat (S (d + m - S k))) by lia. apply run_max_pool; [lia|apply HBr; lia|].
        replace (S (d + m - S k)) with (d + m - k)%nat by lia. exact HV.
    Qed.
    Lemma run_ups C m d X x : (d + m <= dep)%nat -> J (nodes d ne) C X x ->
      run (J (nodes (d + m) ne) C) (fun i => foldM (fun x j => at_depth (Z.of_nat d + j) (fun d => octree_upsample "nearest" ne C x (mo i) d None)) (X i) (arange m))
        (foldM (fun x j => at_depth (Z.of_nat d + j) (fun d => octree_upsample "nearest" ne C x o d None)) x (arange m)).
    Proof.
      intros Hm HX. apply (run_fold (fun k => J (nodes (d + k) ne) C) (fun i x j => at_depth (Z.of_nat d + j) (fun d => octree_upsample "nearest" ne C x (mo i) d None))
        (fun x j => at_depth (Z.of_nat d + j) (fun d => octree_upsample "nearest" ne C x o d None))).
      - rewrite Nat.add_0_r. exact HX.
      - intros k V v Hk HV. cbn beta. rewrite <- Nat2Z.inj_add. unfold at_depth. replace (Z.of_nat (d + k) <? 0) with false by (symmetry; apply Z.ltb_ge; lia). rewrite Nat2Z.id.
        replace (d + S k)%nat with (S (d + k)) by lia. apply run_upsample; [lia|exact HV].
    Qed.
    Lemma run_trans p i j X x : (i < 4)%nat -> (j < 4)%nat -> (S i + 2 <= D)%nat -> (S j + 2 <= S D)%nat -> HD i X x ->
      run (HD j) (fun m => hr_trans P p (ch i) (ch j) ne (X m) (mo m) (Z.of_nat D - Z.of_nat i) (Z.of_nat D - Z.of_nat j))
        (hr_trans P p (ch i) (ch j) ne x o (Z.of_nat D - Z.of_nat i) (Z.of_nat D - Z.of_nat j)).
    Proof.
      intros Hi Hj Hi2 Hj2 HX. unfold hr_trans.
      assert (Pj : forall N Z z, J N (ch i) Z z -> run (J N (ch j)) (fun m => if Nat.eqb (ch i) (ch j) then Ok (Z m) else conv1x1_bn_relu P p (ch i) (ch j) (Z m))
        (if Nat.eqb (ch i) (ch j) then Ok z else conv1x1_bn_relu P p (ch i) (ch j) z)).
      { intros N U u HU. destruct (Nat.eqb_spec (ch i) (ch j)) as [E|E]; [rewrite <- E; apply run_ret; exact HU|apply run_conv1x1_bn_relu; assumption]. }
      destruct (Z.ltb_spec (Z.of_nat D - Z.of_nat j) (Z.of_nat D - Z.of_nat i)) as [H|H].
      - replace (Z.to_nat (Z.of_nat D - Z.of_nat i - (Z.of_nat D - Z.of_nat j))) with (j - i)%nat by lia.
        replace (Z.of_nat D - Z.of_nat i) with (Z.of_nat ((D - j) + (j - i))) by lia. eapply run_bind; [apply (run_pools (ch i) (j - i) (D - j) X x); [lia|lia|]|].
        + replace (D - j + (j - i))%nat with (D - i)%nat by lia. exact HX.
        + intros Y y HY. apply Pj. exact HY.
      - destruct (Z.ltb_spec (Z.of_nat D - Z.of_nat i) (Z.of_nat D - Z.of_nat j)) as [H'|H'].
        + eapply run_bind; [apply Pj; exact HX|]. intros Y y HY.
          replace (Z.to_nat (Z.of_nat D - Z.of_nat j - (Z.of_nat D - Z.of_nat i))) with (i - j)%nat by lia.
          replace (Z.of_nat D - Z.of_nat i) with (Z.of_nat (D - i)) by lia. unfold HD. replace (D - j)%nat with (D - i + (i - j))%nat by lia. apply run_ups; [lia|exact HY].
        + replace j with i by lia. apply run_ret. exact HX.
    Qed.
    Lemma JL_get {S} Q m Xs xs k (R : (nat -> S) -> S -> Prop) G g : JL Q m Xs xs -> (k < m)%nat -> run R (fun i => G i (nth k (Xs i) [])) (g (nth k xs [])) ->
      run R (fun i => bind (tget (Xs i) (Z.of_nat k)) (G i)) (bind (tget xs (Z.of_nat k)) g).
    Proof.
      intros (L1 & L2 & _) Hk H. eapply run_ext; [| |exact H].
      - intros i Hi. cbn beta. rewrite (tget_len (Xs i) k []) by (rewrite L1; assumption). reflexivity.
      - rewrite (tget_len xs k []) by (rewrite L2; assumption). reflexivity.
    Qed.
    Lemma run_branches p m Xs xs : (1 <= m <= stages)%nat -> JL HD m Xs xs ->
      run (JL HD m) (fun i => hr_branches P p (firstn m hr_channels) num ne (Xs i) (mo i) (Z.of_nat D)) (hr_branches P p (firstn m hr_channels) num ne xs o (Z.of_nat D)).
    Proof.
      intros Hm HX. unfold hr_branches. rewrite hch_len by lia. pose proof HX as (L1 & L2 & HQ). rewrite L2, Nat.eqb_refl. cbn [assert_ bind].
      eapply (run_ext _ (fun i0 => mapM (fun i => c <- tget (firstn m hr_channels) i ;; x <- tget (Xs i0) i ;;
        res_blocks P (p ++ [("resblocks"%string, i)]) c c num (if Nat.ltb c 256 then 4 else 8) ne false x (mo i0) (Z.of_nat D - i)) (arange m))); [|reflexivity|].
      { intros i Hi. rewrite L1, Nat.eqb_refl by exact Hi. reflexivity. }
      apply run_mapM; [exact HD_local|]. intros k Hk. rewrite (tget_len _ k O) by (rewrite hch_len; lia). cbn [bind]. rewrite firstn_nth by exact Hk.
      apply (JL_get HD m Xs xs k (HD k) (fun i x => res_blocks P (p ++ [("resblocks"%string, Z.of_nat k)]) (ch k) (ch k) num (if Nat.ltb (ch k) 256 then 4 else 8) ne false x (mo i) (Z.of_nat D - Z.of_nat k)) _ HX Hk).
      replace (Z.of_nat D - Z.of_nat k) with (Z.of_nat (D - k)) by lia.
      apply (run_res_blocks P _ (ch k) (ch k) num _ ne false (D - k) (fun i => nth k (Xs i) []) (nth k xs [])); [exact HP|lia|destruct (Nat.ltb _ _); lia|apply hch_ok|apply chan_le, hch_ok|auto|exact (HQ k Hk)].
    Qed.
    Lemma run_transitions p m Xs xs : (1 <= m)%nat -> (S m <= stages)%nat -> JL HD m Xs xs ->
      run (JL HD (S m)) (fun i => hr_transitions P p (firstn (S m) hr_channels) ne (Xs i) (mo i) (Z.of_nat D)) (hr_transitions P p (firstn (S m) hr_channels) ne xs o (Z.of_nat D)).
    Proof.
      intros Hm Hs HX. unfold hr_transitions. cbv zeta. rewrite hch_len by lia.
      apply (run_mapM HD (fun i0 j => fs <- mapM (fun i => ci <- tget (firstn (S m) hr_channels) i ;; co <- tget (firstn (S m) hr_channels) j ;; x <- tget (Xs i0) i ;;
        hr_trans P (p ++ [("trans_func"%string, i * zlen (firstn (S m) hr_channels) + j)]) ci co ne x (mo i0) (Z.of_nat D - i) (Z.of_nat D - j)) (arange (S m - 1)) ;; sum_feats fs) _ (S m) HD_local).
      intros j Hj. eapply (run_bind (JL (fun _ => HD j) (S m - 1))).
      - apply (run_mapM (fun _ => HD j) (fun i0 i => ci <- tget (firstn (S m) hr_channels) i ;; co <- tget (firstn (S m) hr_channels) (Z.of_nat j) ;; x <- tget (Xs i0) i ;;
          hr_trans P (p ++ [("trans_func"%string, i * zlen (firstn (S m) hr_channels) + Z.of_nat j)]) ci co ne x (mo i0) (Z.of_nat D - i) (Z.of_nat D - Z.of_nat j)) _ (S m - 1)).
        { intros k. apply (HD_local j). }
        intros i Hi. rewrite (tget_len _ i O) by (rewrite hch_len; lia). cbn [bind]. rewrite (tget_len _ j O) by (rewrite hch_len; lia). cbn [bind]. rewrite !firstn_nth by lia.
        apply (JL_get HD m Xs xs i (HD j) (fun i0 x => hr_trans P (p ++ [("trans_func"%string, Z.of_nat i * zlen (firstn (S m) hr_channels) + Z.of_nat j)]) (ch i) (ch j) ne x (mo i0) (Z.of_nat D - Z.of_nat i) (Z.of_nat D - Z.of_nat j)) _ HX ltac:(lia)).
        apply (run_trans _ i j (fun i0 => nth i (Xs i0) []) (nth i xs [])); [lia|lia|lia|lia|]. destruct HX as (_ & _ & HQ). apply HQ. lia.
      - intros Ys ys HY. apply (run_sums _ _ (S m - 1)); [lia|exact HY].
    Qed.
    Lemma run_hrnet X x : J (nodes dep ne) cin X x ->
      run (J one cout) (fun i => HRNet P cin cout stages num ne (X i) (mo i) (Z.of_nat dep)) (HRNet P cin cout stages num ne x o (Z.of_nat dep)).
    Proof.
      intros HX. unfold HRNet. cbv zeta. replace (Z.of_nat dep - 1) with (Z.of_nat D) by lia. eapply (run_bind (HD 0)).
      { unfold hr_front. replace (Z.of_nat dep - 1) with (Z.of_nat D) by lia.
        eapply run_bind; [apply (run_conv_bn_relu P _ cin 32 [3%nat] 1 ne dep X x HP); [auto|lia|auto|small|exact HX]|]. intros Y y HY. change (down dep 1) with dep in HY.
        eapply (run_bind (J (nodes D ne) 32)).
        { replace (Z.of_nat dep) with (Z.of_nat (S D)) by lia. apply run_max_pool; [lia|apply HBr; lia|]. replace (S D) with dep by lia. exact HY. }
        intros U u HU. unfold HD. rewrite Nat.sub_0_r. apply (run_conv_bn_relu P _ 32 128 [3%nat] 1 ne D U u HP); [auto|lia|auto|lia|exact HU]. }
      intros U u HU. eapply (run_bind (JL HD (Nat.min (S stages) stages))).
      { apply (run_fold (fun k => JL HD (Nat.min (S k) stages)) (fun i0 convs i => convs <- hr_branches P [("branches"%string, i)] (firstn (Z.to_nat i + 1) hr_channels) num ne convs (mo i0) (Z.of_nat D) ;;
          if i <? Z.of_nat stages - 1 then hr_transitions P [("transitions"%string, i)] (firstn (Z.to_nat i + 2) hr_channels) ne convs (mo i0) (Z.of_nat D) else Ok convs) _ stages (fun i => [U i]) [u]).
        - replace (Nat.min 1 stages) with 1%nat by lia. split; [reflexivity|]. split; [reflexivity|]. intros k Hk. assert (k = O) by lia. subst k. exact HU.
        - intros k Xs xs Hk HXs. rewrite Nat2Z.id, Nat.add_1_r. replace (Nat.min (S k) stages) with (S k) in HXs by lia.
          eapply run_bind; [apply (run_branches _ (S k) Xs xs); [lia|exact HXs]|]. intros Ys ys HYs.
          destruct (Z.ltb_spec (Z.of_nat k) (Z.of_nat stages - 1)) as [H|H].
          + replace (k + 2)%nat with (S (S k)) by lia. replace (Nat.min (S (S k)) stages) with (S (S k)) by lia. apply run_transitions; [lia|lia|exact HYs].
          + replace (Nat.min (S (S k)) stages) with (S k) by lia. apply run_ret. exact HYs. }
      intros Xs xs HXs. replace (Nat.min (S stages) stages) with stages in HXs by lia. unfold hr_header. pose proof HXs as (L1 & L2 & HQ).
      eapply (run_bind (JL (fun k => J (nodes 2 ne) (nth k (firstn stages hr_channels) O)) stages)).
      { rewrite L2. eapply (run_ext _ (fun i0 => mapM (fun i => x <- tget (Xs i0) i ;; c <- tget (firstn stages hr_channels) i ;;
          foldM (fun x j => max_pool c ne x (mo i0) (Z.of_nat D - i - j)) x (arange (Z.to_nat (Z.of_nat D - i - 2)))) (arange stages))); [|reflexivity|].
        { intros i Hi. rewrite L1 by exact Hi. reflexivity. }
        apply run_mapM; [apply (J_local (fun _ => nodes 2 ne))|]. intros k Hk.
        apply (JL_get HD stages Xs xs k (J (nodes 2 ne) (nth k (firstn stages hr_channels) O)) (fun i0 x => c <- tget (firstn stages hr_channels) (Z.of_nat k) ;;
          foldM (fun x j => max_pool c ne x (mo i0) (Z.of_nat D - Z.of_nat k - j)) x (arange (Z.to_nat (Z.of_nat D - Z.of_nat k - 2)))) _ HXs Hk).
        rewrite (tget_len _ k O) by (rewrite hch_len; lia). cbn [bind]. rewrite firstn_nth by exact Hk.
        replace (Z.to_nat (Z.of_nat D - Z.of_nat k - 2)) with (D - k - 2)%nat by lia. replace (Z.of_nat D - Z.of_nat k) with (Z.of_nat (2 + (D - k - 2))) by lia.
        apply (run_pools (ch k) (D - k - 2) 2 (fun i => nth k (Xs i) []) (nth k xs [])); [lia|lia|]. replace (2 + (D - k - 2))%nat with (D - k)%nat by lia. exact (HQ k Hk). }
      intros Os os' HO. eapply run_bind; [apply (run_cats (nodes 2 ne) (firstn stages hr_channels) stages Os os'); [lia|apply hch_len; lia|exact HO]|]. intros Y y HY.
      eapply run_bind; [apply (run_conv1x1_bn_relu P _ _ 1024 _ _ _ HP HY)|]. intros A a HA. eapply run_bind; [apply run_global; [lia|exact HA]|]. intros B b HBb.
      apply run_linear. exact HBb.
    Qed.
  End BHr.

  Section BAe.
    Variables (g : ae_cfg) (P : params) (cin cout CF : nat) (feature : string).
    Hypothesis HA : ae_config g.
    Hypothesis HP : eval_mode P.
    Hypothesis Hfull : (1 <= a_full g)%nat.
    Hypothesis Hdep : a_depth g = L.
    Hypothesis Hcin : channel_ok cin.
    Notation full := (a_full g).
    Notation dep := (a_depth g).
    Notation ch d := (nth d (a_ch g) O).
    Lemma ach_ok d : channel_ok (ch d).
    Proof. apply forall_nth_ok. apply HA. Qed.
    Definition JE (k : nat) (D : nat -> ddict feat) (c : ddict feat) : Prop :=
      run (J (nodes (if Nat.eqb k (S dep - full) then full else dep - k) false) (ch (if Nat.eqb k (S dep - full) then full else (dep - k))))
        (fun i => dfind (D i) (Z.of_nat (if Nat.eqb k (S dep - full) then full else (dep - k)))) (dfind c (Z.of_nat (if Nat.eqb k (S dep - full) then full else (dep - k)))).
    Lemma run_put N C k (D : nat -> ddict feat) c U u : J N C U u -> run (J N C) (fun i => dfind (dput (D i) k (U i)) k) (dfind (dput c k u) k).
    Proof. intros H. rewrite dfind_put, Z.eqb_refl. eapply (run_ext _ (fun i => Ok (U i))); [|reflexivity|apply run_ret; exact H]. intros i Hi. rewrite dfind_put, Z.eqb_refl. reflexivity. Qed.
    Lemma run_enc_step k D c : (full + k <= dep)%nat -> JE k D c -> run (JE (S k)) (fun i => ae_enc_step g P (mo i) (D i) (Z.of_nat k)) (ae_enc_step g P o c (Z.of_nat k)).
    Proof.
      intros Hk H. destruct HA as [H1 H2 H3 H4]. unfold JE in H. replace (Nat.eqb k (S dep - full)) with false in H by (symmetry; apply Nat.eqb_neq; lia).
      unfold ae_enc_step. cbv zeta. replace (Z.of_nat dep - Z.of_nat k) with (Z.of_nat (dep - k)) by lia. rewrite (tget_len _ (dep - k) O) by lia. cbn [bind].
      eapply run_bind; [exact H|]. intros X x HX.
      eapply run_bind; [apply (run_res_blocks P _ (ch (dep - k)) (ch (dep - k)) _ 4 false false (dep - k) X x HP); [lia|lia|apply ach_ok|apply chan_le, ach_ok|auto|exact HX]|]. intros Y y HY.
      unfold JE. destruct (Z.ltb_spec (Z.of_nat full) (Z.of_nat (dep - k))) as [Hlt|Hge].
      - replace (Z.of_nat (dep - k) - 1) with (Z.of_nat (dep - S k)) by lia. rewrite (tget_len _ (dep - S k) O) by lia. cbn [bind].
        assert (Hdn : down (dep - k) 2 = (dep - S k)%nat) by (unfold down; cbn [Z.eqb Pos.eqb]; lia).
        eapply run_bind; [apply (run_conv_bn_relu P _ (ch (dep - k)) (ch (dep - S k)) [2%nat] 2 false (dep - k) Y y HP); [auto|lia|auto|apply chan_le, ach_ok|exact HY]|]. rewrite Hdn. intros U u HU.
        replace (Nat.eqb (S k) (S dep - full)) with false by (symmetry; apply Nat.eqb_neq; lia).
        apply (run_ret _ (fun i => dput (dput (D i) (Z.of_nat (dep - k)) (Y i)) (Z.of_nat (dep - S k)) (U i)) _). apply run_put. exact HU.
      - replace (Nat.eqb (S k) (S dep - full)) with true by (symmetry; apply Nat.eqb_eq; lia). replace (dep - k)%nat with full in HY |- * by lia.
        apply (run_ret _ (fun i => dput (D i) (Z.of_nat full) (Y i)) _). apply run_put. exact HY.
    Qed.
    Lemma run_encoder : run (J (nodes dep false) cin) (fun i => get_input_feature CF (mo i) feature false) (get_input_feature CF o feature false) ->
      run (J (nodes full false) (a_code g)) (fun i => ae_encoder g P cin CF feature (mo i)) (ae_encoder g P cin CF feature o).
    Proof.
      intros HF. destruct HA as [H1 H2 H3 H4]. unfold ae_encoder. eapply run_bind; [exact HF|]. intros X x HX.
      assert (As : forall z, Forall (fun r : list Qc => length r = cin) z -> assert_ (forallb (fun r : list Qc => Nat.eqb (length r) cin) z) = Ok tt).
      { intros z F. replace (forallb (fun r : list Qc => Nat.eqb (length r) cin) z) with true; [reflexivity|]. symmetry. apply forallb_forall. intros r Hr. rewrite Forall_forall in F. rewrite (F r Hr). apply Nat.eqb_refl. }
      rewrite (As x) by apply (J_rows _ _ _ _ HX). rewrite (tget_len _ dep O) by lia. cbn [bind].
      match goal with |- run ?R ?F ?f => eapply (run_ext R (fun i => bind (conv_bn_relu P [("conv1"%string, 0)] cin (ch dep) [3%nat] 1 false (X i) (mo i) (Z.of_nat dep)) (fun x0 =>
        convs <- foldM (ae_enc_step g P (mo i)) (dput [] (Z.of_nat dep) x0) (arange (S dep - full)) ;; x1 <- dfind convs (Z.of_nat full) ;; cf <- tget (a_ch g) (Z.of_nat full) ;;
        x2 <- linear P [("proj"%string, 0)] cf (a_code g) true x1 ;; Ok (tanh_ P x2)))); [|reflexivity|] end.
      { intros i Hi. rewrite As by (destruct HX as [_ S]; apply (S i Hi)). cbn [bind]. reflexivity. }
      eapply run_bind; [apply (run_conv_bn_relu P _ cin (ch dep) [3%nat] 1 false dep X x HP); [auto|lia|auto|small|exact HX]|]. change (down dep 1) with dep. intros Y y HY.
      eapply (run_bind (JE (S dep - full))).
      { apply (run_fold JE (fun i => ae_enc_step g P (mo i)) (ae_enc_step g P o) (S dep - full) (fun i => dput [] (Z.of_nat dep) (Y i)) (dput [] (Z.of_nat dep) y)).
        - unfold JE. replace (Nat.eqb 0 (S dep - full)) with false by (symmetry; apply Nat.eqb_neq; lia). rewrite Nat.sub_0_r. apply (run_put _ _ (Z.of_nat dep) (fun _ => [])). exact HY.
        - intros k D c Hk HD. apply run_enc_step; [lia|exact HD]. }
      intros D c HD. unfold JE in HD. rewrite Nat.eqb_refl in HD. eapply run_bind; [exact HD|]. intros U u HU. rewrite (tget_len _ full O) by lia. cbn [bind].
      eapply run_bind; [apply run_linear; exact HU|]. intros V v HV. apply run_ret, J_tanh, HV.
    Qed.
    (** the decoder on a given octree *)
    Definition JA (k : nat) : (nat -> feat) -> feat -> Prop :=
      if Nat.eqb k 0 then J (nodes full false) (a_code g) else J (nodes (full + k - 1) false) (dch g (full + k - 1)).
    Definition JS (k : nat) (V : nat -> feat * octree * ddict feat) (v : feat * octree * ddict feat) : Prop :=
      JA k (fun i => fst (fst (V i))) (fst (fst v)) /\ (forall i, (i < n)%nat -> snd (fst (V i)) = mo i) /\ snd (fst v) = o /\
      forall d, (full <= d < full + k)%nat -> run (J (nodes d false) 2) (fun i => dfind (snd (V i)) (Z.of_nat d)) (dfind (snd v) (Z.of_nat d)).
    Lemma run_dec_step k V v : (full + k <= dep)%nat -> JS k V v -> run (JS (S k)) (fun i => ae_dec_step g P false (V i) (Z.of_nat k)) (ae_dec_step g P false v (Z.of_nat k)).
    Proof.
      intros Hk (Hx & Ho1 & Ho2 & Hlg). pose proof HA as [H1 H2 H3 H4]. destruct (dec_ch g HA (full + k) Hk) as (chs & Ec & Hl & Hch).
      eapply (run_ext _ (fun i => ae_dec_step g P false (fst (fst (V i)), mo i, snd (V i)) (Z.of_nat k)) _ (ae_dec_step g P false (fst (fst v), o, snd v) (Z.of_nat k))).
      { intros i Hi. rewrite <- (Ho1 i Hi). destruct (V i) as [[a b] c]. reflexivity. } { rewrite <- Ho2. destruct v as [[a b] c]. reflexivity. }
      unfold ae_dec_step. rewrite Ec. cbn [bind]. replace (Z.of_nat full + Z.of_nat k) with (Z.of_nat (full + k)) by lia. rewrite (tget_len chs (full + k) O) by lia. cbn [bind]. rewrite Hch.
      eapply (run_bind (J (nodes (full + k) false) (dch g (full + k)))).
      { unfold JA in Hx. destruct k as [|k].
        - cbn [Nat.eqb Z.of_nat Z.ltb Z.compare] in *. rewrite Nat.add_0_r. unfold dch. rewrite Nat.eqb_refl. apply (run_ret _ (fun i => fst (fst (V i)))). exact Hx.
        - replace (0 <? Z.of_nat (S k)) with true by (symmetry; apply Z.ltb_lt; lia). cbn [Nat.eqb] in Hx.
          replace (Z.of_nat (full + S k) - 1) with (Z.of_nat (full + k)) by lia. replace (full + S k - 1)%nat with (full + k)%nat in Hx by lia.
          rewrite (tget_len chs (full + k) O) by lia. cbn [bind]. rewrite Hch. assert (Hup : up (full + k) 2 = (full + S k)%nat) by (unfold up; cbn [Z.eqb Pos.eqb]; lia).
          pose proof (run_deconv_bn_relu P [("upsample"%string, Z.of_nat (S k) - 1)] (dch g (full + k)) (dch g (full + S k)) [2%nat] 2 false (full + k) (fun i => fst (fst (V i))) (fst (fst v)) HP (or_intror eq_refl)) as R.
          rewrite Hup in R. apply R; [lia|auto|apply chan_le, dch_ok; exact HA|exact Hx]. }
      intros X x HX. eapply run_bind; [apply (run_res_blocks P _ (dch g (full + k)) (dch g (full + k)) _ 4 false false (full + k) X x HP); [lia|lia|apply dch_ok; exact HA|apply chan_le, dch_ok; exact HA|auto|exact HX]|]. intros Y y HY.
      eapply run_bind; [apply (run_head P _ _ 64 2 _ _ _ HP HY)|]. intros U u HU. cbn [bind].
      apply (run_ret (JS (S k)) (fun i => (Y i, mo i, dput (snd (V i)) (Z.of_nat (full + k)) (U i))) (y, o, dput (snd v) (Z.of_nat (full + k)) u)). unfold JS. cbn [fst snd]. split; [|split; [reflexivity|split; [reflexivity|]]].
      - unfold JA. cbn [Nat.eqb]. replace (full + S k - 1)%nat with (full + k)%nat by lia. exact HY.
      - intros d Hd. destruct (Nat.eq_dec d (full + k)) as [->|Nd]; [apply (run_put _ _ _ (fun i => snd (V i))); exact HU|].
        assert (E : (Z.of_nat d =? Z.of_nat (full + k)) = false) by (apply Z.eqb_neq; lia). rewrite dfind_put, E. eapply run_ext; [|reflexivity|apply (Hlg d); lia]. intros i Hi. cbn beta. rewrite dfind_put, E. reflexivity.
    Qed.
    Definition JO (Y : nat -> ddict feat * feat * octree) (y : ddict feat * feat * octree) : Prop :=
      (forall d, (full <= d <= dep)%nat -> run (J (nodes d false) 2) (fun i => dfind (fst (fst (Y i))) (Z.of_nat d)) (dfind (fst (fst y)) (Z.of_nat d))) /\
      J (nodes dep true) cout (fun i => snd (fst (Y i))) (snd (fst y)) /\ (forall i, (i < n)%nat -> snd (Y i) = mo i) /\ snd y = o.
    Lemma run_decoder X x : J (nodes full false) (a_code g) X x -> run JO (fun i => ae_decoder g P cout (X i) (mo i) false) (ae_decoder g P cout x o false).
    Proof.
      intros HX. pose proof HA as [H1 H2 H3 H4]. destruct (dec_ch g HA dep ltac:(lia)) as (chs & Ec & Hl & Hch). unfold ae_decoder. eapply (run_bind (JS (S dep - full))).
      { apply (run_fold JS (fun i => ae_dec_step g P false) (ae_dec_step g P false) (S dep - full) (fun i => (X i, mo i, [])) (x, o, [])).
        - unfold JS. cbn [fst snd]. split; [exact HX|]. split; [reflexivity|]. split; [reflexivity|]. intros d Hd. lia.
        - intros k V v Hk HV. apply run_dec_step; [lia|exact HV]. }
      intros V v (Hx & Ho1 & Ho2 & Hlg). rewrite Ec. cbn [bind]. rewrite (tget_len chs dep O) by lia. cbn [bind]. rewrite Hch.
      unfold JA in Hx. replace (Nat.eqb (S dep - full) 0) with false in Hx by (symmetry; apply Nat.eqb_neq; lia). replace (full + (S dep - full) - 1)%nat with dep in Hx by lia.
      eapply (run_ext _ (fun i => s <- head P [("header"%string, 0)] (dch g dep) 64 cout (fst (fst (V i))) ;; s <- octree_depad (tanh_ P s) (mo i) (Z.of_nat dep) ;; Ok (snd (V i), s, mo i)) _
        (s <- head P [("header"%string, 0)] (dch g dep) 64 cout (fst (fst v)) ;; s <- octree_depad (tanh_ P s) o (Z.of_nat dep) ;; Ok (snd v, s, o))).
      { intros i Hi. rewrite <- (Ho1 i Hi). destruct (V i) as [[a b] c]. cbn [fst snd bind]. reflexivity. } { rewrite <- Ho2. destruct v as [[a b] c]. reflexivity. }
      eapply run_bind; [apply (run_head P _ _ 64 cout _ _ _ HP Hx)|]. intros Y y HY.
      eapply run_bind; [apply (run_depad cout dep (fun i => tanh_ P (Y i)) (tanh_ P y)); [lia|apply J_tanh; exact HY]|]. intros U u HU.
      apply (run_ret JO (fun i => (snd (V i), U i, mo i)) (snd v, u, o)). unfold JO. cbn [fst snd]. split; [|split; [exact HU|split; reflexivity]]. intros d Hd. apply Hlg. lia.
    Qed.
    Lemma run_autoencoder dev : run (J (nodes dep false) cin) (fun i => get_input_feature CF (mo i) feature false) (get_input_feature CF o feature false) ->
      run JO (fun i => AutoEncoder g P cin cout CF dev feature (mo i) false) (AutoEncoder g P cin cout CF dev feature o false).
    Proof. intros HF. unfold AutoEncoder. eapply run_bind; [apply run_encoder; exact HF|]. intros X x HX. cbn [bind]. apply run_decoder. exact HX. Qed.
  End BAe.
End Batch.
