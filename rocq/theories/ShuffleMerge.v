(** Samples of a batch in another order: the merged octree. *)
From Coq Require Import String List ZArith Bool QArith Qcanon Permutation Arith Lia FinFun.
From Verif Require Import Res Tensor Key Num Points Octree NnBasic NnConv NnInterp Features Net Spec SpecGeo SpecBuild SpecNeigh SpecMerge SpecNN SpecNet SpecBatch SpecMove SpecMoveSeg
  WF ListFacts NeighThms MergeFacts NetPool NetBuilt VoxelThm Finite MoveNet MoveBuild ShuffleFacts.
Import ListNotations.
Open Scope Z_scope.

Lemma permutes_onto sigma n : permutes sigma n -> forall j, (j < n)%nat -> exists i, (i < n)%nat /\ sigma i = j.
Proof.
  intros [H1 H2]. assert (S : bSurjective n sigma) by (apply bInjective_bSurjective; [exact H1|exact H2]). exact S.
Qed.
Lemma reordered_fun {A} sigma (l a b : list A) : permutes sigma (length l) -> reordered sigma l a -> reordered sigma l b -> a = b.
Proof.
  intros HS [La Ha] [Lb Hb]. apply all_places; [congruence|]. intros j Hj. rewrite La in Hj. destruct (permutes_onto _ _ HS j Hj) as (i & Hi & <-). rewrite Ha, Hb by exact Hi. reflexivity.
Qed.

(** the samples of a batch of [n] change their numbers *)
Definition renumber (sigma : nat -> nat) (n : nat) (b : Z) : Z := if (0 <=? b) && (b <? Z.of_nat n) then Z.of_nat (sigma (Z.to_nat b)) else b.
Section Renumber.
  Variables (sigma : nat -> nat) (n : nat).
  Hypothesis HS : permutes sigma n.
  Lemma renumber_in i : (i < n)%nat -> renumber sigma n (Z.of_nat i) = Z.of_nat (sigma i).
  Proof. intros H. unfold renumber. rewrite (proj2 (Z.leb_le _ _)) by lia. rewrite (proj2 (Z.ltb_lt _ _)) by lia. cbn [andb]. rewrite Nat2Z.id. reflexivity. Qed.
  Lemma renumber_cases b : (exists i, (i < n)%nat /\ b = Z.of_nat i /\ renumber sigma n b = Z.of_nat (sigma i)) \/ (~ 0 <= b < Z.of_nat n /\ renumber sigma n b = b).
  Proof.
    destruct (Z_le_gt_dec 0 b) as [H|H]; [destruct (Z_lt_ge_dec b (Z.of_nat n)) as [H'|H']|].
    - left. exists (Z.to_nat b). assert (E : b = Z.of_nat (Z.to_nat b)) by lia. split; [lia|]. split; [exact E|]. rewrite E at 1. apply renumber_in. lia.
    - right. split; [lia|]. unfold renumber. rewrite (proj2 (Z.ltb_ge _ _)) by lia. rewrite andb_false_r. reflexivity.
    - right. split; [lia|]. unfold renumber. rewrite (proj2 (Z.leb_gt _ _)) by lia. reflexivity.
  Qed.
  Lemma renumber_inj b c : renumber sigma n b = renumber sigma n c -> b = c.
  Proof.
    destruct HS as [H1 H2]. destruct (renumber_cases b) as [(i & Hi & -> & ->)|[Hb ->]], (renumber_cases c) as [(j & Hj & -> & ->)|[Hc ->]]; intros E; auto.
    - apply Nat2Z.inj in E. f_equal. apply H2; assumption.
    - specialize (H1 i Hi). lia.
    - specialize (H1 j Hj). lia.
  Qed.
  Lemma renumber_onto b : exists c, renumber sigma n c = b.
  Proof.
    destruct (renumber_cases b) as [(j & Hj & -> & _)|[Hb E]]; [|exists b; exact E].
    destruct (permutes_onto _ _ HS j Hj) as (i & Hi & <-). exists (Z.of_nat i). apply renumber_in. exact Hi.
  Qed.
End Renumber.

(** lists joined with the number of their member *)
Definition join_with {A B} (g : Z -> A -> B) (ls : list (list A)) : list B := concat (map (fun '(i, l) => map (g i) l) (indexed 0 ls)).
Lemma nth_indexed {A} (l : list A) k i : nth_error (indexed k l) i = option_map (fun a => (k + Z.of_nat i, a)) (nth_error l i).
Proof.
  revert k i. induction l as [|a l IH]; intros k [|i]; cbn [indexed nth_error option_map]; try reflexivity; [f_equal; f_equal; lia|]. rewrite IH. destruct (nth_error l i); [|reflexivity]. cbn [option_map]. do 2 f_equal. lia.
Qed.
Lemma indexed_length {A} (l : list A) k : length (indexed k l) = length l.
Proof. revert k. induction l as [|a l IH]; intros k; cbn [indexed length]; [reflexivity|]. rewrite IH. reflexivity. Qed.
Lemma indexed_lengths {A B} (g : Z -> A -> B) ls k : map (@length B) (map (fun '(i, l) => map (g i) l) (indexed k ls)) = map (@length A) ls.
Proof. revert k. induction ls as [|l ls IH]; intros k; cbn [indexed map]; [reflexivity|]. rewrite map_length, IH. reflexivity. Qed.
Lemma join_with_to {A B} (g : Z -> A -> B) (h : B -> B) sigma ls ls' : permutes sigma (length ls) -> reordered sigma ls ls' ->
  (forall b a, (b < length ls)%nat -> h (g (Z.of_nat b) a) = g (Z.of_nat (sigma b)) a) ->
  reordered (rows_to sigma (map (@length A) ls) (map (@length A) ls')) (map h (join_with g ls)) (join_with g ls').
Proof.
  intros HS R Hh. unfold join_with. rewrite concat_map. rewrite <- (indexed_lengths g ls 0), <- (indexed_lengths g ls' 0).
  set (B1 := map (fun '(i, l) => map (g i) l) (indexed 0 ls)). set (B2 := map (fun '(i, l) => map (g i) l) (indexed 0 ls')).
  assert (L1 : length B1 = length ls) by (unfold B1; rewrite map_length, indexed_length; reflexivity).
  assert (E : map (@length B) B1 = map (@length B) (map (map h) B1)). { rewrite map_map. apply map_ext. intros l. rewrite map_length. reflexivity. }
  rewrite E. apply reordered_concat; [rewrite map_length, L1; exact HS|]. split; [rewrite map_length, L1; unfold B2; rewrite map_length, indexed_length; apply R|].
  intros b Hb. rewrite map_length, L1 in Hb. rewrite nth_error_map. unfold B1, B2. rewrite !nth_error_map, !nth_indexed, (proj2 R b Hb).
  destruct (nth_error ls b) as [l|]; [|reflexivity]. cbn [option_map]. rewrite map_map. f_equal. apply map_ext. intros a. rewrite !Z.add_0_l. symmetry. apply Hh. exact Hb.
Qed.

Definition rest (d : nat) (sigma : nat -> nat) (n : nat) : Z * Z * Z * Z -> Z * Z * Z * Z := shift_to (renumber sigma n) 0 (fun _ => (0, 0, 0)) d.
Lemma rest_eq d sigma n x y z b : rest d sigma n (x, y, z, b) = (x, y, z, renumber sigma n b).
Proof. unfold rest, shift_to. cbn [Z.mul]. rewrite !Z.add_0_r. reflexivity. Qed.

Lemma same_count o o' d ne : same_data o o' -> node_count o' d ne = node_count o d ne.
Proof.
  intros (_ & _ & _ & _ & S). unfold node_count. pose proof (forall2_nth _ _ _ d S) as Q. destruct (nth_error (layers o) d), (nth_error (layers o') d); try contradiction; [|reflexivity].
  destruct Q as (_ & _ & _ & _ & _ & -> & -> & _). reflexivity.
Qed.
Lemma members_data o0 os ms : mergeable o0 os -> (1 <= full_depth o0)%nat -> mapM construct_all_neigh os = Ok ms ->
  Forall2 (fun o m => same_data o m /\ wf_octree o /\ depth o = depth o0) os ms.
Proof.
  intros (_ & _ & HF & _) Hf E. apply mapM_inv in E. induction E as [|o m os ms E1 E IH]; [constructor|]. inversion HF as [|a b (W & _ & D & F & _) HF']; subst. constructor; [|apply IH; exact HF'].
  destruct (thm_all_neigh o W ltac:(lia)) as (m' & E2 & SD & _). rewrite E2 in E1. injection E1 as <-. auto.
Qed.
(** what a batch is *)
Lemma batch_data o0 os om ms : mergeable o0 os -> (1 <= full_depth o0)%nat -> batched os om ms ->
  wf_octree om /\ depth om = depth o0 /\ batch_size om = length os /\ length ms = length os /\ (forall d, (1 <= d <= depth o0)%nat -> has_neigh om d) /\
  (forall d ne, (d <= depth o0)%nat -> exists css, mapM (fun oi => octree_xyzb oi d ne) os = Ok css /\ octree_xyzb om d ne = Ok (join_cells css) /\
     NoDup (join_cells css) /\ length (join_cells css) = node_count om d ne /\ Forall2 (fun m cs => length cs = node_count m d ne) ms css).
Proof.
  intros Hm Hf (o & E1 & E2 & E3). destruct (thm_merge o0 os Hm) as (o1 & F1 & W & D & F & B & _). assert (o1 = o) by congruence. subst o1.
  destruct (thm_all_neigh o W ltac:(lia)) as (o2 & F2 & SD & W2 & N2). assert (o2 = om) by congruence. subst o2. pose proof (members_data o0 os ms Hm Hf E3) as MD.
  pose proof SD as (D' & _ & B' & _). split; [exact W2|]. split; [congruence|]. split; [congruence|]. split; [clear -MD; induction MD; cbn; congruence|]. split; [intros d Hd; apply N2; lia|].
  intros d ne Hd. destruct (thm_merge_cells o0 os o d ne Hm E1 Hd) as (css & G1 & G2). exists css. split; [exact G1|]. rewrite (same_xyzb o om) by exact SD. split; [exact G2|].
  destruct (thm_voxel o d ne 0 (repeat [] (node_count o d ne)) W ltac:(lia)) as (cs & _ & V1 & V2 & V3 & _); [split; [apply repeat_length|apply Forall_forall; intros r Hr; apply repeat_spec in Hr; subst r; reflexivity]|].
  rewrite G2 in V1. injection V1 as <-. split; [exact V3|]. rewrite repeat_length in V2. split; [rewrite (same_count o om) by exact SD; exact V2|].
  apply mapM_inv in G1. clear -G1 MD Hd. revert css G1. induction MD as [|o m os ms (SD & W & D) MD IH]; intros css G1; inversion G1 as [|a cs b css' E G]; subst; constructor; [|apply IH; exact G].
  rewrite (same_count o m) by exact SD. destruct (xyzb_count o d ne W ltac:(lia)) as (cs' & X1 & X2). rewrite X1 in E. injection E as <-. exact X2.
Qed.
Lemma batch_poolable o0 os om ms ne d0 d1 : mergeable o0 os -> (1 <= full_depth o0)%nat -> batched os om ms -> (d1 <= depth o0)%nat ->
  Forall (fun oi => poolable oi ne d0 d1) ms -> poolable om ne d0 d1.
Proof.
  intros Hm Hf Hb Hd HP E d Hd' qs cs q Eq Ec Hq. destruct (batch_data o0 os om ms Hm Hf Hb) as (_ & _ & _ & _ & _ & HC).
  destruct (HC d true ltac:(lia)) as (qss & G1 & G2 & _). destruct (HC (S d) true ltac:(lia)) as (css & H1 & H2 & _). rewrite G2 in Eq. injection Eq as <-. rewrite H2 in Ec. injection Ec as <-.
  destruct q as [[[x y] z] b]. apply in_join in Hq. destruct Hq as (qs & b' & Hb0 & N & Hin). destruct (mapM_nth _ _ _ _ _ G1 N) as (oi & No & Eo).
  destruct Hb as (o & _ & _ & E3). pose proof (members_data o0 os ms Hm Hf E3) as MD. pose proof (forall2_nth _ _ _ (Z.to_nat b) MD) as Q. rewrite No in Q. destruct (nth_error ms (Z.to_nat b)) as [mi|] eqn:Nm; [|contradiction].
  destruct Q as (SD & _). apply nth_error_In in Nm. rewrite Forall_forall in HP. specialize (HP mi Nm E d Hd').
  apply mapM_inv in H1. pose proof (forall2_nth _ _ _ (Z.to_nat b) H1) as Q. rewrite No in Q. destruct (nth_error css (Z.to_nat b)) as [cs|] eqn:Ncs; [|contradiction].
  assert (E1 : octree_xyzb mi d true = Ok qs) by (rewrite (same_xyzb oi mi) by exact SD; exact Eo). assert (E2 : octree_xyzb mi (S d) true = Ok cs) by (rewrite (same_xyzb oi mi) by exact SD; exact Q).
  destruct (HP qs cs (x, y, z, b') E1 E2 Hin) as ([[[x1 y1] z1] b1] & Hc & Pc). exists (x1, y1, z1, b). split; [apply in_join; exists cs, b1; auto|].
  unfold parent_cell in *. cbn in *. congruence.
Qed.

Section Shuffle.
  Variables (sigma : nat -> nat) (o0 o0' om om' : octree) (os os' ms ms' : list octree).
  Hypothesis Hm : mergeable o0 os.
  Hypothesis Hm' : mergeable o0' os'.
  Hypothesis Hf : (1 <= full_depth o0)%nat.
  Hypothesis HS : permutes sigma (length os).
  Hypothesis HR : reordered sigma os os'.
  Hypothesis HB : batched os om ms.
  Hypothesis HB' : batched os' om' ms'.
  Notation n := (length os).
  Notation s d := (rest d sigma n).
  Lemma first_like : depth o0' = depth o0 /\ full_depth o0' = full_depth o0.
  Proof.
    destruct Hm as (_ & _ & HF & _). destruct Hm' as (Hh & _). assert (I : In o0' os') by (destruct os' as [|a l]; [discriminate|injection Hh as ->; left; reflexivity]).
    assert (I' : In o0' os) by (eapply Permutation_in; [symmetry; apply (reordered_perm sigma os os' HS HR)|exact I]). rewrite Forall_forall in HF. destruct (HF _ I') as (_ & _ & D & F & _). auto.
  Qed.
  Lemma moved_cells d ne : (d <= depth o0)%nat -> exists css css', octree_xyzb om d ne = Ok (join_cells css) /\ octree_xyzb om' d ne = Ok (join_cells css') /\
    NoDup (join_cells css') /\ length (join_cells css) = node_count om d ne /\ length (join_cells css') = node_count om' d ne /\ length css = n /\ reordered sigma css css' /\
    Forall2 (fun m cs => length cs = node_count m d ne) ms css /\
    reordered (rows_to sigma (map (@length _) css) (map (@length _) css')) (map (s d) (join_cells css)) (join_cells css').
  Proof.
    intros Hd. destruct first_like as (D0 & F0). destruct (batch_data o0 os om ms Hm Hf HB) as (_ & _ & _ & _ & _ & HC). destruct (batch_data o0' os' om' ms' Hm' ltac:(lia) HB') as (_ & _ & _ & _ & _ & HC').
    destruct (HC d ne Hd) as (css & G1 & G2 & G3 & G4 & G5). destruct (HC' d ne ltac:(lia)) as (css' & G1' & G2' & G3' & G4' & _).
    assert (L : length css = n) by (apply mapM_inv in G1; clear -G1; induction G1; cbn; congruence). assert (L' : length css' = length os') by (apply mapM_inv in G1'; clear -G1'; induction G1'; cbn; congruence).
    assert (R : reordered sigma css css').
    { split; [rewrite L, L'; apply HR|]. intros i Hi. rewrite L in Hi. apply mapM_inv in G1, G1'. pose proof (forall2_nth _ _ _ i G1) as Q. pose proof (forall2_nth _ _ _ (sigma i) G1') as Q'.
      rewrite (proj2 HR i Hi) in Q'. destruct (nth_error os i) as [o|] eqn:No; [|apply nth_error_None in No; lia].
      destruct (nth_error css i); [|contradiction]. destruct (nth_error css' (sigma i)); [|contradiction]. congruence. }
    exists css, css'. do 7 (split; [assumption|]). split; [assumption|].
    apply (join_with_to (fun (i : Z) '(x, y, z, _) => (x, y, z, i)) (s d) sigma css css'); [rewrite L; exact HS|exact R|].
    intros b [[[x y] z] b0] Hb. rewrite rest_eq, renumber_in by lia. reflexivity.
  Qed.
  Lemma shuffle_moved : moved 0 (fun d => s d) om om'.
  Proof.
    destruct first_like as (D0 & F0). destruct (batch_data o0 os om ms Hm Hf HB) as (_ & D & B & _). destruct (batch_data o0' os' om' ms' Hm' ltac:(lia) HB') as (_ & D' & B' & _).
    split; [congruence|]. split; [rewrite B, B'; apply HR|]. intros d cs cs' Hd Ec Ec' q. destruct (moved_cells d true ltac:(lia)) as (css & css' & E1 & E2 & _ & _ & _ & L & R & _ & RJ).
    rewrite E1 in Ec. injection Ec as <-. rewrite E2 in Ec'. injection Ec' as <-.
    assert (Pm : Permutation (map (s d) (join_cells css)) (join_cells css')).
    { eapply reordered_perm; [|exact RJ]. assert (El : length (map (s d) (join_cells css)) = list_sum (map (@length _) css)).
      { rewrite map_length. unfold join_cells. rewrite concat_length. f_equal. apply (indexed_lengths (fun (i : Z) '(x, y, z, _) => (x, y, z, i)) css 0). }
      rewrite El. apply rows_permute; [rewrite map_length, L; exact HS|apply reordered_map; exact R]. }
    assert (Inj : forall p r, s d p = s d r -> p = r).
    { intros [[[x y] z] b] [[[x' y'] z'] b']. rewrite !rest_eq. intros E. injection E as -> -> -> E. apply (renumber_inj sigma n HS) in E. subst. reflexivity. }
    split; intros H.
    - apply (Permutation_in _ (Permutation_sym Pm)) in H. apply in_map_iff in H. destruct H as (p & E & Hp). apply Inj in E. subst. exact Hp.
    - apply (Permutation_in _ Pm). apply in_map. exact H.
  Qed.
  Lemma input_rows {A} d ne C (xs xs' : list (list (list A))) : (d <= depth o0)%nat -> Forall2 (fun oi x => shape (node_count oi d ne) C x) ms xs -> reordered sigma xs xs' ->
    shape (node_count om d ne) C (concat xs) /\ shape (node_count om' d ne) C (concat xs') /\ carried ne (fun d => s d) om om' d (concat xs) (concat xs').
  Proof.
    intros Hd HX RX. destruct (moved_cells d ne Hd) as (css & css' & E1 & E2 & ND & L1 & L2 & L & R & HC & RJ).
    assert (El : map (@length _) css = map (@length _) xs).
    { clear -HC HX. revert css HC. induction HX as [|m x ms xs [Hl _] HX IH]; intros css HC; inversion HC as [|a cs b css0 G HC']; subst; [reflexivity|]. cbn [map]. rewrite (IH _ HC'). f_equal. congruence. }
    assert (Lx : length xs = n) by (rewrite <- L; rewrite <- (map_length (@length _) css), El, map_length; reflexivity).
    assert (El' : map (@length _) css' = map (@length _) xs').
    { apply (reordered_fun sigma (map (@length _) css)); [rewrite map_length, L; exact HS|apply reordered_map; exact R|rewrite El; apply reordered_map; exact RX]. }
    assert (W : Forall (fun r => length r = C) (concat xs)).
    { clear -HX. induction HX as [|m x ms xs [_ Hw] HX IH]; cbn [concat]; [constructor|]. apply Forall_app. split; assumption. }
    pose proof (reordered_concat sigma xs xs' ltac:(rewrite Lx; exact HS) RX) as RC.
    assert (JL : forall cs : list (list (Z * Z * Z * Z)), length (join_cells cs) = list_sum (map (@length _) cs)).
    { intros cs. unfold join_cells. rewrite concat_length. f_equal. apply (indexed_lengths (fun (i : Z) '(x, y, z, _) => (x, y, z, i)) cs 0). }
    split; [split; [rewrite <- L1, JL, El; apply concat_length|exact W]|].
    split; [split; [rewrite <- L2, JL, El'; apply concat_length|]|].
    - eapply Permutation_Forall; [|exact W]. eapply reordered_perm; [|exact RC]. rewrite concat_length. apply rows_permute; [rewrite map_length, Lx; exact HS|apply reordered_map; exact RX].
    - intros cs cs' i j q Ec Ec' Hi Hj. rewrite E1 in Ec. injection Ec as <-. rewrite E2 in Ec'. injection Ec' as <-.
      assert (Li : (i < length (join_cells css))%nat) by (apply nth_error_Some; congruence).
      pose proof (proj2 RJ i ltac:(rewrite map_length; exact Li)) as Q. rewrite nth_error_map, Hi in Q. cbn [option_map] in Q.
      assert (Ej : j = rows_to sigma (map (@length _) css) (map (@length _) css') i).
      { apply (proj1 (NoDup_nth_error _) ND); [apply nth_error_Some; congruence|]. rewrite Hj, Q. reflexivity. }
      subst j. rewrite El, El'. symmetry. apply (proj2 RC). rewrite concat_length, <- El, <- JL. exact Li.
  Qed.
End Shuffle.
