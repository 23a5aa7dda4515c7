(** Proofs about scatter_add, cumsum and build_example_octree. *)
From Coq Require Import String List ZArith Bool QArith Qcanon Lia Permutation.
From Verif Require Import Res Tensor Key Num Points Octree NnBasic Spec SpecGeo SpecBuild SpecNN WF
  ListFacts NumFacts ScatterFacts SumFacts BuildThms Utils.
Import ListNotations.
Open Scope Z_scope.

Lemma rows_at_map {A B} (f : A -> B) tags k : forall src, map f (rows_at tags k src) = rows_at tags k (map f src).
Proof.
  induction tags as [|t tags IH]; intros [|a src]; try reflexivity.
  cbn [map]. rewrite !rows_at_cons, map_app, IH. destruct (t =? k); reflexivity.
Qed.
Lemma fold_plus_acc l : forall a, fold_left Qcplus l a = (a + fold_left Qcplus l 0)%Qc.
Proof.
  induction l as [|x l IH]; intros a; cbn [fold_left]; [ring|]. rewrite IH, (IH (0 + x)%Qc). ring.
Qed.
Lemma fold_plus_rows tags k : forall src a, length tags = length src ->
  fold_left Qcplus (rows_at tags k src) a
  = (a + sum_n (length src) (fun i => if (nth i tags 0 =? k)%Z then nth i src 0%Qc else 0%Qc))%Qc.
Proof.
  induction tags as [|t tags IH]; intros [|x src] a H; try discriminate; cbn [length] in *.
  - cbn. ring.
  - rewrite rows_at_cons, sum_S. cbn [nth]. rewrite fold_left_app, IH by lia.
    destruct (t =? k); cbn [fold_left]; ring.
Qed.
Lemma fold_plus_perm l l' a : Permutation l l' -> fold_left Qcplus l a = fold_left Qcplus l' a.
Proof.
  intros H; revert a; induction H; intros a; cbn [fold_left]; auto.
  - f_equal. ring.
  - congruence.
Qed.
Lemma fold_vadd_nth C rows : forall a c, Forall (fun r => length r = C) rows -> length a = C ->
  length (fold_left vadd rows a) = C /\
  nth c (fold_left vadd rows a) 0%Qc = fold_left Qcplus (map (fun r => nth c r 0%Qc) rows) (nth c a 0%Qc).
Proof.
  induction rows as [|r rows IH]; intros a c Hr Ha; cbn [fold_left map]; [auto|].
  inversion Hr as [|? ? Hr1 Hr2]; subst.
  assert (E : length (vadd a r) = length a) by (rewrite vadd_len; congruence).
  destruct (IH (vadd a r) c Hr2 E) as [H1 H2]. split; [exact H1|]. rewrite H2, vadd_nth by congruence. reflexivity.
Qed.
Lemma rows_at_in {A} tags k (src : list A) r : In r (rows_at tags k src) -> In r src.
Proof.
  unfold rows_at. intros H. apply in_map_iff in H. destruct H as ([t a] & <- & H).
  apply filter_In in H. destruct H as [H _]. cbn. exact (in_combine_r _ _ _ _ H).
Qed.
Lemma rows_at_perm {A} tags tags' k (src src' : list A) :
  Permutation (combine tags src) (combine tags' src') -> Permutation (rows_at tags k src) (rows_at tags' k src').
Proof.
  intros H. unfold rows_at. apply Permutation_map. induction H; cbn [filter].
  - constructor.
  - destruct (fst x =? k); [constructor|]; assumption.
  - destruct (fst x =? k), (fst y =? k); try constructor; apply Permutation_refl.
  - eapply Permutation_trans; eassumption.
Qed.
Lemma rows_at_none {A} tags k : forall src : list A, ~ In k tags -> rows_at tags k src = [].
Proof.
  induction tags as [|t tags IH]; intros [|a src] H; try reflexivity.
  rewrite rows_at_cons, IH by (intros Hk; apply H; right; exact Hk).
  destruct (Z.eqb_spec t k); [|reflexivity]. subst. exfalso. apply H. left. reflexivity.
Qed.

Lemma nth_error_at2 (x : list vec) r c i : nth_error x i = Some r -> at2 x i c = nth c r 0%Qc.
Proof. intros H. unfold at2. rewrite (nth_error_nth _ _ _ H). reflexivity. Qed.

Lemma sum_pick m n (idx : list Z) (f : nat -> Qc) : (forall i, (i < n)%nat -> 0 <= nth i idx 0 < Z.of_nat m) ->
  sum_n m (fun j => sum_n n (fun i => if (nth i idx 0 =? Z.of_nat j)%Z then f i else 0%Qc)) = sum_n n f.
Proof.
  intros H. rewrite sum_swap. apply sum_ext. intros i Hi. specialize (H i Hi).
  rewrite (sum_one m (Z.to_nat (nth i idx 0))); [|lia|].
  - rewrite Z2Nat.id by lia. rewrite Z.eqb_refl. reflexivity.
  - intros j Hj Hne. destruct (Z.eqb_spec (nth i idx 0) (Z.of_nat j)); [|reflexivity]. exfalso. lia.
Qed.

Lemma index_range n m (idx : list Z) : length idx = n -> Forall (fun i => 0 <= i < Z.of_nat m) idx ->
  forall i, (i < n)%nat -> 0 <= nth i idx 0 < Z.of_nat m.
Proof. intros L F i Hi. rewrite Forall_forall in F. apply F. apply nth_In. lia. Qed.

Lemma scatter_rows n m C src idx out : shape n C src -> length idx = n -> shape m C out ->
  Forall (fun i => 0 <= i < Z.of_nat m) idx ->
  exists r, scatter_add_into vadd out idx src = Ok r /\ shape m C r /\
    (forall j c, (j < m)%nat -> (c < C)%nat -> at2 r j c = (at2 out j c +
       sum_n n (fun i => if (nth i idx 0 =? Z.of_nat j)%Z then at2 src i c else 0%Qc))%Qc) /\
    (forall j, ~ In (Z.of_nat j) idx -> nth_error r j = nth_error out j) /\
    (forall idx' src', length idx' = n -> Permutation (combine idx src) (combine idx' src') -> length src' = n ->
       scatter_add_into vadd out idx' src' = Ok r).
Proof.
  intros Hs Hi Ho HF. destruct Hs as [Ls Fs], Ho as [Lo Fo].
  assert (G : forall idx' src', length idx' = n -> length src' = n -> Forall (fun r => length r = C) src' ->
    Forall (fun i => 0 <= i < Z.of_nat m) idx' ->
    exists r, scatter_add_into vadd out idx' src' = Ok r /\ shape m C r /\
     (forall j c, (j < m)%nat -> at2 r j c = fold_left Qcplus (rows_at idx' (Z.of_nat j) (map (fun r => nth c r 0%Qc) src')) (at2 out j c)) /\
     (forall j, ~ In (Z.of_nat j) idx' -> nth_error r j = nth_error out j)).
  { intros idx' src' Li' Ls' Fs' HF'.
    destruct (scatter_into_spec vadd idx' src' out) as (r & E & Lr & Hr); [congruence|intros i Hin; rewrite Forall_forall in HF'; unfold zlen; rewrite Lo; apply HF'; exact Hin|].
    assert (HR : forall j a, nth_error out j = Some a ->
      length (fold_left vadd (rows_at idx' (Z.of_nat j) src') a) = C /\ forall c,
      nth c (fold_left vadd (rows_at idx' (Z.of_nat j) src') a) 0%Qc = fold_left Qcplus (rows_at idx' (Z.of_nat j) (map (fun r => nth c r 0%Qc) src')) (nth c a 0%Qc)).
    { intros j a Ha. assert (La : length a = C) by (rewrite Forall_forall in Fo; apply Fo; eapply nth_error_In; exact Ha).
      assert (FR : Forall (fun r => length r = C) (rows_at idx' (Z.of_nat j) src')).
      { apply Forall_forall. intros x Hx. apply rows_at_in in Hx. rewrite Forall_forall in Fs'. apply Fs'. exact Hx. }
      split; [apply (fold_vadd_nth C _ a 0%nat FR La)|]. intros c. rewrite (proj2 (fold_vadd_nth C _ a c FR La)), rows_at_map. reflexivity. }
    exists r. split; [exact E|]. split; [|split].
    - split; [congruence|]. apply Forall_forall. intros x Hx. apply In_nth_error in Hx. destruct Hx as [j Hj].
      rewrite Hr in Hj. destruct (nth_error out j) as [a|] eqn:Ha; [|discriminate]. injection Hj as <-. apply (HR j a Ha).
    - intros j c Hj. destruct (nth_error out j) as [a|] eqn:Ha; [|apply nth_error_None in Ha; lia].
      rewrite (nth_error_at2 out a c j Ha). specialize (Hr j). rewrite Ha in Hr. rewrite (nth_error_at2 _ _ c j Hr).
      apply (HR j a Ha).
    - intros j Hj. rewrite Hr. rewrite (rows_at_none _ _ src' Hj). cbn [fold_left]. destruct (nth_error out j); reflexivity. }
  destruct (G idx src Hi Ls Fs HF) as (r & E & Sr & Er & Ur). exists r. split; [exact E|]. split; [exact Sr|]. split; [|split; [exact Ur|]].
  - intros j c Hj Hc. rewrite Er by exact Hj. rewrite fold_plus_rows by (rewrite map_length; congruence).
    rewrite map_length, Ls. f_equal. apply sum_ext. intros i Hin. destruct (nth i idx 0 =? Z.of_nat j); [|reflexivity].
    unfold at2. rewrite (nth_indep _ _ ((fun r => nth c r 0%Qc) [])) by (rewrite map_length; lia).
    exact (map_nth (fun r => nth c r 0%Qc) src [] i).
  - intros idx' src' Li' HP Ls'.
    assert (Fs' : Forall (fun r => length r = C) src').
    { apply Forall_forall. intros x Hx. apply In_nth_error in Hx. destruct Hx as [i Hx].
      destruct (nth_error idx' i) as [t|] eqn:Ht; [|apply nth_error_None in Ht; apply (f_equal (fun o => match o with Some _ => true | None => false end)) in Hx; assert (i < length src')%nat by (apply nth_error_Some; intros N; rewrite N in Hx; discriminate); lia].
      assert (Hin : In (t, x) (combine idx' src')).
      { apply nth_error_In with (n := i). rewrite <- Li' in Ls'. clear -Ht Hx. revert src' i Ht Hx.
        induction idx' as [|a l IH]; intros [|b s] [|i] Ht Hx; cbn in *; try discriminate; [congruence|apply IH; assumption]. }
      apply (Permutation_in _ (Permutation_sym HP)) in Hin. apply in_combine_r in Hin. rewrite Forall_forall in Fs. apply Fs; exact Hin. }
    assert (HF' : Forall (fun i => 0 <= i < Z.of_nat m) idx').
    { assert (PI : Permutation idx idx').
      { apply (Permutation_map fst) in HP. revert HP.
        assert (CF : forall (l : list Z) (s : list vec), length l = length s -> map fst (combine l s) = l).
        { induction l as [|a l IH]; intros [|b s] H; cbn in *; try discriminate; [reflexivity|]. f_equal. apply IH. lia. }
        rewrite !CF by congruence. exact (fun H => H). }
      eapply Permutation_Forall; eassumption. }
    destruct (G idx' src' Li' Ls' Fs' HF') as (r' & E' & Sr' & Er' & _). rewrite E'. f_equal.
    apply (shape_ext m C); [exact Sr'|exact Sr|]. intros j c Hj Hc. rewrite Er, Er' by exact Hj.
    apply fold_plus_perm. rewrite <- !rows_at_map. apply Permutation_map. apply Permutation_sym. apply rows_at_perm. exact HP.
Qed.

Lemma scatter_total n m C src idx out r : length idx = n ->
  Forall (fun i => 0 <= i < Z.of_nat m) idx ->
  (forall j c, (j < m)%nat -> (c < C)%nat -> at2 r j c = (at2 out j c +
       sum_n n (fun i => if (nth i idx 0 =? Z.of_nat j)%Z then at2 src i c else 0%Qc))%Qc) ->
  forall c, (c < C)%nat -> sum_n m (fun j => at2 r j c) = (sum_n m (fun j => at2 out j c) + sum_n n (fun i => at2 src i c))%Qc.
Proof.
  intros L F H c Hc. rewrite (sum_ext m _ (fun j => (at2 out j c + sum_n n (fun i => if (nth i idx 0 =? Z.of_nat j)%Z then at2 src i c else 0%Qc))%Qc))
    by (intros j Hj; apply H; assumption).
  rewrite sum_plus. f_equal. apply sum_pick. apply (index_range n m idx L F).
Qed.

Theorem thm_scatter0 : forall n m C src idx out dim ds, dim = 0 \/ dim = -2 -> shape n C src -> length idx = n -> shape m C out ->
  Forall (fun i => 0 <= i < Z.of_nat m) idx ->
  exists r, scatter_add2 C src idx dim (Some out) ds = Ok r /\ shape m C r /\
    (forall j c, (j < m)%nat -> (c < C)%nat -> at2 r j c = (at2 out j c +
       sum_n n (fun i => if (nth i idx 0 =? Z.of_nat j)%Z then at2 src i c else 0%Qc))%Qc) /\
    (forall j, ~ In (Z.of_nat j) idx -> nth_error r j = nth_error out j) /\
    (forall c, (c < C)%nat -> sum_n m (fun j => at2 r j c) = (sum_n m (fun j => at2 out j c) + sum_n n (fun i => at2 src i c))%Qc) /\
    (forall idx' src', length idx' = n -> length src' = n -> Permutation (combine idx src) (combine idx' src') ->
       scatter_add2 C src' idx' dim (Some out) ds = Ok r).
Proof.
  intros n m C src idx out dim ds Hd Hs Hi Ho HF.
  destruct (scatter_rows n m C src idx out Hs Hi Ho HF) as (r & E & Sr & Er & Ur & Pr).
  assert (D : (dim =? 0) || (dim =? -2) = true) by (destruct Hd; subst; reflexivity).
  exists r. unfold scatter_add2. rewrite D. split; [exact E|]. split; [exact Sr|]. split; [exact Er|]. split; [exact Ur|].
  split; [apply (scatter_total n m C src idx out r Hi HF Er)|]. intros idx' src' L1 L2 HP. apply Pr; assumption.
Qed.

(** without [out] *)
Theorem thm_scatter0_new : forall C src idx dim ds, scatter_add2 C src idx dim None ds =
  scatter_add2 C src idx dim (Some (if (dim =? 0) || (dim =? -2) then repeat (vzero C) (scatter_size idx ds)
     else repeat (vzero (scatter_size idx ds)) (length src))) ds.
Proof. intros C src idx dim ds. unfold scatter_add2. destruct ((dim =? 0) || (dim =? -2)); reflexivity. Qed.

Lemma scatter_size_bound idx : Forall (fun i => 0 <= i) idx ->
  Forall (fun i => 0 <= i < Z.of_nat (scatter_size idx None)) idx /\
  (idx <> [] -> In (Z.of_nat (scatter_size idx None) - 1) idx) /\ (idx = [] -> scatter_size idx None = O).
Proof.
  intros F. destruct idx as [|a t]; [split; [constructor|split; [congruence|reflexivity]]|].
  cbn [scatter_size]. pose proof (fold_max_ge t a) as [G1 G2]. inversion F as [|? ? F1 F2]; subst.
  split; [|split; [|discriminate]].
  - apply Forall_forall. intros x Hx. rewrite Forall_forall in F. specialize (F x Hx).
    assert (x <= fold_left Z.max t a) by (destruct Hx as [<-|Hx]; [exact G1|apply G2; exact Hx]). lia.
  - intros _. rewrite Z2Nat.id by lia. replace (fold_left Z.max t a + 1 - 1) with (fold_left Z.max t a) by lia.
    destruct (fold_max_in t a) as [->|H]; [left; reflexivity|right; exact H].
Qed.

(** out of range *)
Lemma scatter_bad {A} (add : A -> A -> A) : forall idx src out, length idx = length src ->
  Exists (fun i => ~ (0 <= i < zlen out)) idx -> scatter_add_into add out idx src = Err RuntimeError.
Proof.
  unfold scatter_add_into. intros idx src out L HE. rewrite L, Nat.eqb_refl. revert src out L HE.
  induction idx as [|i idx IH]; intros [|s src] out L HE; try discriminate; [inversion HE|].
  cbn [combine foldM]. unfold scatter_step at 1. cbn [fst snd].
  destruct (Z.leb_spec 0 i); cbn [andb]; [|reflexivity]. destruct (Z.ltb_spec i (zlen out)); [|reflexivity].
  destruct (nth_error out (Z.to_nat i)) as [a|] eqn:Ha; [|reflexivity]. cbn [bind]. apply IH; [cbn in L; lia|].
  assert (Ls : zlen (set_nth out (Z.to_nat i) (add a s)) = zlen out) by (unfold zlen; rewrite set_nth_length; reflexivity).
  inversion HE as [? ? B|? ? B]; subst; [exfalso; apply B; lia|]. rewrite Ls. exact B.
Qed.

Theorem thm_scatter_bad : forall n m C src idx out dim ds, dim = 0 \/ dim = -2 -> shape n C src -> length idx = n -> shape m C out ->
  Exists (fun i => ~ (0 <= i < Z.of_nat m)) idx -> scatter_add2 C src idx dim (Some out) ds = Err RuntimeError.
Proof.
  intros n m C src idx out dim ds Hd [Ls _] Hi [Lo _] HE. unfold scatter_add2.
  assert (D : (dim =? 0) || (dim =? -2) = true) by (destruct Hd; subst; reflexivity). rewrite D.
  apply scatter_bad; [congruence|]. unfold zlen. rewrite Lo. exact HE.
Qed.

(** along dimension 1 *)
Theorem thm_scatter1 : forall n m C src idx out dim ds, dim = 1 \/ dim = -1 -> shape n C src -> length idx = C -> shape n m out ->
  Forall (fun j => 0 <= j < Z.of_nat m) idx ->
  exists r, scatter_add2 C src idx dim (Some out) ds = Ok r /\ shape n m r /\
    forall i j, (i < n)%nat -> (j < m)%nat -> at2 r i j = (at2 out i j +
       sum_n C (fun k => if (nth k idx 0 =? Z.of_nat j)%Z then at2 src i k else 0%Qc))%Qc.
Proof.
  intros n m C src idx out dim ds Hd [Ls Fs] Hi [Lo Fo] HF. unfold scatter_add2.
  assert (D : (dim =? 0) || (dim =? -2) = false) by (destruct Hd; subst; reflexivity).
  assert (D1 : (dim =? 1) || (dim =? -1) = true) by (destruct Hd; subst; reflexivity). rewrite D, D1.
  rewrite Lo, Ls, Hi, !Nat.eqb_refl. cbn [andb].
  assert (G : forall n out src, length out = n -> length src = n -> Forall (fun r => length r = m) out -> Forall (fun r => length r = C) src ->
    exists r, mapM (fun os => scatter_add_into Qcplus (fst os) idx (snd os)) (combine out src) = Ok r /\ shape n m r /\
      forall i j, (i < n)%nat -> (j < m)%nat -> at2 r i j = (at2 out i j +
       sum_n C (fun k => if (nth k idx 0 =? Z.of_nat j)%Z then at2 src i k else 0%Qc))%Qc).
  { clear -HF Hi. induction n as [|n IH]; intros [|o out] [|s src] Lo Ls Fo Fs; try discriminate.
    - exists []. split; [reflexivity|]. split; [split; [reflexivity|constructor]|]. intros; lia.
    - inversion Fo as [|? ? Fo1 Fo2]; inversion Fs as [|? ? Fs1 Fs2]; subst.
      destruct (IH out src) as (r & E & Sr & Er); [cbn in Lo; lia|cbn in Ls; lia|assumption|assumption|].
      destruct (scatter_into_spec Qcplus idx s o) as (w & Ew & Lw & Hw); [congruence|intros i Hin; rewrite Forall_forall in HF; apply HF; exact Hin|].
      exists (w :: r). cbn [combine mapM fst snd]. rewrite Ew. cbn [bind]. rewrite E. cbn [bind]. split; [reflexivity|].
      destruct Sr as [Lr Fr]. split; [split; [cbn; congruence|constructor; [congruence|exact Fr]]|].
      intros [|i] j Hin Hj; [|exact (Er i j ltac:(lia) Hj)]. unfold at2. cbn [nth].
      specialize (Hw j). destruct (nth_error o j) as [a|] eqn:Ha; [|apply nth_error_None in Ha; lia].
      rewrite (nth_error_nth _ _ 0%Qc Hw), (nth_error_nth _ _ 0%Qc Ha).
      rewrite fold_plus_rows by congruence. rewrite Fs1. reflexivity. }
  apply (G n out src Lo Ls Fo Fs).
Qed.

(** cumsum *)
Definition zsum (l : list Z) : Z := fold_right Z.add 0 l.
Lemma cumsum_from_nth l : forall a j, (j < length l)%nat -> nth j (cumsum_from a l) 0 = a + zsum (firstn (S j) l).
Proof.
  induction l as [|x l IH]; intros a j H; cbn [length] in H; [lia|]. cbn [cumsum_from].
  destruct j as [|j]; cbn [nth].
  - cbn [firstn zsum fold_right]. rewrite Z.add_0_r. reflexivity.
  - rewrite IH by lia. change (firstn (S (S j)) (x :: l)) with (x :: firstn (S j) l). unfold zsum. cbn [fold_right]. lia.
Qed.
Lemma cumsum_from_length l : forall a, length (cumsum_from a l) = length l.
Proof. induction l as [|x l IH]; intros a; cbn; [reflexivity|]. rewrite IH. reflexivity. Qed.
Theorem thm_cumsum : forall l, length (cumsum l false) = length l /\ length (cumsum l true) = S (length l) /\
  (forall j, (j <= length l)%nat -> nth j (cumsum l true) 0 = fold_right Z.add 0 (firstn j l)) /\
  (forall j, (j < length l)%nat -> nth j (cumsum l false) 0 = fold_right Z.add 0 (firstn (S j) l)).
Proof.
  intros l. unfold cumsum, cumsum_incl. split; [apply cumsum_from_length|]. split; [cbn; rewrite cumsum_from_length; reflexivity|]. split.
  - intros [|j] H; [reflexivity|]. cbn [nth]. rewrite cumsum_from_nth by lia. reflexivity.
  - intros j H. rewrite cumsum_from_nth by exact H. reflexivity.
Qed.
Theorem thm_cumsum_ends : forall l, nth 0 (cumsum l true) 7 = 0 /\ nth (length l) (cumsum l true) 0 = fold_right Z.add 0 l /\
  tl (cumsum l true) = cumsum l false.
Proof.
  intros l. split; [reflexivity|]. split; [|reflexivity].
  destruct (thm_cumsum l) as (_ & _ & H & _). rewrite H by lia. rewrite firstn_all. reflexivity.
Qed.

(** build_example_octree *)
Theorem thm_example : forall normalize dep full n, (full <= dep)%nat -> (dep <= 16)%nat -> (1 <= n <= 3)%nat ->
  exists o, build_example_octree normalize dep full n = Ok o /\ wf_octree o /\ depth o = dep /\ full_depth o = full /\ batch_size o = 1%nat /\
    exists idx, build_octree normalize (octree_new dep full 1 0) (mkPoints
      (firstn n [(qz (-1), qz (-1), qz (-1)); (qz 0, qz 0, qz (-1)); (Q2Qc (1 # 16), Q2Qc (1 # 16), qz (-1))])
      (Some (firstn n [(qz 1, qz 0, qz 0); (qz (-1), qz 0, qz 0); (qz 0, qz 1, qz 0)]))
      (Some (firstn n [[qz 1; qz (-1)]; [qz 2; qz (-2)]; [qz 3; qz (-3)]])) (Some (firstn n [[qz 0]; [qz 2]; [qz 2]])) None 1 None 0) = Ok (o, idx).
Proof.
  intros normalize dep full n Hf Hd Hn. unfold build_example_octree.
  destruct (example_cloud n) as [pc|e] eqn:E; [|exfalso; destruct n as [|[|[|[|n]]]]; try lia; discriminate].
  assert (BI : build_input (octree_new dep full 1 0) pc).
  { constructor; cbn [depth full_depth batch_size octree_new layers]; try lia; [rewrite repeat_length; lia|].
    destruct n as [|[|[|[|n]]]]; try lia; injection E as <-; (constructor; cbn; try lia; try congruence;
      [intros ? [= <-]; reflexivity|intros ? [= <-]; split; [reflexivity|]; exists 2%nat; repeat constructor]). }
  destruct (thm_build_wf normalize _ _ BI) as (o' & idx & E' & W & H1 & H2 & H3 & _). cbn [bind]. rewrite E'. cbn [bind fst].
  exists o'. split; [reflexivity|]. split; [exact W|].
  split; [exact H1|]. split; [exact H2|]. split; [exact H3|]. exists idx. rewrite <- E'. f_equal. destruct n as [|[|[|[|n]]]]; try lia; injection E as <-; reflexivity.
Qed.
Theorem thm_example_bad : forall normalize dep full n, ~ (1 <= n <= 3)%nat -> build_example_octree normalize dep full n = Err AssertionError.
Proof. intros normalize dep full n H. unfold build_example_octree, example_cloud. destruct n as [|[|[|[|n]]]]; try (exfalso; lia); reflexivity. Qed.

Theorem thm_scatter0_total : forall n C src idx dim, dim = 0 \/ dim = -2 -> shape n C src -> length idx = n -> Forall (fun i => 0 <= i) idx ->
  exists m r, scatter_add2 C src idx dim None None = Ok r /\ shape m C r /\
    Forall (fun i => i < Z.of_nat m) idx /\ (m = O \/ In (Z.of_nat m - 1) idx) /\
    (forall j c, (j < m)%nat -> (c < C)%nat -> at2 r j c =
       sum_n n (fun i => if (nth i idx 0 =? Z.of_nat j)%Z then at2 src i c else 0%Qc)) /\
    (forall c, (c < C)%nat -> sum_n m (fun j => at2 r j c) = sum_n n (fun i => at2 src i c)).
Proof.
  intros n C src idx dim Hd Hs Hi HF. destruct (scatter_size_bound idx HF) as (B1 & B2 & B3).
  set (m := scatter_size idx None) in *. exists m. rewrite thm_scatter0_new.
  assert (D : (dim =? 0) || (dim =? -2) = true) by (destruct Hd; subst dim; reflexivity). rewrite D. fold m.
  destruct (thm_scatter0 n m C src idx (repeat (vzero C) m) dim None Hd Hs Hi (shape_repeat m C 0%Qc) B1) as (r & E & Sr & Er & _ & Tr & _).
  exists r. split; [exact E|]. split; [exact Sr|]. split; [|split; [|split]].
  - eapply Forall_impl; [|exact B1]. cbn. lia.
  - destruct idx as [|a t]; [left; apply B3; reflexivity|right; apply B2; discriminate].
  - intros j c Hj Hc. rewrite Er by assumption. rewrite at2_zero. ring.
  - intros c Hc. rewrite Tr by exact Hc. rewrite (sum_zero m) by (intros; apply at2_zero). ring.
Qed.

Theorem thm_cumsum_rows : forall data exclusive, length (cumsum_rows data exclusive) = length data /\
  forall i r s, nth_error data i = Some r -> nth_error (cumsum_rows data exclusive) i = Some s ->
    length s = (length r + (if exclusive then 1 else 0))%nat /\
    forall j, (j < length s)%nat -> nth j s 0 = fold_right Z.add 0 (firstn (if exclusive then j else S j) r).
Proof.
  intros data exclusive. unfold cumsum_rows. split; [apply map_length|]. intros i r s E F. rewrite nth_error_map, E in F. injection F as <-.
  destruct (thm_cumsum r) as (A & B & C & D). destruct exclusive.
  - split; [rewrite B; lia|]. intros j Hj. apply C. lia.
  - split; [rewrite A; lia|]. intros j Hj. apply D. lia.
Qed.
