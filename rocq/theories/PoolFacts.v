(** Max pooling and unpooling. *)
From Coq Require Import String List ZArith Bool QArith Qcanon Lia Lqa.
From Verif Require Import Res Tensor Num NumFacts Points Octree NnBasic Spec SpecNeigh SpecNN WF ListFacts SumFacts NnFacts KidsFacts WFFacts SearchFacts NeighFacts PadFacts Family.
Import ListNotations.
Open Scope Z_scope.

Lemma qltb_lt a b : qltb a b = true <-> (a < b)%Qc.
Proof.
  unfold qltb. rewrite negb_true_iff. split; intros H.
  - apply Qcnot_le_lt. intros C. apply Qle_bool_iff in C. congruence.
  - destruct (Qle_bool b a) eqn:E; [|reflexivity]. apply Qle_bool_iff in E. exfalso. exact (Qcle_not_lt b a E H).
Qed.
Lemma some_inj {A} (a b : A) : Some a = Some b -> a = b.
Proof. congruence. Qed.
Definition is_best (l : list xnum) (v : xnum) (s : Z) : Prop :=
  match v with
  | None => s = 0 /\ forall i a, nth_error l i = Some a -> a = None
  | Some m => 0 <= s /\ nth_error l (Z.to_nat s) = Some (Some m) /\
      forall i a, nth_error l i = Some (Some a) -> (a <= m)%Qc /\ (Z.of_nat i < s -> (a < m)%Qc)
  end.
Lemma nth_error_snoc {A} (l : list A) a i x : nth_error (l ++ [a]) i = Some x -> nth_error l i = Some x \/ (i = length l /\ x = a).
Proof.
  intros H. destruct (Nat.lt_ge_cases i (length l)) as [Hi|Hi].
  - rewrite nth_error_app1 in H by exact Hi. auto.
  - rewrite nth_error_app2 in H by exact Hi. destruct (i - length l)%nat as [|k] eqn:E; cbn [nth_error] in H; [right; split; [lia|congruence]|destruct k; discriminate].
Qed.
Lemma best_step l v s a : is_best l v s -> l <> [] ->
  is_best (l ++ [a]) (if xltb v a then a else v) (if xltb v a then Z.of_nat (length l) else s).
Proof.
  intros H Hl. destruct v as [m|]; destruct a as [x|]; cbn [xltb].
  - destruct H as (H0 & H1 & H2). destruct (qltb m x) eqn:E.
    + rewrite qltb_lt in E. split; [lia|]. split; [rewrite Nat2Z.id, nth_error_app2, Nat.sub_diag by lia; reflexivity|].
      intros i y Hy. apply nth_error_snoc in Hy. destruct Hy as [Hy|[-> Hy]].
      * destruct (H2 i y Hy) as [H3 _]. assert (y < x)%Qc by (eapply Qcle_lt_trans; eassumption). split; [apply Qclt_le_weak; assumption|auto].
      * injection Hy as ->. split; [apply Qcle_refl|lia].
    + assert (x <= m)%Qc. { apply Qcnot_lt_le. intros C. apply qltb_lt in C. congruence. }
      assert (Hs : (Z.to_nat s < length l)%nat) by (apply nth_error_Some; congruence).
      split; [exact H0|]. split; [rewrite nth_error_app1 by exact Hs; exact H1|].
      intros i y Hy. apply nth_error_snoc in Hy. destruct Hy as [Hy|[-> Hy]]; [apply H2; exact Hy|]. injection Hy as ->. split; [assumption|lia].
  - destruct H as (H0 & H1 & H2). assert (Hs : (Z.to_nat s < length l)%nat) by (apply nth_error_Some; congruence).
    split; [exact H0|]. split; [rewrite nth_error_app1 by exact Hs; exact H1|].
    intros i y Hy. apply nth_error_snoc in Hy. destruct Hy as [Hy|[-> Hy]]; [apply H2; exact Hy|discriminate].
  - destruct H as [_ H]. split; [lia|]. split; [rewrite Nat2Z.id, nth_error_app2, Nat.sub_diag by lia; reflexivity|].
    intros i y Hy. apply nth_error_snoc in Hy. destruct Hy as [Hy|[-> Hy]]; [apply H in Hy; discriminate|]. injection Hy as ->. split; [apply Qcle_refl|lia].
  - destruct H as [-> H]. split; [reflexivity|]. intros i y Hy. apply nth_error_snoc in Hy. destruct Hy as [Hy|[_ ->]]; [eapply H; exact Hy|reflexivity].
Qed.
Lemma max_from_spec t : forall l v s, is_best l v s -> l <> [] ->
  is_best (l ++ t) (fst (max_from v s (Z.of_nat (length l)) t)) (snd (max_from v s (Z.of_nat (length l)) t)).
Proof.
  induction t as [|a t IH]; intros l v s H Hl; [rewrite app_nil_r; exact H|].
  pose proof (best_step l v s a H Hl) as H'. change (a :: t) with ([a] ++ t). rewrite app_assoc. cbn [app max_from].
  replace (Z.of_nat (length l) + 1) with (Z.of_nat (length (l ++ [a]))) by (rewrite app_length; cbn [length]; lia).
  destruct (xltb v a); apply IH; try exact H'; intros E; apply app_eq_nil in E; destruct E; discriminate.
Qed.
Lemma max_first_spec l : l <> [] -> is_best l (fst (max_first l)) (snd (max_first l)).
Proof.
  destruct l as [|a t]; [congruence|]. intros _. cbn [max_first]. change (a :: t) with ([a] ++ t). apply (max_from_spec t [a] a 0); [|discriminate].
  destruct a as [m|]; cbn [is_best].
  - split; [lia|]. split; [reflexivity|]. intros [|i] y Hy; [injection Hy as ->|destruct i; discriminate]. split; [apply Qcle_refl|lia].
  - split; [reflexivity|]. intros [|i] y Hy; [injection Hy as <-; reflexivity|destruct i; discriminate].
Qed.

Section Tree.
  Variables (o : octree) (L : nat) (K : nat -> list Z) (M : nat -> list bool).
  Hypothesis T : tree_upto o L K M.
  Notation ps d := (sel K M true d).

  Lemma kids_count d : (S d <= L)%nat -> node_count o (S d) false = (8 * node_count o d true)%nat.
  Proof. intros H. rewrite !(node_count_sel o L K M T) by lia. cbn [sel]. apply (kids_rows o L K M T). exact H. Qed.

  (** the padded data of layer d, None for an empty node *)
  Lemma padded d ne C x : (d <= L)%nat -> shape (node_count o d ne) C x ->
    exists D, (if ne then octree_pad C (map (map (@Some Qc)) x) o (Z.of_nat d) None else Ok (map (map (@Some Qc)) x)) = Ok D /\
      shape (node_count o d false) C D /\
      (forall j k c, nth_error (sel K M ne d) j = Some k -> (c < C)%nat ->
         exists i, nth_error (K d) i = Some k /\ nth c (nth i D []) None = Some (at2 x j c)) /\
      (forall i c m, (i < length D)%nat -> (c < C)%nat -> nth c (nth i D []) None = Some m ->
         exists j, nth_error (sel K M ne d) j = nth_error (K d) i /\ at2 x j c = m /\ (j < length (sel K M ne d))%nat).
  Proof.
    intros Hd [Hx HC]. assert (HX : shape (node_count o d ne) C (map (map (@Some Qc)) x)).
    { split; [rewrite map_length; exact Hx|]. rewrite Forall_forall in *. intros r Hr. apply in_map_iff in Hr. destruct Hr as (r' & <- & Hr'). rewrite map_length. apply HC. exact Hr'. }
    assert (HS : forall j c, (j < length x)%nat -> (c < C)%nat -> nth c (nth j (map (map (@Some Qc)) x) []) None = Some (at2 x j c)).
    { intros j c Hj Hc. rewrite (nth_map_lt _ _ _ []) by exact Hj. rewrite (nth_map_lt _ _ _ 0%Qc); [reflexivity|].
      rewrite (shape_nth (node_count o d ne) C x j (conj Hx HC)) by lia. exact Hc. }
    destruct ne.
    - rewrite (tree_pad o L K M T) by (rewrite ?map_length; assumption). eexists. split; [reflexivity|].
      destruct (mask_len o L K M T d Hd) as [Hm Hct].
      assert (HD : shape (node_count o d false) C (fill (M d) (repeat (repeat (@None Qc) C) (node_count o d false)) (map (map (@Some Qc)) x))).
      { split; [rewrite fill_length, repeat_length; reflexivity|]. apply fill_Forall; [apply (shape_repeat _ C)|apply HX]. }
      split; [exact HD|].
      assert (HT : forall i, nth_error (M d) i = Some true ->
        nth i (fill (M d) (repeat (repeat (@None Qc) C) (node_count o d false)) (map (map (@Some Qc)) x)) [] = nth (count_true (firstn i (M d))) (map (map (@Some Qc)) x) []).
      { intros i Hi. pose proof (fill_true (M d) (repeat (repeat (@None Qc) C) (node_count o d false)) (map (map (@Some Qc)) x) i) as F.
        rewrite repeat_length, map_length in F. specialize (F Hm ltac:(lia) Hi).
        rewrite <- !nth_default_eq. unfold nth_default. rewrite F. reflexivity. }
      split.
      + intros j k c Hj Hc. destruct (sel_full o L K M T true d j k Hd Hj) as (i & Ei & _ & H). destruct (H eq_refl) as [Hmi ->].
        exists i. split; [exact Ei|]. rewrite HT by exact Hmi. apply HS; [|exact Hc].
        rewrite Hx, (node_count_sel o L K M T) by exact Hd. apply nth_error_Some. congruence.
      + intros i c m Hi Hc Hv. rewrite fill_length, repeat_length in Hi. destruct (nth_error (M d) i) as [[|]|] eqn:Em; [| |apply nth_error_None in Em; lia].
        * rewrite HT in Hv by exact Em. pose proof (nth_select_pos (M d) (K d) i (t_mask _ _ _ _ T d Hd) Em) as E.
          assert (Hki : (i < length (K d))%nat) by (rewrite <- (t_mask _ _ _ _ T d Hd); lia).
          assert (Hj : (count_true (firstn i (M d)) < length (sel K M true d))%nat).
          { apply nth_error_Some. cbn [sel]. rewrite E. apply nth_error_Some. exact Hki. }
          exists (count_true (firstn i (M d))). split; [exact E|]. split; [|exact Hj]. rewrite HS in Hv; [congruence| |exact Hc].
          rewrite Hx, (node_count_sel o L K M T) by exact Hd. exact Hj.
        * pose proof (fill_false (M d) (repeat (repeat (@None Qc) C) (node_count o d false)) (map (map (@Some Qc)) x) i) as F.
          rewrite repeat_length in F. specialize (F Hm Em). rewrite nth_error_repeat in F by exact Hi.
          rewrite <- (nth_default_eq i) in Hv. unfold nth_default in Hv. rewrite F in Hv. rewrite nth_repeat_same in Hv. discriminate.
    - eexists. split; [reflexivity|]. split; [exact HX|]. split.
      + intros j k c Hj Hc. exists j. split; [exact Hj|]. apply HS; [|exact Hc]. rewrite Hx, (node_count_sel o L K M T) by exact Hd. apply nth_error_Some. congruence.
      + intros i c m Hi Hc Hv. rewrite map_length in Hi. exists i. split; [reflexivity|]. rewrite HS in Hv by assumption. split; [congruence|].
        rewrite <- (node_count_sel o L K M T) by exact Hd. lia.
  Qed.

  Lemma max_pool_vals d ne C x : (S d <= L)%nat -> shape (node_count o (S d) ne) C x ->
    exists vals idx, shape (length (ps d)) C vals /\ shape (length (ps d)) C idx /\
      octree_max_pool C x o (S d) ne = (out <- (if ne then Ok vals else octree_pad C vals o (Z.of_nat d) (Some (0%Qc))) ;; Ok (out, idx)) /\
      forall r k c, nth_error (ps d) r = Some k -> (c < C)%nat ->
        max_over_children x (map (coords (S d)) (sel K M ne (S d))) (coords d k) c (entry2 None vals r c) (entry2 0 idx r c).
  Proof.
    intros Hd Hx. destruct (padded (S d) ne C x Hd Hx) as (D & ED & [HD HDC] & HA & HB).
    set (R := length (ps d)). assert (HDl : length D = (R * 8)%nat).
    { rewrite HD, kids_count by exact Hd. rewrite (node_count_sel o L K M T) by lia. fold R. lia. }
    set (best := map (fun rows => map (fun c => max_first (column None c rows)) (seq 0 C)) (chunk_rows R 8 D)).
    pose proof (chunk_rows_shape R 8 D HDl) as [HcR Hc8].
    assert (HL : length best = R) by (unfold best; rewrite map_length; exact HcR).
    assert (HRow : forall r, (r < R)%nat -> nth r best [] = map (fun c => max_first (column None c (nth r (chunk_rows R 8 D) []))) (seq 0 C)).
    { intros r Hr. unfold best. rewrite (nth_map_lt _ _ _ []) by lia. reflexivity. }
    assert (HS : forall A (f : xnum * Z -> A), shape R C (map (map f) best)).
    { intros A f. split; [rewrite map_length; exact HL|]. apply Forall_forall. intros w Hw. apply in_map_iff in Hw. destruct Hw as (b & <- & Hb).
      unfold best in Hb. apply in_map_iff in Hb. destruct Hb as (rows & <- & _). rewrite !map_length, seq_length. reflexivity. }
    exists (map (map fst) best), (map (map snd) best). split; [apply HS|]. split; [apply HS|]. split.
    { unfold octree_max_pool. cbn zeta. rewrite ED. cbn [bind]. unfold view_rows.
      rewrite HDl, Nat.mod_mul by lia. cbn [Nat.eqb negb andb]. rewrite Nat.div_mul by lia. cbn [bind]. fold best.
      replace (Z.of_nat (S d) - 1) with (Z.of_nat d) by lia. reflexivity. }
    intros r k c Hr Hc. assert (HrR : (r < R)%nat) by (apply nth_error_Some; congruence).
    set (col := column None c (nth r (chunk_rows R 8 D) [])).
    assert (Hcol : forall j, (j < 8)%nat -> nth_error col j = Some (nth c (nth (8 * r + j) D []) None)).
    { intros j Hj. unfold col, column. rewrite nth_error_map.
      rewrite (nth_error_nth' (nth r (chunk_rows R 8 D) []) []) by (rewrite (shape_nth R 8) by (auto; split; assumption); exact Hj).
      cbn [option_map]. do 2 f_equal. rewrite (nth_chunk_rows []) by (assumption || lia). f_equal. lia. }
    assert (Hlen : length col = 8%nat) by (unfold col, column; rewrite map_length; apply (shape_nth R 8); [split; assumption|exact HrR]).
    assert (HE : entry2 None (map (map fst) best) r c = fst (max_first col) /\ entry2 0 (map (map snd) best) r c = snd (max_first col)).
    { unfold entry2. rewrite !(nth_map_lt _ _ _ []) by lia. rewrite !HRow by exact HrR. rewrite !map_map.
      rewrite !nth_map_seq by exact Hc. split; reflexivity. }
    destruct HE as [-> ->]. pose proof (max_first_spec col ltac:(intros E; rewrite E in Hlen; discriminate)) as HM.
    (* children of this parent *)
    assert (HK : forall j q, nth_error (map (coords (S d)) (sel K M ne (S d))) j = Some q -> parent_cell q = coords d k ->
      exists s, (s < 8)%nat /\ child_no q = Z.of_nat s /\ nth_error col s = Some (Some (at2 x j c))).
    { intros j q Hj Hq. rewrite nth_error_map in Hj. destruct (nth_error (sel K M ne (S d)) j) as [kk|] eqn:Ej; [|discriminate]. cbn [option_map] in Hj.
      apply some_inj in Hj. subst q. destruct (HA j kk c Ej Hc) as (i & Ei & Ev).
      destruct (family_inv o L K M T d i kk Hd Ei) as (r' & s & k' & -> & Hs & Hr' & Hpar & Hno).
      pose proof (eq_trans (eq_sym Hpar) Hq) as Hkk. destruct (parent_row o L K M T d r' r k' k ltac:(lia) Hr' Hr Hkk) as [-> ->].
      exists s. split; [exact Hs|]. split; [exact Hno|]. rewrite Hcol by exact Hs. rewrite Ev. reflexivity. }
    destruct (fst (max_first col)) as [m|] eqn:Ev; cbn [max_over_children is_best] in *.
    - destruct HM as (Hs0 & Hs1 & Hs2). assert (Hs : (Z.to_nat (snd (max_first col)) < 8)%nat) by (assert (Hs8 : nth_error col (Z.to_nat (snd (max_first col))) <> None) by (intros X; pose proof (eq_trans (eq_sym Hs1) X) as Y; discriminate Y); apply (proj1 (nth_error_Some _ _)) in Hs8; clear - Hs8 Hlen; lia).
      split.
      + assert (Hv : nth c (nth (8 * r + Z.to_nat (snd (max_first col))) D []) None = Some m) by (apply some_inj; rewrite <- (Hcol _ Hs); exact Hs1).
        assert (Hb8 : (8 * r + Z.to_nat (snd (max_first col)) < length D)%nat) by (rewrite HDl; clear - HrR Hs; lia). destruct (HB _ _ _ Hb8 Hc Hv) as (j & Ej & Ea & Hj).
        destruct (family o L K M T d r (Z.to_nat (snd (max_first col))) k Hd Hr Hs) as (kk & Ekk & Hp & Hn). exists j, (coords (S d) kk).
        split; [rewrite nth_error_map, Ej, Ekk; reflexivity|]. split; [exact Hp|]. split; [rewrite Hn; lia|exact Ea].
      + intros j q Hj Hq. destruct (HK j q Hj Hq) as (s & Hs8 & Hno & Hcs). destruct (Hs2 s _ Hcs) as [G1 G2]. split; [exact G1|]. rewrite Hno. exact G2.
    - destruct HM as [H0 HN]. split; [exact H0|]. intros q Hq Hpq. apply In_nth_error in Hq. destruct Hq as [j Hj].
      destruct (HK j q Hj Hpq) as (s & Hs8 & Hno & Hcs). apply HN in Hcs. discriminate.
  Qed.
End Tree.

Lemma thm_max_pool o d ne C x : wf_octree o -> (S d <= depth o)%nat -> shape (node_count o (S d) ne) C x ->
  exists qs ps cs out idx, octree_xyzb o d true = Ok qs /\ octree_xyzb o d ne = Ok ps /\ octree_xyzb o (S d) ne = Ok cs /\
    octree_max_pool C x o (S d) ne = Ok (out, idx) /\ shape (length ps) C out /\ shape (length qs) C idx /\
    forall i p, nth_error ps i = Some p ->
      (forall r c, nth_error qs r = Some p -> (c < C)%nat -> max_over_children x cs p c (entry2 None out i c) (entry2 0 idx r c)) /\
      (~ In p qs -> forall c, (c < C)%nat -> entry2 None out i c = Some (0%Qc)).
Proof.
  intros [K [M T]] Hd Hx. destruct (max_pool_vals o (depth o) K M T d ne C x Hd Hx) as (vals & idx & [Hv Hvc] & Hi & Ep & HM).
  exists (map (coords d) (sel K M true d)), (map (coords d) (sel K M ne d)), (map (coords (S d)) (sel K M ne (S d))).
  rewrite !(tree_xyzb o (depth o) K M) by (assumption || lia). rewrite Ep. rewrite !map_length. destruct ne; cbn [bind].
  - exists vals, idx. do 4 (split; [reflexivity|]). split; [split; assumption|]. split; [exact Hi|].
    intros i p Hp. rewrite nth_error_map in Hp. destruct (nth_error (sel K M true d) i) as [k|] eqn:Ek; [|discriminate]. cbn [option_map] in Hp.
    apply some_inj in Hp. subst p. split.
    + intros r c Hr Hc. rewrite nth_error_map in Hr. destruct (nth_error (sel K M true d) r) as [k'|] eqn:Ek'; [|discriminate]. cbn [option_map] in Hr. apply some_inj in Hr.
      destruct (parent_row o (depth o) K M T d i r k k' ltac:(lia) Ek Ek' (eq_sym Hr)) as [<- <-]. apply HM; assumption.
    + intros Hn. exfalso. apply Hn. apply in_map. eapply nth_error_In. exact Ek.
  - rewrite (tree_pad o (depth o) K M T) by (lia || (rewrite Hv, (node_count_sel o (depth o) K M T) by lia; reflexivity)). cbn [bind].
    destruct (mask_len o (depth o) K M T d ltac:(lia)) as [Hm Hct]. rewrite (node_count_sel o (depth o) K M T) in Hct by lia.
    eexists _, idx. do 4 (split; [reflexivity|]). split; [|split; [exact Hi|]].
    { split; [rewrite fill_length, repeat_length, (node_count_sel o (depth o) K M T) by lia; reflexivity|]. apply fill_Forall; [apply (shape_repeat _ C)|exact Hvc]. }
    intros i p Hp. cbn [sel] in Hp. rewrite nth_error_map in Hp. destruct (nth_error (K d) i) as [k|] eqn:Ek; [|discriminate]. cbn [option_map] in Hp.
    apply some_inj in Hp. subst p.
    assert (Hki : (i < length (M d))%nat) by (rewrite (t_mask _ _ _ _ T d) by lia; apply nth_error_Some; congruence).
    assert (Hin : forall k', In k' (sel K M true d) -> coords d k = coords d k' -> k = k').
    { intros k' Hk' E. pose proof (sel_vkey o (depth o) K M T true d ltac:(lia)) as V. pose proof (sel_vkey o (depth o) K M T false d ltac:(lia)) as V'. rewrite Forall_forall in V, V'.
      apply (coords_inj (batch_size o) d); [apply (d16 o (depth o) K M T); lia|apply V'; eapply nth_error_In; exact Ek|apply V; exact Hk'|exact E]. }
    destruct (nth_error (M d) i) as [[|]|] eqn:Em; [| |apply nth_error_None in Em; lia].
    + pose proof (nth_select_pos (M d) (K d) i (t_mask _ _ _ _ T d ltac:(lia)) Em) as E. rewrite Ek in E. fold (sel K M true d) in E. split.
      * intros r c Hr Hc. rewrite nth_error_map in Hr. destruct (nth_error (sel K M true d) r) as [k'|] eqn:Ek'; [|discriminate]. cbn [option_map] in Hr. apply some_inj in Hr.
        destruct (parent_row o (depth o) K M T d (count_true (firstn i (M d))) r k k' ltac:(lia) E Ek' (eq_sym Hr)) as [<- <-].
        unfold entry2 at 1. pose proof (fill_true (M d) (repeat (repeat (Some (0%Qc)) C) (node_count o d false)) vals i) as F.
        rewrite repeat_length in F. specialize (F ltac:(lia) ltac:(lia) Em).
        replace (nth i (fill (M d) (repeat (repeat (Some (0%Qc)) C) (node_count o d false)) vals) []) with (nth (count_true (firstn i (M d))) vals []).
        2:{ rewrite <- !nth_default_eq. unfold nth_default. rewrite F. reflexivity. }
        apply HM; assumption.
      * intros Hn. exfalso. apply Hn. apply in_map. eapply nth_error_In. exact E.
    + split.
      * intros r c Hr Hc. rewrite nth_error_map in Hr. destruct (nth_error (sel K M true d) r) as [k'|] eqn:Ek'; [|discriminate]. cbn [option_map] in Hr. apply some_inj in Hr.
        apply nth_error_In in Ek'. pose proof (Hin k' Ek' (eq_sym Hr)) as ->. cbn [sel] in Ek'. apply in_select in Ek'. destruct Ek' as (i' & Hm' & Hk').
        assert (i' = i) by (eapply (sorted_nth_inj (K d)); [apply (sel_sorted o (depth o) K M T false d); lia|exact Hk'|exact Ek]). subst i'. congruence.
      * intros _ c Hc. unfold entry2. pose proof (fill_false (M d) (repeat (repeat (Some (0%Qc)) C) (node_count o d false)) vals i) as F.
        rewrite repeat_length in F. specialize (F ltac:(lia) Em). rewrite nth_error_repeat in F by lia.
        rewrite <- (nth_default_eq i). unfold nth_default. rewrite F. apply nth_repeat_lt. exact Hc.
Qed.
