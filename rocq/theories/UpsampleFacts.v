(** Nearest upsampling and alignment. *)
From Coq Require Import String List ZArith Bool Lia QArith Qcanon Lqa Field.
From Verif Require Import Res Tensor Key Num Points Octree NnBasic NnInterp Spec SpecGeo SpecNN SpecInterp WF KeyFacts ListFacts NumFacts ScatterFacts SumFacts NnFacts KidsFacts WFFacts SearchFacts NeighFacts PadFacts PoolFacts Family Finite Unpool InterpFacts.
Import ListNotations.
Open Scope Z_scope.

Lemma floor_centre k x : qfloor ((qz x + Q2Qc (1 # 2)) / qz (2 ^ Z.of_nat k))%Qc = x / 2 ^ Z.of_nat k.
Proof.
  assert (HP : 0 < 2 ^ Z.of_nat k) by (apply Z.pow_pos_nonneg; lia). set (P := 2 ^ Z.of_nat k) in *.
  assert (HPq : (0 < qz P)%Qc) by (change 0%Qc with (qz 0); apply qz_lt; exact HP).
  assert (HPn : qz P <> 0%Qc) by (apply qz_neq0; lia).
  pose proof (Z.div_mod x P ltac:(lia)) as E. pose proof (Z.mod_pos_bound x P HP) as B.
  assert (E2 : ((qz x + Q2Qc (1 # 2)) / qz P * qz P)%Qc = (qz x + Q2Qc (1 # 2))%Qc) by (field; exact HPn).
  apply qfloor_spec. split.
  - apply (Qcmult_le_r _ _ (qz P) HPq). rewrite E2, <- qz_mul. assert (H : (qz (x / P * P) <= qz x)%Qc) by (apply qz_le; lia). qclra.
  - apply (Qcmult_lt_r _ _ (qz P) HPq). rewrite E2, <- qz_mul. assert (H : (qz (x + 1) <= qz ((x / P + 1) * P))%Qc) by (apply qz_le; lia). rewrite qz_add, qz_1 in H. qclra.
Qed.
Lemma centre_range k d x : in_grid (d + k) x -> (0 <= (qz x + Q2Qc (1 # 2)) / qz (2 ^ Z.of_nat k))%Qc /\ ((qz x + Q2Qc (1 # 2)) / qz (2 ^ Z.of_nat k) < qz (2 ^ Z.of_nat d))%Qc.
Proof.
  intros [H0 H1]. assert (HP : 0 < 2 ^ Z.of_nat k) by (apply Z.pow_pos_nonneg; lia). rewrite Nat2Z.inj_add, Z.pow_add_r in H1 by lia. set (P := 2 ^ Z.of_nat k) in *. set (D := 2 ^ Z.of_nat d) in *.
  assert (HPq : (0 < qz P)%Qc) by (change 0%Qc with (qz 0); apply qz_lt; exact HP).
  assert (HPn : qz P <> 0%Qc) by (apply qz_neq0; lia).
  assert (E2 : ((qz x + Q2Qc (1 # 2)) / qz P * qz P)%Qc = (qz x + Q2Qc (1 # 2))%Qc) by (field; exact HPn).
  split.
  - apply (Qcmult_le_r _ _ (qz P) HPq). rewrite E2. assert (H : (qz 0 <= qz x)%Qc) by (apply qz_le; lia). rewrite qz_0 in H. qclra.
  - apply (Qcmult_lt_r _ _ (qz P) HPq). rewrite E2, <- qz_mul. assert (H : (qz (x + 1) <= qz (D * P))%Qc) by (apply qz_le; lia). rewrite qz_add, qz_1 in H. qclra.
Qed.
Lemma q2pow_neg k : q2pow (- Z.of_nat k) = (/ qz (2 ^ Z.of_nat k))%Qc.
Proof.
  induction k as [|k IH]; [reflexivity|]. assert (HP : 0 < 2 ^ Z.of_nat k) by (apply Z.pow_pos_nonneg; lia).
  pose proof (q2pow_S (- Z.of_nat (S k))) as E. replace (- Z.of_nat (S k) + 1) with (- Z.of_nat k) in E by lia. rewrite IH in E.
  replace (2 ^ Z.of_nat (S k)) with (2 * 2 ^ Z.of_nat k) by (rewrite Nat2Z.inj_succ, Z.pow_succ_r; lia). rewrite qz_mul.
  assert (qz (2 ^ Z.of_nat k) <> 0%Qc) by (apply qz_neq0; lia). assert (H2 : qz 2 <> 0%Qc) by (apply qz_neq0; lia).
  transitivity (/ qz 2 * (qz 2 * q2pow (- Z.of_nat (S k))))%Qc; [field; exact H2|]. rewrite <- E. field. split; assumption.
Qed.

Lemma nth_error_ext {A} (l m : list A) : (forall i, nth_error l i = nth_error m i) -> l = m.
Proof.
  revert m; induction l as [|a l IH]; intros [|b m] H; [reflexivity|discriminate (H O)|discriminate (H O)|].
  pose proof (H O) as H0. apply some_inj in H0. subst b. f_equal. apply IH. intros i. exact (H (S i)).
Qed.

Lemma centre_cell k d q : (let '(x, y, z, b) := q in in_cube (d + k) x y z) ->
  in_range d (fst (centre k q)) /\ cell_at (fst (centre k q)) (snd (centre k q)) = ancestor k q.
Proof.
  destruct q as [[[x y] z] b]. intros (Hx & Hy & Hz). unfold centre, ancestor, cell_at, in_range. cbn [fst snd]. split.
  - split; [apply centre_range; exact Hx|]. split; apply centre_range; assumption.
  - rewrite !floor_centre. reflexivity.
Qed.

Section Tree.
  Variables (o : octree) (K : nat -> list Z) (M : nat -> list bool).
  Hypothesis T : tree_upto o (depth o) K M.
  Notation cs := (fun ne d => map (coords d) (sel K M ne d)).

  Lemma sel_true_sub ne d k : In k (sel K M true d) -> In k (sel K M ne d).
  Proof. destruct ne; [auto|]. cbn [sel]. intros H. apply in_select in H. destruct H as (i & _ & H). eapply nth_error_In. exact H. Qed.
  Lemma parent_in ne d q : (S d <= depth o)%nat -> In q (cs ne (S d)) -> In (parent_cell q) (cs ne d).
  Proof.
    intros Hd H. cbv beta in *. apply in_map_iff in H. destruct H as (k & <- & Hk). apply In_nth_error in Hk. destruct Hk as [j Hj].
    destruct (sel_full o (depth o) K M T ne (S d) j k Hd Hj) as (i & Hi & _). destruct (family_inv o (depth o) K M T d i k Hd Hi) as (r & s & p & _ & _ & Hr & Hp & _).
    rewrite Hp. apply in_map. apply sel_true_sub. eapply nth_error_In. exact Hr.
  Qed.
  Lemma ancestor_S k q : parent_cell (ancestor k q) = ancestor (S k) q.
  Proof.
    destruct q as [[[x y] z] b]. unfold parent_cell, ancestor. replace (2 ^ Z.of_nat (S k)) with (2 ^ Z.of_nat k * 2) by (rewrite Nat2Z.inj_succ, Z.pow_succ_r; lia).
    assert (0 < 2 ^ Z.of_nat k) by (apply Z.pow_pos_nonneg; lia). rewrite !Z.div_div by lia. reflexivity.
  Qed.
  Lemma ancestor_in ne k d q : (d + k <= depth o)%nat -> In q (cs ne (d + k)%nat) -> In (ancestor k q) (cs ne d).
  Proof.
    revert d. induction k as [|k IH]; intros d Hd H.
    - rewrite Nat.add_0_r in H. destruct q as [[[x y] z] b]. unfold ancestor. cbn [Z.of_nat]. change (2 ^ 0) with 1. rewrite !Z.div_1_r. exact H.
    - rewrite <- ancestor_S. apply parent_in; [lia|]. apply (IH (S d)); [lia|]. replace (S d + k)%nat with (d + S k)%nat by lia. exact H.
  Qed.
  Lemma cell_bounds ne d q : (d <= depth o)%nat -> In q (cs ne d) -> let '(x, y, z, b) := q in in_cube d x y z /\ 0 <= b < Z.of_nat (batch_size o).
  Proof.
    intros Hd H. cbv beta in H. apply in_map_iff in H. destruct H as (k & E & Hk). destruct q as [[[x y] z] b].
    pose proof (sel_vkey o (depth o) K M T ne d Hd) as V. rewrite Forall_forall in V.
    destruct (coords_key_of (batch_size o) d k x y z b (d16 _ _ _ _ T d Hd) (V k Hk) E) as (_ & H1 & H2). split; assumption.
  Qed.

  (** nearest interpolation at the centres of the nodes of a deeper layer *)
  Lemma nearest_centres ne bc C data d k : (d + k <= depth o)%nat -> shape (node_count o d ne) C data ->
    exists u, octree_nearest_pts C data o d (map (centre k) (cs ne (d + k)%nat)) ne bc = Ok u /\ shape (length (cs ne (d + k)%nat)) C u /\
      forall j q, nth_error (cs ne (d + k)%nat) j = Some q -> exists i, nth_error (cs ne d) i = Some (ancestor k q) /\ nth_error u j = nth_error data i.
  Proof.
    intros Hd Hx. assert (W : wf_octree o) by (exists K, M; exact T).
    assert (Hb : Forall batch_in (map (centre k) (cs ne (d + k)%nat))).
    { apply Forall_map. apply Forall_forall. intros q Hq. pose proof (cell_bounds ne (d + k) q Hd Hq) as B. destruct q as [[[x y] z] b]. unfold batch_in, centre. cbn [snd]. pose proof (t_batch _ _ _ _ T). lia. }
    destruct (thm_nearest o d ne bc C data _ W ltac:(lia) Hx Hb) as (ps & u & Ep & Eu & Hu & H).
    rewrite (tree_xyzb o (depth o) K M) in Ep by (assumption || lia). injection Ep as <-. exists u. split; [exact Eu|]. rewrite !map_length in Hu. cbv beta. rewrite !map_length. split; [exact Hu|].
    intros j q Hj. assert (Hq : In q (cs ne (d + k)%nat)) by (eapply nth_error_In; exact Hj).
    assert (B : let '(x, y, z, b) := q in in_cube (d + k) x y z) by (pose proof (cell_bounds ne (d + k) q Hd Hq) as B; destruct q as [[[x y] z] b]; apply B).
    destruct (centre_cell k d q B) as [G1 G2]. destruct (H j (fst (centre k q)) (snd (centre k q))) as [H1 _].
    { rewrite nth_error_map. cbv beta in Hj. rewrite Hj. cbn [option_map]. destruct (centre k q); reflexivity. }
    specialize (H1 G1). rewrite G2 in H1. destruct H1 as [H1 _]. pose proof (ancestor_in ne k d q Hd Hq) as Ha. apply In_nth_error in Ha. destruct Ha as [i Hi].
    exists i. split; [exact Hi|]. apply H1. exact Hi.
  Qed.

  Lemma nearest_upsample ne C data d : (S d <= depth o)%nat -> shape (node_count o d ne) C data ->
    exists u, octree_nearest_upsample data o d ne = Ok u /\ shape (length (cs ne (S d))) C u /\
      forall j q, nth_error (cs ne (S d)) j = Some q -> exists i, nth_error (cs ne d) i = Some (parent_cell q) /\ nth_error u j = nth_error data i.
  Proof.
    intros Hd Hx. assert (Hd1 : (d <= depth o)%nat) by lia. cbv beta. rewrite map_length.
    set (R := length (sel K M true d)). pose proof (node_count_sel o (depth o) K M T d true Hd1) as HR. fold R in HR.
    assert (HY : exists Y, (if ne then Ok data else octree_depad data o (Z.of_nat d)) = Ok Y /\ shape R C Y /\
      forall r k, nth_error (sel K M true d) r = Some k -> exists i, nth_error (sel K M ne d) i = Some k /\ nth_error Y r = nth_error data i).
    { destruct ne.
      - exists data. split; [reflexivity|]. split; [rewrite <- HR; exact Hx|]. intros r k Hr. exists r. split; [exact Hr|reflexivity].
      - exists (select (M d) data). destruct (mask_len o (depth o) K M T d Hd1) as [Hm Hct]. split; [apply (tree_depad o (depth o) K M T); [exact Hd1|apply Hx]|].
        assert (Hly : length (M d) = length data) by (rewrite Hm; symmetry; apply Hx).
        split. { split; [rewrite select_length by exact Hly; lia|]. apply Forall_select. apply Hx. }
        intros r k Hr. destruct (sel_full o (depth o) K M T true d r k Hd1 Hr) as (i & Hi & _ & G). destruct (G eq_refl) as [Hmi ->]. exists i. split; [exact Hi|]. apply nth_select_pos; assumption. }
    destruct HY as (Y & EY & [HYl HYc] & HYr).
    set (u0 := flat_map (fun r : vec => repeat r 8) Y).
    assert (Hu0 : shape (8 * R) C u0 /\ forall r s, (s < 8)%nat -> (r < R)%nat -> nth_error u0 (8 * r + s) = nth_error Y r).
    { split; [split|].
      - unfold u0. rewrite <- HYl. clear. induction Y as [|a Y IH]; [reflexivity|]. cbn [flat_map length]. rewrite app_length, repeat_length, IH. lia.
      - apply Forall_forall. intros w Hw. unfold u0 in Hw. apply in_flat_map in Hw. destruct Hw as (a & Ha & Hw). apply repeat_spec in Hw. subst w. rewrite Forall_forall in HYc. apply HYc. exact Ha.
      - intros r s Hs Hr. destruct (nth_error Y r) as [a|] eqn:Ea; [|apply nth_error_None in Ea; lia]. unfold u0. rewrite (nth_error_flat_map (fun r : vec => repeat r 8) 8 Y) with (a := a); [|intros; apply repeat_length|exact Ea|exact Hs].
        rewrite nth_error_repeat by exact Hs. reflexivity. }
    destruct Hu0 as [[Hu0 Huc] Hrow0].
    assert (HN : node_count o (S d) false = (8 * R)%nat) by (rewrite (kids_count o (depth o) K M T), HR by exact Hd; reflexivity).
    assert (HF : exists u, octree_nearest_upsample data o d ne = Ok u /\ shape (length (sel K M ne (S d))) C u /\
      forall j k, nth_error (sel K M ne (S d)) j = Some k -> exists i, nth_error (K (S d)) i = Some k /\ nth_error u j = nth_error u0 i).
    { unfold octree_nearest_upsample. rewrite (tree_check o (depth o) K M T) by (exact Hd1 || apply Hx). cbn [bind]. rewrite EY. cbn [bind]. fold u0. destruct ne.
      - replace (Z.of_nat d + 1) with (Z.of_nat (S d)) by lia. rewrite (tree_depad o (depth o) K M T) by (lia || congruence). eexists. split; [reflexivity|].
        destruct (mask_len o (depth o) K M T (S d) Hd) as [Hm Hct]. assert (Hlu : length (M (S d)) = length u0) by lia.
        split. { split; [|apply Forall_select; exact Huc]. rewrite select_length by exact Hlu. rewrite Hct. apply (node_count_sel o (depth o) K M T). exact Hd. }
        intros j k Hj. destruct (sel_full o (depth o) K M T true (S d) j k Hd Hj) as (i & Ei & _ & G). destruct (G eq_refl) as [Hmi ->]. exists i. split; [exact Ei|].
        apply nth_select_pos; assumption.
      - exists u0. split; [reflexivity|]. split; [rewrite <- (node_count_sel o (depth o) K M T), HN by exact Hd; split; assumption|].
        intros j k Hj. exists j. split; [exact Hj|reflexivity]. }
    destruct HF as (u & Eu & Hu & Hrow). exists u. split; [exact Eu|]. split; [exact Hu|].
    intros j q Hj. rewrite nth_error_map in Hj. destruct (nth_error (sel K M ne (S d)) j) as [k|] eqn:Ej; [|discriminate]. cbn [option_map] in Hj. apply some_inj in Hj. subst q.
    destruct (Hrow j k Ej) as (i' & Ei' & Eu'). destruct (family_inv o (depth o) K M T d i' k Hd Ei') as (r & s & p & -> & Hs & Hr & Hpar & _).
    assert (HrR : (r < R)%nat) by (apply nth_error_Some; rewrite Hr; discriminate).
    destruct (HYr r p Hr) as (i & Hi & Ed). exists i. split; [rewrite nth_error_map, Hi, Hpar; reflexivity|]. rewrite Eu', Hrow0 by assumption. exact Ed.
  Qed.
  Lemma coords_NoDup ne d : (d <= depth o)%nat -> NoDup (cs ne d).
  Proof.
    intros Hd. cbv beta. apply (NoDup_map_on _ (vkey (batch_size o) d)).
    - intros a b Ha Hb E. apply (coords_inj (batch_size o) d); [exact (d16 _ _ _ _ T d Hd)|assumption..].
    - apply (sel_vkey o (depth o) K M T). exact Hd.
    - apply sorted_NoDup. apply (sel_sorted o (depth o) K M T). exact Hd.
  Qed.
  Lemma ancestor_rows_unique ne d (P : Z * Z * Z * Z -> Z * Z * Z * Z) (qs : list (Z * Z * Z * Z)) C (data u v : feat) : (d <= depth o)%nat ->
    shape (length qs) C u -> shape (length qs) C v ->
    (forall j q, nth_error qs j = Some q -> exists i, nth_error (cs ne d) i = Some (P q) /\ nth_error u j = nth_error data i) ->
    (forall j q, nth_error qs j = Some q -> exists i, nth_error (cs ne d) i = Some (P q) /\ nth_error v j = nth_error data i) -> u = v.
  Proof.
    intros Hd [Hu _] [Hv _] H1 H2. apply nth_error_ext. intros j. destruct (nth_error qs j) as [q|] eqn:Ej.
    - destruct (H1 j q Ej) as (i & Hi & ->). destruct (H2 j q Ej) as (i' & Hi' & ->). f_equal.
      pose proof (coords_NoDup ne d Hd) as N. rewrite NoDup_nth_error in N. apply N; [apply nth_error_Some; cbv beta in *; rewrite Hi; discriminate|]. cbv beta in *. rewrite Hi, Hi'. reflexivity.
    - apply nth_error_None in Ej. transitivity (@None vec); [|symmetry]; apply nth_error_None; lia.
  Qed.
End Tree.

(** ** C52 *)
Lemma ancestor_1 q : ancestor 1 q = parent_cell q.
Proof. destruct q as [[[x y] z] b]. reflexivity. Qed.
Lemma thm_nearest_upsample o d ne C data : wf_octree o -> (S d <= depth o)%nat -> shape (node_count o d ne) C data ->
  exists ps cs u, octree_xyzb o d ne = Ok ps /\ octree_xyzb o (S d) ne = Ok cs /\
    octree_nearest_upsample data o d ne = Ok u /\ shape (node_count o (S d) ne) C u /\
    (forall j q, nth_error cs j = Some q -> exists i, nth_error ps i = Some (parent_cell q) /\ nth_error u j = nth_error data i) /\
    forall bc, octree_nearest_pts C data o d (map (centre 1) cs) ne bc = Ok u.
Proof.
  intros [K [M T]] Hd Hx. exists (map (coords d) (sel K M ne d)), (map (coords (S d)) (sel K M ne (S d))).
  destruct (nearest_upsample o K M T ne C data d Hd Hx) as (u & Eu & Hu & H). exists u.
  split; [apply (tree_xyzb o (depth o) K M); [exact T|lia]|]. split; [apply (tree_xyzb o (depth o) K M); [exact T|lia]|]. split; [exact Eu|].
  split; [rewrite (node_count_sel o (depth o) K M T) by exact Hd; rewrite <- (map_length (coords (S d))); exact Hu|]. split; [exact H|].
  intros bc. destruct (nearest_centres o K M T ne bc C data d 1 ltac:(lia) Hx) as (v & Ev & Hv & H'). replace (d + 1)%nat with (S d) in * by lia.
  rewrite Ev. f_equal. apply (ancestor_rows_unique o K M T ne d parent_cell (map (coords (S d)) (sel K M ne (S d))) C data); [lia|exact Hv|exact Hu| |exact H].
  intros j q Hj. rewrite <- ancestor_1. apply H'. exact Hj.
Qed.

(** ** C53 *)
Lemma thm_upsample o d t ne C data : wf_octree o -> (d <= t <= depth o)%nat -> shape (node_count o d ne) C data ->
  exists ps cs u, octree_xyzb o d ne = Ok ps /\ octree_xyzb o t ne = Ok cs /\
    octree_upsample "nearest" ne C data o d (Some t) = Ok u /\ shape (node_count o t ne) C u /\
    forall j q, nth_error cs j = Some q -> exists i, nth_error ps i = Some (ancestor (t - d) q) /\ nth_error u j = nth_error data i.
Proof.
  intros [K [M T]] Hd Hx. exists (map (coords d) (sel K M ne d)), (map (coords t) (sel K M ne t)).
  assert (Ec : octree_xyzb o t ne = Ok (map (coords t) (sel K M ne t))) by (apply (tree_xyzb o (depth o) K M); [exact T|lia]).
  assert (G : exists u, octree_upsample "nearest" ne C data o d (Some t) = Ok u /\ shape (length (map (coords t) (sel K M ne t))) C u /\
    forall j q, nth_error (map (coords t) (sel K M ne t)) j = Some q -> exists i, nth_error (map (coords d) (sel K M ne d)) i = Some (ancestor (t - d) q) /\ nth_error u j = nth_error data i).
  { unfold octree_upsample. destruct (Nat.eqb_spec t d) as [->|N1].
    - exists data. split; [reflexivity|]. rewrite map_length, <- (node_count_sel o (depth o) K M T) by lia. split; [exact Hx|]. intros j q Hj. exists j. split; [|reflexivity].
      rewrite Nat.sub_diag. destruct q as [[[x y] z] b]. unfold ancestor. cbn [Z.of_nat]. change (2 ^ 0) with 1. rewrite !Z.div_1_r. exact Hj.
    - replace (Nat.leb d t) with true by (symmetry; apply Nat.leb_le; lia). cbn [assert_ bind]. change (String.eqb "nearest" "nearest") with true. change (String.eqb "nearest" "linear") with false. destruct (Nat.eqb_spec t (S d)) as [->|N2].
      + cbn [andb]. destruct (nearest_upsample o K M T ne C data d ltac:(lia) Hx) as (u & Eu & Hu & H). exists u. split; [exact Eu|]. split; [exact Hu|].
        replace (S d - d)%nat with 1%nat by lia. intros j q Hj. rewrite ancestor_1. apply H. exact Hj.
      + cbn [andb]. rewrite Ec. cbn [bind].
        destruct (nearest_centres o K M T ne false C data d (t - d) ltac:(lia) Hx) as (u & Eu & Hu & H). replace (d + (t - d))%nat with t in * by lia.
        exists u. split; [|split; assumption]. rewrite <- Eu. f_equal. apply map_ext. intros [[[x y] z] b]. unfold centre, v3map. replace (Z.of_nat d - Z.of_nat t) with (- Z.of_nat (t - d)) by lia. rewrite q2pow_neg. reflexivity. }
  destruct G as (u & Eu & Hu & H). exists u. split; [apply (tree_xyzb o (depth o) K M); [exact T|lia]|]. split; [exact Ec|]. split; [exact Eu|].
  split; [rewrite (node_count_sel o (depth o) K M T) by lia; rewrite <- (map_length (coords t)); exact Hu|exact H].
Qed.
Lemma thm_upsample_same method o d ne C data : octree_upsample method ne C data o d (Some d) = Ok data.
Proof. unfold octree_upsample. rewrite Nat.eqb_refl. reflexivity. Qed.
Lemma thm_upsample_less method o d t ne C data : (t < d)%nat -> octree_upsample method ne C data o d (Some t) = Err AssertionError.
Proof.
  intros H. unfold octree_upsample. replace (Nat.eqb t d) with false by (symmetry; apply Nat.eqb_neq; lia). replace (Nat.leb d t) with false by (symmetry; apply Nat.leb_gt; lia). reflexivity.
Qed.
Lemma thm_upsample_default method o d ne C data : octree_upsample method ne C data o d None = octree_upsample method ne C data o d (Some (S d)).
Proof. reflexivity. Qed.

(** ** C57 *)
Lemma tget_last (l : list Z) : l <> [] -> tget l (-1) = Ok (last l 0) /\ nth_error l (length l - 1) = Some (last l 0).
Proof.
  intros H. assert (E : nth_error l (length l - 1) = Some (last l 0)).
  { destruct (exists_last H) as (l' & a & ->). rewrite app_length, last_last. cbn [length]. rewrite nth_error_app2 by lia. replace (length l' + 1 - 1 - length l')%nat with O by lia. reflexivity. }
  split; [|exact E]. destruct l as [|a l]; [congruence|]. unfold tget, norm_index, zlen. cbn [length] in *.
  replace (0 <=? -1) with false by reflexivity. cbn [andb]. replace (-1 + Z.of_nat (S (length l))) with (Z.of_nat (length l)) by lia.
  replace (-1 <? 0) with true by reflexivity. destruct (Z.leb_spec 0 (Z.of_nat (length l))); [|lia]. cbn [andb]. rewrite Nat2Z.id.
  replace (S (length l) - 1)%nat with (length l) in E by lia. rewrite E. reflexivity.
Qed.
Definition lookup (key : list Z) (q : Z) : Z := if last key 0 <? q then -1 else bucketize key q.
Lemma lookup_spec key q : sorted key -> key <> [] -> exists k, tget key (lookup key q) = Ok k /\
  (k = q -> 0 <= lookup key q /\ nth_error key (Z.to_nat (lookup key q)) = Some q) /\ (k <> q -> ~ In q key).
Proof.
  intros Hs Hn. destruct (tget_last key Hn) as [E1 E2]. unfold lookup. destruct (Z.ltb_spec (last key 0) q) as [Hq|Hq].
  - exists (last key 0). split; [exact E1|]. split; [lia|]. intros _ Hin. apply In_nth_error in Hin. destruct Hin as [i Hi].
    assert (i < length key)%nat by (apply nth_error_Some; rewrite Hi; discriminate).
    destruct (Nat.eq_dec i (length key - 1)) as [->|Ni]; [rewrite Hi in E2; apply some_inj in E2; lia|].
    pose proof (sorted_nth_lt _ Hs i (length key - 1) q _ Hi E2 ltac:(lia)). lia.
  - destruct (bucketize_spec key q Hs) as (r & -> & Hr & Hlo & Hhi). assert (Hlt : (r < length key)%nat).
    { destruct (Nat.eq_dec r (length key)) as [->|]; [|lia]. assert (0 < length key)%nat by (destruct key; [congruence|cbn [length]; lia]). specialize (Hlo (length key - 1)%nat _ ltac:(lia) E2). lia. }
    destruct (nth_error key r) as [a|] eqn:Ea; [|apply nth_error_None in Ea; lia]. exists a. split; [apply tget_Ok; exact Ea|]. split.
    + intros ->. rewrite Nat2Z.id. split; [lia|exact Ea].
    + intros Hne Hin. apply In_nth_error in Hin. destruct Hin as [i Hi]. destruct (Nat.lt_trichotomy i r) as [H|[->|H]].
      * specialize (Hlo i q H Hi). lia.
      * congruence.
      * specialize (Hhi r a (le_n r) Ea). pose proof (sorted_nth_lt _ Hs r i a q Ea Hi H). lia.
Qed.
Lemma search_value_spec C value key query : sorted key -> key <> [] -> length value = length key -> Forall (fun r => length r = C) value ->
  exists y, search_value C value key query = Ok y /\ shape (length query) C y /\
    forall j q, nth_error query j = Some q ->
      (forall i, nth_error key i = Some q -> nth_error y j = nth_error value i) /\ (~ In q key -> nth_error y j = Some (vzero C)).
Proof.
  intros Hs Hn Hv Hc. unfold search_value. rewrite (proj1 (tget_last key Hn)). cbn [bind]. rewrite mask_fill_map.
  change (map (fun a => if last key 0 <? a then -1 else bucketize key a) query) with (map (lookup key) query).
  set (kq := fun q => match tget key (lookup key q) with Ok k => k | Err _ => 0 end).
  assert (Hkq : forall q, tget key (lookup key q) = Ok (kq q)) by (intros q; unfold kq; destruct (lookup_spec key q Hs Hn) as (k & -> & _); reflexivity).
  assert (Hk1 : forall q, kq q = q -> 0 <= lookup key q /\ nth_error key (Z.to_nat (lookup key q)) = Some q) by (intros q; destruct (lookup_spec key q Hs Hn) as (k & E & H & _); rewrite Hkq in E; injection E as <-; exact H).
  assert (Hk2 : forall q, kq q <> q -> ~ In q key) by (intros q; destruct (lookup_spec key q Hs Hn) as (k & E & _ & H); rewrite Hkq in E; injection E as <-; exact H).
  assert (Eg : gather key (map (lookup key) query) = Ok (map kq query)).
  { unfold gather. clear -Hkq. induction query as [|q query IH]; [reflexivity|]. cbn [map mapM]. rewrite Hkq, IH. reflexivity. }
  rewrite Eg. cbn [bind]. set (fnd := zip_with Z.eqb (map kq query) query). assert (Hfl : length fnd = length query) by (apply zip_len; [apply map_length|reflexivity]).
  assert (Hf : forall j q, nth_error query j = Some q -> nth_error fnd j = Some (kq q =? q)) by (intros j q Hj; apply zip_nth_error; [rewrite nth_error_map, Hj; reflexivity|exact Hj]).
  assert (Hrange : forall q, kq q = q -> 0 <= lookup key q < zlen value).
  { intros q E. destruct (Hk1 q E) as [H0 H1]. split; [exact H0|]. unfold zlen. rewrite Hv. assert (Z.to_nat (lookup key q) < length key)%nat by (apply nth_error_Some; rewrite H1; discriminate). lia. }
  rewrite put_rows; [|apply map_length|exact Hfl|].
  2:{ intros i e He Ht. rewrite nth_error_map in He. destruct (nth_error query i) as [q|] eqn:Eq; [|discriminate]. cbn [option_map] in He. apply some_inj in He. subst e.
      rewrite (Hf i q Eq) in Ht. apply some_inj in Ht. apply Z.eqb_eq in Ht. apply Hrange. exact Ht. }
  assert (Hrow : forall j q, nth_error query j = Some q -> nth_error (zip_with (put_row value (vzero C)) (map (lookup key) query) fnd) j = Some (put_row value (vzero C) (lookup key q) (kq q =? q))).
  { intros j q Hj. apply zip_nth_error; [rewrite nth_error_map, Hj; reflexivity|apply Hf; exact Hj]. }
  eexists. split; [reflexivity|]. split.
  - split; [apply zip_len; [apply map_length|exact Hfl]|]. apply Forall_forall. intros r Hr. apply In_nth_error in Hr. destruct Hr as [j Hr].
    destruct (nth_error query j) as [q|] eqn:Ej.
    + rewrite (Hrow j q Ej) in Hr. apply some_inj in Hr. subst r. unfold put_row. destruct (Z.eqb_spec (kq q) q) as [E|E]; [|apply repeat_length].
      rewrite Forall_forall in Hc. apply Hc. apply nth_In. pose proof (Hrange q E) as H. unfold zlen in H. lia.
    + exfalso. apply nth_error_None in Ej. assert (j < length (zip_with (put_row value (vzero C)) (map (lookup key) query) fnd))%nat by (apply nth_error_Some; rewrite Hr; discriminate). rewrite (zip_len _ _ _ (length query)) in H by (apply map_length || exact Hfl). lia.
  - intros j q Hj. rewrite (Hrow j q Hj). destruct (Z.eqb_spec (kq q) q) as [E|E]; unfold put_row; split.
    + intros i Hi. destruct (Hk1 q E) as [H0 H1]. rewrite (sorted_nth_inj key Hs _ _ _ H1 Hi). symmetry. apply nth_error_nth'. rewrite Hv. apply nth_error_Some. rewrite Hi. discriminate.
    + intros Hin. exfalso. apply Hin. destruct (Hk1 q E) as [_ H1]. eapply nth_error_In. exact H1.
    + intros i Hi. exfalso. apply (Hk2 q E). eapply nth_error_In. exact Hi.
    + reflexivity.
Qed.
Lemma thm_align o oq d ne C value : wf_octree o -> wf_octree oq -> (d <= depth o)%nat -> (d <= depth oq)%nat ->
  shape (node_count o d ne) C value -> (0 < node_count o d ne)%nat ->
  exists ps qs y, octree_xyzb o d ne = Ok ps /\ octree_xyzb oq d ne = Ok qs /\
    octree_align C value o oq d ne = Ok y /\ shape (node_count oq d ne) C y /\
    forall j q, nth_error qs j = Some q ->
      (forall i, nth_error ps i = Some q -> nth_error y j = nth_error value i) /\
      (~ In q ps -> nth_error y j = Some (vzero C)).
Proof.
  intros [K [M T]] [K' [M' T']] Hd Hd' Hx Hpos. exists (map (coords d) (sel K M ne d)), (map (coords d) (sel K' M' ne d)).
  pose proof (node_count_sel o (depth o) K M T d ne Hd) as HN. pose proof (node_count_sel oq (depth oq) K' M' T' d ne Hd') as HN'.
  assert (Hne : sel K M ne d <> []) by (intros E; rewrite E in HN; cbn [length] in HN; lia).
  destruct Hx as [Hx Hc]. destruct (search_value_spec C value (sel K M ne d) (sel K' M' ne d)) as (y & Ey & Hy & H).
  { apply (sel_sorted o (depth o) K M T). exact Hd. } { exact Hne. } { lia. } { exact Hc. }
  exists y. split; [apply (tree_xyzb o (depth o) K M); assumption|]. split; [apply (tree_xyzb oq (depth oq) K' M'); assumption|]. split.
  { unfold octree_align. rewrite (tree_key o (depth o) K M) by assumption. cbn [bind]. rewrite (tree_key oq (depth oq) K' M') by assumption. cbn [bind].
    replace (Nat.eqb (length (sel K M ne d)) (length value)) with true by (symmetry; apply Nat.eqb_eq; lia). exact Ey. }
  split; [rewrite HN'; exact Hy|].
  pose proof (sel_vkey o (depth o) K M T ne d Hd) as V. rewrite Forall_forall in V. pose proof (sel_vkey oq (depth oq) K' M' T' ne d Hd') as V'. rewrite Forall_forall in V'.
  assert (Hinj : forall k k', In k (sel K M ne d) -> In k' (sel K' M' ne d) -> coords d k = coords d k' -> k = k').
  { intros k k' Hk Hk' E. destruct (coords d k) as [[[x y0] z] b] eqn:E1. symmetry in E.
    destruct (coords_key_of _ d k _ _ _ _ (d16 _ _ _ _ T d Hd) (V k Hk) E1) as [-> _]. destruct (coords_key_of _ d k' _ _ _ _ (d16 _ _ _ _ T d Hd) (V' k' Hk') E) as [-> _]. reflexivity. }
  intros j q Hj. rewrite nth_error_map in Hj. destruct (nth_error (sel K' M' ne d) j) as [k|] eqn:Ej; [|discriminate]. cbn [option_map] in Hj. apply some_inj in Hj. subst q.
  destruct (H j k Ej) as [H1 H2]. split.
  - intros i Hi. rewrite nth_error_map in Hi. destruct (nth_error (sel K M ne d) i) as [k'|] eqn:Ei; [|discriminate]. cbn [option_map] in Hi. apply some_inj in Hi.
    rewrite (Hinj k' k) in Ei by (exact Hi || (eapply nth_error_In; eassumption)). apply H1. exact Ei.
  - intros Hn. apply H2. intros Hin. apply Hn. apply in_map. exact Hin.
Qed.
(** an empty source layer is rejected *)
Lemma thm_align_empty o oq d ne C value : wf_octree o -> wf_octree oq -> (d <= depth o)%nat -> (d <= depth oq)%nat ->
  node_count o d ne = O -> shape O C value -> octree_align C value o oq d ne = Err IndexError.
Proof.
  intros [K [M T]] [K' [M' T']] Hd Hd' Hn [Hx _]. pose proof (node_count_sel o (depth o) K M T d ne Hd) as HN. rewrite Hn in HN. symmetry in HN. apply length_zero_iff_nil in HN. apply length_zero_iff_nil in Hx. subst value.
  unfold octree_align. rewrite (tree_key o (depth o) K M) by assumption. rewrite HN. cbn [bind]. rewrite (tree_key oq (depth oq) K' M') by assumption. reflexivity.
Qed.
