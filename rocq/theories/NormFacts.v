(** Group normalisation. *)
From Coq Require Import String List ZArith Bool Reals Lia Lra.
From Verif Require Import Res Tensor Num Points Octree NnNorm Spec SpecGeo SpecNN SpecNorm WF ListFacts ScatterFacts SumFacts NnFacts KidsFacts WFFacts SearchFacts PadFacts GlobalPool.
Import ListNotations.
Open Scope Z_scope.

Lemma rsum_app l m : rsum (l ++ m) = (rsum l + rsum m)%R.
Proof. unfold rsum. induction l as [|a l IH]; cbn [app fold_right]; [ring|]. rewrite IH. ring. Qed.
Lemma rsum_plus {A} (f g : A -> R) l : rsum (map (fun a => f a + g a)%R l) = (rsum (map f l) + rsum (map g l))%R.
Proof. unfold rsum. induction l as [|a l IH]; cbn [map fold_right]; [ring|]. rewrite IH. ring. Qed.
Lemma rsum_scale {A} (f : A -> R) c l : rsum (map (fun a => f a * c)%R l) = (rsum (map f l) * c)%R.
Proof. unfold rsum. induction l as [|a l IH]; cbn [map fold_right]; [ring|]. rewrite IH. ring. Qed.
Lemma rsum_zero {A} (l : list A) : rsum (map (fun _ => 0%R) l) = 0%R.
Proof. unfold rsum. induction l as [|a l IH]; cbn [map fold_right]; [ring|]. rewrite IH. ring. Qed.
Lemma rsum_swap {A B} (f : A -> B -> R) l m : rsum (map (fun a => rsum (map (f a) m)) l) = rsum (map (fun b => rsum (map (fun a => f a b) l)) m).
Proof.
  induction l as [|a l IH]; cbn [map].
  - symmetry. apply rsum_zero.
  - change (rsum (rsum (map (f a) m) :: map (fun a => rsum (map (f a) m)) l)) with (rsum (map (f a) m) + rsum (map (fun a => rsum (map (f a) m)) l))%R.
    rewrite IH, <- rsum_plus. reflexivity.
Qed.
Lemma rsum_flat {A} (f : A -> list R) l : rsum (flat_map f l) = rsum (map (fun a => rsum (f a)) l).
Proof. induction l as [|a l IH]; cbn [flat_map map]; [reflexivity|]. rewrite rsum_app, IH. reflexivity. Qed.

Lemma zipR_nth (f : R -> R -> R) (Hf : f 0%R 0%R = 0%R) a b c : length a = length b -> nth c (zip_with f a b) 0%R = f (nth c a 0%R) (nth c b 0%R).
Proof.
  intros H. unfold zip_with. destruct (Nat.lt_ge_cases c (length a)) as [Hc|Hc].
  - rewrite (nth_map_lt _ _ _ (0%R, 0%R)) by (rewrite combine_length; lia). rewrite nth_combine by exact H. reflexivity.
  - rewrite !nth_overflow by (rewrite ?map_length, ?combine_length; lia). symmetry. exact Hf.
Qed.
Lemma zip_length {A B C} (f : A -> B -> C) a b n : length a = n -> length b = n -> length (zip_with f a b) = n.
Proof. intros H1 H2. unfold zip_with. rewrite map_length, combine_length. lia. Qed.

Lemma fold_radd C rows : Forall (fun r => length r = C) rows -> forall a, length a = C ->
  length (fold_left radd rows a) = C /\ forall c, nth c (fold_left radd rows a) 0%R = (nth c a 0 + rsum (map (fun r => nth c r 0%R) rows))%R.
Proof.
  intros H. induction H as [|r rows Hr H IH]; intros a Ha; cbn [fold_left map].
  - split; [exact Ha|]. intros c. unfold rsum. cbn. ring.
  - destruct (IH (radd a r)) as [I1 I2]; [apply zip_length; assumption|]. split; [exact I1|]. intros c. rewrite I2. unfold radd. rewrite zipR_nth by (try ring; congruence).
    unfold rsum. cbn [fold_right]. ring.
Qed.
Lemma foldR_ones n : forall a, fold_left Rplus (repeat 1%R n) a = (a + INR n)%R.
Proof. induction n as [|n IH]; intros a; cbn [repeat fold_left]; [cbn; ring|]. rewrite IH, S_INR. ring. Qed.
Lemma rows_at_map {A B} (f : A -> B) tags b src : rows_at tags b (map f src) = map f (rows_at tags b src).
Proof. revert tags; induction src as [|a src IH]; intros [|t tags]; try reflexivity. cbn [map]. rewrite !rows_at_cons, IH. destruct (t =? b); reflexivity. Qed.
Lemma rows_at_tagged {A B} (F : Z -> A -> B) tags b src : rows_at tags b (zip_with (fun a t => F t a) src tags) = map (F b) (rows_at tags b src).
Proof.
  unfold zip_with. revert tags; induction src as [|a src IH]; intros [|t tags]; try reflexivity. cbn [combine map fst snd]. rewrite !rows_at_cons, IH.
  destruct (Z.eqb_spec t b) as [->|]; reflexivity.
Qed.
Lemma rows_at_in {A} tags b (src : list A) a : In a (rows_at tags b src) -> In a src.
Proof. unfold rows_at. intros H. apply in_map_iff in H. destruct H as ([t a'] & <- & H). apply filter_In in H. eapply in_combine_r. apply H. Qed.

Lemma adjust_spec g k row : length row = (g * k)%nat -> length (adjust_row g k row) = (g * k)%nat /\
  forall c, (c < g * k)%nat -> nth c (adjust_row g k row) 0%R = rsum (map (fun j => nth (c / k * k + j) row 0%R) (seq 0 k)).
Proof.
  intros H. unfold adjust_row. destruct (Nat.ltb_spec 1 k) as [Hk|Hk].
  - pose proof (chunk_rows_shape g k row H) as [Hs1 Hs2].
    assert (HS : shape g k (map (fun blk => repeat (rsum blk) k) (chunk_rows g k row))).
    { split; [rewrite map_length; exact Hs1|]. apply Forall_forall. intros r Hr. apply in_map_iff in Hr. destruct Hr as (b & <- & _). apply repeat_length. }
    rewrite flat_map_concat_map. split; [rewrite (length_concat_shape g k) by exact HS; reflexivity|].
    intros c Hc. assert (Hg : (c / k < g)%nat) by (apply Nat.div_lt_upper_bound; lia). assert (Hm : (c mod k < k)%nat) by (apply Nat.mod_upper_bound; lia).
    replace (nth c (concat (map (fun blk => repeat (rsum blk) k) (chunk_rows g k row))) 0%R)
      with (nth (c / k * k + c mod k) (concat (map (fun blk => repeat (rsum blk) k) (chunk_rows g k row))) 0%R).
    2:{ f_equal. rewrite Nat.mul_comm. symmetry. apply Nat.div_mod. lia. }
    rewrite (nth_concat 0%R g k) by assumption. rewrite (nth_map_lt _ _ _ []) by lia. rewrite nth_repeat_lt by exact Hm. f_equal.
    apply (list_ext 0%R k); [apply (shape_nth g k); [split; assumption|exact Hg]|rewrite map_length; apply seq_length|].
    intros j Hj. rewrite nth_map_seq by exact Hj. apply nth_chunk_rows; assumption.
  - split; [exact H|]. intros c Hc. assert (k = 1)%nat by nia. subst k. rewrite Nat.div_1_r. cbn [seq map]. unfold rsum. cbn [fold_right].
    rewrite Nat.mul_1_r, Nat.add_0_r. ring.
Qed.

Lemma gather_map {A} (f : nat -> A) n idx : (forall i, In i idx -> 0 <= i < Z.of_nat n) -> gather (map f (seq 0 n)) idx = Ok (map (fun i => f (Z.to_nat i)) idx).
Proof.
  intros H. unfold gather. apply mapM_Ok. intros i Hi. specialize (H i Hi). rewrite (tget_nth _ i (f O)) by (unfold zlen; rewrite map_length, seq_length; lia).
  rewrite nth_map_seq by lia. reflexivity.
Qed.
Lemma zip_mapr {A B C D} (f : A -> B -> C) (h : D -> B) (l : list A) m : zip_with f l (map h m) = zip_with (fun a d => f a (h d)) l m.
Proof. unfold zip_with. revert m; induction l as [|a l IH]; intros [|b m]; cbn [combine map]; try reflexivity. rewrite IH. reflexivity. Qed.
Lemma zip_zip {A B C D} (f : A -> B -> C) (h : C -> B -> D) (l : list A) m : zip_with h (zip_with f l m) m = zip_with (fun a b => h (f a b) b) l m.
Proof. unfold zip_with. revert m; induction l as [|a l IH]; intros [|b m]; cbn [combine map]; try reflexivity. rewrite IH. reflexivity. Qed.
Lemma map_zip {A B C D} (f : A -> B -> C) (h : C -> D) (l : list A) m : map h (zip_with f l m) = zip_with (fun a b => h (f a b)) l m.
Proof. unfold zip_with. rewrite map_map. reflexivity. Qed.

Section Norm.
  Variables (C g k B : nat) (bid : list Z) (x : list (list R)).
  Hypothesis HC : C = (g * k)%nat.
  Hypothesis Hx : Forall (fun r => length r = C) x.
  Notation rows b := (rows_at bid b x).
  Notation ic b := (1 / (INR (length (rows b)) * INR k + norm_eps))%R.

  Lemma rows_C b : Forall (fun r => length r = C) (rows b).
  Proof. apply Forall_forall. intros r Hr. rewrite Forall_forall in Hx. apply Hx. eapply rows_at_in. exact Hr. Qed.

  Lemma group_sum (rs : list (list R)) i : Forall (fun r => length r = C) rs ->
    let v := adjust_row g k (map (fun a => a * i)%R (fold_left radd rs (rzero C))) in
    length v = C /\ forall c, (c < C)%nat -> nth c v 0%R = (rsum (group_values k (c / k) rs) * i)%R.
  Proof.
    intros Hr. cbn zeta. destruct (fold_radd C rs Hr (rzero C)) as [H1 H2]; [apply repeat_length|].
    destruct (adjust_spec g k (map (fun a => a * i)%R (fold_left radd rs (rzero C)))) as [H3 H4]; [rewrite map_length; congruence|].
    split; [congruence|]. intros c Hc. rewrite H4 by congruence. unfold group_values. rewrite rsum_flat. rewrite rsum_swap. rewrite <- rsum_scale. f_equal. apply map_ext_in.
    intros j Hj. apply in_seq in Hj. assert (Hcj : (c / k * k + j < C)%nat).
    { assert (c / k < g)%nat by (apply Nat.div_lt_upper_bound; lia). rewrite HC. nia. }
    rewrite (nth_map_lt _ _ _ 0%R) by lia. rewrite H2. unfold rzero. rewrite nth_repeat_same. ring.
  Qed.
  Lemma group_len G (rs : list (list R)) : length (group_values k G rs) = (length rs * k)%nat.
  Proof. unfold group_values. induction rs as [|r rs IH]; cbn [flat_map length]; [reflexivity|]. rewrite app_length, map_length, seq_length, IH. lia. Qed.

  Definition mu b := adjust_row g k (map (fun a => a * ic b)%R (fold_left radd (rows b) (rzero C))).
  Definition cent b := map (fun r => map (fun a => a * a)%R (zip_with Rminus r (mu b))) (rows b).
  Definition sd b := map (fun v => 1 / sqrt (v + norm_eps))%R (adjust_row g k (map (fun a => a * ic b)%R (fold_left radd (cent b) (rzero C)))).

  Lemma mu_spec b : length (mu b) = C /\ forall c, (c < C)%nat -> nth c (mu b) 0%R = mean_eps norm_eps (group_values k (c / k) (rows b)).
  Proof.
    destruct (group_sum (rows b) (ic b) (rows_C b)) as [H1 H2]. split; [exact H1|]. intros c Hc. unfold mu. rewrite H2 by exact Hc.
    unfold mean_eps. rewrite group_len, mult_INR. unfold Rdiv. rewrite Rmult_1_l. reflexivity.
  Qed.
  Lemma sd_spec b : length (sd b) = C /\ forall c, (c < C)%nat -> nth c (sd b) 0%R = (1 / sqrt (var_eps norm_eps (group_values k (c / k) (rows b)) + norm_eps))%R.
  Proof.
    destruct (mu_spec b) as [M1 M2]. assert (Hcent : Forall (fun r => length r = C) (cent b)).
    { apply Forall_forall. intros r Hr. apply in_map_iff in Hr. destruct Hr as (r' & <- & Hr'). rewrite map_length. apply zip_length; [|exact M1].
      pose proof (rows_C b) as H. rewrite Forall_forall in H. apply H. exact Hr'. }
    destruct (group_sum (cent b) (ic b) Hcent) as [H1 H2]. split; [unfold sd; rewrite map_length; exact H1|].
    intros c Hc. unfold sd. rewrite (nth_map_lt _ _ _ 0%R) by lia. rewrite H2 by exact Hc. do 3 f_equal.
    assert (E : group_values k (c / k) (cent b) = map (fun v => ((v - mean_eps norm_eps (group_values k (c / k) (rows b))) ^ 2)%R) (group_values k (c / k) (rows b))).
    { unfold cent. assert (G : forall rs, Forall (fun r => length r = C) rs -> group_values k (c / k) (map (fun r => map (fun a => a * a)%R (zip_with Rminus r (mu b))) rs)
        = map (fun v => ((v - mean_eps norm_eps (group_values k (c / k) (rows b))) ^ 2)%R) (group_values k (c / k) rs)).
      { intros rs Hrs. induction Hrs as [|r rs Hr Hrs IH]; [reflexivity|]. unfold group_values in *. cbn [map flat_map]. rewrite map_app, <- IH. f_equal. rewrite map_map.
        apply map_ext_in. intros j Hj. apply in_seq in Hj. assert (Hk : k <> O) by lia.
        assert (Hg : (c / k < g)%nat) by (apply Nat.div_lt_upper_bound; lia). assert (Hcj : (c / k * k + j < C)%nat) by (rewrite HC; nia).
        rewrite (nth_map_lt _ _ _ 0%R) by (rewrite (zip_length _ _ _ C) by assumption; exact Hcj). rewrite zipR_nth by (try ring; congruence). rewrite M2 by exact Hcj.
        replace ((c / k * k + j) / k)%nat with (c / k)%nat; [ring|]. rewrite Nat.div_add_l by exact Hk. rewrite (Nat.div_small j k) by lia. lia. }
      apply G. apply rows_C. }
    rewrite E. unfold var_eps. rewrite group_len, mult_INR. unfold Rdiv. rewrite Rmult_1_l. reflexivity.
  Qed.

  Definition nrow (w bias : list R) (b : Z) (r : list R) : list R :=
    zip_with Rplus (zip_with Rmult (zip_with Rmult (zip_with Rminus r (mu b)) (sd b)) w) bias.
  Lemma nrow_spec w bias b r : length w = C -> length bias = C -> length r = C ->
    nrow w bias b r = map (fun c => (normed norm_eps (group_values k (c / k) (rows b)) (nth c r 0) * nth c w 0 + nth c bias 0)%R) (seq 0 C).
  Proof.
    intros Hw Hb Hr. destruct (mu_spec b) as [M1 M2]. destruct (sd_spec b) as [S1 S2]. unfold nrow.
    assert (L1 : length (zip_with Rminus r (mu b)) = C) by (apply zip_length; assumption).
    assert (L2 : length (zip_with Rmult (zip_with Rminus r (mu b)) (sd b)) = C) by (apply zip_length; assumption).
    assert (L3 : length (zip_with Rmult (zip_with Rmult (zip_with Rminus r (mu b)) (sd b)) w) = C) by (apply zip_length; assumption).
    apply (list_ext 0%R C); [apply zip_length; assumption|rewrite map_length; apply seq_length|].
    intros c Hc. rewrite nth_map_seq by exact Hc. rewrite !zipR_nth by (try ring; congruence). rewrite M2, S2 by exact Hc. unfold normed, Rdiv. rewrite Rmult_1_l. reflexivity.
  Qed.
End Norm.

Lemma tree_norm o L K M d ne C g k w bias x : tree_upto o L K M -> (d <= L)%nat -> C = (g * k)%nat -> (0 < g)%nat ->
  shape (node_count o d ne) C x -> length w = C -> length bias = C ->
  group_norm C g w bias x o d ne = Ok (zip_with (fun r b => nrow C g k (map (fun k => k / 2 ^ 48) (sel K M ne d)) x w bias b r) x (map (fun k => k / 2 ^ 48) (sel K M ne d))).
Proof.
  intros T Hd HC Hg [Hx HxC] Hw Hb. unfold group_norm, norm_init. destruct (Nat.eqb_spec g 0); [lia|].
  rewrite HC, Nat.mul_comm, Nat.mod_mul by lia. cbn [Nat.eqb bind]. rewrite Nat.div_mul by lia. rewrite Nat.mul_comm, <- HC.
  replace (forallb (fun r => Nat.eqb (length r) C) x) with true.
  2:{ symmetry. apply forallb_forall. intros r Hr. apply Nat.eqb_eq. rewrite Forall_forall in HxC. apply HxC. exact Hr. }
  cbn [bind]. rewrite (tree_batch_id o L K M) by assumption. cbn [bind].
  set (bid := map (fun k => k / 2 ^ 48) (sel K M ne d)).
  assert (H1 : length bid = length x) by (unfold bid; rewrite map_length, Hx, (node_count_sel o L K M T) by exact Hd; reflexivity).
  assert (H2 : forall i, In i bid -> 0 <= i < Z.of_nat (batch_size o)).
  { intros i Hi. apply in_map_iff in Hi. destruct Hi as (q & <- & Hk). pose proof (sel_vkey o L K M T ne d Hd) as V. rewrite Forall_forall in V.
    apply (vkey_batch _ d); [pose proof (t_depth _ _ _ _ T); pose proof (t_L _ _ _ _ T); lia|apply V; exact Hk]. }
  rewrite scatter_some by (rewrite ?map_length; assumption). cbn [bind]. rewrite scatter_some by assumption. cbn [bind].
  rewrite map_map, zip_map. rewrite map_map. rewrite gather_map by exact H2. cbn [bind].
  assert (Emu : forall b, adjust_row g k (map (fun a => a * (1 / (fold_left Rplus (rows_at bid (Z.of_nat b) (map (fun _ => 1%R) x)) 0%R * INR k + norm_eps)))%R (fold_left radd (rows_at bid (Z.of_nat b) x) (rzero C)))
    = mu C g k bid x (Z.of_nat b)).
  { intros b. unfold mu. rewrite rows_at_map. replace (map (fun _ : list R => 1%R) (rows_at bid (Z.of_nat b) x)) with (repeat 1%R (length (rows_at bid (Z.of_nat b) x))).
    2:{ clear. induction (rows_at bid (Z.of_nat b) x) as [|a l IH]; cbn; [reflexivity|]. rewrite IH. reflexivity. }
    rewrite foldR_ones, Rplus_0_l. reflexivity. }
  assert (Ebid : forall (F : nat -> list R) (G : Z -> list R), (forall b, F b = G (Z.of_nat b)) -> map (fun i => F (Z.to_nat i)) bid = map G bid).
  { intros F G HFG. apply map_ext_in. intros i Hi. rewrite HFG, Z2Nat.id by (apply H2; exact Hi). reflexivity. }
  rewrite (Ebid _ _ Emu). rewrite zip_mapr.
  set (out := zip_with (fun a t => zip_with Rminus a (mu C g k bid x t)) x bid).
  assert (Hout : length out = length x) by (apply zip_length; [reflexivity|exact H1]).
  rewrite scatter_some by (rewrite ?map_length; congruence || assumption). cbn [bind]. rewrite zip_map, !map_map. rewrite gather_map by exact H2. cbn [bind]. f_equal.
  assert (Esd : forall b, map (fun v => 1 / sqrt (v + norm_eps))%R (adjust_row g k (map (fun a => a * (1 / (fold_left Rplus (rows_at bid (Z.of_nat b) (map (fun _ => 1%R) x)) 0%R * INR k + norm_eps)))%R
      (fold_left radd (rows_at bid (Z.of_nat b) (map (map (fun a => a * a)%R) out)) (rzero C)))) = sd C g k bid x (Z.of_nat b)).
  { intros b. unfold sd. do 2 f_equal. unfold cent, out. rewrite (rows_at_map (map (fun a => a * a)%R)), (rows_at_tagged (fun t a => zip_with Rminus a (mu C g k bid x t))), map_map.
    rewrite rows_at_map. replace (map (fun _ : list R => 1%R) (rows_at bid (Z.of_nat b) x)) with (repeat 1%R (length (rows_at bid (Z.of_nat b) x))).
    2:{ clear. induction (rows_at bid (Z.of_nat b) x) as [|a l IH]; cbn; [reflexivity|]. rewrite IH. reflexivity. }
    rewrite foldR_ones, Rplus_0_l. reflexivity. }
  rewrite (Ebid _ _ Esd). rewrite zip_mapr. unfold out. rewrite zip_zip, map_zip. reflexivity.
Qed.

Lemma thm_group_norm o d ne C g k w bias x : wf_octree o -> (d <= depth o)%nat -> C = (g * k)%nat -> (0 < g)%nat ->
  shape (node_count o d ne) C x -> length w = C -> length bias = C ->
  exists cs y, octree_xyzb o d ne = Ok cs /\ group_norm C g w bias x o d ne = Ok y /\ length y = length x /\
    forall b, rows_at (samples cs) b y = norm_rows (/ 100000) C k w bias (rows_at (samples cs) b x).
Proof.
  intros [K [M T]] Hd HC Hg Hx Hw Hb. exists (map (coords d) (sel K M ne d)). eexists. split; [apply (tree_xyzb o (depth o) K M); assumption|].
  split; [apply (tree_norm o (depth o) K M d ne C g k); assumption|]. unfold samples. rewrite map_map.
  change (fun x0 : Z => let '(_, _, _, b0) := coords d x0 in b0) with (fun k : Z => k / 2 ^ 48).
  split. { apply zip_length; [reflexivity|]. rewrite map_length, (proj1 Hx), (node_count_sel o (depth o) K M T) by exact Hd. reflexivity. }
  intros b. rewrite (rows_at_tagged (fun b r => nrow C g k (map (fun k => k / 2 ^ 48) (sel K M ne d)) x w bias b r)). unfold norm_rows. apply map_ext_in. intros r Hr. apply nrow_spec; try assumption; [apply Hx|].
  destruct Hx as [_ Hx]. rewrite Forall_forall in Hx. apply Hx. eapply rows_at_in. exact Hr.
Qed.
