(** Chunks of a scene: the boxes and what they cover. *)
From Coq Require Import String List ZArith Bool QArith Qcanon Qround Lia Lqa.
From Verif Require Import Res Tensor Num Octree NnBasic Utils Dataset Net Project SpecNN SpecProject NumFacts ListFacts PoolFacts MetricFacts EvalFacts.
Import ListNotations.
Open Scope Z_scope.

Lemma qleb_le a b : qleb a b = true <-> (a <= b)%Qc.
Proof. unfold qleb. apply Qle_bool_iff. Qed.
Lemma qltb_ge a b : qltb a b = false <-> (b <= a)%Qc.
Proof. unfold qltb. rewrite negb_false_iff. apply Qle_bool_iff. Qed.
Lemma qmin_spec a b : (qmin a b <= a)%Qc /\ (qmin a b <= b)%Qc /\ (qmin a b = a \/ qmin a b = b).
Proof. unfold qmin. destruct (qltb b a) eqn:E; [apply qltb_lt in E; apply qlt_le in E|apply qltb_ge in E]; repeat split; auto using Qcle_refl. Qed.
Lemma qmax_spec a b : (a <= qmax a b)%Qc /\ (b <= qmax a b)%Qc /\ (qmax a b = a \/ qmax a b = b).
Proof. unfold qmax. destruct (qltb a b) eqn:E; [apply qltb_lt in E; apply qlt_le in E|apply qltb_ge in E]; repeat split; auto using Qcle_refl. Qed.

Lemma v3le_trans a b c : v3le a b -> v3le b c -> v3le a c.
Proof. destruct a as ((?, ?), ?), b as ((?, ?), ?), c as ((?, ?), ?). cbn. intros (? & ? & ?) (? & ? & ?). repeat split; eapply Qcle_trans; eassumption. Qed.
Lemma v3le_refl a : v3le a a. Proof. destruct a as ((?, ?), ?). cbn. auto using Qcle_refl. Qed.
Lemma fold_min vs : forall a, let r := fold_left (v3zip qmin) vs a in v3le r a /\ Forall (v3le r) vs.
Proof.
  induction vs as [|v vs IH]; intros a; cbn [fold_left]; [split; [apply v3le_refl|constructor]|]. specialize (IH (v3zip qmin a v)). cbv zeta in *. destruct IH as (I1 & I2). set (r := fold_left _ _ _) in *.
  assert (A : v3le (v3zip qmin a v) a /\ v3le (v3zip qmin a v) v). { destruct a as ((?, ?), ?), v as ((?, ?), ?). cbn. repeat split; apply qmin_spec. }
  split; [eapply v3le_trans; [exact I1|apply A]|constructor; [eapply v3le_trans; [exact I1|apply A]|exact I2]].
Qed.
Lemma fold_max vs : forall a, let r := fold_left (v3zip qmax) vs a in v3le a r /\ Forall (fun v => v3le v r) vs.
Proof.
  induction vs as [|v vs IH]; intros a; cbn [fold_left]; [split; [apply v3le_refl|constructor]|]. specialize (IH (v3zip qmax a v)). cbv zeta in *. destruct IH as (I1 & I2). set (r := fold_left _ _ _) in *.
  assert (A : v3le a (v3zip qmax a v) /\ v3le v (v3zip qmax a v)). { destruct a as ((?, ?), ?), v as ((?, ?), ?). cbn. repeat split; apply qmax_spec. }
  split; [eapply v3le_trans; [apply A|exact I1]|constructor; [eapply v3le_trans; [apply A|exact I1]|exact I2]].
Qed.
(** The smallest value of each axis is taken by some vertex. *)
Lemma fold_att (f : Qc -> Qc -> Qc) (Hf : forall a b, f a b = a \/ f a b = b) vs : forall a,
  let '(x, y, z) := fold_left (v3zip f) vs a in
  (exists v, In v (a :: vs) /\ fst (fst v) = x) /\ (exists v, In v (a :: vs) /\ snd (fst v) = y) /\ (exists v, In v (a :: vs) /\ snd v = z).
Proof.
  induction vs as [|v vs IH]; intros a; cbn [fold_left].
  - destruct a as ((x, y), z). repeat split; exists (x, y, z); split; (left; reflexivity) || reflexivity.
  - specialize (IH (v3zip f a v)). destruct (fold_left (v3zip f) vs (v3zip f a v)) as ((x, y), z). destruct IH as (X & Y & Z0).
    assert (P : forall (g : v3 Qc -> Qc) t, (forall a b, g (v3zip f a b) = g a \/ g (v3zip f a b) = g b) -> (exists w, In w (v3zip f a v :: vs) /\ g w = t) -> exists w, In w (a :: v :: vs) /\ g w = t).
    { intros g t Hg (w & [<-|Hw] & E); [|exists w; split; [right; right; exact Hw|exact E]]. destruct (Hg a v) as [G|G]; rewrite G in E; [exists a|exists v]; split; auto with datatypes. }
    split; [|split].
    + apply (P (fun v => fst (fst v))); [|exact X]. intros ((?, ?), ?) ((?, ?), ?). cbn. apply Hf.
    + apply (P (fun v => snd (fst v))); [|exact Y]. intros ((?, ?), ?) ((?, ?), ?). cbn. apply Hf.
    + apply (P (fun v => snd v)); [|exact Z0]. intros ((?, ?), ?) ((?, ?), ?). cbn. apply Hf.
Qed.

Lemma qceil_ge q : (q <= qz (qceil q))%Qc.
Proof. unfold qceil. unfold Qcle, qz. rewrite q2qc_red. apply Qle_ceiling. Qed.
Lemma qfloor_le q : (qz (qfloor q) <= q)%Qc /\ (q < qz (qfloor q + 1))%Qc.
Proof. apply qfloor_spec. reflexivity. Qed.
Lemma div_le_mul a b s : (0 < s)%Qc -> (a / s <= b)%Qc -> (a <= b * s)%Qc.
Proof. intros Hs H. apply (Qcmult_le_r _ _ s Hs) in H. replace (a / s * s)%Qc with a in H by (field; intros ->; discriminate Hs). exact H. Qed.
Lemma mul_le_div a b s : (0 < s)%Qc -> (b <= a / s)%Qc -> (b * s <= a)%Qc.
Proof. intros Hs H. apply (Qcmult_le_r _ _ s Hs) in H. replace (a / s * s)%Qc with a in H by (field; intros ->; discriminate Hs). exact H. Qed.
Lemma div_lt_mul a b s : (0 < s)%Qc -> (a / s < b)%Qc -> (a < b * s)%Qc.
Proof. intros Hs H. apply (Qcmult_lt_r _ _ s Hs) in H. replace (a / s * s)%Qc with a in H by (field; intros ->; discriminate Hs). exact H. Qed.

Definition chunk_count (crop s hi : Qc) : Z := qceil (qmax (hi - crop) 0 / s)%Qc + 1.
Lemma count_pos crop s hi : (0 < s)%Qc -> 1 <= chunk_count crop s hi.
Proof.
  intros Hs. unfold chunk_count. pose proof (qmax_spec (hi - crop) 0) as (_ & M & _). set (q := (qmax (hi - crop) 0 / s)%Qc). assert (0 <= q)%Qc by (apply div_nonneg; assumption). pose proof (qceil_ge q) as G.
  assert (X : (qz 0 <= qz (qceil q))%Qc) by (rewrite qz_0; eapply Qcle_trans; eassumption). apply (proj1 (qz_le _ _)) in X. lia.
Qed.
Lemma axis_cover crop s lo hi v : (0 < s)%Qc -> (s <= crop)%Qc -> (0 <= lo)%Qc -> (lo <= v)%Qc -> (v <= hi)%Qc ->
  exists n, 0 <= n < chunk_count crop s hi /\ (lo + qz n * s <= v)%Qc /\ (v <= lo + qz n * s + crop)%Qc.
Proof.
  intros Hs Hc H0 H1 H2. pose proof (count_pos crop s hi Hs) as HN. set (N := chunk_count crop s hi) in *. set (q := ((v - lo) / s)%Qc). set (k := qfloor q). destruct (qfloor_le q) as (F1 & F2). fold k in F1, F2.
  assert (Q0 : (0 <= q)%Qc) by (apply div_nonneg; [qclra|exact Hs]).
  assert (K0 : 0 <= k). { assert (X : (qz 0 < qz (k + 1))%Qc) by (rewrite qz_0; eapply Qcle_lt_trans; eassumption). apply (proj1 (qz_lt _ _)) in X. lia. }
  assert (K1 : (qz k * s <= v - lo)%Qc) by (apply mul_le_div; assumption).
  assert (K2 : (v - lo < qz (k + 1) * s)%Qc) by (apply div_lt_mul; assumption).
  destruct (Z.lt_ge_cases k N) as [L|L].
  - exists k. split; [lia|]. rewrite qz_add, qz_1 in K2. replace ((qz k + 1) * s)%Qc with (qz k * s + s)%Qc in K2 by ring. split; qclra.
  - exists (N - 1). split; [lia|]. split.
    + assert (X : (qz (N - 1) * s <= qz k * s)%Qc) by (apply (Qcmult_le_r _ _ s Hs); apply qz_le; lia). qclra.
    + assert (X : (hi - crop <= qz (N - 1) * s)%Qc).
      { apply (Qcle_trans _ (qmax (hi - crop) 0)); [apply qmax_spec|]. apply div_le_mul; [exact Hs|]. unfold N, chunk_count. rewrite Z.add_simpl_r. apply qceil_ge. }
      qclra.
Qed.

Lemma filter_map_len {A B} (f : B -> bool) (g : A -> B) l : List.length (filter f (map g l)) = List.length (filter (fun a => f (g a)) l).
Proof. induction l as [|a l IH]; [reflexivity|]. cbn [map filter]. destruct (f (g a)); cbn [List.length]; rewrite IH; reflexivity. Qed.
Lemma in_ids n0 n1 n2 t : In t (flat_map (fun i => flat_map (fun j => map (fun k => (i, j, k)) (arange n2)) (arange n1)) (arange n0)) <->
  (let '(i, j, k) := t in 0 <= i < Z.of_nat n0 /\ 0 <= j < Z.of_nat n1 /\ 0 <= k < Z.of_nat n2).
Proof.
  destruct t as ((i, j), k). split.
  - intros H. apply in_flat_map in H. destruct H as (a & Ha & H). apply in_flat_map in H. destruct H as (b & Hb & H). apply in_map_iff in H. destruct H as (c & E & Hc). injection E as -> -> ->.
    apply in_arange in Ha, Hb, Hc. split; [exact Ha|split; assumption].
  - intros (A & B & D). apply in_flat_map. exists i. split; [apply in_arange; exact A|]. apply in_flat_map. exists j. split; [apply in_arange; exact B|]. apply (in_map (fun k => (i, j, k))). apply in_arange. exact D.
Qed.
(** the test of one vertex *)
Definition box_test (crop : Qc) (cmin v : v3 Qc) : bool :=
  let '(a, b, c) := v3zip qleb v (v3map (fun c => (c + crop)%Qc) cmin) in let '(a', b', c') := v3zip qleb cmin v in (a && a') && (b && b') && (c && c').
Lemma box_test_spec crop c v : box_test crop c v = true <-> in_box crop c v.
Proof.
  destruct c as ((cx, cy), cz), v as ((x, y), z). unfold box_test. cbn [v3zip v3map in_box]. rewrite !andb_true_iff, !qleb_le. tauto.
Qed.
Lemma chunks_eq crop s ms vs : generate_chunks crop s ms vs =
  match vs with [] => Err ValueError | v :: t =>
    let lo := fold_left (v3zip qmin) t v in let hi := fold_left (v3zip qmax) t v in
    let '(x, y, z) := v3zip Qcminus hi lo in
    if qltb x crop && qltb y crop && qltb z crop then Ok None else
    let '(n0, n1, n2) := v3map (chunk_count crop s) hi in
    Ok (Some (filter (fun m => negb (Z.of_nat (count_true m) <? ms))
      (map (fun n => map (box_test crop (corner lo s n)) vs) (flat_map (fun i => flat_map (fun j => map (fun k => (i, j, k)) (arange (Z.to_nat n2))) (arange (Z.to_nat n1))) (arange (Z.to_nat n0))))))
  end.
Proof.
  unfold generate_chunks, rows_fold. destruct vs as [|v t]; [reflexivity|]. cbn [bind]. cbv zeta. destruct (fold_left (v3zip qmin) t v) as ((lx, ly), lz). destruct (fold_left (v3zip qmax) t v) as ((hx, hy), hz). cbn [v3zip v3map].
  destruct (_ && _); [reflexivity|]. do 3 f_equal. apply map_ext. intros ((i, j), k). apply map_ext. intros ((x, y), z). reflexivity.
Qed.

Theorem thm_chunks crop s ms vs masks : (0 < s)%Qc -> (s <= crop)%Qc -> generate_chunks crop s ms vs = Ok (Some masks) ->
  exists lo : v3 Qc,
    (Forall (v3le lo) vs /\ (let '(x, y, z) := lo in (exists v, In v vs /\ fst (fst v) = x) /\ (exists v, In v vs /\ snd (fst v) = y) /\ (exists v, In v vs /\ snd v = z))) /\
    (forall mask, In mask masks -> exists i j k, 0 <= i /\ 0 <= j /\ 0 <= k /\ List.length mask = List.length vs /\ ms <= Z.of_nat (List.length (filter (fun b => b) mask)) /\
       forall p v, nth_error vs p = Some v -> (nth_error mask p = Some true <-> in_box crop (corner lo s (i, j, k)) v)) /\
    ((forall v, In v vs -> v3le (0%Qc, 0%Qc, 0%Qc) v) -> forall v, In v vs -> exists i j k, 0 <= i /\ 0 <= j /\ 0 <= k /\ in_box crop (corner lo s (i, j, k)) v /\
       (forall idx, NoDup idx -> (forall p, In p idx -> exists w, nth_error vs p = Some w /\ in_box crop (corner lo s (i, j, k)) w) -> ms <= Z.of_nat (List.length idx) ->
         exists mask, In mask masks /\ forall p w, nth_error vs p = Some w -> (nth_error mask p = Some true <-> in_box crop (corner lo s (i, j, k)) w))).
Proof.
  intros Hs Hc. rewrite chunks_eq. destruct vs as [|v0 t]; [discriminate|]. cbv zeta. pose proof (fold_min t v0) as (L1 & L2). pose proof (fold_max t v0) as (U1 & U2). pose proof (fold_att qmin (fun a b => proj2 (proj2 (qmin_spec a b))) t v0) as LA.
  set (lo := fold_left (v3zip qmin) t v0) in *. set (hi := fold_left (v3zip qmax) t v0) in *. set (vs := v0 :: t) in *.
  assert (LV : Forall (v3le lo) vs) by (constructor; assumption). assert (UV : Forall (fun v => v3le v hi) vs) by (constructor; assumption).
  destruct (v3zip Qcminus hi lo) as ((x, y), z). destruct (_ && _); [discriminate|]. destruct (v3map (chunk_count crop s) hi) as ((n0, n1), n2) eqn:EN. intros E. assert (Eq : forall A (x y : A), Ok (Some x) = Ok (Some y) -> x = y) by congruence. apply Eq in E. clear Eq. subst masks.
  assert (IND : forall n p w, nth_error vs p = Some w -> (nth_error (map (box_test crop (corner lo s n)) vs) p = Some true <-> in_box crop (corner lo s n) w)).
  { intros n p w Hp. rewrite (map_nth_error _ _ _ Hp), <- box_test_spec. split; congruence. }
  exists lo. split; [split; [exact LV|exact LA]|]. split.
  - intros mask Hm. apply filter_In in Hm. destruct Hm as (Hm & Hn). apply in_map_iff in Hm. destruct Hm as (((i, j), k) & <- & Hi). apply in_ids in Hi. destruct Hi as (A & B & D). exists i, j, k.
    repeat (split; [lia|]). split; [apply map_length|]. split; [|intros p w; apply IND]. apply negb_true_iff, Z.ltb_ge in Hn. exact Hn.
  - intros H0 v Hv. rewrite Forall_forall in LV, UV. pose proof (LV v Hv) as Lv. pose proof (UV v Hv) as Uv.
    assert (lo0 : v3le (0%Qc, 0%Qc, 0%Qc) lo). { destruct lo as ((lx, ly), lz). destruct LA as ((a & Ha & <-) & (b & Hb & <-) & (c & Hc' & <-)). apply H0 in Ha, Hb, Hc'. destruct a as ((?, ?), ?), b as ((?, ?), ?), c as ((?, ?), ?). cbn in *. tauto. }
    destruct lo as ((lx, ly), lz), hi as ((hx, hy), hz), v as ((vx, vy), vz). cbn [v3le] in Lv, Uv, lo0. cbn [v3map] in EN. injection EN as <- <- <-.
    destruct (axis_cover crop s lx hx vx) as (i & Hi & I1); try tauto. destruct (axis_cover crop s ly hy vy) as (j & Hj & J1); try tauto. destruct (axis_cover crop s lz hz vz) as (k & Hk & K1); try tauto.
    exists i, j, k. repeat (split; [lia|]). split; [cbn [corner v3zip in_box]; tauto|]. intros idx ND HI HM. exists (map (box_test crop (corner (lx, ly, lz) s (i, j, k))) vs). split; [|intros p w; apply IND].
    apply filter_In. split; [apply (in_map (fun n => map (box_test crop (corner (lx, ly, lz) s n)) vs)); apply in_ids; lia|].
    apply negb_true_iff, Z.ltb_ge. enough (X : (List.length idx <= count_true (map (box_test crop (corner (lx, ly, lz) s (i, j, k))) vs))%nat) by lia.
    set (mk := map _ vs) in *. assert (IDX : forall p, In p idx -> nth_error mk p = Some true). { intros p Hp. destruct (HI p Hp) as (w & Hw & Bw). apply (IND (i, j, k) p w Hw). exact Bw. }
    assert (Y : incl idx (filter (fun p => nth p mk false) (seq 0 (List.length mk)))). { intros p Hp. specialize (IDX p Hp). apply filter_In. split; [apply in_seq; split; [lia|]; apply nth_error_Some; congruence|]. apply nth_error_nth with (d := false) in IDX. exact IDX. }
    apply (NoDup_incl_length ND) in Y. etransitivity; [exact Y|]. clear. induction mk as [|b mk IH]; [apply le_n|]. rewrite count_true_cons. cbn [List.length seq filter nth].
    assert (Z0 : List.length (filter (fun p => nth p (b :: mk) false) (seq 1 (List.length mk))) = List.length (filter (fun p => nth p mk false) (seq 0 (List.length mk)))).
    { rewrite <- seq_shift, filter_map_len. reflexivity. }
    cbn [nth] in Z0 |- *. destruct b; cbn [List.length]; lia.
Qed.
Theorem thm_chunks_none crop s ms v t : generate_chunks crop s ms (v :: t) = Ok None <->
  forall a b, In a (v :: t) -> In b (v :: t) -> let '(x, y, z) := a in let '(x', y', z') := b in (x - x' < crop)%Qc /\ (y - y' < crop)%Qc /\ (z - z' < crop)%Qc.
Proof.
  rewrite chunks_eq. cbv zeta. pose proof (fold_min t v) as (L1 & L2). pose proof (fold_max t v) as (U1 & U2). pose proof (fold_att qmin (fun a b => proj2 (proj2 (qmin_spec a b))) t v) as LA. pose proof (fold_att qmax (fun a b => proj2 (proj2 (qmax_spec a b))) t v) as UA.
  set (lo := fold_left (v3zip qmin) t v) in *. set (hi := fold_left (v3zip qmax) t v) in *.
  assert (LV : Forall (v3le lo) (v :: t)) by (constructor; assumption). assert (UV : Forall (fun w => v3le w hi) (v :: t)) by (constructor; assumption). rewrite Forall_forall in LV, UV. clear L1 L2 U1 U2.
  destruct lo as ((lx, ly), lz), hi as ((hx, hy), hz). cbn [v3zip]. split.
  - destruct (qltb _ _ && qltb _ _ && qltb _ _) eqn:E; [|destruct (v3map _ _) as ((?, ?), ?); discriminate]. intros _ a b Ha Hb. specialize (UV a Ha). specialize (LV b Hb). destruct a as ((x, y), z), b as ((x', y'), z'). cbn [v3le] in *. rewrite !andb_true_iff, !qltb_lt in E. repeat split; qclra.
  - intros H. destruct LA as ((a & Ha & <-) & (b & Hb & <-) & (c & Hc & <-)), UA as ((d & Hd & <-) & (e & He & <-) & (f & Hf & <-)).
    pose proof (H d a Hd Ha) as X. pose proof (H e b He Hb) as Y. pose proof (H f c Hf Hc) as W. destruct a as ((?, ?), ?), b as ((?, ?), ?), c as ((?, ?), ?), d as ((?, ?), ?), e as ((?, ?), ?), f as ((?, ?), ?). cbn [fst snd].
    destruct X as (X & _), Y as (_ & Y & _), W as (_ & _ & W). apply qltb_lt in X, Y, W. rewrite X, Y, W. reflexivity.
Qed.
