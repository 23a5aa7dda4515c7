(** Drop path. *)
From Coq Require Import String List ZArith Bool Lia QArith Qcanon Lqa.
From Verif Require Import Res Tensor Num Points Octree NnBasic Spec SpecGeo SpecNN WF ListFacts NumFacts ScatterFacts SumFacts NnFacts KidsFacts WFFacts SearchFacts PadFacts PoolFacts GlobalPool NormFacts.
Import ListNotations.
Open Scope Z_scope.

Lemma drop_mask (p : Qc) scale (r : Qc) : (0 < p)%Qc -> (p <= 1)%Qc -> (0 <= r)%Qc -> (r < 1)%Qc ->
  (if qltb 0 (1 - p) && scale then (qz (qfloor (r + (1 - p))) / (1 - p))%Qc else qz (qfloor (r + (1 - p)))) = drop_factor p scale r.
Proof.
  intros H1 H2 H3 H4. unfold drop_factor. destruct (Qclt_le_dec r p) as [Hr|Hr].
  - assert (E : qfloor (r + (1 - p)) = 0). { apply qfloor_spec. rewrite qz_0. change (qz (0 + 1)) with 1%Qc. split; qclra. }
    rewrite E, qz_0. destruct (qltb 0 (1 - p) && scale); [|reflexivity]. unfold Qcdiv. ring.
  - assert (E : qfloor (r + (1 - p)) = 1). { apply qfloor_spec. change (qz (1 + 1)) with (1 + 1)%Qc. rewrite qz_1. split; qclra. }
    rewrite E, qz_1. replace (qltb 0 (1 - p)) with true by (symmetry; apply qltb_lt; qclra). cbn [andb]. destruct scale; [|reflexivity]. unfold Qcdiv. ring.
Qed.

Lemma drop_ids p scale ne rnd C x o d bo bid : (0 < p)%Qc -> (p <= 1)%Qc -> Forall (fun r => (0 <= r)%Qc /\ (r < 1)%Qc) rnd ->
  (match bo with Some b => Ok b | None => octree_batch_id o (Z.of_nat d) ne end) = Ok bid ->
  shape (length bid) C x -> Forall (fun b => 0 <= b < Z.of_nat (length rnd)) bid ->
  exists y, drop_path p scale true ne rnd x o d bo = Ok y /\ shape (length bid) C y /\
    forall i b c, nth_error bid i = Some b -> at2 y i c = (at2 x i c * drop_factor p scale (nth (Z.to_nat b) rnd 0%Qc))%Qc.
Proof.
  intros H1 H2 Hr Eb [Hx HxC] Hbid. unfold drop_path.
  replace (qleb p 0) with false. 2:{ symmetry. apply not_true_is_false. intros E. unfold qleb in E. apply Qle_bool_iff in E. qclra. }
  cbn [orb negb]. rewrite Eb. cbn [bind].
  set (f := drop_factor p scale).
  assert (E : (if qltb 0 (1 - p) && scale then map (fun r => (r / (1 - p))%Qc) (map (fun r => qz (qfloor (r + (1 - p))%Qc)) rnd) else map (fun r => qz (qfloor (r + (1 - p))%Qc)) rnd) = map f rnd).
  { rewrite Forall_forall in Hr. destruct (qltb 0 (1 - p) && scale) eqn:Eq; rewrite ?map_map; apply map_ext_in; intros r Hin; destruct (Hr r Hin) as [R1 R2];
      pose proof (drop_mask p scale r H1 H2 R1 R2) as D; rewrite Eq in D; exact D. }
  rewrite E. clear E.
  assert (E : gather (map f rnd) bid = Ok (map (fun b => f (nth (Z.to_nat b) rnd 0%Qc)) bid)).
  { unfold gather. apply mapM_Ok. intros b Hb. rewrite Forall_forall in Hbid. specialize (Hbid b Hb). rewrite (tget_nth _ b 0%Qc) by (unfold zlen; rewrite map_length; lia).
    rewrite (nth_map_lt _ _ _ 0%Qc) by lia. reflexivity. }
  rewrite E. cbn [bind]. rewrite map_length, Hx, Nat.eqb_refl. eexists. split; [reflexivity|]. split.
  - split; [apply zip_length; [exact Hx|apply map_length]|]. apply Forall_forall. intros r Hin. unfold zip_with in Hin. apply in_map_iff in Hin. destruct Hin as ([a m] & <- & Hin).
    apply in_combine_l in Hin. cbn [fst snd]. rewrite map_length. rewrite Forall_forall in HxC. apply HxC. exact Hin.
  - intros i b c Hi. assert (Hl : (i < length bid)%nat) by (apply nth_error_Some; rewrite Hi; discriminate). unfold at2, zip_with.
    rewrite (nth_map_lt _ _ _ ([], 0%Qc)) by (rewrite combine_length, map_length; lia). rewrite nth_combine by (rewrite map_length; exact Hx). cbn [fst snd].
    rewrite (nth_map_lt _ _ _ 0) by exact Hl. rewrite (nth_error_nth _ _ 0 Hi). fold f.
    destruct (Nat.lt_ge_cases c (length (nth i x []))) as [Hc|Hc].
    + rewrite (nth_map_lt _ _ _ 0%Qc) by exact Hc. reflexivity.
    + rewrite !nth_overflow by (rewrite ?map_length; exact Hc). ring.
Qed.

Lemma thm_drop o d ne p scale rnd C x : wf_octree o -> (d <= depth o)%nat -> (0 < p)%Qc -> (p <= 1)%Qc ->
  length rnd = batch_size o -> Forall (fun r => (0 <= r)%Qc /\ (r < 1)%Qc) rnd -> shape (node_count o d ne) C x ->
  exists cs y, octree_xyzb o d ne = Ok cs /\ drop_path p scale true ne rnd x o d None = Ok y /\ shape (node_count o d ne) C y /\
    forall i b c, nth_error (samples cs) i = Some b -> at2 y i c = (at2 x i c * drop_factor p scale (nth (Z.to_nat b) rnd 0%Qc))%Qc.
Proof.
  intros [K [M T]] Hd H1 H2 Hl Hr Hx. exists (map (coords d) (sel K M ne d)). pose proof (node_count_sel o (depth o) K M T d ne Hd) as Hn.
  destruct (drop_ids p scale ne rnd C x o d None (map (fun k => k / 2 ^ 48) (sel K M ne d)) H1 H2 Hr) as (y & E & Hs & Hy).
  - apply (tree_batch_id o (depth o) K M); assumption.
  - rewrite map_length, <- Hn. exact Hx.
  - apply Forall_forall. intros b Hb. apply in_map_iff in Hb. destruct Hb as (k & <- & Hk). rewrite Hl. pose proof (sel_vkey o (depth o) K M T ne d Hd) as V. rewrite Forall_forall in V.
    apply (vkey_batch _ d); [pose proof (t_depth _ _ _ _ T); lia|apply V; exact Hk].
  - exists y. split; [apply (tree_xyzb o (depth o) K M); assumption|]. split; [exact E|]. rewrite map_length, <- Hn in Hs. split; [exact Hs|].
    unfold samples. rewrite map_map. exact Hy.
Qed.
Lemma thm_drop_identity p scale training ne rnd x o d bo : (p <= 0)%Qc \/ training = false -> drop_path p scale training ne rnd x o d bo = Ok x.
Proof.
  intros H. unfold drop_path. assert (E : qleb p 0 || negb training = true).
  { apply orb_true_iff. destruct H as [H| ->]; [left; apply Qle_bool_iff; exact H|right; reflexivity]. }
  rewrite E. reflexivity.
Qed.
Lemma thm_drop_given p scale ne rnd C x o d bid : (0 < p)%Qc -> (p <= 1)%Qc ->
  Forall (fun r => (0 <= r)%Qc /\ (r < 1)%Qc) rnd -> shape (length bid) C x ->
  Forall (fun b => 0 <= b < Z.of_nat (length rnd)) bid ->
  exists y, drop_path p scale true ne rnd x o d (Some bid) = Ok y /\ shape (length bid) C y /\
    forall i b c, nth_error bid i = Some b -> at2 y i c = (at2 x i c * drop_factor p scale (nth (Z.to_nat b) rnd 0%Qc))%Qc.
Proof. intros H1 H2 H3 H4 H5. apply (drop_ids p scale ne rnd C x o d (Some bid) bid H1 H2 H3 eq_refl H4 H5). Qed.
Lemma drop_all scale r : (r < 1)%Qc -> drop_factor 1 scale r = 0%Qc.
Proof. intros H. unfold drop_factor. destruct (Qclt_le_dec r 1) as [|H2]; [reflexivity|]. exfalso. exact (Qcle_not_lt _ _ H2 H). Qed.
