(** Consequences of the closed form of trilinear interpolation. *)
From Coq Require Import String List ZArith Bool Lia QArith Qcanon Lqa Field.
From Verif Require Import Res Tensor Key Num Points Octree NnBasic NnConv NnInterp Spec SpecGeo SpecNN SpecInterp WF KeyFacts ListFacts NumFacts ScatterFacts SumFacts NnFacts KidsFacts WFFacts SearchFacts PadFacts PoolFacts Family Finite Unpool InterpFacts UpsampleFacts LinearFacts.
Import ListNotations.
Open Scope Z_scope.

Lemma tri_nonneg p b q : (0 <= trilinear p b q)%Qc.
Proof.
  destruct p as [[x y] z], q as [[[X Y] Z_] b']. unfold trilinear. destruct (b' =? b); [|apply Qcle_refl]. repeat apply Qcmult_nonneg; apply hat_nonneg.
Qed.
Lemma sum_mono n f g : (forall i, (i < n)%nat -> (f i <= g i)%Qc) -> (sum_n n f <= sum_n n g)%Qc.
Proof.
  induction n as [|n IH]; intros H; [apply Qcle_refl|]. cbn [sum_n]. assert (H1 : (sum_n n f <= sum_n n g)%Qc) by (apply IH; intros; apply H; lia). assert (H2 : (f n <= g n)%Qc) by (apply H; lia). qclra.
Qed.
Lemma sum_nonneg_zero n f : (forall i, (i < n)%nat -> (0 <= f i)%Qc) -> sum_n n f = 0%Qc -> forall i, (i < n)%nat -> f i = 0%Qc.
Proof.
  induction n as [|n IH]; intros H E i Hi; [lia|]. cbn [sum_n] in E.
  assert (H1 : (0 <= sum_n n f)%Qc) by (rewrite <- (sum_zero n (fun _ => 0%Qc)) by reflexivity; apply sum_mono; intros; apply H; lia). assert (H2 : (0 <= f n)%Qc) by (apply H; lia).
  assert (E1 : sum_n n f = 0%Qc) by (apply Qcle_antisym; [|exact H1]; assert (X : (sum_n n f + f n <= 0)%Qc) by (rewrite E; apply Qcle_refl); qclra).
  destruct (Nat.eq_dec i n) as [->|Ni]; [rewrite E1 in E; rewrite <- E; ring|]. apply IH; [intros; apply H; lia|exact E1|lia].
Qed.
Lemma tiny_pos : (0 < tiny)%Qc.
Proof. reflexivity. Qed.
Lemma weight_nonneg cs p b : (0 <= weight_sum cs p b)%Qc.
Proof. unfold weight_sum. rewrite <- (sum_zero (length cs) (fun _ => 0%Qc)) by reflexivity. apply sum_mono. intros. apply tri_nonneg. Qed.

Lemma mean_between cs x c p b lo hi :
  (forall j q, nth_error cs j = Some q -> (0 < trilinear p b q)%Qc -> (lo <= at2 x j c)%Qc /\ (at2 x j c <= hi)%Qc) ->
  (lo * weight_sum cs p b <= weighted_sum cs x c p b)%Qc /\ (weighted_sum cs x c p b <= hi * weight_sum cs p b)%Qc.
Proof.
  intros H. unfold weight_sum, weighted_sum. rewrite <- !sum_scale.
  assert (Hj : forall j, (j < length cs)%nat -> let w := trilinear p b (nth j cs (0, 0, 0, 0)) in (lo * w <= w * at2 x j c)%Qc /\ (w * at2 x j c <= hi * w)%Qc).
  { intros j Hj w. pose proof (tri_nonneg p b (nth j cs (0, 0, 0, 0))) as Hw. fold w in Hw. destruct (Qclt_le_dec 0 w) as [Hp|Hp].
    - destruct (H j _ (nth_error_nth' cs (0, 0, 0, 0) Hj) Hp) as [H1 H2]. split; rewrite (Qcmult_comm w); apply (Qcmult_le_r _ _ w Hp); assumption.
    - assert (E : w = 0%Qc) by (apply Qcle_antisym; assumption). rewrite E. split; (replace (lo * 0)%Qc with 0%Qc by ring; replace (hi * 0)%Qc with 0%Qc by ring; replace (0 * at2 x j c)%Qc with 0%Qc by ring; apply Qcle_refl). }
  split; apply sum_mono; intros j Hlt; apply Hj; exact Hlt.
Qed.

Lemma linear_zero cs x c p b : (forall q, In q cs -> trilinear p b q = 0%Qc) -> (weighted_sum cs x c p b / (weight_sum cs p b + tiny))%Qc = 0%Qc.
Proof.
  intros H. unfold weighted_sum. rewrite sum_zero; [unfold Qcdiv; ring|]. intros j Hj. rewrite H by (apply nth_In; exact Hj). ring.
Qed.
Lemma linear_mean cs x c p b q0 : In q0 cs -> (0 < trilinear p b q0)%Qc ->
  exists m, (weighted_sum cs x c p b / (weight_sum cs p b + tiny) = m * (weight_sum cs p b / (weight_sum cs p b + tiny)))%Qc /\
    forall lo hi, (forall j q, nth_error cs j = Some q -> (0 < trilinear p b q)%Qc -> (lo <= at2 x j c)%Qc /\ (at2 x j c <= hi)%Qc) -> (lo <= m)%Qc /\ (m <= hi)%Qc.
Proof.
  intros Hin Hpos. set (W := weight_sum cs p b).
  assert (HW : (0 < W)%Qc).
  { pose proof (weight_nonneg cs p b) as H. fold W in H. destruct (Qclt_le_dec 0 W) as [|H']; [assumption|]. exfalso. assert (E : W = 0%Qc) by (apply Qcle_antisym; assumption).
    apply In_nth with (d := (0, 0, 0, 0)) in Hin. destruct Hin as (j & Hj & Ej). pose proof (sum_nonneg_zero (length cs) _ (fun i _ => tri_nonneg p b (nth i cs (0, 0, 0, 0))) E j Hj) as Z0. cbv beta in Z0. rewrite Ej in Z0. rewrite Z0 in Hpos. discriminate. }
  assert (HWn : W <> 0%Qc) by (intros E; rewrite E in HW; discriminate).
  assert (HTn : (W + tiny)%Qc <> 0%Qc). { intros E. pose proof tiny_pos as HT. assert (X : (0 < W + tiny)%Qc) by (clear E; qclra). rewrite E in X. discriminate. }
  exists (weighted_sum cs x c p b / W)%Qc. split; [field; split; assumption|].
  intros lo hi H. destruct (mean_between cs x c p b lo hi H) as [H1 H2]. fold W in H1, H2.
  assert (E : (weighted_sum cs x c p b / W * W)%Qc = weighted_sum cs x c p b) by (field; exact HWn).
  split; apply (Qcmult_le_r _ _ W HW); rewrite E; assumption.
Qed.

Lemma half_split X X' : hat (qz X + Q2Qc (1 # 2))%Qc X' = ind (X' =? X).
Proof.
  rewrite hat_corner. change (Q2Qc (1 # 2)) with half. replace (qz X + half - half)%Qc with (qz X) by ring.
  assert (E : qfloor (qz X) = X) by (apply qfloor_spec; split; [apply Qcle_refl|apply qz_lt; lia]). unfold frq. replace (qz X + half - half)%Qc with (qz X) by ring. rewrite E.
  replace (qz X - qz X)%Qc with 0%Qc by ring. ring.
Qed.
Lemma tri_centre q q' : trilinear (fst (centre 0 q)) (snd (centre 0 q)) q' = ind (cell_eqb q q').
Proof.
  destruct q as [[[x y] z] b], q' as [[[x' y'] z'] b']. unfold centre, trilinear, cell_eqb. cbn [fst snd Z.of_nat]. change (qz (2 ^ 0)) with 1%Qc.
  assert (E : forall a, ((qz a + Q2Qc (1 # 2)) / 1)%Qc = (qz a + Q2Qc (1 # 2))%Qc) by (intros; field; discriminate). rewrite !E, !half_split.
  destruct (x' =? x), (y' =? y), (z' =? z), (b' =? b); cbn [andb ind]; ring.
Qed.
Lemma linear_centre cs x c j q : NoDup cs -> nth_error cs j = Some q ->
  (weighted_sum cs x c (fst (centre 0 q)) (snd (centre 0 q)) / (weight_sum cs (fst (centre 0 q)) (snd (centre 0 q)) + tiny) = at2 x j c / (1 + tiny))%Qc.
Proof.
  intros N Hj. assert (Hl : (j < length cs)%nat) by (apply nth_error_Some; rewrite Hj; discriminate).
  assert (E : forall f, sum_n (length cs) (fun i => trilinear (fst (centre 0 q)) (snd (centre 0 q)) (nth i cs (0, 0, 0, 0)%Z) * f i)%Qc = f j).
  { intros f. rewrite (sum_one _ j); [|exact Hl|].
    - rewrite tri_centre, (nth_of_error _ _ _ _ Hj). destruct (cell_eqb_spec q q); [cbn [ind]; ring|congruence].
    - intros i Hi Hne. rewrite tri_centre. destruct (cell_eqb_spec q (nth i cs (0, 0, 0, 0))) as [Eq|_]; [|cbn [ind]; ring]. exfalso. apply Hne. rewrite NoDup_nth_error in N. apply N; [exact Hi|]. rewrite Hj, Eq. apply nth_error_nth'. exact Hi. }
  unfold weighted_sum, weight_sum. rewrite E. rewrite <- (E (fun _ => 1%Qc)). do 2 f_equal. apply sum_ext. intros. ring.
Qed.

Lemma thm_linear_props o d ne C data pts : wf_octree o -> (d <= depth o)%nat -> shape (node_count o d ne) C data -> Forall batch_in pts ->
  exists cs y, octree_xyzb o d ne = Ok cs /\ octree_linear_pts C data o d pts ne true = Ok y /\ shape (length pts) C y /\
    forall i p b c, nth_error pts i = Some (p, b) -> (c < C)%nat ->
      let W := weight_sum cs p b in
      ((forall q, In q cs -> trilinear p b q = 0%Qc) -> at2 y i c = 0%Qc) /\
      (forall q0, In q0 cs -> (0 < trilinear p b q0)%Qc ->
         exists m, at2 y i c = (m * (W / (W + tiny)))%Qc /\
           forall lo hi, (forall j q, nth_error cs j = Some q -> (0 < trilinear p b q)%Qc -> (lo <= at2 data j c)%Qc /\ (at2 data j c <= hi)%Qc) -> (lo <= m)%Qc /\ (m <= hi)%Qc) /\
      (forall v, (forall j q, nth_error cs j = Some q -> (0 < trilinear p b q)%Qc -> at2 data j c = v) -> at2 y i c = (v * (W / (W + tiny)))%Qc) /\
      (forall j q, nth_error cs j = Some q -> centre 0 q = (p, b) -> at2 y i c = (at2 data j c / (1 + tiny))%Qc).
Proof.
  intros Wf Hd Hx Hb. destruct (thm_linear o d ne C data pts Wf Hd Hx Hb) as (cs & y & Ec & Ey & Hy & H). exists cs, y. split; [exact Ec|]. split; [exact Ey|]. split; [exact Hy|].
  intros i p b c Hi Hc. specialize (H i p b c Hi Hc). cbv zeta. repeat split.
  - intros Hz. rewrite H. apply linear_zero. exact Hz.
  - intros q0 Hq Hp. rewrite H. apply (linear_mean cs data c p b q0 Hq Hp).
  - intros v Hv. rewrite H. assert (E : weighted_sum cs data c p b = (v * weight_sum cs p b)%Qc).
    { destruct (mean_between cs data c p b v v) as [H1 H2]; [|apply Qcle_antisym; assumption]. intros j q Hj Hq. rewrite (Hv j q Hj Hq). split; apply Qcle_refl. }
    rewrite E. unfold Qcdiv. ring.
  - intros j q Hj Hq. rewrite H. pose proof (linear_centre cs data c j q) as L. rewrite Hq in L. apply L; [|exact Hj].
    destruct Wf as [K [M T]]. rewrite (tree_xyzb o (depth o) K M d ne T Hd) in Ec. injection Ec as <-. apply (coords_NoDup o K M T). exact Hd.
Qed.

(** ** C55 *)
Lemma corner_inside d c g : (Q2Qc (1 # 2) <= c)%Qc -> (c <= qz (2 ^ Z.of_nat d) - Q2Qc (1 # 2))%Qc -> (g = 0 \/ g = 1) ->
  cw g (frq c) = 0%Qc \/ in_grid d (qfloor (c - half)%Qc + g).
Proof.
  intros H1 H2 Hg. destruct (proj1 (qfloor_spec (c - half)%Qc _) eq_refl) as [F1 F2]. set (f := qfloor (c - half)%Qc) in *. change (Q2Qc (1 # 2)) with half in *.
  assert (Hf0 : 0 <= f). { assert (X : (qz 0 < qz (f + 1))%Qc) by (eapply Qcle_lt_trans; [|exact F2]; rewrite qz_0; qclra). apply (proj1 (qz_lt _ _)) in X. lia. }
  assert (Hf1 : f <= 2 ^ Z.of_nat d - 1). { assert (X : (qz f <= qz (2 ^ Z.of_nat d - 1))%Qc). { rewrite qz_sub, qz_1. unfold half in *. qclra. } apply (proj1 (qz_le _ _)) in X. lia. }
  destruct Hg as [-> | ->]; [right; unfold in_grid; lia|]. destruct (Z.eq_dec f (2 ^ Z.of_nat d - 1)) as [E|E]; [|right; unfold in_grid; lia].
  left. unfold cw. cbn [Z.eqb]. unfold frq. fold f. rewrite E in F1 |- *. rewrite qz_sub, qz_1 in *. apply Qcle_antisym; unfold half in *; qclra.
Qed.
Lemma interior_corner d p b g : interior d p -> In g corner_grid -> corner_weight p g = 0%Qc \/ in_bound d (fst (cell_pt (corner_of (p, b) g))) = true.
Proof.
  destruct p as [[x y] z], g as [[gx gy] gz]. intros ((X1 & X2) & (Y1 & Y2) & (Z1 & Z2)) Hg.
  assert (Hg' : (gx = 0 \/ gx = 1) /\ (gy = 0 \/ gy = 1) /\ (gz = 0 \/ gz = 1)).
  { change corner_grid with [(0,0,0);(0,0,1);(0,1,0);(0,1,1);(1,0,0);(1,0,1);(1,1,0);(1,1,1)] in Hg. cbn [In] in Hg. repeat (destruct Hg as [[= <- <- <-]|Hg]; [auto|]). destruct Hg. }
  destruct Hg' as (Gx & Gy & Gz). rewrite corner_weight_prod by assumption.
  destruct (corner_inside d x gx X1 X2 Gx) as [->|Ix]; [left; ring|]. destruct (corner_inside d y gy Y1 Y2 Gy) as [->|Iy]; [left; ring|]. destruct (corner_inside d z gz Z1 Z2 Gz) as [->|Iz]; [left; ring|].
  right. apply in_bound_spec. apply cell_pt_range. unfold corner_of, base_of, v3map. split; [exact Ix|split; [exact Iy|exact Iz]].
Qed.
Lemma thm_linear_interior o d ne C data pts : wf_octree o -> (d <= depth o)%nat -> shape (node_count o d ne) C data -> Forall batch_in pts ->
  exists cs y, octree_xyzb o d ne = Ok cs /\ octree_linear_pts C data o d pts ne false = Ok y /\ shape (length pts) C y /\
    forall i p b c, nth_error pts i = Some (p, b) -> interior d p -> (c < C)%nat -> at2 y i c = (weighted_sum cs data c p b / (weight_sum cs p b + tiny))%Qc.
Proof.
  intros W Hd Hx Hb. destruct (linear_rows o d ne C data pts W Hd Hx Hb) as (K & M & es & T & Hf & H). destruct (H false) as (y & Ey & Hy & Hr).
  exists (map (coords d) (sel K M ne d)), y. split; [apply (tree_xyzb o (depth o) K M); assumption|]. split; [exact Ey|]. split; [exact Hy|].
  intros i p b c Hi Hin Hc. assert (Hil : (i < length pts)%nat) by (apply nth_error_Some; rewrite Hi; discriminate). rewrite Hr by assumption.
  specialize (Hf i). rewrite (nth_of_error _ _ _ p0 Hi) in *. pose proof (fun k => Hf k Hil) as Hf'. unfold weighted_sum, weight_sum.
  assert (Es : forall f, corner_sum o d ne false data (p, b) (es i) f = corner_sum o d ne true data (p, b) (es i) f).
  { intros f. unfold corner_sum. apply sum_ext. intros k Hk. cbv zeta. cbn [negb orb]. rewrite andb_true_r. cbn [fst].
    destruct (interior_corner d p b (nth k corner_grid g0) Hin) as [-> | ->]; [apply nth_In; exact Hk| |rewrite andb_true_r; reflexivity].
    destruct (-1 <? es i k); cbn [andb]; [|reflexivity]. destruct (in_bound _ _); ring. }
  rewrite !Es.
  pose proof (corner_sum_cells o K M d ne data (p, b) (es i) (fun j => at2 data j c) T Hd Hf') as E1. pose proof (corner_sum_cells o K M d ne data (p, b) (es i) (fun _ => 1%Qc) T Hd Hf') as E2. cbv zeta beta in E1, E2. cbn [fst snd] in E1, E2. rewrite E1, E2.
  do 2 f_equal. apply sum_ext. intros j Hj. ring.
Qed.

(** ** C56 *)
Lemma thm_interp_tensor linear ne bc C data o d pts out pts' : interp_forward linear ne bc false C data o d pts = Ok (out, pts') -> pts' = pts.
Proof.
  unfold interp_forward. destruct linear; [destruct (octree_linear_pts _ _ _ _ _ _ _)|destruct (octree_nearest_pts _ _ _ _ _ _ _)]; cbn [bind]; intros H; try discriminate; injection H as <- <-; reflexivity.
Qed.
Lemma thm_interp_changes linear ne bc C data o d pts out pts' : (1 <= d)%nat -> pts <> [] -> Forall (fun p : qpoint => (- (1) <= fst (fst (fst p)))%Qc) pts ->
  interp_forward linear ne bc true C data o d pts = Ok (out, pts') -> pts' <> pts.
Proof.
  intros Hd Hn Hr H E.
  assert (Ep : pts' = map (fun '(p, b) => (v3map (fun c => (c + 1) * q2pow (Z.of_nat d - 1))%Qc p, b)) pts).
  { unfold interp_forward in H. destruct linear; [destruct (octree_linear_pts _ _ _ _ _ _ _)|destruct (octree_nearest_pts _ _ _ _ _ _ _)]; cbn [bind] in H; try discriminate; injection H as _ H; symmetry; exact H. }
  destruct pts as [|[[[x y] z] b] pts]; [congruence|]. rewrite E in Ep. cbn [map v3map] in Ep. injection Ep as Ex _ _ _. apply Forall_inv in Hr. cbn [fst] in Hr.
  assert (HP : (1 <= q2pow (Z.of_nat d - 1))%Qc).
  { rewrite q2pow_nonneg by lia. rewrite <- qz_1. apply qz_le. assert (0 < 2 ^ (Z.of_nat d - 1)) by (apply Z.pow_pos_nonneg; lia). lia. }
  assert (X : (0 <= (x + 1) * (q2pow (Z.of_nat d - 1) - 1))%Qc) by (apply Qcmult_nonneg; qclra).
  assert (E2 : ((x + 1) * (q2pow (Z.of_nat d - 1) - 1))%Qc = ((x + 1) * q2pow (Z.of_nat d - 1) - (x + 1))%Qc) by ring. rewrite E2, <- Ex in X. qclra.
Qed.
Lemma thm_interp_calls calls : forall pts k out, nth_error (interp_calls false calls pts) k = Some (Ok out) ->
  exists c, nth_error calls k = Some c /\ icall_run false c pts = Ok (out, pts).
Proof.
  induction calls as [|c calls IH]; intros pts k out H; [destruct k; discriminate|]. cbn [interp_calls] in H.
  destruct (icall_run false c pts) as [[o1 pts']|e] eqn:E; [|destruct k as [|[|k]]; discriminate].
  assert (pts' = pts) by (destruct c as [[[[[[l ne] bc] C] data] o] d]; exact (thm_interp_tensor _ _ _ _ _ _ _ _ _ _ E)). subst pts'.
  destruct k as [|k]; cbn [nth_error] in *.
  - apply some_inj in H. injection H as <-. exists c. split; [reflexivity|exact E].
  - apply IH. exact H.
Qed.
