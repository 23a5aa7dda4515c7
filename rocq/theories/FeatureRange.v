(** Range of the local and global coordinates of a freshly built octree. *)
From Coq Require Import String Ascii List ZArith Bool QArith Qcanon Lia Lqa.
From Verif Require Import Res Tensor Key Num Points Octree NnBasic NnConv Spec SpecGeo SpecBuild SpecNN WF
  ListFacts NumFacts SumFacts PadFacts WFFacts BuildThms Features SpecFeature FeatureFacts.
Import ListNotations.
Open Scope Z_scope.

Lemma local_range c : (- Q2Qc (1 # 2) <= local_coord c)%Qc /\ (local_coord c < Q2Qc (1 # 2))%Qc.
Proof.
  destruct (proj1 (qfloor_spec c (qfloor c)) eq_refl) as [H1 H2]. rewrite qz_add, qz_1 in H2.
  assert (E : (Q2Qc (1 # 2) + Q2Qc (1 # 2) = 1)%Qc) by (apply Qc_is_canon; reflexivity).
  unfold local_coord. generalize dependent (qz (qfloor c)). intros f H1 H2. generalize dependent (Q2Qc (1 # 2)). intros h E. rewrite <- E in H2. clear E.
  split; qclra.
Qed.
Lemma global_range d c : 0 <= qfloor c < 2 ^ Z.of_nat d -> (qz (-1) <= global_coord d c)%Qc /\ (global_coord d c < qz 1)%Qc.
Proof.
  intros [H1 H2]. destruct (proj1 (qfloor_spec c (qfloor c)) eq_refl) as [H3 H4].
  assert (P : (0 < qz (2 ^ Z.of_nat d))%Qc).
  { change 0%Qc with (qz 0). apply qz_lt. apply Z.pow_pos_nonneg; lia. }
  assert (L : (qz (qfloor c + 1) <= qz (2 ^ Z.of_nat d))%Qc) by (apply qz_le; lia).
  assert (L0 : (qz 0 <= qz (qfloor c))%Qc) by (apply qz_le; lia).
  change (qz 0) with 0%Qc in L0. unfold global_coord. set (T := qz (2 ^ Z.of_nat d)) in *.
  assert (C0 : (0 <= c)%Qc) by (eapply Qcle_trans; eassumption).
  assert (C1 : (c < T)%Qc) by (eapply Qclt_le_trans; eassumption).
  assert (Tn : T <> 0%Qc) by (intros E; rewrite E in P; exact (Qclt_not_eq _ _ P eq_refl)).
  assert (I : (0 < / T)%Qc).
  { destruct (Qclt_le_dec 0 (/ T)) as [HI|HI]; [exact HI|]. exfalso.
    assert (Hx : (T * / T <= T * 0)%Qc) by (rewrite !(Qcmult_comm T); apply Qcmult_le_compat_r; [exact HI|apply Qclt_le_weak; exact P]).
    rewrite Qcmult_inv_r, Qcmult_0_r in Hx by exact Tn. apply Qcle_not_lt in Hx. apply Hx. reflexivity. }
  change (qz 2) with (1 + 1)%Qc. change (qz 1) with 1%Qc. change (qz (-1)) with (- (1))%Qc.
  replace (c * (1 + 1) / T)%Qc with (c * / T + c * / T)%Qc by (field; exact Tn).
  assert (Q0 : (0 <= c * / T)%Qc).
  { pose proof (Qcmult_le_compat_r _ _ _ C0 (Qclt_le_weak _ _ I)) as Hx. rewrite Qcmult_0_l in Hx. exact Hx. }
  assert (Q1 : (c * / T < 1)%Qc).
  { pose proof (Qcmult_lt_compat_r _ _ _ I C1) as Hx. rewrite Qcmult_inv_r in Hx by exact Tn. exact Hx. }
  generalize dependent (c * / T)%Qc. intros q Q0 Q1. split; qclra.
Qed.
Lemma in_v3list {A B} (f : A -> B) (p : v3 A) (P : B -> Prop) :
  (let '(x, y, z) := p in P (f x) /\ P (f y) /\ P (f z)) -> Forall P (v3list (v3map f p)).
Proof. destruct p as [[x y] z]. intros (H1 & H2 & H3). cbn [v3map v3list]. repeat constructor; assumption. Qed.

Theorem thm_local_global : forall normalize o pc, build_input o pc -> Forall in_box (p_points pc) ->
  exists o' idx xl xp, build_octree normalize o pc = Ok (o', idx) /\
    get_input_feature 0 o' "L" true = Ok xl /\ get_input_feature 0 o' "P" true = Ok xp /\
    shape (node_count o' (depth o) true) 3 xl /\ shape (node_count o' (depth o) true) 3 xp /\
    Forall (Forall (fun c => (- Q2Qc (1 # 2) <= c)%Qc /\ (c < Q2Qc (1 # 2))%Qc)) xl /\
    Forall (Forall (fun c => (qz (-1) <= c)%Qc /\ (c < qz 1)%Qc)) xp.
Proof.
  intros nz o pc Hb Hin.
  destruct (thm_build_wf nz o pc Hb) as (o' & idx & E & W & Ed & _).
  destruct (thm_signals nz o pc Hb) as (o1 & i1 & l & E1 & Hl & (pts & Hp & Hlen & _) & _).
  destruct (thm_mean_cell nz o pc Hb Hin) as (o2 & i2 & l2 & pts2 & cs & E2 & Hl2 & Hp2 & Hc & Hlc & Hcell).
  rewrite E in E1, E2. assert (I1 : o1 = o' /\ o2 = o') by (split; congruence). destruct I1 as [-> ->]. clear E1 E2.
  rewrite Hl in Hl2. assert (I2 : l2 = l) by congruence. subst l2. rewrite Hp in Hp2. assert (I3 : pts2 = pts) by congruence. subst pts2.
  assert (Hn : node_count o' (depth o') true = length pts).
  { unfold node_count. unfold get_layer in Hl. rewrite Ed.
    assert (Enth : nth_error (layers o') (depth o) = Some l).
    { destruct W as (KK & MM & TT). destruct (tree_get _ _ _ _ TT (depth o)) as (l' & G1 & G2 & _); [lia|]. unfold get_layer in G1. congruence. }
    rewrite Enth. lia. }
  assert (Hfl : Forall (fun p : v3 Qc => let '(x, y, z) := p in 0 <= qfloor x < 2 ^ Z.of_nat (depth o) /\ 0 <= qfloor y < 2 ^ Z.of_nat (depth o) /\ 0 <= qfloor z < 2 ^ Z.of_nat (depth o)) pts).
  { apply Forall_forall. intros [[x y] z] Hi. apply In_nth_error in Hi. destruct Hi as [e He].
    destruct (nth_error cs e) as [[[[a b] c] bb]|] eqn:Ec.
    - destruct (Hcell _ _ _ _ _ _ _ _ He Ec) as (-> & -> & -> & (G1 & G2 & G3)). unfold in_grid in *. auto.
    - apply nth_error_None in Ec. assert (e < length pts)%nat by (apply nth_error_Some; congruence). lia. }
  assert (Hpos : Forall nonneg3 pts).
  { eapply Forall_impl; [|exact Hfl]. intros [[x y] z] (G1 & G2 & G3). unfold nonneg3.
    assert (K : forall c, 0 <= qfloor c -> (0 <= c)%Qc).
    { intros c Hcc. destruct (proj1 (qfloor_spec c (qfloor c)) eq_refl) as [H3 _].
      eapply Qcle_trans; [|exact H3]. change 0%Qc with (qz 0). apply qz_le. exact Hcc. }
    split; [|split]; apply K; lia. }
  rewrite <- Ed in Hl, Hfl.
  assert (G : forall s, asks s "N" "n" || asks s "D" "d" || asks s "F" "f" = false -> asks s "L" "l" || asks s "P" "p" = true ->
     get_input_feature 0 o' s true = Ok (map (row o' s pts pts (map (fun _ => []) pts)) (seq 0 (length pts))) /\
     shape (length pts) (channels s 0) (map (row o' s pts pts (map (fun _ => []) pts)) (seq 0 (length pts)))).
  { intros s HA HB. apply orb_false_iff in HA. destruct HA as [HA H3]. apply orb_false_iff in HA. destruct HA as [H1 H2].
    assert (SF : shape (length pts) 0 (map (fun _ : v3 Qc => @nil Qc) pts)).
    { split; [apply map_length|]. apply Forall_forall. intros r Hr. apply in_map_iff in Hr. destruct Hr as (q & <- & _). reflexivity. }
    split.
    - rewrite (gif_layout 0 (length pts) o' s l pts pts (map (fun _ => []) pts) Hl eq_refl eq_refl SF Hpos).
      + reflexivity.
      + rewrite H1, H2. discriminate.
      + intros _. exact Hp.
      + rewrite H3. discriminate.
      + rewrite H1, H2, H3. cbn [orb]. rewrite HB. reflexivity.
    - apply (row_shape 0 (length pts) o' s l pts pts _); try assumption; try reflexivity; [rewrite H1, H2; discriminate|intros _; exact Hp|rewrite H3; discriminate]. }
  destruct (G "L"%string eq_refl eq_refl) as [GL SL]. destruct (G "P"%string eq_refl eq_refl) as [GP SP].
  do 4 eexists. split; [exact E|]. split; [exact GL|]. split; [exact GP|]. rewrite <- Ed, Hn.
  split; [exact SL|]. split; [exact SP|]. split; apply Forall_forall; intros r Hr; apply in_map_iff in Hr; destruct Hr as (i & <- & Hi); apply in_seq in Hi;
  pose proof (proj1 (Forall_forall _ _) Hfl (nth i pts v3zero) (nth_In _ _ (proj2 Hi))) as Hx; destruct (nth i pts v3zero) as [[x y] z] eqn:En.
  - unfold row. rewrite En. replace (feature_row "L" (depth o') (x, y, z) (x, y, z) _) with (v3list (v3map local_coord (x, y, z))) by reflexivity.
    apply in_v3list. split; [|split]; apply local_range.
  - unfold row. rewrite En. replace (feature_row "P" (depth o') (x, y, z) (x, y, z) _) with (v3list (v3map (global_coord (depth o')) (x, y, z))) by reflexivity.
    destruct Hx as (G1 & G2 & G3). apply in_v3list. split; [|split]; apply global_range; assumption.
Qed.
