(** Samples of a batch in another order: the networks. *)
From Coq Require Import String List ZArith Bool QArith Qcanon Permutation Arith Lia.
From Verif Require Import Res Tensor Key Num NumFacts Points Octree NnBasic NnConv NnInterp Features Net Spec SpecGeo SpecBuild SpecNeigh SpecMerge SpecNN SpecNet SpecBatch SpecMove SpecMoveSeg SpecShuffle
  WF ListFacts MoveNet MoveBuild MoveSegThms MoveHrThms ShuffleFacts ShuffleMerge.
Import ListNotations.
Open Scope Z_scope.

Section Nets.
  Variables (sigma : nat -> nat) (o0 o0' : octree) (os os' : list octree) (om om' : octree) (ms ms' : list octree).
  Hypothesis Hm : mergeable o0 os.
  Hypothesis Hm' : mergeable o0' os'.
  Hypothesis Hf : (1 <= full_depth o0)%nat.
  Hypothesis HS : permutes sigma (length os).
  Hypothesis HR : reordered sigma os os'.
  Hypothesis HB : batched os om ms.
  Hypothesis HB' : batched os' om' ms'.
  Notation n := (length os).
  Notation renum := (renumber sigma n).
  Notation zero := (fun _ : Z => (0, 0, 0)).
  Let Hlike := first_like sigma o0 o0' om' os os' ms' Hm Hm' HS HR HB'.
  Let Hmoved : moved 0 (shift_to renum 0 zero) om om' := shuffle_moved sigma o0 o0' om om' os os' ms ms' Hm Hm' Hf HS HR HB HB'.
  Lemma facts : wf_octree om /\ wf_octree om' /\ depth om = depth o0 /\ batch_size om = n /\
    (forall d, (1 <= d <= depth o0)%nat -> has_neigh om d) /\ (forall d, (1 <= d <= depth o0)%nat -> has_neigh om' d).
  Proof.
    destruct Hlike as (D0 & F0). destruct (batch_data o0 os om ms Hm Hf HB) as (W & D & B & _ & N & _). destruct (batch_data o0' os' om' ms' Hm' ltac:(lia) HB') as (W' & D' & B' & _ & N' & _).
    do 5 (split; [assumption|]). intros d Hd. apply N'. lia.
  Qed.
  Lemma ready ne k d0 d1 : (1 <= d0)%nat -> (d1 <= depth o0)%nat -> (forall d, (d0 <= d <= d1)%nat -> (k <= node_count om d ne)%nat) ->
    layers_ready om ne k d0 d1 /\ layers_ready om' ne 0 d0 d1.
  Proof.
    intros H1 H2 HK. destruct facts as (_ & _ & _ & _ & N & N'). split; intros d Hd; (split; [|auto with arith]); [apply N|apply N']; lia.
  Qed.

  Theorem thm_shuffle_resnet P P' cin cout num stages dep ne k xs xs' : fair_norms k P -> same_but_order sigma n P P' ->
    (stages <= dep <= depth o0)%nat -> (lowest ne 0 <= dep - stages)%nat -> (1 <= stages)%nat -> (1 <= num)%nat -> channel_ok cin ->
    (k <= n)%nat -> (forall d, (dep - stages < d <= dep)%nat -> (k <= node_count om d ne)%nat) ->
    Forall (fun oi => poolable oi ne (dep - stages) dep) ms -> Forall2 (fun oi x => shape (node_count oi dep ne) cin x) ms xs -> reordered sigma xs xs' ->
    exists y y', ResNet P cin cout num stages ne (concat xs) om (Z.of_nat dep) = Ok y /\ ResNet P' cin cout num stages ne (concat xs') om' (Z.of_nat dep) = Ok y' /\
      reordered sigma y y'.
  Proof.
    intros HP (S1 & S2 & S3 & S4) Hd Hlo Hst Hnum Hc Hk HK HPo HX RX. destruct facts as (W & W' & D & B & _ & _).
    destruct (input_rows sigma o0 o0' om om' os os' ms ms' Hm Hm' Hf HS HR HB HB' dep ne cin xs xs' ltac:(lia) HX RX) as (X1 & X2 & X3).
    destruct (ready ne k (dep - stages + 1) dep ltac:(lia) ltac:(lia)) as (R1 & R2); [intros d Hd'; apply HK; lia|].
    apply (thm_fair_resnet_to renum sigma 0 (shift_to renum 0 zero) (fun v => v) om om' ne k P P' cin cout num stages dep (concat xs) (concat xs')); try assumption; try lia.
    - apply thm_shift_to; [apply renumber_inj|apply renumber_onto]; exact HS.
    - rewrite B. exact HS.
    - intros i Hi. apply renumber_in. lia.
    - apply renumber_inj. exact HS.
    - constructor; auto. intros p _ k' v Hv. exists k'. auto.
    - intros p i c Hi. apply S4. lia.
    - apply (batch_poolable o0 os om ms); try assumption. lia.
  Qed.
  Theorem thm_shuffle_hrnet P cin cout num stages dep ne k xs xs' : fair_norms k P ->
    (stages + 2 <= dep <= depth o0)%nat -> (1 <= stages <= 4)%nat -> channel_ok cin ->
    (forall d, (2 <= d <= dep)%nat -> (k <= node_count om d ne)%nat) ->
    Forall (fun oi => poolable oi ne 2 dep) ms -> Forall2 (fun oi x => shape (node_count oi dep ne) cin x) ms xs -> reordered sigma xs xs' ->
    exists y y', HRNet P cin cout stages num ne (concat xs) om (Z.of_nat dep) = Ok y /\ HRNet P cin cout stages num ne (concat xs') om' (Z.of_nat dep) = Ok y' /\
      reordered sigma y y'.
  Proof.
    intros HP Hd Hst Hc HK HPo HX RX. destruct facts as (W & W' & D & B & _ & _).
    destruct (input_rows sigma o0 o0' om om' os os' ms ms' Hm Hm' Hf HS HR HB HB' dep ne cin xs xs' ltac:(lia) HX RX) as (X1 & X2 & X3).
    destruct (ready ne k 2 dep ltac:(lia) ltac:(lia) HK) as (R1 & R2).
    apply (thm_fair_hrnet_to renum sigma 0 zero om om' ne k P cin cout num stages dep (concat xs) (concat xs')); try assumption; try lia.
    - apply renumber_inj. exact HS.
    - apply renumber_onto. exact HS.
    - rewrite B. exact HS.
    - intros i Hi. apply renumber_in. lia.
    - destruct ne; cbn; lia.
    - apply (batch_poolable o0 os om ms); try assumption. lia.
  Qed.

  Lemma move_coord_0 c : move_coord 0 0 c = c.
  Proof. unfold move_coord. change (qz (2 * 0) / qz (2 ^ Z.of_nat 0))%Qc with (qz 0 / qz 1)%Qc. assert (E : (qz 0 / qz 1 = 0)%Qc) by (apply Qc_is_canon; reflexivity). rewrite E. ring. Qed.
  Lemma asked lin d (ptss ptss' : list (list qpoint)) : length ptss = n -> reordered sigma ptss ptss' -> Forall (Forall (askable lin d)) ptss ->
    let tau := rows_to sigma (map (@length _) ptss) (map (@length _) ptss') in
    permutes tau (length (join_points ptss)) /\ reordered tau (moved_points_to renum 0 zero (join_points ptss)) (join_points ptss') /\
    Forall (askable lin d) (join_points ptss) /\ Forall (askable lin d) (join_points ptss') /\ length (join_points ptss) = list_sum (map (@length _) ptss) /\ length (join_points ptss') = list_sum (map (@length _) ptss').
  Proof.
    intros L R HA tau. assert (HS' : permutes sigma (length ptss)) by (rewrite L; exact HS).
    assert (JL : forall ps : list (list qpoint), length (join_points ps) = list_sum (map (@length _) ps)).
    { intros ps. unfold join_points. rewrite concat_length. f_equal. apply (indexed_lengths (fun (i : Z) '(p, _) => (p, i)) ps 0). }
    assert (Hn : Z.of_nat n <= 32768) by apply Hm.
    assert (A : forall ps : list (list qpoint), length ps = n -> Forall (Forall (askable lin d)) ps -> Forall (askable lin d) (join_points ps)).
    { intros ps Lp Hp. apply Forall_forall. intros [p b] Hin. unfold join_points in Hin. apply in_concat in Hin. destruct Hin as (l & Hl & Hin). apply in_map_iff in Hl. destruct Hl as ([i pts] & <- & Hi).
      apply in_map_iff in Hin. destruct Hin as ([p0 b0] & E & Hin). apply pair_equal_spec in E. destruct E as [-> ->]. apply In_nth_error in Hi. destruct Hi as (j & Hj). rewrite nth_indexed in Hj.
      match type of Hj with option_map _ ?t = _ => destruct t as [pts0|] eqn:Ej end; [|discriminate Hj]. cbn [option_map] in Hj. injection Hj as <- <-.
      rewrite Forall_forall in Hp. pose proof (Hp _ (nth_error_In _ _ Ej)) as Q. rewrite Forall_forall in Q. destruct (Q _ Hin) as (_ & Q'). assert (j < length ps)%nat by (apply nth_error_Some; intros EN; pose proof (eq_trans (eq_sym Ej) EN) as EE; discriminate EE). split; [cbn [snd]; lia|exact Q']. }
    split; [rewrite JL; apply rows_permute; [rewrite map_length; exact HS'|apply reordered_map; exact R]|].
    split.
    - apply (join_with_to (fun (i : Z) '(p, _) => (p, i)) (fun '(p, b) => (move_point 0 (0, 0, 0) p, renum b)) sigma ptss ptss' HS' R).
      intros b [[[x y] z] b0] Hb. assert (Hb1 : (b < n)%nat) by exact (eq_rect _ (fun m => (b < m)%nat) Hb _ L). cbn [move_point]. rewrite !move_coord_0, renumber_in by exact Hb1. reflexivity.
    - split; [apply A; assumption|]. split; [|split; apply JL]. apply A; [rewrite (proj1 R); exact L|]. eapply Permutation_Forall; [apply (reordered_perm sigma _ _ HS' R)|exact HA].
  Qed.
  Lemma by_sample (ptss ptss' : list (list qpoint)) cout (y y' : feat) : length ptss = n -> reordered sigma ptss ptss' ->
    shape (list_sum (map (@length _) ptss)) cout y -> reordered (rows_to sigma (map (@length _) ptss) (map (@length _) ptss')) y y' ->
    exists ys ys', y = concat ys /\ y' = concat ys' /\ Forall2 (fun pts z => shape (length pts) cout z) ptss ys /\ reordered sigma ys ys'.
  Proof.
    intros L R [Ly Wy] RY. assert (HS' : permutes sigma (length (map (@length qpoint) ptss))) by (rewrite map_length, L; exact HS). pose proof (reordered_map sigma (@length qpoint) _ _ R) as Rn.
    assert (Ly' : length y' = list_sum (map (@length qpoint) ptss')).
    { rewrite (proj1 RY), Ly. symmetry. apply sum_perm. apply (reordered_perm sigma _ _ HS' Rn). }
    exists (blocks (map (@length _) ptss) y), (blocks (map (@length _) ptss') y').
    split; [symmetry; apply blocks_concat; exact Ly|]. split; [symmetry; apply blocks_concat; exact Ly'|]. split; [|apply reordered_blocks; assumption].
    clear -Ly Wy. revert y Ly Wy. induction ptss as [|p ps IH]; intros y Ly Wy; cbn [map blocks]; constructor.
    - change (list_sum (map (@length _) (p :: ps))) with (length p + list_sum (map (@length _) ps))%nat in Ly. split; [rewrite firstn_length; lia|]. rewrite <- (firstn_skipn (length p) y) in Wy. apply Forall_app in Wy. apply Wy.
    - change (list_sum (map (@length _) (p :: ps))) with (length p + list_sum (map (@length _) ps))%nat in Ly. apply IH; [rewrite skipn_length; lia|]. rewrite <- (firstn_skipn (length p) y) in Wy. apply Forall_app in Wy. apply Wy.
  Qed.
  Theorem thm_shuffle_unet g P cin cout lin dep ne k xs xs' ptss ptss' : unet_config g -> fair_norms k P ->
    (length (u_enc_blk g) < dep <= depth o0)%nat -> (lowest ne 0 <= dep - length (u_enc_blk g))%nat -> channel_ok cin ->
    (k <= length (concat ptss))%nat -> (forall d, (dep - length (u_enc_blk g) <= d <= dep)%nat -> (k <= node_count om d ne)%nat) ->
    Forall2 (fun oi x => shape (node_count oi dep ne) cin x) ms xs -> reordered sigma xs xs' ->
    length ptss = n -> reordered sigma ptss ptss' -> Forall (Forall (askable lin (dep - length (u_enc_blk g) + length (u_dec_blk g)))) ptss ->
    exists ys q ys' q', UNet g P cin cout lin ne (concat xs) om (Z.of_nat dep) (join_points ptss) = Ok (concat ys, q) /\
      UNet g P cin cout lin ne (concat xs') om' (Z.of_nat dep) (join_points ptss') = Ok (concat ys', q') /\
      Forall2 (fun pts z => shape (length pts) cout z) ptss ys /\ reordered sigma ys ys'.
  Proof.
    intros Hg HP Hd Hlo Hc Hk HK HX RX L RP HA. destruct facts as (W & W' & D & B & _ & _).
    destruct (input_rows sigma o0 o0' om om' os os' ms ms' Hm Hm' Hf HS HR HB HB' dep ne cin xs xs' ltac:(lia) HX RX) as (X1 & X2 & X3).
    destruct (ready ne k (dep - length (u_enc_blk g)) dep ltac:(lia) ltac:(lia) HK) as (R1 & R2).
    destruct (asked lin _ ptss ptss' L RP HA) as (T1 & T2 & T3 & T4 & T5 & T6). assert (HK2 : (k <= length (join_points ptss))%nat) by (rewrite T5, <- concat_length; exact Hk).
    destruct (thm_fair_unet_to renum 0 zero _ om om' ne k g P cin cout lin dep (concat xs) (concat xs') (join_points ptss) (join_points ptss')
      (renumber_inj sigma n HS) (renumber_onto sigma n HS) Hmoved W W' Hg HP ltac:(lia) Hlo Hc HK2 R1 R2 X1 X2 X3 T1 T2 T3 T4) as (y & q & y' & q' & E1 & E2 & Sy & RY).
    assert (Sy1 : shape (list_sum (map (@length _) ptss)) cout y) by exact (eq_rect _ (fun m => shape m cout y) Sy _ T5). destruct (by_sample ptss ptss' cout y y' L RP Sy1 RY) as (ys & ys' & -> & -> & F & Ry). exists ys, q, ys', q'. auto.
  Qed.
  Theorem thm_shuffle_segnet P cin cout stages lin dep k xs xs' ptss ptss' : fair_norms k P ->
    (stages < dep <= depth o0)%nat -> (1 <= stages)%nat -> channel_ok cin ->
    (k <= length (concat ptss))%nat -> (forall d, (dep - stages <= d <= dep)%nat -> (k <= node_count om d false)%nat) ->
    Forall2 (fun oi x => shape (node_count oi dep false) cin x) ms xs -> reordered sigma xs xs' ->
    length ptss = n -> reordered sigma ptss ptss' -> Forall (Forall (askable lin dep)) ptss ->
    exists ys q ys' q', SegNet P cin cout stages lin false (concat xs) om (Z.of_nat dep) (join_points ptss) = Ok (concat ys, q) /\
      SegNet P cin cout stages lin false (concat xs') om' (Z.of_nat dep) (join_points ptss') = Ok (concat ys', q') /\
      Forall2 (fun pts z => shape (length pts) cout z) ptss ys /\ reordered sigma ys ys'.
  Proof.
    intros HP Hd Hst Hc Hk HK HX RX L RP HA. destruct facts as (W & W' & D & B & _ & _).
    destruct (input_rows sigma o0 o0' om om' os os' ms ms' Hm Hm' Hf HS HR HB HB' dep false cin xs xs' ltac:(lia) HX RX) as (X1 & X2 & X3).
    destruct (ready false k (dep - stages) dep ltac:(lia) ltac:(lia) HK) as (R1 & R2).
    destruct (asked lin _ ptss ptss' L RP HA) as (T1 & T2 & T3 & T4 & T5 & T6). assert (HK2 : (k <= length (join_points ptss))%nat) by (rewrite T5, <- concat_length; exact Hk).
    destruct (thm_fair_segnet_to renum 0 zero _ om om' k P cin cout stages lin dep (concat xs) (concat xs') (join_points ptss) (join_points ptss')
      (renumber_inj sigma n HS) (renumber_onto sigma n HS) Hmoved W W' HP ltac:(lia) Hst ltac:(lia) Hc HK2 R1 R2 X1 X2 X3 T1 T2 T3 T4) as (y & q & y' & q' & E1 & E2 & Sy & RY).
    assert (Sy1 : shape (list_sum (map (@length _) ptss)) cout y) by exact (eq_rect _ (fun m => shape m cout y) Sy _ T5). destruct (by_sample ptss ptss' cout y y' L RP Sy1 RY) as (ys & ys' & -> & -> & F & Ry). exists ys, q, ys', q'. auto.
  Qed.
End Nets.
