(** How far UNet looks: scenes that differ only far from the query point. *)
From Coq Require Import Ascii String List ZArith Bool QArith Qcanon Lia.
From Verif Require Import Res Tensor Key Num NumFacts Points Octree NnBasic NnConv NnInterp Features Net Spec SpecGeo SpecBuild SpecNeigh SpecNN SpecInterp SpecNet SpecFeature SpecBatch SpecSolver SpecMove SpecMoveSeg SpecStructure SpecLocal
  WF ListFacts NeighThms BuildClosed BuildThms BuildProps NetBuilt MoveFacts MoveNet MoveBuild MoveThms MoveSeg MoveInterp MoveUnet StructureFacts LocalFacts LocalUnet LocalThms.
Import ListNotations.
Open Scope Z_scope.

Lemma pick_both {A B} (R : A -> B -> Prop) : forall keep (l : list A) (l' : list B), Forall2 R l l' -> Forall2 R (pick keep l) (pick keep l').
Proof. induction keep as [|[|] keep IH]; intros l l' H; [constructor| |]; destruct H; cbn [pick]; try constructor; auto. Qed.
Lemma rows_pick {A P} (near inq : P -> Prop) k : (forall p, inq p -> near p) -> forall (loc : list P) keep tags (src : list A), Forall2 (fun b p => b = true <-> near p) keep loc ->
  Forall2 (fun t p => t = k <-> inq p) tags loc -> length src = length loc -> rows_at (pick keep tags) k (pick keep src) = rows_at tags k src.
Proof.
  intros Hn. unfold rows_at. induction loc as [|p loc IH]; intros keep tags src HK HT L; inversion HK as [|b ? keep0 ? Hb HK0]; subst; inversion HT as [|t ? tags0 ? Ht HT0]; subst; destruct src as [|a src]; try discriminate L; [reflexivity|].
  assert (L0 : length src = length loc) by (cbn in L; lia). specialize (IH keep0 tags0 src HK0 HT0 L0). cbn [combine filter fst].
  destruct b; cbn [pick]; [cbn [combine filter fst]; destruct (t =? k); cbn [map snd]; congruence|].
  destruct (Z.eqb_spec t k) as [E|N]; [|exact IH]. exfalso. assert (false = true) by (apply Hb, Hn, Ht, E). discriminate.
Qed.
Lemma rows_tags {A P} (inq : P -> Prop) k k' : forall (loc : list P) tags tags' (src : list A), Forall2 (fun t p => t = k <-> inq p) tags loc -> Forall2 (fun t p => t = k' <-> inq p) tags' loc ->
  rows_at tags k src = rows_at tags' k' src.
Proof.
  unfold rows_at. induction loc as [|p loc IH]; intros tags tags' src HT HT'; inversion HT as [|t ? tags0 ? Ht HT0]; subst; inversion HT' as [|t' ? tags0' ? Ht' HT0']; subst; [reflexivity|].
  destruct src as [|a src]; [reflexivity|]. cbn [combine filter fst]. specialize (IH tags0 tags0' src HT0 HT0').
  destruct (Z.eqb_spec t k) as [E|N], (Z.eqb_spec t' k') as [E'|N']; cbn [map snd]; [congruence| | |exact IH]; exfalso; tauto.
Qed.
Lemma forall2_of {A B} (R : A -> B -> Prop) : forall l l', length l = length l' -> (forall i a b, nth_error l i = Some a -> nth_error l' i = Some b -> R a b) -> Forall2 R l l'.
Proof.
  induction l as [|a l IH]; intros [|b l'] L H; try discriminate; constructor; [apply (H O); reflexivity|]. apply IH; [cbn in L; lia|]. intros i. apply (H (S i)).
Qed.
Lemma located_fst pc : length (point_batches pc) = length (p_points pc) -> map fst (located pc) = p_points pc /\ length (located pc) = length (p_points pc).
Proof.
  unfold located. generalize (p_points pc) as l, (point_batches pc) as l'. induction l as [|p l IH]; intros [|b l'] H; try discriminate; [auto|]. destruct (IH l' ltac:(cbn in H; lia)) as [A B]. cbn. split; congruence.
Qed.
Lemma located_nth pc i pb : nth_error (located pc) i = Some pb -> nth_error (p_points pc) i = Some (fst pb) /\ nth_error (point_batches pc) i = Some (snd pb).
Proof.
  unfold located. revert i. generalize (p_points pc) as l, (point_batches pc) as l'. induction l as [|p l IH]; intros [|b l'] [|i] H; try discriminate; cbn in *; [injection H as <-; auto|auto].
Qed.

Section Scene.
  Variables (normalize : v3 Qc -> v3 Qc) (o : octree) (pc pc' : pcloud Qc) (c : cell) (r : Z).
  Hypothesis HB : build_input o pc.
  Hypothesis HB' : build_input o pc'.
  Hypothesis HI : Forall in_box (p_points pc).
  Hypothesis HI' : Forall in_box (p_points pc').
  Hypothesis HS : same_part (near_point (depth o) c r) pc pc'.
  Let dep := depth o.

  Lemma part_points q : within dep c r dep q -> (has_point pc dep q <-> has_point pc' dep q).
  Proof.
    destruct HS as (k & k' & K & K' & E & _). destruct q as [[[x y] z] b]. intros Hq.
    assert (G : forall k k' l l', Forall2 (fun b p => b = true <-> near_point (depth o) c r p) k l -> pick k l = pick k' l' -> forall p, In (p, b) l -> in_cell dep x y z p -> In (p, b) l').
    { intros k1 k2 l l' F E1 p Hin Hc. assert (In (p, b) (pick k1 l)).
      - clear E1. revert Hin. induction F as [|u v k1 l H F IH]; [intros []|]. intros [->|Hin]; [|destruct u; cbn [pick]; [right|]; auto]. replace u with true; [left; reflexivity|]. symmetry. apply H. exists x, y, z. auto.
      - rewrite E1 in H. clear -H. rewrite pick_select in H. apply in_select in H. destruct H as (i & _ & H). eapply nth_error_In, H. }
    cbn [has_point]. split; intros (p & Hp & Hc); exists p; (split; [|exact Hc]); [apply (G k k' _ _ K E p Hp Hc)|apply (G k' k _ _ K' (eq_sym E) p Hp Hc)].
  Qed.
  Lemma point_tags pc0 o1 idx cs i q : build_input o pc0 -> Forall in_box (p_points pc0) -> build_octree normalize o pc0 = Ok (o1, idx) -> octree_xyzb o1 dep true = Ok cs -> nth_error cs i = Some q ->
    Forall2 (fun t (pb : v3 Qc * Z) => t = Z.of_nat i <-> snd pb = sample_of q /\ let '(x, y, z, _) := q in in_cell dep x y z (fst pb)) idx (located pc0).
  Proof.
    intros HB0 HI0 E Ec Hi. destruct (thm_point_map normalize o pc0 HB0 HI0) as (a1 & a2 & cs1 & F & Fc & Ln & M). fold dep in Fc, M. assert (a1 = o1 /\ a2 = idx) as [-> ->] by (split; congruence). assert (cs1 = cs) by congruence. subst cs1.
    destruct (thm_occupied normalize o pc0 dep HB0 HI0 ltac:(pose proof (bi_full _ _ HB0); unfold dep; lia)) as (a1 & a2 & _ & cs1 & G & _ & _ & Gc & _ & ND & _). assert (a1 = o1) by congruence. subst a1. assert (cs1 = cs) by congruence. subst cs1.
    pose proof (proj1 (point_batches_ok _ _ (bi_cloud _ _ HB0))) as Lb. destruct (located_fst pc0 Lb) as [_ Ll].
    apply forall2_of; [congruence|]. intros m t [p b] Ht Hp. apply located_nth in Hp. cbn [fst snd] in *. destruct Hp as [Hp Hb]. destruct (M m p b t Hp Hb Ht) as (x & y & z & T0 & T1 & T2).
    destruct q as [[[qx qy] qz0] qb]. cbn [sample_of]. split.
    - intros ->. rewrite Nat2Z.id in T1. rewrite Hi in T1. inversion T1; subst. auto.
    - intros [-> Hc]. assert (Hbox : in_box p) by (rewrite Forall_forall in HI0; apply HI0; eapply nth_error_In, Hp). pose proof (cell_unique dep _ _ _ _ _ _ _ Hbox T2 Hc) as U. inversion U; subst. cbn [sample_of snd] in T1.
      assert (Z.to_nat t = i); [|lia]. apply (proj1 (NoDup_nth_error cs) ND); [apply nth_error_Some; congruence|congruence].
  Qed.

  Lemma local_feature1 CF s : provides CF s pc -> provides CF s pc' -> asks_any s = true ->
    exists o1 idx o1' idx' x x', build_octree normalize o pc = Ok (o1, idx) /\ build_octree normalize o pc' = Ok (o1', idx') /\
      get_input_feature CF o1 s true = Ok x /\ get_input_feature CF o1' s true = Ok x' /\
      shape (node_count o1 (depth o) true) (channels s CF) x /\ shape (node_count o1' (depth o) true) (channels s CF) x' /\
      features_agree o1 o1' true dep (within dep c r dep) x x' /\
      exists y flags y' flags', get_input_feature CF o1 s false = Ok y /\ nempty_mask o1 (Z.of_nat (depth o)) = Ok flags /\ shape (node_count o1 (depth o) false) (channels s CF) y /\
        octree_depad y o1 (Z.of_nat (depth o)) = Ok x /\ (forall i, nth_error flags i = Some false -> nth_error y i = Some (repeat 0%Qc (channels s CF))) /\
        get_input_feature CF o1' s false = Ok y' /\ nempty_mask o1' (Z.of_nat (depth o)) = Ok flags' /\ shape (node_count o1' (depth o) false) (channels s CF) y' /\
        octree_depad y' o1' (Z.of_nat (depth o)) = Ok x' /\ (forall i, nth_error flags' i = Some false -> nth_error y' i = Some (repeat 0%Qc (channels s CF))).
  Proof.
    intros HP HP' Hs.
    destruct (feature_built normalize o pc CF s HB HI HP Hs) as (o1 & idx & x & E & X1 & X2 & X3 & y & flags & Y1 & Y2 & Y3 & Y4 & Y5).
    destruct (feature_built normalize o pc' CF s HB' HI' HP' Hs) as (o1' & idx' & x' & E' & X1' & X2' & X3' & y' & flags' & Y1' & Y2' & Y3' & Y4' & Y5').
    exists o1, idx, o1', idx', x, x'. do 6 (split; [assumption|]). split; [|exists y, flags, y', flags'; auto 12].
    intros cs cs' i j q Ec Ec' Hi Hj Hq. destruct HS as (k & k' & K & K' & EL & EN & EF).
    destruct (thm_build_wf normalize o pc HB) as (c1 & c2 & Y & W & D1 & _). assert (c1 = o1) by congruence. subst c1.
    destruct (thm_build_wf normalize o _ HB') as (c1 & c3 & Y' & W' & D1' & _). assert (c1 = o1') by congruence. subst c1.
    destruct (cells_of o1 dep true W ltac:(unfold dep; lia)) as (k1 & Q1 & L1 & _). assert (k1 = cs) by congruence. subst k1.
    destruct (cells_of o1' dep true W' ltac:(unfold dep; lia)) as (k1 & Q2 & L2 & _). assert (k1 = cs') by congruence. subst k1.
    assert (Li : (i < length cs)%nat) by (apply nth_error_Some; congruence). assert (Lj : (j < length cs')%nat) by (apply nth_error_Some; congruence). fold dep in X3, X3'.
    destruct (X3 i ltac:(lia)) as (-> & Hne). destruct (X3' j ltac:(lia)) as (-> & Hne').
    pose proof (point_tags pc o1 idx cs i q HB HI E Ec Hi) as T. pose proof (point_tags pc' o1' idx' cs' j q HB' HI' E' Ec' Hj) as T'.
    set (inq := fun pb : v3 Qc * Z => snd pb = sample_of q /\ (let '(x, y, z, _) := q in in_cell dep x y z (fst pb))) in *.
    assert (Hin : forall p, inq p -> near_point (depth o) c r p).
    { intros [p b]. unfold inq. destruct q as [[[qx qy] qz0] qb]. cbn [fst snd sample_of]. intros [-> Hc]. exists qx, qy, qz0. auto. }
    pose proof (proj1 (point_batches_ok _ _ (bi_cloud _ _ HB))) as Lb. destruct (located_fst pc Lb) as [P1 P2].
    pose proof (proj1 (point_batches_ok _ _ (bi_cloud _ _ HB'))) as Lb'. destruct (located_fst pc' Lb') as [P1' P2'].
    assert (SR : forall {A} (src src' : list A), length src = length (p_points pc) -> length src' = length (p_points pc') -> pick k src = pick k' src' -> rows_at idx (Z.of_nat i) src = rows_at idx' (Z.of_nat j) src').
    { intros A src src' S1 S2 S3. rewrite <- (rows_pick _ _ (Z.of_nat i) Hin (located pc) k idx src K T) by congruence. rewrite <- (rows_pick _ _ (Z.of_nat j) Hin (located pc') k' idx' src' K' T') by congruence. rewrite S3.
      apply (rows_tags inq _ _ (pick k (located pc))); [apply pick_both, T|rewrite EL; apply pick_both, T']. }
    assert (EP : forall B (f : v3 Qc -> B), pick k (map f (p_points pc)) = pick k' (map f (p_points pc'))).
    { intros B f. rewrite <- P1, <- P1', !map_map, !pick_select, !select_map, <- !pick_select, EL. reflexivity. }
    destruct (bi_cloud _ _ HB) as [_ _ _ A4 A5]. destruct (bi_cloud _ _ HB') as [_ _ _ A4' A5']. f_equal.
    replace (row_normal normalize s pc' idx' j) with (row_normal normalize s pc idx i).
    2:{ unfold row_normal. destruct (p_normals pc) as [n1|], (p_normals pc') as [n2|]; try discriminate EN; [|reflexivity]. cbn [option_map] in EN. assert (EN1 : pick k n1 = pick k' n2) by congruence. rewrite (SR _ n1 n2 (A4 _ eq_refl) (A4' _ eq_refl) EN1). reflexivity. }
    replace (row_point dep pc' idx' j) with (row_point dep pc idx i).
    2:{ unfold row_point. rewrite (SR _ _ (map (in_cell_units dep) (p_points pc'))); [reflexivity|rewrite map_length; reflexivity..|apply EP]. }
    replace (row_feature s CF pc' idx' j) with (row_feature s CF pc idx i); [reflexivity|].
    unfold row_feature. destruct (asks s "F" "f") eqn:Af; [|reflexivity]. destruct (proj2 HP Af) as (f1 & F1 & W1). destruct (proj2 HP' Af) as (f2 & F2 & W2). pose proof (proj1 (A5 _ F1)) as Lf. pose proof (proj1 (A5' _ F2)) as Lf'. rewrite F1, F2 in EF |- *. cbn [option_map] in EF. assert (EF1 : pick k f1 = pick k' f2) by congruence.
    assert (WD : forall (f : list (list Qc)) (p : pcloud Qc) ix m, Forall (fun r => length r = CF) f -> length f = length (p_points p) -> rows_at ix m (p_points p) <> [] -> width f = CF).
    { intros f p ix m FW FL FN. destruct f as [|r0 f]; [|cbn [width]; inversion FW; assumption]. exfalso. apply FN. destruct (p_points p); [|discriminate FL]. unfold rows_at. rewrite combine_nil. reflexivity. }
    rewrite (WD f1 pc idx _ W1 Lf Hne), (WD f2 pc' idx' _ W2 Lf' Hne'), (SR _ f1 f2 Lf Lf' EF1). reflexivity.
  Qed.

  Lemma local_feature CF s ne : provides CF s pc -> provides CF s pc' -> asks_any s = true ->
    exists o1 idx o1' idx' x x', build_octree normalize o pc = Ok (o1, idx) /\ build_octree normalize o pc' = Ok (o1', idx') /\
      get_input_feature CF o1 s ne = Ok x /\ get_input_feature CF o1' s ne = Ok x' /\
      shape (node_count o1 (depth o) ne) (channels s CF) x /\ shape (node_count o1' (depth o) ne) (channels s CF) x' /\
      features_agree o1 o1' ne dep (within dep c r dep) x x' /\
      forall d, (d <= dep)%nat -> nodes_agree o1 o1' true d (within dep c r d) /\ nodes_agree o1 o1' false d (within dep c (r - 2 ^ Z.of_nat (dep - d)) d).
  Proof.
    intros HP HP' Hs. destruct (local_feature1 CF s HP HP' Hs) as (o1 & idx & o1' & idx' & x & x' & E & E' & X1 & X1' & X2 & X2' & Car & y & flags & y' & flags' & Y1 & Y2 & Y3 & Y4 & Y5 & Y1' & Y2' & Y3' & Y4' & Y5').
    destruct (thm_local_nodes normalize o pc pc' c r HB HB' HI HI' part_points) as (b1 & b2 & b3 & b4 & B1 & B2 & NA). assert (b1 = o1) by congruence. assert (b3 = o1') by congruence. subst b1 b3. fold dep in NA.
    destruct ne; [exists o1, idx, o1', idx', x, x'; auto 12|]. exists o1, idx, o1', idx', y, y'. do 6 (split; [assumption|]). split; [|exact NA].
    intros ca ca' i j q Ea Ea' Hi Hj Hq.
    destruct (thm_build_wf normalize o pc HB) as (c1 & c2 & Y & W & D1 & _). assert (c1 = o1) by congruence. subst c1.
    destruct (thm_build_wf normalize o _ HB') as (c1 & c3 & Y' & W' & D1' & _). assert (c1 = o1') by congruence. subst c1.
    destruct (cells_of o1 dep true W ltac:(unfold dep; lia)) as (cs & Ec & _). destruct (cells_of o1' dep true W' ltac:(unfold dep; lia)) as (cs' & Ec' & _).
    destruct (padded_rows o1 (depth o) flags y x cs ca i q W ltac:(lia) Y2 Y4 (proj1 Y3) Ec Ea Hi) as (P1 & P2).
    destruct (padded_rows o1' (depth o) flags' y' x' cs' ca' j _ W' ltac:(lia) Y2' Y4' (proj1 Y3') Ec' Ea' Hj) as (P1' & P2').
    pose proof (proj1 (NA dep (le_n _)) cs cs' q Ec Ec' Hq) as Hc. destruct (in_dec MoveFacts.cell_dec q cs) as [Hin|Hn].
    - pose proof (proj1 Hc Hin) as Hin'. apply In_nth_error in Hin as (m & Hr). apply In_nth_error in Hin' as (m' & Hr').
      rewrite (P1 m Hr), (P1' m' Hr'). apply (Car cs cs' m m' q Ec Ec' Hr Hr' Hq).
    - rewrite Y5 by (apply P2; exact Hn). symmetry. apply Y5', P2'. intros Hx. apply Hn, Hc, Hx.
  Qed.
End Scene.

Theorem thm_local_scene normalize o pc pc' (ne : bool) CF s g P cin cout lin pts pts' i j p b cx cy cz : build_input o pc -> build_input o pc' -> (1 <= full_depth o)%nat ->
  Forall in_box (p_points pc) -> Forall in_box (p_points pc') -> provides CF s pc -> provides CF s pc' -> asks_any s = true ->
  channels s CF = cin -> channel_ok cin -> eval_mode P -> unet_config g -> (length (u_enc_blk g) < depth o)%nat ->
  Forall (askable lin (depth o - length (u_enc_blk g) + length (u_dec_blk g))) pts -> Forall (askable lin (depth o - length (u_enc_blk g) + length (u_dec_blk g))) pts' ->
  nth_error pts i = Some (p, b) -> nth_error pts' j = Some (p, b) -> in_box p -> in_cell (depth o) cx cy cz p ->
  same_part (near_point (depth o) (cx, cy, cz, b) (unet_reach g + query_reach lin g + (if ne then 0 else 2 ^ Z.of_nat (length (u_enc_blk g))))) pc pc' ->
  let run pc pts := '(o1, _) <- build_octree normalize o pc ;; o2 <- construct_all_neigh o1 ;; x <- get_input_feature CF o2 s ne ;;
    '(y, _) <- UNet g P cin cout lin ne x o2 (Z.of_nat (depth o)) pts ;; Ok y in
  exists y y', run pc pts = Ok y /\ run pc' pts' = Ok y' /\ shape (length pts) cout y /\ shape (length pts') cout y' /\ nth_error y i = nth_error y' j.
Proof.
  intros HB HB' Hf HI HI' HP HP' Hs Hch Hc HE Hg He HA HA' Ei Ej Hbox Hcell HS. cbv zeta. set (R := unet_reach g + query_reach lin g + _) in HS.
  destruct (local_feature normalize o pc pc' (cx, cy, cz, b) R HB HB' HI HI' HS CF s ne HP HP' Hs) as (o1 & idx & o1' & idx' & x & x' & E & E' & X & X' & Sx & Sx' & Car & NA).
  destruct (thm_built_ready normalize o pc HB Hf) as (a1 & a2 & o2 & F & G & W & D1 & D2 & D3 & RP). assert (a1 = o1) by congruence. subst a1.
  destruct (thm_built_ready normalize o _ HB' Hf) as (a1 & a3 & o2' & F' & G' & W' & D1' & D2' & D3' & RP'). assert (a1 = o1') by congruence. subst a1.
  destruct (thm_build_wf normalize o pc HB) as (b1 & b2 & Y & V & V1 & V2 & _). assert (b1 = o1) by congruence. subst b1.
  destruct (thm_build_wf normalize o _ HB') as (b1 & b3 & Y' & V' & V1' & V2' & _). assert (b1 = o1') by congruence. subst b1.
  destruct (thm_all_neigh o1 V ltac:(lia)) as (c1 & C1 & SD & _). assert (c1 = o2) by congruence. subst c1.
  destruct (thm_all_neigh o1' V' ltac:(lia)) as (c1 & C1' & SD' & _). assert (c1 = o2') by congruence. subst c1.
  assert (NC : forall a b d, same_data a b -> node_count b d ne = node_count a d ne).
  { intros a b0 d (_ & _ & _ & _ & S). unfold node_count. pose proof (forall2_nth _ _ _ d S) as Q. destruct (nth_error (layers a) d), (nth_error (layers b0) d); try contradiction; [|reflexivity].
    destruct Q as (_ & _ & _ & _ & _ & -> & -> & _). reflexivity. }
  pose proof (uc_stages g Hg) as Hst. pose proof (side_pos (length (u_enc_blk g))) as Hside.
  destruct (thm_local_unet o2 o2' ne g P cin cout lin (depth o) x x' pts pts' i j p cx cy cz b) as (y & q & y' & q' & R1 & R2 & R3 & R4 & R5); try assumption; try lia.
  - intros d Hd'. apply (RP ne). lia.
  - intros d Hd'. apply (RP' ne). lia.
  - rewrite (NC o1) by assumption. rewrite <- Hch. exact Sx.
  - rewrite (NC o1') by assumption. rewrite <- Hch. exact Sx'.
  - intros d Hd'. destruct (NA d ltac:(lia)) as [N1 N2].
    assert (M1 : nodes_agree o2 o2' true d (within (depth o) (cx, cy, cz, b) (unet_reach g + query_reach lin g) d)).
    { intros cs cs' u. rewrite (same_xyzb o1 o2), (same_xyzb o1' o2') by assumption. intros U1 U2 U3. apply (N1 cs cs' u U1 U2). apply (within_mono _ _ _ R _ _) in U3; [exact U3|]. unfold R. destruct ne; lia. }
    split; [|intros _; exact M1]. destruct ne; [exact M1|]. intros cs cs' u. rewrite (same_xyzb o1 o2), (same_xyzb o1' o2') by assumption. intros U1 U2 U3. apply (N2 cs cs' u U1 U2). apply (within_mono _ _ (unet_reach g + query_reach lin g) _ _ _); [|exact U3].
    unfold R. assert (2 ^ Z.of_nat (depth o - d) <= 2 ^ Z.of_nat (length (u_enc_blk g))) by (apply Z.pow_le_mono_r; lia). lia.
  - intros cs cs' m m' u. rewrite (same_xyzb o1 o2), (same_xyzb o1' o2') by assumption. intros U1 U2 U3 U4 U5. apply (Car cs cs' m m' u U1 U2 U3 U4). apply (within_mono _ _ _ R _ _) in U5; [exact U5|]. unfold R. destruct ne; lia.
  - exists y, y'. rewrite E, E'. cbn [bind]. rewrite G, G'. cbn [bind]. rewrite (same_feature CF o1 o2), (same_feature CF o1' o2') by assumption. rewrite X, X'. cbn [bind]. rewrite R1, R2. auto 8.
Qed.

(** ** convolutions, in plain terms *)
Theorem thm_local_conv o o' ne st d ks kernel ci co mb x x' W bias (zi zo : cell -> Prop) : wf_octree o -> wf_octree o' -> (st = 1 \/ st = 2) ->
  conv_ready o (up d st) kernel st -> conv_ready o' (up d st) kernel st -> In (ks, kernel) kernel_sizes ->
  (forall q p, zo q -> reads st kernel q p -> zi p) -> nodes_agree o o' ne (up d st) zi -> (ne = false -> st = 2 -> nodes_agree o o' true d zo) ->
  shape (node_count o (up d st) ne) ci x -> shape (node_count o' (up d st) ne) ci x' -> features_agree o o' ne (up d st) zi x x' ->
  shape3 (length (box kernel)) ci co W -> bias_ok co bias -> Z.of_nat (length (box kernel)) * Z.of_nat ci <= mb ->
  exists y y', OctreeConv (mkCfg ci co ks st ne mb true) false W bias x o (up d st) = Ok y /\ OctreeConv (mkCfg ci co ks st ne mb true) false W bias x' o' (up d st) = Ok y' /\
    shape (node_count o d ne) co y /\ shape (node_count o' d ne) co y' /\ features_agree o o' ne d zo y y'.
Proof.
  intros HW HW' Hst HC HC' Hk Hz HN HN2 Sx Sx' HF SW Hb Hm. destruct (local_conv o o' ne HW HW' st d ks kernel ci co mb x x' W bias zi zo) as (y & y' & E & E' & R1 & R2 & R3); try assumption; [split; auto|]. exists y, y'. auto.
Qed.
Theorem thm_local_deconv o o' ne st d ks kernel ci co mb y y' W (zi zo : cell -> Prop) : wf_octree o -> wf_octree o' -> (st = 1 \/ st = 2) ->
  conv_ready o (up d st) kernel st -> conv_ready o' (up d st) kernel st -> In (ks, kernel) kernel_sizes ->
  (forall q p, zo q -> reads st kernel p q -> zi p) -> nodes_agree o o' ne d zi -> (ne = false -> st = 2 -> nodes_agree o o' true d zi) ->
  shape (node_count o d ne) ci y -> shape (node_count o' d ne) ci y' -> features_agree o o' ne d zi y y' ->
  shape3 (length (box kernel)) co ci W -> Z.of_nat (length (box kernel)) * Z.of_nat co <= mb ->
  exists z z', OctreeDeconv (mkCfg ci co ks st ne mb false) false W None y o d = Ok z /\ OctreeDeconv (mkCfg ci co ks st ne mb false) false W None y' o' d = Ok z' /\
    shape (node_count o (up d st) ne) co z /\ shape (node_count o' (up d st) ne) co z' /\ features_agree o o' ne (up d st) zo z z'.
Proof.
  intros HW HW' Hst HC HC' Hk Hz HN HN2 Sx Sx' HF SW Hm. destruct (local_deconv o o' ne HW HW' st d ks kernel co ci mb y y' W zi zo) as (z & z' & E & E' & R1 & R2 & R3); try assumption; [split; auto|]. exists z, z'. auto.
Qed.
Theorem thm_local_interp o o' ne lin C d x x' (pts pts' : list (v3 Qc * Z)) i j p b : wf_octree o -> wf_octree o' -> (d <= depth o)%nat -> (d <= depth o')%nat ->
  shape (node_count o d ne) C x -> shape (node_count o' d ne) C x' -> nth_error pts i = Some (p, b) -> nth_error pts' j = Some (p, b) -> in_box p ->
  Forall (askable lin d) pts -> Forall (askable lin d) pts' ->
  (forall cx cy cz, in_cell d cx cy cz p -> nodes_agree o o' ne d (within d (cx, cy, cz, b) (if lin then 1 else 0) d) /\ features_agree o o' ne d (within d (cx, cy, cz, b) (if lin then 1 else 0) d) x x') ->
  exists y q y' q', interp lin ne C x o (Z.of_nat d) pts = Ok (y, q) /\ interp lin ne C x' o' (Z.of_nat d) pts' = Ok (y', q') /\
    shape (length pts) C y /\ shape (length pts') C y' /\ nth_error y i = nth_error y' j.
Proof.
  intros HW HW' Hd Hd' Sx Sx' Ei Ej Hbox HA HA' HZ. destruct p as [[px py] pz]. pose proof Hbox as (B1 & B2 & B3).
  assert (HC : in_cell d (cellc d px) (cellc d py) (cellc d pz) (px, py, pz)) by (split; [|split]; apply slab_here; assumption). destruct (HZ _ _ _ HC) as [HN HF].
  apply (local_interp o o' ne lin C d x x' pts pts' i j (px, py, pz) b _ HW HW' Hd Hd' (conj Sx (conj Sx' HF)) HN Ei Ej); try assumption.
  intros q Hq. pose proof (query_zone lin 0 _ _ _ b d d _ q eq_refl Hbox HC Hq) as G. change (2 ^ Z.of_nat 0) with 1 in G. destruct lin; exact G.
Qed.
