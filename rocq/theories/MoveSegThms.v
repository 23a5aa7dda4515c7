(** Moving a shape: layers between two resolutions, query points and segmentation. *)
From Coq Require Import Ascii String List ZArith Bool QArith Qcanon Lia.
From Verif Require Import Res Tensor Key Num NumFacts Points Octree NnBasic NnConv NnInterp Features Net Spec SpecGeo SpecBuild SpecNeigh SpecNN SpecInterp SpecNet SpecFeature SpecBatch SpecSolver SpecMove SpecMoveSeg
  WF ListFacts NeighThms BuildClosed BuildThms NetBuilt MoveFacts MoveNet MoveBuild MoveThms MoveSeg MoveInterp MoveUnet.
Import ListNotations.
Open Scope Z_scope.

Lemma first_to renum e t : keeps_first e (shift_to renum e t).
Proof.
  intros d [[[x y] z] b] Hd. unfold first_child, shift_to. destruct (t b) as [[u v] w]. replace (S d - e)%nat with (S (d - e)) by lia. rewrite Nat2Z.inj_succ, Z.pow_succ_r by lia.
  apply quad; ring.
Qed.
Theorem thm_firsts : (forall e t, keeps_first e (shift e t)) /\ keeps_first 0 swap_xy /\ keeps_first 0 swap_yz /\
  (forall e e' s s', keeps_first e s -> keeps_first e' s' -> keeps_first (Nat.max e e') (fun d q => s' d (s d q))).
Proof.
  split.
  { intros e t. apply (first_to (fun b => b)). }
  split; [intros d [[[x y] z] b] _; reflexivity|]. split; [intros d [[[x y] z] b] _; reflexivity|].
  intros e e' s s' H H' d q Hd. rewrite H by lia. apply H'. lia.
Qed.
Theorem thm_moved_conv_any e s turn o o' ne st d ks kernel ci co mb x x' W W' bias : motion e s turn -> keeps_first e s -> moved e s o o' ->
  (st = 1 \/ st = 2) -> (lowest ne e <= d)%nat -> conv_ready o (up d st) kernel st -> conv_ready o' (up d st) kernel st -> In (ks, kernel) kernel_sizes ->
  shape (node_count o (up d st) ne) ci x -> shape (node_count o' (up d st) ne) ci x' -> carried ne s o o' (up d st) x x' ->
  shape3 (length (box kernel)) ci co W -> shape3 (length (box kernel)) ci co W' -> turned turn kernel W W' -> bias_ok co bias ->
  Z.of_nat (length (box kernel)) * Z.of_nat ci <= mb ->
  exists y y', OctreeConv (mkCfg ci co ks st ne mb true) false W bias x o (up d st) = Ok y /\
    OctreeConv (mkCfg ci co ks st ne mb true) false W' bias x' o' (up d st) = Ok y' /\
    shape (node_count o d ne) co y /\ shape (node_count o' d ne) co y' /\ carried ne s o o' d y y'.
Proof.
  intros HM HF HO Hs Hd Q Q' Hk Hx Hx' Hc. apply (move_conv_any e s turn o o' ne (lowest ne e) (lowest_ok ne e) HM HF HO (proj1 Q) (proj1 Q')); try assumption.
  split; [exact Hx|]. split; [exact Hx'|exact Hc].
Qed.
Theorem thm_moved_deconv e s turn o o' ne st d ks kernel ci co mb y y' W W' : motion e s turn -> keeps_first e s -> moved e s o o' ->
  (st = 1 \/ st = 2) -> (lowest ne e <= d)%nat -> conv_ready o (up d st) kernel st -> conv_ready o' (up d st) kernel st -> In (ks, kernel) kernel_sizes ->
  shape (node_count o d ne) ci y -> shape (node_count o' d ne) ci y' -> carried ne s o o' d y y' ->
  shape3 (length (box kernel)) co ci W -> shape3 (length (box kernel)) co ci W' -> turned turn kernel W W' ->
  Z.of_nat (length (box kernel)) * Z.of_nat co <= mb ->
  exists z z', OctreeDeconv (mkCfg ci co ks st ne mb false) false W None y o d = Ok z /\
    OctreeDeconv (mkCfg ci co ks st ne mb false) false W' None y' o' d = Ok z' /\
    shape (node_count o (up d st) ne) co z /\ shape (node_count o' (up d st) ne) co z' /\ carried ne s o o' (up d st) z z'.
Proof.
  intros HM HF HO Hs Hd Q Q' Hk Hx Hx' Hc. apply (move_deconv e s turn o o' ne (lowest ne e) (lowest_ok ne e) HM HF HO (proj1 Q) (proj1 Q')); try assumption.
  split; [exact Hx|]. split; [exact Hx'|exact Hc].
Qed.
Theorem thm_moved_interp e t o o' ne lin C d x x' pts : moved e (shift e t) o o' -> wf_octree o -> wf_octree o' -> (lowest ne e <= d <= depth o)%nat ->
  shape (node_count o d ne) C x -> shape (node_count o' d ne) C x' -> carried ne (shift e t) o o' d x x' ->
  Forall (askable lin d) pts -> Forall (askable lin d) (moved_points e t pts) ->
  exists y q q', interp lin ne C x o (Z.of_nat d) pts = Ok (y, q) /\ interp lin ne C x' o' (Z.of_nat d) (moved_points e t pts) = Ok (y, q') /\ shape (length pts) C y.
Proof.
  intros HO W W' Hd Hx Hx' Hc. apply (move_interp e t o o' ne (lowest ne e) (lowest_ok ne e) (thm_shift e t) HO W W'); [exact Hd|]. split; [exact Hx|]. split; [exact Hx'|exact Hc].
Qed.
Theorem thm_fair_unet_to renum e t tau o o' ne mr g P cin cout lin dep x x' pts pts' : (forall b c, renum b = renum c -> b = c) -> (forall b, exists c, renum c = b) ->
  moved e (shift_to renum e t) o o' -> wf_octree o -> wf_octree o' -> unet_config g -> fair_norms mr P ->
  (length (u_enc_blk g) < dep <= depth o)%nat -> (lowest ne e <= dep - length (u_enc_blk g))%nat -> channel_ok cin ->
  (mr <= length pts)%nat -> layers_ready o ne mr (dep - length (u_enc_blk g)) dep -> layers_ready o' ne 0 (dep - length (u_enc_blk g)) dep ->
  shape (node_count o dep ne) cin x -> shape (node_count o' dep ne) cin x' -> carried ne (shift_to renum e t) o o' dep x x' ->
  permutes tau (length pts) -> reordered tau (moved_points_to renum e t pts) pts' ->
  Forall (askable lin (dep - length (u_enc_blk g) + length (u_dec_blk g))) pts ->
  Forall (askable lin (dep - length (u_enc_blk g) + length (u_dec_blk g))) pts' ->
  exists y q y' q', UNet g P cin cout lin ne x o (Z.of_nat dep) pts = Ok (y, q) /\
    UNet g P cin cout lin ne x' o' (Z.of_nat dep) pts' = Ok (y', q') /\ shape (length pts) cout y /\ reordered tau y y'.
Proof.
  intros RI RO HO W W' G HP Hdep He Hc Hpts HL HL' Hx Hx' Hcar HT HTR HA HA'. destruct (lowest_ok ne e) as (L1 & L2).
  assert (Hlo : (e <= dep - length (u_enc_blk g))%nat /\ (ne = false -> (S e <= dep - length (u_enc_blk g))%nat)) by (split; [lia|intros Hn; specialize (L2 Hn); lia]).
  apply (G_unet_to e t o o' ne (dep - length (u_enc_blk g)) Hlo (thm_shift_to renum e t RI RO) (first_to renum e t) HO W W' P mr HP dep ltac:(lia)); try assumption; try lia.
  - intros d Hd _. apply HL. lia.
  - intros d Hd _. apply HL'. lia.
  - intros d Hd _. apply HL. lia.
  - split; [exact Hx|]. split; [exact Hx'|exact Hcar].
Qed.
Theorem thm_fair_unet e t o o' ne mr g P cin cout lin dep x x' pts : moved e (shift e t) o o' -> wf_octree o -> wf_octree o' -> unet_config g -> fair_norms mr P ->
  (length (u_enc_blk g) < dep <= depth o)%nat -> (lowest ne e <= dep - length (u_enc_blk g))%nat -> channel_ok cin ->
  (mr <= length pts)%nat -> layers_ready o ne mr (dep - length (u_enc_blk g)) dep -> layers_ready o' ne 0 (dep - length (u_enc_blk g)) dep ->
  shape (node_count o dep ne) cin x -> shape (node_count o' dep ne) cin x' -> carried ne (shift e t) o o' dep x x' ->
  Forall (askable lin (dep - length (u_enc_blk g) + length (u_dec_blk g))) pts ->
  Forall (askable lin (dep - length (u_enc_blk g) + length (u_dec_blk g))) (moved_points e t pts) ->
  exists y q q', UNet g P cin cout lin ne x o (Z.of_nat dep) pts = Ok (y, q) /\
    UNet g P cin cout lin ne x' o' (Z.of_nat dep) (moved_points e t pts) = Ok (y, q') /\ shape (length pts) cout y.
Proof.
  intros HO W W' G HP Hdep He Hc Hpts HL HL' Hx Hx' Hcar HA HA'.
  destruct (thm_fair_unet_to (fun b => b) e t (fun i => i) o o' ne mr g P cin cout lin dep x x' pts (moved_points e t pts)) as (y & q & y' & q' & E & E' & Sy & H); try assumption; eauto using permutes_id.
  - split; reflexivity.
  - apply reordered_id in H. subst y'. eauto 6.
Qed.
Theorem thm_moved_unet e t o o' ne g P cin cout lin dep x x' pts : moved e (shift e t) o o' -> wf_octree o -> wf_octree o' -> unet_config g -> eval_mode P ->
  (length (u_enc_blk g) < dep <= depth o)%nat -> (lowest ne e <= dep - length (u_enc_blk g))%nat -> channel_ok cin ->
  layers_ready o ne 0 (dep - length (u_enc_blk g)) dep -> layers_ready o' ne 0 (dep - length (u_enc_blk g)) dep ->
  shape (node_count o dep ne) cin x -> shape (node_count o' dep ne) cin x' -> carried ne (shift e t) o o' dep x x' ->
  Forall (askable lin (dep - length (u_enc_blk g) + length (u_dec_blk g))) pts ->
  Forall (askable lin (dep - length (u_enc_blk g) + length (u_dec_blk g))) (moved_points e t pts) ->
  exists y q q', UNet g P cin cout lin ne x o (Z.of_nat dep) pts = Ok (y, q) /\
    UNet g P cin cout lin ne x' o' (Z.of_nat dep) (moved_points e t pts) = Ok (y, q') /\ shape (length pts) cout y.
Proof. intros HO W W' G HP Hdep He Hc HL HL'. apply (thm_fair_unet e t o o' ne 0); try assumption; [apply eval_fair, HP|lia]. Qed.
Theorem thm_fair_labels normalize o pc e t ne mr CF s g P cin cout lin pts : build_input o pc -> (1 <= full_depth o)%nat ->
  Forall in_box (p_points pc) -> Forall in_box (p_points (moved_cloud e t pc)) -> provides CF s pc -> asks_any s = true -> asks s "P"%char "p"%char = false ->
  channels s CF = cin -> channel_ok cin -> fair_norms mr P -> unet_config g -> (full_depth o <= e)%nat -> (lowest ne e + length (u_enc_blk g) <= depth o)%nat ->
  Forall (askable lin (depth o - length (u_enc_blk g) + length (u_dec_blk g))) pts ->
  Forall (askable lin (depth o - length (u_enc_blk g) + length (u_dec_blk g))) (moved_points e t pts) ->
  (mr <= length pts)%nat -> (forall o1 idx o2, build_octree normalize o pc = Ok (o1, idx) -> construct_all_neigh o1 = Ok o2 ->
     forall d, (depth o - length (u_enc_blk g) <= d <= depth o)%nat -> (mr <= node_count o2 d ne)%nat) ->
  let run pc pts := '(o1, _) <- build_octree normalize o pc ;; o2 <- construct_all_neigh o1 ;; x <- get_input_feature CF o2 s ne ;;
    '(y, _) <- UNet g P cin cout lin ne x o2 (Z.of_nat (depth o)) pts ;; Ok y in
  exists y, run pc pts = Ok y /\ run (moved_cloud e t pc) (moved_points e t pts) = Ok y /\ shape (length pts) cout y.
Proof.
  intros HB Hf HI HI' HP Hs HN Hch Hc HE Hg He Hd HA HA' Hpts HK. cbv zeta. pose proof (lowest_ok ne e) as (Hlo1 & Hlo2).
  destruct (thm_moved_input normalize o pc e t HB HI HI' ltac:(lia) CF s ne ltac:(intros Hx; specialize (Hlo2 Hx); pose proof (uc_stages g Hg); pose proof (uc_dec g Hg); lia) HP Hs HN)
    as (o1 & idx & o1' & idx' & x & x' & E & E' & HM & X & X' & Sx & Sx' & Car).
  destruct (thm_built_ready normalize o pc HB Hf) as (a1 & a2 & o2 & F & G & W & D1 & D2 & D3 & RP). assert (a1 = o1) by congruence. subst a1.
  destruct (thm_built_ready normalize o _ (good' o pc e t HB ltac:(lia)) Hf) as (a1 & a3 & o2' & F' & G' & W' & D1' & D2' & D3' & RP'). assert (a1 = o1') by congruence. subst a1.
  destruct (thm_build_wf normalize o pc HB) as (b1 & b2 & Y & V & V1 & V2 & _). assert (b1 = o1) by congruence. subst b1.
  destruct (thm_build_wf normalize o _ (good' o pc e t HB ltac:(lia))) as (b1 & b3 & Y' & V' & V1' & V2' & _). assert (b1 = o1') by congruence. subst b1.
  destruct (thm_all_neigh o1 V ltac:(lia)) as (c1 & C1 & SD & _). assert (c1 = o2) by congruence. subst c1.
  destruct (thm_all_neigh o1' V' ltac:(lia)) as (c1 & C1' & SD' & _). assert (c1 = o2') by congruence. subst c1.
  assert (NC : forall a b d, same_data a b -> node_count b d ne = node_count a d ne).
  { intros a b d (_ & _ & _ & _ & S). unfold node_count. pose proof (forall2_nth _ _ _ d S) as Q. destruct (nth_error (layers a) d), (nth_error (layers b) d); try contradiction; [|reflexivity].
    destruct Q as (_ & _ & _ & _ & _ & -> & -> & _). reflexivity. }
  pose proof (HK o1 idx o2 E G) as Kn. destruct (thm_fair_unet e t o2 o2' ne mr g P cin cout lin (depth o) x x' pts) as (y & q & q' & R1 & R2 & R3); try assumption; try lia.
  - destruct HM as (M1 & M2 & M3). split; [congruence|]. split; [congruence|]. intros d cs cs' Hd'. rewrite (same_xyzb o1 o2), (same_xyzb o1' o2') by assumption. apply M3. lia.
  - intros d Hd'. split; [apply (RP ne); lia|apply Kn; lia].
  - intros d Hd'. apply (RP' ne). lia.
  - rewrite (NC o1) by assumption. congruence.
  - rewrite (NC o1') by assumption. congruence.
  - intros cs cs' i j p. rewrite (same_xyzb o1 o2), (same_xyzb o1' o2') by assumption. apply Car.
  - exists y. rewrite E, E'. cbn [bind]. rewrite G, G'. cbn [bind]. rewrite (same_feature CF o1 o2), (same_feature CF o1' o2') by assumption. rewrite X, X'. cbn [bind]. rewrite R1, R2. auto.
Qed.
Theorem thm_moved_labels normalize o pc e t ne CF s g P cin cout lin pts : build_input o pc -> (1 <= full_depth o)%nat ->
  Forall in_box (p_points pc) -> Forall in_box (p_points (moved_cloud e t pc)) -> provides CF s pc -> asks_any s = true -> asks s "P"%char "p"%char = false ->
  channels s CF = cin -> channel_ok cin -> eval_mode P -> unet_config g -> (full_depth o <= e)%nat -> (lowest ne e + length (u_enc_blk g) <= depth o)%nat ->
  Forall (askable lin (depth o - length (u_enc_blk g) + length (u_dec_blk g))) pts ->
  Forall (askable lin (depth o - length (u_enc_blk g) + length (u_dec_blk g))) (moved_points e t pts) ->
  let run pc pts := '(o1, _) <- build_octree normalize o pc ;; o2 <- construct_all_neigh o1 ;; x <- get_input_feature CF o2 s ne ;;
    '(y, _) <- UNet g P cin cout lin ne x o2 (Z.of_nat (depth o)) pts ;; Ok y in
  exists y, run pc pts = Ok y /\ run (moved_cloud e t pc) (moved_points e t pts) = Ok y /\ shape (length pts) cout y.
Proof.
  intros HB Hf HI HI' HP Hs HN Hch Hc HE Hg He Hd HA HA'. apply (thm_fair_labels normalize o pc e t ne 0); try assumption; [apply eval_fair, HE|lia|]. intros. lia.
Qed.
(** the points of a cloud and their samples *)
Theorem thm_located_moved o pc e t : build_input o pc -> located (moved_cloud e t pc) = moved_points e t (located pc).
Proof.
  intros HB. pose proof (proj1 (point_batches_ok _ _ (bi_cloud _ _ HB))) as L. unfold moved_points, located at 1. change (p_points (moved_cloud e t pc)) with (map (fun '(p, b) => move_point e (t b) p) (located pc)).
  assert (E : point_batches (moved_cloud e t pc) = point_batches pc).
  { unfold point_batches. cbn [moved_cloud p_batch_size p_batch_id p_points]. destruct (Nat.eqb (p_batch_size pc) 1) eqn:E1; [|reflexivity]. f_equal. rewrite map_length. unfold located. rewrite combine_length. lia. }
  rewrite E. unfold located. clear E HB. revert L. generalize (p_points pc) as ps, (point_batches pc) as bs. intros ps. induction ps as [|p ps IH]; intros [|b bs] L; try discriminate; [reflexivity|].
  cbn [combine map]. f_equal. apply IH. cbn in L. lia.
Qed.
