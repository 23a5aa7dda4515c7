(** Moving a shape: unpooling, upsampling, HRNet and SegNet. *)
From Coq Require Import Ascii String List ZArith Bool QArith Qcanon Lia.
From Verif Require Import Res Tensor Key Num NumFacts Points Octree NnBasic NnConv NnInterp Features Net Spec SpecGeo SpecBuild SpecNeigh SpecNN SpecInterp SpecNet SpecFeature SpecBatch SpecSolver SpecMove SpecMoveSeg
  WF ListFacts NeighThms BuildClosed BuildThms NetBuilt MoveFacts MoveNet MoveBuild MoveThms MoveSeg MoveInterp MoveUnet MoveSegThms MoveHr.
Import ListNotations.
Open Scope Z_scope.

Theorem thm_keeps_child e t d q : (e <= d)%nat -> child_no (shift e t (S d) q) = child_no q.
Proof. apply (keeps_child e t true e). split; [lia|discriminate]. Qed.
Theorem thm_moved_pool_ind e t o o' ne d C x x' : moved e (shift e t) o o' -> wf_octree o -> wf_octree o' ->
  (lowest ne e <= d)%nat -> (S d <= depth o)%nat -> (ne = true -> branching o d) ->
  shape (node_count o (S d) ne) C x -> shape (node_count o' (S d) ne) C x' -> carried ne (shift e t) o o' (S d) x x' ->
  exists y y' idx idx', max_pool_ind C ne x o (Z.of_nat (S d)) = Ok (y, idx) /\ max_pool_ind C ne x' o' (Z.of_nat (S d)) = Ok (y', idx') /\
    carried ne (shift e t) o o' d y y' /\ carried true (shift e t) o o' d idx idx' /\
    shape (node_count o d true) C idx /\ shape (node_count o' d true) C idx' /\ Forall (Forall (fun k => 0 <= k < 8)) idx /\ Forall (Forall (fun k => 0 <= k < 8)) idx'.
Proof.
  intros HO W W' He Hd Hb Hx Hx' Hc.
  destruct (move_pool_ind e t o o' ne (lowest ne e) (lowest_ok ne e) (thm_shift e t) HO W W' d C x x' He Hd Hb) as ([y i] & [y' i'] & A & B & (C1 & C2 & C3) & D1 & D2 & D3 & D4 & D5); [split; [|split]; assumption|].
  exists y, y', i, i'. cbn [fst snd] in *. repeat (split; [assumption|]). assumption.
Qed.
Theorem thm_moved_unpool e t o o' ne d C x x' idx idx' : moved e (shift e t) o o' -> wf_octree o -> wf_octree o' ->
  (lowest ne e <= d)%nat -> (S d <= depth o)%nat ->
  shape (node_count o d ne) C x -> shape (node_count o' d ne) C x' -> carried ne (shift e t) o o' d x x' ->
  shape (node_count o d true) C idx -> shape (node_count o' d true) C idx' -> Forall (Forall (fun k => 0 <= k < 8)) idx -> Forall (Forall (fun k => 0 <= k < 8)) idx' ->
  carried true (shift e t) o o' d idx idx' ->
  exists y y', octree_max_unpool x idx o d ne = Ok y /\ octree_max_unpool x' idx' o' d ne = Ok y' /\
    shape (node_count o (S d) ne) C y /\ shape (node_count o' (S d) ne) C y' /\ carried ne (shift e t) o o' (S d) y y'.
Proof.
  intros HO W W' He Hd Hx Hx' Hc I1 I2 I3 I4 I5.
  destruct (move_unpool e t o o' ne (lowest ne e) (lowest_ok ne e) (thm_shift e t) HO W W' d C x x' idx idx' He Hd) as (y & y' & A & B & C1 & C2 & C3); [split; [|split]; assumption|repeat (split; [assumption|]); assumption|].
  exists y, y'. auto.
Qed.
Theorem thm_moved_upsample e t o o' ne d C x x' : moved e (shift e t) o o' -> wf_octree o -> wf_octree o' ->
  (lowest ne e <= d)%nat -> (S d <= depth o)%nat ->
  shape (node_count o d ne) C x -> shape (node_count o' d ne) C x' -> carried ne (shift e t) o o' d x x' ->
  exists y y', octree_upsample "nearest" ne C x o d None = Ok y /\ octree_upsample "nearest" ne C x' o' d None = Ok y' /\
    shape (node_count o (S d) ne) C y /\ shape (node_count o' (S d) ne) C y' /\ carried ne (shift e t) o o' (S d) y y'.
Proof.
  intros HO W W' He Hd Hx Hx' Hc.
  destruct (move_upsample e t o o' ne (lowest ne e) (lowest_ok ne e) (thm_shift e t) HO W W' d C x x' He Hd) as (y & y' & A & B & C1 & C2 & C3); [split; [|split]; assumption|].
  exists y, y'. auto.
Qed.
Theorem thm_fair_hrnet_to renum sigma e t o o' ne mr P cin cout num stages dep x x' : (forall b c, renum b = renum c -> b = c) -> (forall b, exists c, renum c = b) ->
  permutes sigma (batch_size o) -> (forall i, (i < batch_size o)%nat -> renum (Z.of_nat i) = Z.of_nat (sigma i)) ->
  moved e (shift_to renum e t) o o' -> wf_octree o -> wf_octree o' -> fair_norms mr P ->
  (stages + 2 <= dep <= depth o)%nat -> (1 <= stages <= 4)%nat -> (lowest ne e <= 2)%nat -> channel_ok cin ->
  layers_ready o ne mr 2 dep -> layers_ready o' ne 0 2 dep -> poolable o ne 2 dep ->
  shape (node_count o dep ne) cin x -> shape (node_count o' dep ne) cin x' -> carried ne (shift_to renum e t) o o' dep x x' ->
  exists y y', HRNet P cin cout stages num ne x o (Z.of_nat dep) = Ok y /\ HRNet P cin cout stages num ne x' o' (Z.of_nat dep) = Ok y' /\ reordered sigma y y'.
Proof.
  intros RI RO HS HSR HO W W' HP Hdep Hst He Hc HL HL' HB Hx Hx' Hcar. destruct (lowest_ok ne e) as (L1 & L2).
  assert (Hlo : (e <= 2)%nat /\ (ne = false -> (S e <= 2)%nat)) by (split; [lia|intros Hn; specialize (L2 Hn); lia]).
  apply (G_hrnet_to e t o o' ne 2 Hlo (thm_shift_to renum e t RI RO) (first_to renum e t) HO W W' P mr HP dep ltac:(lia)); try assumption; try lia.
  - intros d Hd _. apply HL. lia.
  - intros d Hd _. apply HL'. lia.
  - intros d Hd _. apply HL. lia.
  - intros d Hd E. apply (HB E). lia.
  - split; [exact Hx|]. split; [exact Hx'|exact Hcar].
Qed.
Theorem thm_fair_hrnet e t o o' ne mr P cin cout num stages dep x x' : moved e (shift e t) o o' -> wf_octree o -> wf_octree o' -> fair_norms mr P ->
  (stages + 2 <= dep <= depth o)%nat -> (1 <= stages <= 4)%nat -> (lowest ne e <= 2)%nat -> channel_ok cin ->
  layers_ready o ne mr 2 dep -> layers_ready o' ne 0 2 dep -> poolable o ne 2 dep ->
  shape (node_count o dep ne) cin x -> shape (node_count o' dep ne) cin x' -> carried ne (shift e t) o o' dep x x' ->
  exists y, HRNet P cin cout stages num ne x o (Z.of_nat dep) = Ok y /\ HRNet P cin cout stages num ne x' o' (Z.of_nat dep) = Ok y.
Proof.
  intros HO W W' HP Hdep Hst He Hc HL HL' HB Hx Hx' Hcar.
  destruct (thm_fair_hrnet_to (fun b => b) (fun i => i) e t o o' ne mr P cin cout num stages dep x x') as (y & y' & E & E' & H); try assumption; eauto using permutes_id.
  apply reordered_id in H. subst y'. eauto.
Qed.
Theorem thm_moved_hrnet e t o o' ne P cin cout num stages dep x x' : moved e (shift e t) o o' -> wf_octree o -> wf_octree o' -> eval_mode P ->
  (stages + 2 <= dep <= depth o)%nat -> (1 <= stages <= 4)%nat -> (lowest ne e <= 2)%nat -> channel_ok cin ->
  layers_ready o ne 0 2 dep -> layers_ready o' ne 0 2 dep -> poolable o ne 2 dep ->
  shape (node_count o dep ne) cin x -> shape (node_count o' dep ne) cin x' -> carried ne (shift e t) o o' dep x x' ->
  exists y, HRNet P cin cout stages num ne x o (Z.of_nat dep) = Ok y /\ HRNet P cin cout stages num ne x' o' (Z.of_nat dep) = Ok y.
Proof. intros HO W W' HP. apply (thm_fair_hrnet e t o o' ne 0); try assumption. apply eval_fair, HP. Qed.
Theorem thm_fair_segnet_to renum e t tau o o' mr P cin cout stages lin dep x x' pts pts' : (forall b c, renum b = renum c -> b = c) -> (forall b, exists c, renum c = b) ->
  moved e (shift_to renum e t) o o' -> wf_octree o -> wf_octree o' -> fair_norms mr P ->
  (stages < dep <= depth o)%nat -> (1 <= stages)%nat -> (S e <= dep - stages)%nat -> channel_ok cin ->
  (mr <= length pts)%nat -> layers_ready o false mr (dep - stages) dep -> layers_ready o' false 0 (dep - stages) dep ->
  shape (node_count o dep false) cin x -> shape (node_count o' dep false) cin x' -> carried false (shift_to renum e t) o o' dep x x' ->
  permutes tau (length pts) -> reordered tau (moved_points_to renum e t pts) pts' ->
  Forall (askable lin dep) pts -> Forall (askable lin dep) pts' ->
  exists y q y' q', SegNet P cin cout stages lin false x o (Z.of_nat dep) pts = Ok (y, q) /\
    SegNet P cin cout stages lin false x' o' (Z.of_nat dep) pts' = Ok (y', q') /\ shape (length pts) cout y /\ reordered tau y y'.
Proof.
  intros RI RO HO W W' HP Hdep Hst He Hc Hpts HL HL' Hx Hx' Hcar HT HTR HA HA'.
  assert (Hlo : (e <= dep - stages)%nat /\ (false = false -> (S e <= dep - stages)%nat)) by (split; [lia|intros _; lia]).
  apply (G_segnet_to e t o o' false (dep - stages) Hlo (thm_shift_to renum e t RI RO) (first_to renum e t) HO W W' P mr HP dep ltac:(lia)); try assumption; try lia.
  - intros d Hd _. apply HL. lia.
  - intros d Hd _. apply HL'. lia.
  - intros d Hd _. apply HL. lia.
  - split; [exact Hx|]. split; [exact Hx'|exact Hcar].
Qed.
Theorem thm_fair_segnet e t o o' mr P cin cout stages lin dep x x' pts : moved e (shift e t) o o' -> wf_octree o -> wf_octree o' -> fair_norms mr P ->
  (stages < dep <= depth o)%nat -> (1 <= stages)%nat -> (S e <= dep - stages)%nat -> channel_ok cin ->
  (mr <= length pts)%nat -> layers_ready o false mr (dep - stages) dep -> layers_ready o' false 0 (dep - stages) dep ->
  shape (node_count o dep false) cin x -> shape (node_count o' dep false) cin x' -> carried false (shift e t) o o' dep x x' ->
  Forall (askable lin dep) pts -> Forall (askable lin dep) (moved_points e t pts) ->
  exists y q q', SegNet P cin cout stages lin false x o (Z.of_nat dep) pts = Ok (y, q) /\
    SegNet P cin cout stages lin false x' o' (Z.of_nat dep) (moved_points e t pts) = Ok (y, q') /\ shape (length pts) cout y.
Proof.
  intros HO W W' HP Hdep Hst He Hc Hpts HL HL' Hx Hx' Hcar HA HA'.
  destruct (thm_fair_segnet_to (fun b => b) e t (fun i => i) o o' mr P cin cout stages lin dep x x' pts (moved_points e t pts)) as (y & q & y' & q' & E & E' & Sy & H); try assumption; eauto using permutes_id.
  - split; reflexivity.
  - apply reordered_id in H. subst y'. eauto 6.
Qed.
Theorem thm_moved_segnet e t o o' P cin cout stages lin dep x x' pts : moved e (shift e t) o o' -> wf_octree o -> wf_octree o' -> eval_mode P ->
  (stages < dep <= depth o)%nat -> (1 <= stages)%nat -> (S e <= dep - stages)%nat -> channel_ok cin ->
  layers_ready o false 0 (dep - stages) dep -> layers_ready o' false 0 (dep - stages) dep ->
  shape (node_count o dep false) cin x -> shape (node_count o' dep false) cin x' -> carried false (shift e t) o o' dep x x' ->
  Forall (askable lin dep) pts -> Forall (askable lin dep) (moved_points e t pts) ->
  exists y q q', SegNet P cin cout stages lin false x o (Z.of_nat dep) pts = Ok (y, q) /\
    SegNet P cin cout stages lin false x' o' (Z.of_nat dep) (moved_points e t pts) = Ok (y, q') /\ shape (length pts) cout y.
Proof. intros HO W W' HP Hdep Hst He Hc. apply (thm_fair_segnet e t o o' 0); try assumption; [apply eval_fair, HP|lia]. Qed.
(** the octrees of a cloud and of the moved cloud *)
Lemma moved_prepared normalize o pc e t ne CF s : build_input o pc -> (1 <= full_depth o)%nat ->
  Forall in_box (p_points pc) -> Forall in_box (p_points (moved_cloud e t pc)) -> provides CF s pc -> asks_any s = true -> asks s "P"%char "p"%char = false ->
  (full_depth o <= e <= depth o)%nat -> (ne = false -> (e < depth o)%nat) ->
  exists o2 o2' x x', moved e (shift e t) o2 o2' /\ wf_octree o2 /\ wf_octree o2' /\ depth o2 = depth o /\
    (forall ne', layers_ready o2 ne' 0 1 (depth o) /\ poolable o2 ne' (full_depth o) (depth o)) /\ (forall ne', layers_ready o2' ne' 0 1 (depth o)) /\
    shape (node_count o2 (depth o) ne) (channels s CF) x /\ shape (node_count o2' (depth o) ne) (channels s CF) x' /\ carried ne (shift e t) o2 o2' (depth o) x x' /\
    (exists o1 idx, build_octree normalize o pc = Ok (o1, idx) /\ construct_all_neigh o1 = Ok o2) /\
    (forall T (f : octree -> feat -> res T), ('(o1, _) <- build_octree normalize o pc ;; o2 <- construct_all_neigh o1 ;; x <- get_input_feature CF o2 s ne ;; f o2 x) = f o2 x) /\
    (forall T (f : octree -> feat -> res T), ('(o1, _) <- build_octree normalize o (moved_cloud e t pc) ;; o2 <- construct_all_neigh o1 ;; x <- get_input_feature CF o2 s ne ;; f o2 x) = f o2' x').
Proof.
  intros HB Hf HI HI' HP Hs HN He Hd.
  destruct (thm_moved_input normalize o pc e t HB HI HI' He CF s ne Hd HP Hs HN) as (o1 & idx & o1' & idx' & x & x' & E & E' & HM & X & X' & Sx & Sx' & Car).
  destruct (thm_built_ready normalize o pc HB Hf) as (a1 & a2 & o2 & F & G & W & D1 & D2 & D3 & RP). assert (a1 = o1) by congruence. subst a1.
  destruct (thm_built_ready normalize o _ (good' o pc e t HB ltac:(lia)) Hf) as (a1 & a3 & o2' & F' & G' & W' & D1' & D2' & D3' & RP'). assert (a1 = o1') by congruence. subst a1.
  destruct (thm_build_wf normalize o pc HB) as (b1 & b2 & Y & V & V1 & V2 & _). assert (b1 = o1) by congruence. subst b1.
  destruct (thm_build_wf normalize o _ (good' o pc e t HB ltac:(lia))) as (b1 & b3 & Y' & V' & V1' & V2' & _). assert (b1 = o1') by congruence. subst b1.
  destruct (thm_all_neigh o1 V ltac:(lia)) as (c1 & C1 & SD & _). assert (c1 = o2) by congruence. subst c1.
  destruct (thm_all_neigh o1' V' ltac:(lia)) as (c1 & C1' & SD' & _). assert (c1 = o2') by congruence. subst c1.
  assert (NC : forall a b d, same_data a b -> node_count b d ne = node_count a d ne).
  { intros a b d (_ & _ & _ & _ & S). unfold node_count. pose proof (forall2_nth _ _ _ d S) as Q. destruct (nth_error (layers a) d), (nth_error (layers b) d); try contradiction; [|reflexivity].
    destruct Q as (_ & _ & _ & _ & _ & -> & -> & _). reflexivity. }
  exists o2, o2', x, x'. split.
  { destruct HM as (M1 & M2 & M3). split; [congruence|]. split; [congruence|]. intros d cs cs' Hd'. rewrite (same_xyzb o1 o2), (same_xyzb o1' o2') by assumption. apply M3. lia. }
  split; [exact W|]. split; [exact W'|]. split; [exact D1|]. split; [exact RP|]. split; [intros ne'; apply RP'|].
  split; [rewrite (NC o1) by assumption; exact Sx|]. split; [rewrite (NC o1') by assumption; exact Sx'|].
  split; [intros cs cs' i j p; rewrite (same_xyzb o1 o2), (same_xyzb o1' o2') by assumption; apply Car|].
  split; [exists o1, idx; auto|]. split; intros T f; [rewrite E|rewrite E']; cbn [bind]; [rewrite G|rewrite G']; cbn [bind]; [rewrite (same_feature CF o1 o2) by assumption; rewrite X|rewrite (same_feature CF o1' o2') by assumption; rewrite X']; reflexivity.
Qed.
Theorem thm_fair_hr_cloud normalize o pc e t ne mr CF s P cin cout num stages : build_input o pc -> (1 <= full_depth o)%nat ->
  Forall in_box (p_points pc) -> Forall in_box (p_points (moved_cloud e t pc)) -> provides CF s pc -> asks_any s = true -> asks s "P"%char "p"%char = false ->
  channels s CF = cin -> channel_ok cin -> fair_norms mr P -> (1 <= stages <= 4)%nat -> (stages + 2 <= depth o)%nat -> (full_depth o <= e)%nat -> (lowest ne e <= 2)%nat ->
  (forall o1 idx o2, build_octree normalize o pc = Ok (o1, idx) -> construct_all_neigh o1 = Ok o2 ->
     forall d, (2 <= d <= depth o)%nat -> (mr <= node_count o2 d ne)%nat) ->
  let run pc := '(o1, _) <- build_octree normalize o pc ;; o2 <- construct_all_neigh o1 ;; x <- get_input_feature CF o2 s ne ;;
    HRNet P cin cout stages num ne x o2 (Z.of_nat (depth o)) in
  exists y, run pc = Ok y /\ run (moved_cloud e t pc) = Ok y.
Proof.
  intros HB Hf HI HI' HP Hs HN Hch Hc HE Hst Hd He Hl HK. cbv zeta. pose proof (lowest_ok ne e) as (Hlo1 & Hlo2).
  destruct (moved_prepared normalize o pc e t ne CF s HB Hf HI HI' HP Hs HN ltac:(lia) ltac:(intros Hx; specialize (Hlo2 Hx); lia))
    as (o2 & o2' & x & x' & M & W & W' & D & RP & RP' & Sx & Sx' & Car & (o1 & idx & E1 & E2) & Q & Q').
  rewrite (Q _ (fun o2 x => HRNet P cin cout stages num ne x o2 (Z.of_nat (depth o)))), (Q' _ (fun o2 x => HRNet P cin cout stages num ne x o2 (Z.of_nat (depth o)))).
  rewrite Hch in Sx, Sx'. pose proof (HK o1 idx o2 E1 E2) as Kn. apply (thm_fair_hrnet e t o2 o2' ne mr); try assumption; try lia.
  - intros d Hd'. split; [apply (RP ne); lia|apply Kn; lia].
  - intros d Hd'. apply (RP' ne). lia.
  - intros E d Hd'. apply (proj2 (RP ne) E). lia.
Qed.
Theorem thm_moved_hr_cloud normalize o pc e t ne CF s P cin cout num stages : build_input o pc -> (1 <= full_depth o)%nat ->
  Forall in_box (p_points pc) -> Forall in_box (p_points (moved_cloud e t pc)) -> provides CF s pc -> asks_any s = true -> asks s "P"%char "p"%char = false ->
  channels s CF = cin -> channel_ok cin -> eval_mode P -> (1 <= stages <= 4)%nat -> (stages + 2 <= depth o)%nat -> (full_depth o <= e)%nat -> (lowest ne e <= 2)%nat ->
  let run pc := '(o1, _) <- build_octree normalize o pc ;; o2 <- construct_all_neigh o1 ;; x <- get_input_feature CF o2 s ne ;;
    HRNet P cin cout stages num ne x o2 (Z.of_nat (depth o)) in
  exists y, run pc = Ok y /\ run (moved_cloud e t pc) = Ok y.
Proof.
  intros HB Hf HI HI' HP Hs HN Hch Hc HE Hst Hd He Hl. apply (thm_fair_hr_cloud normalize o pc e t ne 0); try assumption; [apply eval_fair, HE|]. intros. lia.
Qed.
Theorem thm_fair_seg_cloud normalize o pc e t mr CF s P cin cout stages lin pts : build_input o pc -> (1 <= full_depth o)%nat ->
  Forall in_box (p_points pc) -> Forall in_box (p_points (moved_cloud e t pc)) -> provides CF s pc -> asks_any s = true -> asks s "P"%char "p"%char = false ->
  channels s CF = cin -> channel_ok cin -> fair_norms mr P -> (1 <= stages)%nat -> (full_depth o <= e)%nat -> (S e + stages <= depth o)%nat ->
  Forall (askable lin (depth o)) pts -> Forall (askable lin (depth o)) (moved_points e t pts) ->
  (mr <= length pts)%nat -> (forall o1 idx o2, build_octree normalize o pc = Ok (o1, idx) -> construct_all_neigh o1 = Ok o2 ->
     forall d, (depth o - stages <= d <= depth o)%nat -> (mr <= node_count o2 d false)%nat) ->
  let run pc pts := '(o1, _) <- build_octree normalize o pc ;; o2 <- construct_all_neigh o1 ;; x <- get_input_feature CF o2 s false ;;
    '(y, _) <- SegNet P cin cout stages lin false x o2 (Z.of_nat (depth o)) pts ;; Ok y in
  exists y, run pc pts = Ok y /\ run (moved_cloud e t pc) (moved_points e t pts) = Ok y /\ shape (length pts) cout y.
Proof.
  intros HB Hf HI HI' HP Hs HN Hch Hc HE Hst He Hd HA HA' Hpts HK. cbv zeta.
  destruct (moved_prepared normalize o pc e t false CF s HB Hf HI HI' HP Hs HN ltac:(lia) ltac:(intros _; lia))
    as (o2 & o2' & x & x' & M & W & W' & D & RP & RP' & Sx & Sx' & Car & (o1 & idx & E1 & E2) & Q & Q').
  rewrite (Q _ (fun o2 x => '(y, _) <- SegNet P cin cout stages lin false x o2 (Z.of_nat (depth o)) pts ;; Ok y)).
  rewrite (Q' _ (fun o2 x => '(y, _) <- SegNet P cin cout stages lin false x o2 (Z.of_nat (depth o)) (moved_points e t pts) ;; Ok y)).
  rewrite Hch in Sx, Sx'. pose proof (HK o1 idx o2 E1 E2) as Kn. destruct (thm_fair_segnet e t o2 o2' mr P cin cout stages lin (depth o) x x' pts) as (y & q & q' & E & E' & Sy); try assumption; try lia.
  - intros d Hd'. split; [apply (RP false); lia|apply Kn; lia].
  - intros d Hd'. apply (RP' false). lia.
  - exists y. rewrite E, E'. auto.
Qed.
Theorem thm_moved_seg_cloud normalize o pc e t CF s P cin cout stages lin pts : build_input o pc -> (1 <= full_depth o)%nat ->
  Forall in_box (p_points pc) -> Forall in_box (p_points (moved_cloud e t pc)) -> provides CF s pc -> asks_any s = true -> asks s "P"%char "p"%char = false ->
  channels s CF = cin -> channel_ok cin -> eval_mode P -> (1 <= stages)%nat -> (full_depth o <= e)%nat -> (S e + stages <= depth o)%nat ->
  Forall (askable lin (depth o)) pts -> Forall (askable lin (depth o)) (moved_points e t pts) ->
  let run pc pts := '(o1, _) <- build_octree normalize o pc ;; o2 <- construct_all_neigh o1 ;; x <- get_input_feature CF o2 s false ;;
    '(y, _) <- SegNet P cin cout stages lin false x o2 (Z.of_nat (depth o)) pts ;; Ok y in
  exists y, run pc pts = Ok y /\ run (moved_cloud e t pc) (moved_points e t pts) = Ok y /\ shape (length pts) cout y.
Proof.
  intros HB Hf HI HI' HP Hs HN Hch Hc HE Hst He Hd HA HA'. apply (thm_fair_seg_cloud normalize o pc e t 0); try assumption; [apply eval_fair, HE|lia|]. intros. lia.
Qed.
