(** Examples for C111. *)
From Coq Require Import String List ZArith Bool QArith Qcanon Lia.
From Verif Require Import Res Tensor Num Points Octree Spec SpecGeo SpecBuild SpecStructure WF BuildClosed Examples ExampleFacts StructureFacts.
Import ListNotations.
Open Scope Z_scope.

(** the points of ex_cloud moved inside their cells of layer 3, one of them twice, and one point more *)
Definition ex_near : pcloud Qc :=
  mkPoints [(qf 1 8, qf 1 8, qf (-15) 16); (qf (-7) 8, qf (-1) 1, qf (-13) 16); (qf 1 9, qf 0 1, qf (-1) 1)] None None None None 1 None 0.
Definition ex_more : pcloud Qc :=
  mkPoints (p_points ex_near ++ [(qf 1 2, qf 1 2, qf 1 2)]) None None None None 1 None 0.
Definition ex_octree3 : octree := octree_new 3 1 1 0.

Lemma input_of o l : (full_depth o <= depth o)%nat -> (depth o <= 16)%nat -> batch_size o = 1%nat -> length (layers o) = S (depth o) -> build_input o (mkPoints l None None None None 1 None 0).
Proof. intros A B C D. constructor; try assumption; try lia. constructor; cbn; try congruence; try lia; intros ? H; discriminate H. Qed.

Definition cell_of3 (p : v3 Qc) : Z * Z * Z := let '(x, y, z) := p in (cellc 3 x, cellc 3 y, cellc 3 z).
Lemma point_cells pc q : p_batch_size pc = 1%nat -> Forall in_box (p_points pc) -> (has_point pc 3 q <-> In q (map (fun p => (cell_of3 p, 0)) (p_points pc))).
Proof.
  intros HB HI. destruct q as [[[x y] z] b]. cbn [has_point]. unfold located, point_batches. rewrite HB. cbn [Nat.eqb]. rewrite in_map_iff. rewrite Forall_forall in HI. split.
  - intros ([[px py] pz] & Hp & (A & B & C)). pose proof (in_combine_l _ _ _ _ Hp) as Hi. apply in_combine_r in Hp. apply repeat_spec in Hp. subst b.
    destruct (HI _ Hi) as (U1 & U2 & U3). apply (cellc_slab 3 _ _ U1) in A. apply (cellc_slab 3 _ _ U2) in B. apply (cellc_slab 3 _ _ U3) in C. exists (px, py, pz). split; [cbn [cell_of3]; congruence|exact Hi].
  - intros ([[px py] pz] & E & Hi). destruct (HI _ Hi) as (U1 & U2 & U3). exists (px, py, pz). cbn [cell_of3] in E. split.
    + replace b with 0 by congruence. clear - Hi. induction (p_points pc) as [|p l IH]; [contradiction|]. cbn [length repeat combine In] in *. destruct Hi as [->|Hi]; auto.
    + split; [|split]; apply cellc_slab; try assumption; congruence.
Qed.
Lemma near_box : Forall in_box (p_points ex_near).
Proof. repeat constructor; vm_compute; try discriminate; reflexivity. Qed.
Lemma more_box : Forall in_box (p_points ex_more).
Proof. repeat constructor; vm_compute; try discriminate; reflexivity. Qed.
Lemma ex_near_cells q : has_point ex_cloud 3 q <-> has_point ex_near 3 q.
Proof.
  rewrite !point_cells by (reflexivity || exact ex_box || exact near_box).
  replace (map (fun p => (cell_of3 p, 0)) (p_points ex_cloud)) with [(0, 0, 0, 0); (4, 4, 0, 0); (4, 4, 0, 0)] by (vm_compute; reflexivity).
  replace (map (fun p => (cell_of3 p, 0)) (p_points ex_near)) with [(4, 4, 0, 0); (0, 0, 0, 0); (4, 4, 0, 0)] by (vm_compute; reflexivity).
  cbn [In]. tauto.
Qed.
Lemma ex_structure : build_input ex_octree ex_cloud /\ build_input ex_octree3 ex_near /\ Forall in_box (p_points ex_cloud) /\ Forall in_box (p_points ex_near) /\
  full_depth ex_octree3 = full_depth ex_octree /\ batch_size ex_octree3 = batch_size ex_octree /\ (depth ex_octree3 < depth ex_octree)%nat /\ (1 <= full_depth ex_octree)%nat /\
  (forall q, has_point ex_cloud (depth ex_octree3) q <-> has_point ex_near (depth ex_octree3) q) /\ build_input ex_octree3 ex_cloud.
Proof.
  split; [exact ex_input|]. split; [apply input_of; cbn; lia || reflexivity|]. split; [exact ex_box|]. split; [exact near_box|]. do 2 (split; [reflexivity|]). split; [cbn; lia|]. split; [cbn; lia|]. split; [exact ex_near_cells|].
  destruct ex_input as [_ _ _ _ G]. constructor; try exact G; cbn; lia || reflexivity.
Qed.
Lemma ex_more_cells : build_input ex_octree3 ex_near /\ build_input ex_octree3 ex_more /\ Forall in_box (p_points ex_more) /\
  (forall q, has_point ex_near (depth ex_octree3) q -> has_point ex_more (depth ex_octree3) q) /\ has_point ex_more 3 (6, 6, 6, 0) /\ ~ has_point ex_near 3 (6, 6, 6, 0).
Proof.
  split; [apply input_of; cbn; lia || reflexivity|]. split; [apply input_of; cbn; lia || reflexivity|]. split; [exact more_box|].
  split; [|split].
  - intros q. change (depth ex_octree3) with 3%nat. rewrite !point_cells by (reflexivity || exact near_box || exact more_box). cbn [ex_more p_points]. rewrite map_app. intros H. apply in_or_app. left. exact H.
  - apply point_cells; [reflexivity|exact more_box|]. vm_compute. tauto.
  - intros H. apply point_cells in H; [|reflexivity|exact near_box]. vm_compute in H. intuition discriminate.
Qed.
