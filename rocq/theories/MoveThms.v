(** Moving a shape: the layers one by one. *)
From Coq Require Import String List ZArith Bool QArith Qcanon Lia.
From Verif Require Import Res Tensor Key Num Points Octree NnBasic NnConv Features Net Spec SpecGeo SpecBuild WF SpecNeigh SpecNN SpecNet SpecMove MoveFacts MoveNet MoveBuild.
Import ListNotations.
Open Scope Z_scope.

Theorem thm_motions : (forall e t, motion e (shift e t) (fun v => v)) /\ motion 0 mirror_x turn_x /\ motion 0 swap_xy turn_xy /\
  motion 0 swap_yz turn_yz /\
  (forall e e' s s' turn turn', motion e s turn -> motion e' s' turn' ->
     motion (Nat.max e e') (fun d q => s' d (s d q)) (fun v => turn' (turn v))).
Proof. split; [exact thm_shift|]. split; [exact thm_mirror|]. split; [exact thm_swap_xy|]. split; [exact thm_swap_yz|exact thm_compose]. Qed.

Theorem thm_moved_conv e s turn o o' ne d ks kernel ci co mb x x' W W' bias : motion e s turn -> moved e s o o' -> wf_octree o' ->
  (lowest ne e <= d)%nat -> conv_ready o d kernel 1 -> conv_ready o' d kernel 1 -> In (ks, kernel) kernel_sizes ->
  shape (node_count o d ne) ci x -> shape (node_count o' d ne) ci x' -> carried ne s o o' d x x' ->
  shape3 (length (box kernel)) ci co W -> shape3 (length (box kernel)) ci co W' -> turned turn kernel W W' -> bias_ok co bias ->
  Z.of_nat (length (box kernel)) * Z.of_nat ci <= mb ->
  exists y y', OctreeConv (mkCfg ci co ks 1 ne mb true) false W bias x o d = Ok y /\
    OctreeConv (mkCfg ci co ks 1 ne mb true) false W' bias x' o' d = Ok y' /\
    shape (node_count o d ne) co y /\ shape (node_count o' d ne) co y' /\ carried ne s o o' d y y'.
Proof. intros HM HO W1 He Q Q'. apply (move_conv e s turn o o' ne (lowest ne e) (lowest_ok ne e) HM HO (proj1 Q) W1); assumption. Qed.

Theorem thm_moved_pool e s turn o o' ne d C x x' : motion e s turn -> moved e s o o' -> wf_octree o -> wf_octree o' ->
  (lowest ne e <= d)%nat -> (S d <= depth o)%nat -> (ne = true -> branching o d) ->
  shape (node_count o (S d) ne) C x -> shape (node_count o' (S d) ne) C x' -> carried ne s o o' (S d) x x' ->
  exists y y', max_pool C ne x o (Z.of_nat (S d)) = Ok y /\ max_pool C ne x' o' (Z.of_nat (S d)) = Ok y' /\
    shape (node_count o d ne) C y /\ shape (node_count o' d ne) C y' /\ carried ne s o o' d y y'.
Proof.
  intros HM HO W W' He Hd Hb Hx Hx' Hc. destruct (move_pool e s turn o o' ne (lowest ne e) (lowest_ok ne e) HM HO W W' d C x x' He Hd Hb) as (y & y' & A & B & C1 & C2 & C3); [split; [|split]; assumption|].
  exists y, y'. auto.
Qed.

Theorem thm_moved_global e s turn o o' ne d C x x' : motion e s turn -> moved e s o o' -> wf_octree o -> wf_octree o' ->
  (lowest ne e <= d <= depth o)%nat -> shape (node_count o d ne) C x -> shape (node_count o' d ne) C x' -> carried ne s o o' d x x' ->
  exists y, octree_global_pool C x o d ne = Ok y /\ octree_global_pool C x' o' d ne = Ok y.
Proof. intros HM HO W W' Hd Hx Hx' Hc. apply (move_global e s turn o o' ne (lowest ne e) (lowest_ok ne e) HM HO W W' d C x x' Hd). split; [|split]; assumption. Qed.
