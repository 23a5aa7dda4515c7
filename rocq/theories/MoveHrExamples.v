(** Examples for C115. *)
From Coq Require Import Ascii String List ZArith Bool QArith Qcanon Lia.
From Verif Require Import Res Tensor Key Num Points Octree NnBasic NnConv NnInterp Features Net Spec SpecGeo SpecBuild WF SpecNeigh SpecNN SpecNet SpecFeature
  SpecBatch SpecSolver SpecMove SpecMoveSeg BatchExamples Examples ExampleFacts NetExamples BuildThms MoveFacts MoveBuild MoveThms MoveExamples MoveSegExamples.
Import ListNotations.
Open Scope Z_scope.

Definition ex_far : pcloud Qc := moved_cloud 2 (fun _ => (1, 0, 2)) ex_cloud.
Lemma ex_hr : build_input ex_octree ex_cloud /\ Forall in_box (p_points ex_cloud) /\ Forall in_box (p_points ex_far) /\ provides 2 "NdF" ex_cloud /\
  channels "NdF" 2 = 6%nat /\ eval_mode ex_params /\ (1 <= 3 <= 4)%nat /\ (3 + 2 <= depth ex_octree)%nat /\ (full_depth ex_octree <= 2)%nat /\ (lowest true 2 <= 2)%nat.
Proof.
  destruct ex_move as (H1 & H2 & _ & H4 & _ & _ & H7 & H8 & _).
  split; [exact H1|]. split; [exact H2|]. split; [repeat constructor; vm_compute; try discriminate; reflexivity|]. split; [exact H4|]. split; [exact H7|]. split; [exact H8|]. cbn. lia.
Qed.
Lemma ex_seg_ask : (full_depth ex_octree <= 2)%nat /\ (3 + 2 <= depth ex_octree)%nat /\
  Forall (askable false (depth ex_octree)) ex_asked /\ Forall (askable false (depth ex_octree)) (moved_points 2 (fun _ => (1, 0, 2)) ex_asked).
Proof. split; [cbn; lia|]. split; [cbn; lia|]. split; repeat constructor; vm_compute; try discriminate; reflexivity. Qed.
(** pooling and unpooling of two nodes with one parent *)
Definition ex_record (pc : pcloud Qc) (x : list (list Qc)) : res (list (Z * Z * Z * Z) * list (list Q) * list (list Z) * list (list Q)) :=
  '(o1, _) <- build_octree ex_norm ex_octree pc ;; cs <- octree_xyzb o1 5 true ;;
  '(y, idx) <- max_pool_ind 2 true x o1 5 ;; u <- octree_max_unpool y idx o1 4 true ;; Ok (cs, map (map this) y, idx, map (map this) u).
Definition ex_three : list (list Qc) := [[qz 1; qz 2]; [qz 5; qz 3]; [qz 4; qz 9]].
Lemma ex_recorded : ex_record ex_cloud ex_three = Ok ([(0, 0, 0, 0); (16, 16, 0, 0); (17, 17, 0, 0)], [[1; 2]; [5; 9]]%Q, [[0; 0]; [0; 6]], [[1; 2]; [5; 0]; [0; 9]]%Q) /\
  ex_record ex_far ex_three = Ok ([(8, 0, 16, 0); (24, 16, 16, 0); (25, 17, 16, 0)], [[1; 2]; [5; 9]]%Q, [[0; 0]; [0; 6]], [[1; 2]; [5; 0]; [0; 9]]%Q).
Proof. split; vm_compute; reflexivity. Qed.
(** a mirror image does not keep the numbers of children *)
Lemma ex_child_not : child_no (mirror_x 3 (1, 1, 2, 0)) <> child_no (1, 1, 2, 0).
Proof. vm_compute. discriminate. Qed.
