(** Examples for C112. *)
From Coq Require Import Ascii String List ZArith Bool QArith Qcanon Lia.
From Verif Require Import Res Tensor Key Num Points Octree NnBasic NnConv NnInterp Features Net Spec SpecGeo SpecBuild WF SpecNeigh SpecNN SpecNet SpecFeature
  SpecBatch SpecSolver SpecMove SpecMoveSeg BatchExamples Examples ExampleFacts NetExamples BuildThms MoveFacts MoveBuild MoveThms MoveExamples MoveSegThms.
Import ListNotations.
Open Scope Z_scope.

Definition ex_asked : list (v3 Qc * Z) := [((qf 1 32, qf 1 64, qf (-31) 32), 0); ((qf 1 10, qf 1 16, qf (-15) 16), 0)].
Definition ex_run (pc : pcloud Qc) (pts : list (v3 Qc * Z)) : res (list (list Qc)) :=
  '(o1, _) <- build_octree ex_norm ex_octree pc ;; o2 <- construct_all_neigh o1 ;; x <- get_input_feature 2 o2 "NdF" true ;;
  '(y, _) <- UNet ex_unet ex_params 6 3 true true x o2 5 pts ;; Ok y.
Lemma ex_ask : unet_config ex_unet /\ (lowest true 3 + List.length (u_enc_blk ex_unet) <= depth ex_octree)%nat /\
  Forall (askable true 5) ex_asked /\ Forall (askable true 5) (moved_points 3 (fun _ => (1, 2, 3)) ex_asked).
Proof. split; [exact ex_unet_ok|]. split; [cbn; lia|]. split; repeat constructor; vm_compute; try discriminate; reflexivity. Qed.
Definition ex_scores (pc : pcloud Qc) (pts : list (v3 Qc * Z)) : list (list Q) := match ex_run pc pts with Ok y => map (map this) y | Err _ => [] end.
Lemma ex_same_scores : ex_scores ex_cloud ex_asked = ex_scores (moved_cloud 3 (fun _ => (1, 2, 3)) ex_cloud) (moved_points 3 (fun _ => (1, 2, 3)) ex_asked) /\
  ex_scores ex_cloud ex_asked <> ex_scores (moved_cloud 3 (fun _ => (1, 2, 3)) ex_cloud) ex_asked /\ List.length (ex_scores ex_cloud ex_asked) = 2%nat.
Proof. split; [vm_compute; reflexivity|]. split; [vm_compute; discriminate|vm_compute; reflexivity]. Qed.
Lemma ex_first_not : ~ keeps_first 0 mirror_x.
Proof. intros H. specialize (H 1%nat (0, 0, 0, 0) ltac:(lia)). vm_compute in H. discriminate. Qed.
