(** Examples for C121. *)
From Coq Require Import Ascii String List ZArith Bool QArith Qcanon Lia.
From Verif Require Import Res Tensor Key Num Points Octree NnBasic NnConv NnInterp Features Net Spec SpecGeo SpecBuild WF SpecNeigh SpecNN SpecNet SpecFeature
  SpecBatch SpecSolver SpecMove SpecMoveSeg SpecLocal BatchExamples Examples ExampleFacts NetExamples BuildFacts BuildClosed BuildThms MoveFacts MoveBuild MoveThms MoveSegExamples StructureFacts LocalThms LocalScene.
Import ListNotations.
Open Scope Z_scope.

Lemma near_cell dep c r x y z b : in_box (x, y, z) -> (near_point dep c r ((x, y, z), b) <-> within dep c r dep (cellc dep x, cellc dep y, cellc dep z, b)).
Proof.
  intros (A & B & C). assert (H : in_cell dep (cellc dep x) (cellc dep y) (cellc dep z) (x, y, z)) by (split; [|split]; apply slab_here; assumption). unfold near_point. cbn [fst snd]. split.
  - intros (X & Y & Z0 & Hc & Hw). assert (U := cell_unique dep _ _ _ _ _ _ (x, y, z) (conj A (conj B C)) Hc H). inversion U. subst. exact Hw.
  - intros Hw. eexists _, _, _. split; [exact H|exact Hw].
Qed.

(** two scenes: three points near the corner; one far point, or two others far away *)
Definition ex_scene (far : list (v3 Qc * v3 Qc * list Qc)) : pcloud Qc :=
  let all := far ++ [((qf (-15) 16, qf (-29) 32, qf (-15) 16), (qf 1 1, qf 0 1, qf 0 1), [qf 1 2; qf 3 1]); ((qf (-15) 16, qf (-15) 16, qf (-31) 32), (qf 0 1, qf 1 1, qf 0 1), [qf 1 3; qf 1 1]);
     ((qf (-1) 32, qf (-15) 16, qf (-1) 2), (qf 0 1, qf 0 1, qf 1 1), [qf 2 1; qf 5 7])] in
  mkPoints (map (fun t => fst (fst t)) all) (Some (map (fun t => snd (fst t)) all)) (Some (map snd all)) None None 1 None 0.
Definition ex_left : pcloud Qc := ex_scene [((qf 1 64, qf 1 64, qf 1 64), (qf 1 1, qf 1 1, qf 0 1), [qf 1 1; qf 1 1])].
Definition ex_right : pcloud Qc := ex_scene [((qf 1 2, qf (-15) 16, qf (-15) 16), (qf 0 1, qf 1 1, qf 1 1), [qf 4 1; qf 1 9]); ((qf 3 4, qf 3 4, qf 1 64), (qf 1 1, qf 0 1, qf 0 1), [qf 1 1; qf 0 1])].
Definition ex_here : v3 Qc := (qf (-59) 64, qf (-59) 64, qf (-59) 64).
Definition ex_there : v3 Qc := (qf 1 64, qf 1 64, qf 1 64).
Lemma ex_reach : unet_reach ex_unet = 13 /\ query_reach true ex_unet = 1 /\ unet_reach unet_default = 364.
Proof. vm_compute. auto. Qed.
Lemma ex_scenes : build_input ex_octree ex_left /\ build_input ex_octree ex_right /\ Forall in_box (p_points ex_left) /\ Forall in_box (p_points ex_right) /\ provides 2 "NdF" ex_left /\ provides 2 "NdF" ex_right.
Proof.
  split; [|split; [|split; [|split; [|split]]]].
  1,2: constructor; cbn; try lia; try reflexivity; constructor; cbn; try congruence; try lia; intros ? H; injection H as <-; try reflexivity; (split; [reflexivity|]); exists 2%nat; repeat constructor.
  1,2: repeat constructor; vm_compute; try discriminate; reflexivity.
  1,2: split; [intros _; discriminate|]; intros _; eexists; split; [reflexivity|]; repeat constructor.
Qed.
Lemma ex_part : in_cell 5 1 1 1 ex_here /\ same_part (near_point 5 (1, 1, 1, 0) 14) ex_left ex_right.
Proof.
  split; [repeat split; vm_compute; try discriminate; reflexivity|]. exists [false; true; true; true], [false; false; true; true; true].
  assert (G : forall (k : bool) x y z, in_box (x, y, z) -> k = ((- 13 <=? cellc 5 x) && (cellc 5 x <=? 15) && ((- 13 <=? cellc 5 y) && (cellc 5 y <=? 15)) && ((- 13 <=? cellc 5 z) && (cellc 5 z <=? 15))) ->
    (k = true <-> near_point 5 (1, 1, 1, 0) 14 ((x, y, z), 0))).
  { intros k x y z H ->. rewrite (near_cell 5 _ _ x y z 0 H). unfold within. cbv zeta. change (2 ^ Z.of_nat (5 - 5)) with 1. rewrite !andb_true_iff, !Z.leb_le. lia. }
  split; [|split; [|split; [|split]]]; [| |vm_compute; reflexivity..].
  - repeat constructor; apply G; vm_compute; repeat split; try discriminate; reflexivity.
  - repeat constructor; apply G; vm_compute; repeat split; try discriminate; reflexivity.
Qed.
Lemma ex_asks : Forall (askable true 5) [(ex_here, 0)] /\ Forall (askable true 5) [(ex_there, 0); (ex_here, 0)].
Proof. split; repeat constructor; vm_compute; try discriminate; reflexivity. Qed.
(** the scores at the corner agree; another scene with other points at the corner has others *)
Lemma ex_agree : nth_error (ex_scores ex_left [(ex_here, 0); (ex_there, 0)]) 0 = nth_error (ex_scores ex_right [(ex_there, 0); (ex_here, 0)]) 1 /\
  nth_error (ex_scores ex_left [(ex_here, 0); (ex_there, 0)]) 0 <> nth_error (ex_scores ex_cloud [(ex_here, 0); (ex_there, 0)]) 0 /\
  List.length (ex_scores ex_left [(ex_here, 0); (ex_there, 0)]) = 2%nat /\ List.length (ex_scores ex_right [(ex_there, 0); (ex_here, 0)]) = 2%nat.
Proof. split; [vm_compute; reflexivity|]. split; [vm_compute; discriminate|split; vm_compute; reflexivity]. Qed.
