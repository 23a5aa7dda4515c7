(** Examples for C110. *)
From Coq Require Import Ascii String List ZArith Bool QArith Qcanon Lia.
From Verif Require Import Res Tensor Key Num Points Octree NnBasic NnConv Features Net Spec SpecGeo SpecBuild WF SpecNeigh SpecNN SpecNet SpecFeature
  SpecBatch SpecSolver SpecMove BatchExamples Examples ExampleFacts NetExamples BuildThms MoveFacts MoveBuild MoveThms.
Import ListNotations.
Open Scope Z_scope.

Ltac box := repeat constructor; vm_compute; try discriminate; reflexivity.
Lemma ex_move : build_input ex_octree ex_cloud /\ Forall in_box (p_points ex_cloud) /\ Forall in_box (p_points (moved_cloud 3 (fun _ => (1, 2, 3)) ex_cloud)) /\
  provides 2 "NdF" ex_cloud /\ asks_any "NdF" = true /\ asks "NdF" "P" "p" = false /\ channels "NdF" 2 = 6%nat /\ eval_mode ex_params /\
  (full_depth ex_octree <= 3)%nat /\ (3 + 2 <= depth ex_octree)%nat.
Proof.
  split; [exact ex_input|]. split; [exact ex_box|]. split; [box|].
  split; [split; [intros _; discriminate|intros _; eexists; split; [reflexivity|repeat constructor]]|].
  split; [reflexivity|]. split; [reflexivity|]. split; [reflexivity|]. split; [exact ex_eval|]. cbn. lia.
Qed.
Lemma ex_move_batch : build_input ex_octree2 ex_batch /\ Forall in_box (p_points ex_batch) /\
  Forall in_box (p_points (moved_cloud 2 (fun b => if b =? 0 then (0, 1, -1) else (-2, 0, -3)) ex_batch)) /\ provides 1 "Lf" ex_batch /\
  (c <- (r <- build_octree ex_norm ex_octree2 ex_batch ;; octree_xyzb (fst r) 3 true) ;; Ok c) = Ok [(0, 4, 7, 0); (5, 2, 7, 0); (5, 2, 7, 1)] /\
  (c <- (r <- build_octree ex_norm ex_octree2 (moved_cloud 2 (fun b => if b =? 0 then (0, 1, -1) else (-2, 0, -3)) ex_batch) ;; octree_xyzb (fst r) 3 true) ;; Ok c)
    = Ok [(0, 6, 5, 0); (5, 4, 5, 0); (1, 2, 1, 1)].
Proof.
  split; [exact ex_input2|]. split; [exact ex_box2|]. split; [box|]. split; [|split; vm_compute; reflexivity].
  split; [intros H; discriminate H|intros _; eexists; split; [reflexivity|repeat constructor]].
Qed.

Definition side_cloud (k : Z) : pcloud Qc :=
  mkPoints [(qf (k * -5) 8, qf (-5) 8, qf (-3) 8); (qf (k * 5) 8, qf (-3) 8, qf 3 8)] None None None None 1 None 0.
Definition side_octree (k : Z) : octree := match build_octree ex_norm (octree_new 3 1 1 0) (side_cloud k) with Ok (o, _) => o | Err _ => ex_octree end.
Definition ex_side : octree := side_octree 1.
Definition ex_side' : octree := side_octree (-1).
Definition ex_kernel : list feat := map (fun k => [[qz (Z.of_nat k)]]) (seq 0 27).

Lemma side_wf k : wf_octree (side_octree k).
Proof.
  assert (B : build_input (octree_new 3 1 1 0) (side_cloud k)) by (constructor; cbn; try lia; constructor; cbn; try lia; try congruence; intros ? H; discriminate H).
  destruct (thm_build_wf ex_norm _ _ B) as (o & idx & E & W & _). unfold side_octree. rewrite E. exact W.
Qed.
Definition cell_in (q : Z * Z * Z * Z) (l : list (Z * Z * Z * Z)) : bool := if in_dec cell_dec q l then true else false.
Lemma cell_in_spec q l : cell_in q l = true <-> In q l.
Proof. unfold cell_in. destruct (in_dec cell_dec q l); split; intros H; auto; discriminate. Qed.
Lemma mirror_mirror d q : mirror_x d (mirror_x d q) = q.
Proof. destruct q as [[[x y] z] b]. unfold mirror_x. repeat f_equal. lia. Qed.
Lemma ex_side_moved : moved 0 mirror_x ex_side ex_side'.
Proof.
  split; [vm_compute; reflexivity|]. split; [vm_compute; reflexivity|]. intros d cs cs' Hd E E' q.
  assert (C : forallb (fun c => cell_in (mirror_x d c) cs') cs && forallb (fun c => cell_in (mirror_x d c) cs) cs' = true).
  { assert (D : (d <= 3)%nat) by (change (depth ex_side) with 3%nat in Hd; lia). clear Hd q.
    assert (G : match octree_xyzb ex_side d true, octree_xyzb ex_side' d true with
      | Ok cs, Ok cs' => forallb (fun c => cell_in (mirror_x d c) cs') cs && forallb (fun c => cell_in (mirror_x d c) cs) cs' = true | _, _ => True end).
    { clear E E'. do 4 (destruct d as [|d]; [vm_compute; reflexivity|]). lia. }
    rewrite E, E' in G. exact G. }
  apply andb_true_iff in C. destruct C as (C1 & C2). rewrite forallb_forall in C1, C2. split; intros H.
  - specialize (C2 _ H). rewrite mirror_mirror in C2. apply cell_in_spec. exact C2.
  - apply cell_in_spec. apply C1. exact H.
Qed.
Lemma ex_mirror : moved 0 mirror_x ex_side ex_side' /\ wf_octree ex_side /\ wf_octree ex_side' /\
  octree_xyzb ex_side 3 true = Ok [(1, 1, 2, 0); (6, 2, 5, 0)] /\ octree_xyzb ex_side' 3 true = Ok [(1, 2, 5, 0); (6, 1, 2, 0)] /\
  turned turn_x "333" ex_kernel (skipn 18 ex_kernel ++ firstn 9 (skipn 9 ex_kernel) ++ firstn 9 ex_kernel) /\
  ex_kernel <> skipn 18 ex_kernel ++ firstn 9 (skipn 9 ex_kernel) ++ firstn 9 ex_kernel.
Proof.
  split; [exact ex_side_moved|]. split; [apply side_wf|]. split; [apply side_wf|]. split; [vm_compute; reflexivity|]. split; [vm_compute; reflexivity|]. split.
  - intros k v Hk. assert (L : (k < 27)%nat) by (change 27%nat with (length (box "333")); apply nth_error_Some; congruence). exists ((2 - k / 9) * 9 + k mod 9)%nat.
    do 27 (destruct k as [|k]; [vm_compute in Hk; injection Hk as <-; split; vm_compute; reflexivity|]). lia.
  - intros H. apply (f_equal (fun l => this (nth 0 (nth 0 (nth 0 l []) []) 0%Qc))) in H. vm_compute in H. discriminate.
Qed.
Lemma ex_finer : (o1 <- build_octree ex_norm ex_octree ex_cloud ;; Ok (map nnum_nempty (layers (fst o1)))) = Ok [1; 2; 2; 2; 2; 3] /\
  (o1 <- build_octree ex_norm ex_octree (moved_cloud 5 (fun _ => (1, 1, 0)) ex_cloud) ;; Ok (map nnum_nempty (layers (fst o1)))) = Ok [1; 2; 2; 2; 3; 3].
Proof. split; vm_compute; reflexivity. Qed.
