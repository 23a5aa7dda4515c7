(** Example clouds and octrees for the merge theorems. *)
From Coq Require Import List ZArith Bool Qcanon Lia.
From Verif Require Import Res Tensor Key Num Points Octree Spec SpecGeo SpecBuild SpecMerge WF WFFacts BuildMerge MergeFacts Examples ExampleFacts.
Import ListNotations.
Open Scope Z_scope.

Definition ex_empty : pcloud Qc := mkPoints [] (Some []) (Some []) (Some []) None 1 None 0.
Definition ex_cloud3 : pcloud Qc :=
  mkPoints [(qf (-3) 16, qf (-5) 16, qf (-7) 16); (qf (-2) 5, qf (-2) 5, qf (-2) 5)]
    (Some [(qf 0 1, qf 0 1, qf 1 1); (qf 0 1, qf 1 1, qf 1 1)])
    (Some [[qf 1 2; qf 1 3]; [qf 5 1; qf 7 1]]) (Some [[qf 1 1]; [qf 0 1]]) None 1 None 0.
Definition ex_clouds : list (pcloud Qc) := [ex_cloud; ex_empty; ex_cloud3].

Lemma ex_good p : In p ex_clouds -> good_cloud 1 p.
Proof.
  intros [<-|[<-|[<-|[]]]]; constructor; try reflexivity; try lia; cbn; intros; try congruence.
  - injection H as <-. reflexivity.
  - injection H as <-. split; [reflexivity|]. exists 2%nat. repeat constructor.
  - injection H as <-. reflexivity.
  - injection H as <-. split; [reflexivity|]. exists 0%nat. constructor.
  - injection H as <-. reflexivity.
  - injection H as <-. split; [reflexivity|]. exists 2%nat. repeat constructor.
Qed.

Lemma ex_clouds_ok : clouds_ok 0 ex_clouds.
Proof.
  split; [discriminate|]. split; [apply Forall_forall; exact ex_good|]. split; [repeat constructor|].
  split; [intros _; repeat (constructor; [discriminate|]); constructor|].
  split; [intros _; repeat (constructor; [discriminate|]); constructor|].
  split; [intros _; repeat (constructor; [discriminate|]); constructor|].
  exists 2%nat. intros p f [<-|[<-|[<-|[]]]] E; cbn in E; injection E as <-; repeat constructor.
Qed.

Definition ex_ms : list octree :=
  match mapM (fun p => r <- build_octree ex_norm (octree_new 4 1 1 0) p ;; Ok (fst r)) ex_clouds with Ok os => os | Err _ => [] end.
Definition ex_m0 : octree := match ex_ms with o :: _ => o | [] => ex_octree end.

Lemma ex_mergeable : mergeable ex_m0 ex_ms.
Proof.
  destruct (builds ex_norm 4 1 0 ex_cloud [ex_empty; ex_cloud3]) as (os & E & H); [lia|lia|exact ex_clouds_ok|].
  assert (Eo : ex_ms = os) by (unfold ex_ms, ex_clouds; unfold o1 in E; rewrite E; reflexivity).
  rewrite Eo. apply (built_mem ex_norm 4 1 0 ex_cloud [ex_empty; ex_cloud3]); [cbn; lia|exact ex_clouds_ok|exact H|].
  unfold ex_m0. rewrite Eo. inversion H; subst. reflexivity.
Qed.
