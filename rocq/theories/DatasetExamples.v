(** Concrete samples for the data pipeline. *)
From Coq Require Import String Ascii List ZArith Bool QArith Qcanon Lia.
From Verif Require Import Res Tensor Key Num Points Octree PointsOps Spec SpecGeo SpecBuild SpecMerge SpecPoints WF
  Dataset SpecDataset DatasetFacts TransformFacts Examples ExampleFacts MergeExamples.
Import ListNotations.
Open Scope Z_scope.

(** three collected samples with octrees, points, labels and names *)
Definition ex_samples_out : list (dict value) :=
  map (fun '(o, p, z) => [("octree"%string, VOct o); ("points"%string, VPts p); ("label"%string, VNum z); ("name"%string, VObj 0)])
      (combine (combine ex_ms ex_clouds) [4; 0; 9]).
Ltac no_mention := let H := fresh in intros H; apply contains_spec in H; discriminate H.
Lemma ex_collatable : exists b0 rest, ex_samples_out = b0 :: rest /\ NoDup (map fst b0) /\ List.length rest = 2%nat /\
  map fst b0 = ["octree"; "points"; "label"; "name"]%string /\
  forall k, In k (map fst b0) -> clean_key k /\ exists vs, Forall2 (fun b v => dlookup b k = Some v) (b0 :: rest) vs /\ collatable true k vs.
Proof.
  assert (L : List.length ex_ms = 3%nat) by reflexivity. pose proof ex_mergeable as M.
  assert (F : full_depth ex_m0 = 1%nat) by reflexivity.
  assert (LC : List.length ex_clouds = 3%nat) by reflexivity.
  assert (CO : ex_clouds <> [] /\ cat_ok p_normals ex_clouds /\ cat_ok p_features ex_clouds /\ cat_ok p_labels ex_clouds).
  { split; [discriminate|]. split; [|split]; intros _; repeat constructor; discriminate. }
  unfold ex_samples_out. revert L M LC CO. generalize ex_ms ex_clouds. intros ms cs L M LC CO.
  destruct ms as [|o1 [|o2 [|o3 [|]]]]; try discriminate L. destruct cs as [|p1 [|p2 [|p3 [|]]]]; try discriminate LC.
  cbn [combine map]. do 2 eexists. split; [reflexivity|]. cbn [map fst List.length].
  split; [repeat constructor; cbn; intuition discriminate|]. split; [reflexivity|]. split; [reflexivity|].
  intros k [<-|[<-|[<-|[<-|[]]]]].
  - split; [split; [intros [_ H]; revert H; no_mention|no_mention]|]. exists (map VOct [o1; o2; o3]). split; [repeat constructor|].
    split; [intros _; exists ex_m0, [o1; o2; o3]; split; [reflexivity|]; split; [exact M|lia]|]. split; no_mention.
  - split; [split; [intros [H _]; revert H; no_mention|no_mention]|]. exists (map VPts [p1; p2; p3]). split; [repeat constructor|].
    split; [no_mention|]. split; [intros _ _; exists [p1; p2; p3]; split; [reflexivity|exact CO]|no_mention].
  - split; [split; [intros [H _]; revert H; no_mention|reflexivity]|]. exists (map VNum [4; 0; 9]). split; [repeat constructor|].
    split; [no_mention|]. split; [no_mention|]. intros _. eexists; reflexivity.
  - split; [split; [intros [H _]; revert H; no_mention|no_mention]|]. eexists [_; _; _]. split; [repeat constructor|].
    split; [no_mention|]. split; no_mention.
Qed.

Definition ex_cfg : transform_cfg := mkTransform 5 2 true "y".
(** flip x, a quarter turn about z, a shift and a stretch *)
Definition ex_draw : draw :=
  mkDraw "xzx" ((qz 0, qz 1, qz 0), (qz (-1), qz 0, qz 0), (qz 0, qz 0, qz 1)) (qf 1 10, qz 0, qf (-1) 10) (qf 5 4, qf 5 4, qf 3 4).
Definition ex_sample1 : dict value :=
  [("name"%string, VObj 1); ("points"%string, VArr [(qf 1 3, qf 1 2, qf 1 5); (qf 9 10, qf 0 1, qf 0 1); (qf (-1) 2, qf 1 7, qf 2 3)]);
   ("normals"%string, VArr [(qz 1, qz 0, qz 0); (qz 0, qz 1, qz 0); (qz 0, qz 0, qz (-1))]); ("label"%string, VNum 2)].
Definition ex_sample2 : dict value :=
  [("points"%string, VArr [(qf 1 3, qf 1 2, qf 1 5)]); ("label"%string, VNum 7); ("normals"%string, VArr [(qz 0, qz 1, qz 0)]);
   ("name"%string, VObj 2); ("extra"%string, VObj 3)].
Lemma ex_draw_ok : draw_ok ex_draw.
Proof. split; [apply Forall_forall; intros a; cbn; tauto|]. cbn. split; [discriminate|]. split; discriminate. Qed.
Lemma ex_sample_ok : (exists xyz n, sample_ok ex_sample1 xyz n /\ List.length xyz = 3%nat /\ map (augmented ex_draw) xyz <> xyz) /\ exists xyz n, sample_ok ex_sample2 xyz n.
Proof.
  split.
  - do 2 eexists. split; [split; [|split; [reflexivity|split; reflexivity]]|]. { repeat constructor; cbn; intuition discriminate. }
    split; [reflexivity|]. intros H. vm_compute in H. discriminate H.
  - do 2 eexists. split; [|split; [reflexivity|split; reflexivity]]. repeat constructor; cbn; intuition discriminate.
Qed.
Lemma ex_transform_ok : cfg_ok ex_cfg /\ draw_ok ex_draw /\ t_distort ex_cfg = true /\ exists xyz n, sample_ok ex_sample1 xyz n /\ List.length xyz = 3%nat /\
  map (augmented ex_draw) xyz <> xyz.
Proof.
  split; [split; [cbn; lia|split; [cbn; lia|cbn; auto]]|]. split; [exact ex_draw_ok|]. split; [reflexivity|]. exact (proj1 ex_sample_ok).
Qed.
Lemma ex_pipeline_ok : List.length [ex_draw; ex_draw] = List.length [ex_sample1; ex_sample2] /\ Forall draw_ok [ex_draw; ex_draw] /\
  Forall (fun s => exists xyz n, sample_ok s xyz n) [ex_sample1; ex_sample2] /\
  forall s0 k, hd_error [ex_sample1; ex_sample2] = Some s0 -> In k (map fst s0) -> ~ In k ["points"; "normals"; "inbox_mask"; "octree"]%string ->
     clean_key k /\ exists vs, Forall2 (fun s v => dlookup s k = Some v) [ex_sample1; ex_sample2] vs /\ collatable true k vs.
Proof.
  split; [reflexivity|]. split; [repeat constructor; apply ex_draw_ok|]. split.
  - destruct ex_sample_ok as [(x & n & H & _) H2]. constructor; [exists x, n; exact H|]. constructor; [exact H2|constructor].
  - intros s0 k E. injection E as <-. cbn [map fst ex_sample1]. intros [<-|[<-|[<-|[<-|[]]]]] Hn.
    + split; [split; [intros [H _]; revert H; no_mention|no_mention]|]. eexists [_; _]. split; [repeat constructor|]. split; [no_mention|]. split; no_mention.
    + exfalso. apply Hn. cbn. auto.
    + exfalso. apply Hn. cbn. auto.
    + split; [split; [intros [H _]; revert H; no_mention|reflexivity]|]. exists (map VNum [2; 7]). split; [repeat constructor|].
      split; [no_mention|]. split; [no_mention|]. intros _. eexists; reflexivity.
Qed.
