(** Examples for C118 and C119. *)
From Coq Require Import Ascii String List ZArith Bool QArith Qcanon Lia.
From Verif Require Import Res Tensor Key Num Points Octree NnBasic NnConv Features Net Spec SpecGeo SpecBuild WF SpecNeigh SpecMerge SpecNN SpecNet
  SpecBatch SpecMove SpecMoveSeg BuildThms NeighThms MergeExamples BatchThms BatchExamples Examples ExampleFacts ConvExamples NetExamples MoveThms MoveSegThms MoveExamples ShuffleExamples.
Import ListNotations.
Open Scope Z_scope.

(** three samples, their features and the gradients at the output *)
Definition ex_ones : list feat := map (fun oi => ex_x (node_count oi 1 true) 1) ex_bos.
Definition ex_nine : list feat := map (fun k => [[qz (Z.of_nat k)]]) (seq 0 9).
Definition show (r : res (feat * list feat)) : list (list Q) * list Q :=
  match r with Ok (gd, gw) => (map (map this) gd, map (fun m => this (at2 m 0 0)) gw) | Err _ => ([], []) end.
Definition ex_back (o : octree) (x : feat) : list (list Q) * list Q :=
  show (conv_backward (mkCfg 1 1 [3; 3; 1]%nat 1 true 100 true) o 1 x ex_nine x).
Lemma ex_batch_grad : mergeable ex_m0 ex_ms /\ batched ex_ms ex_om ex_bos /\ (1 <= full_depth ex_m0)%nat /\ (1 <= depth ex_m0)%nat /\
  In ([3; 3; 1]%nat, "331"%string) kernel_sizes /\ shape3 (List.length (box "331")) 1 1 ex_nine /\ Forall2 (fun oi x => shape (node_count oi 1 true) 1 x) ex_bos ex_ones /\
  map (fun q => ex_back (fst q) (snd q)) (combine ex_bos ex_ones) =
    [([[-12]; [-32]], [6; 0; 0; 0; 13; 0; 0; 0; 6]); ([], [0; 0; 0; 0; 0; 0; 0; 0; 0]); ([[-12]], [0; 0; 0; 0; 9; 0; 0; 0; 0])]%Q /\
  ex_back ex_om (concat ex_ones) = ([[-12]; [-32]; [-12]], [6; 0; 0; 0; 22; 0; 0; 0; 6])%Q.
Proof.
  split; [exact ex_mergeable|]. split; [exact ex_om_batched|]. split; [vm_compute; auto|]. split; [vm_compute; auto|]. split; [cbn; tauto|].
  split; [split; [reflexivity|repeat constructor]|]. split; [apply ex_inputs|]. split; vm_compute; reflexivity.
Qed.

(** the two shapes of C110, with their neighbours *)
Definition ex_left : octree := match construct_all_neigh ex_side with Ok o => o | Err _ => ex_octree end.
Definition ex_right : octree := match construct_all_neigh ex_side' with Ok o => o | Err _ => ex_octree end.
Definition ex_flip : list feat := skipn 18 ex_kernel ++ firstn 9 (skipn 9 ex_kernel) ++ firstn 9 ex_kernel.
Lemma ex_sides k o : construct_all_neigh (side_octree k) = Ok o -> depth (side_octree k) = 3%nat -> full_depth (side_octree k) = 1%nat -> depth o = 3%nat ->
  wf_octree o /\ forall kernel, In kernel kernels -> conv_ready o 1 kernel 1.
Proof.
  intros E D F D'. destruct (thm_all_neigh (side_octree k) (side_wf k)) as (o' & E' & _ & W & N); [lia|]. rewrite E in E'. injection E' as <-.
  split; [exact W|]. intros kernel Hk. split; [exact W|]. split; [lia|]. split; [apply N; lia|]. split; [exact Hk|]. left. reflexivity.
Qed.
Lemma ex_left_built : construct_all_neigh ex_side = Ok ex_left.
Proof. destruct (thm_all_neigh ex_side (side_wf 1)) as (o & E & _); [vm_compute; auto|]. unfold ex_left. rewrite E. reflexivity. Qed.
Lemma ex_right_built : construct_all_neigh ex_side' = Ok ex_right.
Proof. destruct (thm_all_neigh ex_side' (side_wf (-1))) as (o & E & _); [vm_compute; auto|]. unfold ex_right. rewrite E. reflexivity. Qed.
Lemma ex_moved_sides : moved 0 mirror_x ex_left ex_right.
Proof.
  split; [vm_compute; reflexivity|]. split; [vm_compute; reflexivity|]. intros d cs cs' Hd E E'.
  assert (D0 : depth ex_left = 3%nat) by (vm_compute; reflexivity). assert (D1 : depth ex_side = 3%nat) by (vm_compute; reflexivity). assert (D : (d <= 3)%nat) by lia.
  assert (S : octree_xyzb ex_left d true = octree_xyzb ex_side d true /\ octree_xyzb ex_right d true = octree_xyzb ex_side' d true).
  { clear Hd E E' D0 D1. do 4 (destruct d as [|d]; [split; vm_compute; reflexivity|]). lia. }
  destruct S as (S & S'). rewrite S in E. rewrite S' in E'. destruct ex_side_moved as (_ & _ & M). apply (M d cs cs'); [lia|exact E|exact E'].
Qed.
Lemma ex_two (a b : vec) : carried true mirror_x ex_left ex_right 1 [a; b] [b; a].
Proof.
  intros cs cs' i j q E E' Hi Hj. assert (C : octree_xyzb ex_left 1 true = Ok [(0, 0, 0, 0); (1, 0, 1, 0)]) by (vm_compute; reflexivity).
  assert (C' : octree_xyzb ex_right 1 true = Ok [(0, 0, 1, 0); (1, 0, 0, 0)]) by (vm_compute; reflexivity).
  rewrite C in E. rewrite C' in E'. injection E as <-. injection E' as <-. clear C C'.
  destruct i as [|[|[|i]]]; cbn in Hi; try discriminate; injection Hi as <-; destruct j as [|[|[|j]]]; vm_compute in Hj; try discriminate; reflexivity.
Qed.
Lemma ex_move_grad : motion 0 mirror_x turn_x /\ moved 0 mirror_x ex_left ex_right /\ wf_octree ex_left /\ wf_octree ex_right /\
  conv_ready ex_left 1 "333" 1 /\ conv_ready ex_right 1 "333" 1 /\ In ([3%nat], "333"%string) kernel_sizes /\
  shape (node_count ex_left 1 true) 1 [[qz 1]; [qz 2]] /\ carried true mirror_x ex_left ex_right 1 [[qz 1]; [qz 2]] [[qz 2]; [qz 1]] /\
  turned turn_x "333" ex_kernel ex_flip /\ shape3 (List.length (box "333")) 1 1 ex_kernel /\ shape3 (List.length (box "333")) 1 1 ex_flip /\
  show (conv_backward (mkCfg 1 1 [3%nat] 1 true 100 true) ex_left 1 [[qz 1]; [qz 2]] ex_kernel [[qz 5]; [qz 7]]) =
    ([[86]; [206]], [0; 0; 0; 7; 0; 0; 0; 0; 0; 0; 0; 0; 0; 19; 0; 0; 0; 0; 0; 0; 0; 0; 0; 10; 0; 0; 0])%Q /\
  show (conv_backward (mkCfg 1 1 [3%nat] 1 true 100 true) ex_right 1 [[qz 2]; [qz 1]] ex_flip [[qz 7]; [qz 5]]) =
    ([[206]; [86]], [0; 0; 0; 0; 0; 10; 0; 0; 0; 0; 0; 0; 0; 19; 0; 0; 0; 0; 0; 0; 0; 7; 0; 0; 0; 0; 0])%Q.
Proof.
  split; [apply thm_motions|]. split; [exact ex_moved_sides|].
  destruct (ex_sides 1 ex_left ex_left_built) as (W & R); [vm_compute; reflexivity..|]. destruct (ex_sides (-1) ex_right ex_right_built) as (W' & R'); [vm_compute; reflexivity..|].
  split; [exact W|]. split; [exact W'|]. split; [apply R; cbn; tauto|]. split; [apply R'; cbn; tauto|]. split; [cbn; tauto|].
  split; [split; [vm_compute; reflexivity|repeat constructor]|]. split; [apply ex_two|]. split; [apply ex_mirror|].
  split; [split; [reflexivity|repeat constructor]|]. split; [split; [reflexivity|repeat constructor]|]. split; vm_compute; reflexivity.
Qed.

(** two shapes that differ by the exchange of the first two axes; the nodes change their order *)
Definition cross_octree (f : v3 Qc -> v3 Qc) : octree :=
  match build_octree ex_norm (octree_new 3 1 1 0) (mkPoints [f (qf (-5) 8, qf 3 8, qf (-3) 8); f (qf 5 8, qf (-5) 8, qf 3 8)] None None None None 1 None 0) with Ok (o, _) => o | Err _ => ex_octree end.
Definition with_neigh (o : octree) : octree := match construct_all_neigh o with Ok o => o | Err _ => ex_octree end.
Definition ex_cross : octree := with_neigh (cross_octree (fun p => p)).
Definition ex_cross' : octree := with_neigh (cross_octree (fun p => let '(x, y, z) := p in (y, x, z))).
Definition ex_exch : list feat := map (fun k => [[qz (Z.of_nat (9 * ((k / 3) mod 3) + 3 * (k / 9) + k mod 3))]]) (seq 0 27).
Lemma cross_ready f : depth (cross_octree f) = 3%nat -> full_depth (cross_octree f) = 1%nat -> depth (with_neigh (cross_octree f)) = 3%nat ->
  wf_octree (with_neigh (cross_octree f)) /\ conv_ready (with_neigh (cross_octree f)) 2 "333" 2.
Proof.
  intros D F D'. assert (WC : wf_octree (cross_octree f)).
  { unfold cross_octree. set (pc := mkPoints _ _ _ _ _ _ _ _).
    assert (B : build_input (octree_new 3 1 1 0) pc) by (constructor; cbn; try lia; constructor; cbn; try lia; try congruence; intros ? H; discriminate H).
    destruct (thm_build_wf ex_norm _ _ B) as (o & idx & E & W & _). rewrite E. exact W. }
  destruct (thm_all_neigh (cross_octree f) WC) as (o' & E' & _ & W & N); [lia|]. unfold with_neigh in *. rewrite E' in *.
  split; [exact W|]. split; [exact W|]. split; [lia|]. split; [apply N; lia|]. split; [cbn; tauto|]. right. split; [reflexivity|lia].
Qed.
Lemma swap_swap d q : swap_xy d (swap_xy d q) = q. Proof. destruct q as [[[x y] z] b]. reflexivity. Qed.
Lemma ex_cross_moved : moved 0 swap_xy ex_cross ex_cross'.
Proof.
  split; [vm_compute; reflexivity|]. split; [vm_compute; reflexivity|]. intros d cs cs' Hd E E' q.
  assert (D : (d <= 3)%nat) by (assert (D0 : depth ex_cross = 3%nat) by (vm_compute; reflexivity); lia).
  assert (C : forallb (fun c => cell_in (swap_xy d c) cs') cs && forallb (fun c => cell_in (swap_xy d c) cs) cs' = true).
  { clear Hd q.
    assert (G : match octree_xyzb ex_cross d true, octree_xyzb ex_cross' d true with
      | Ok cs, Ok cs' => forallb (fun c => cell_in (swap_xy d c) cs') cs && forallb (fun c => cell_in (swap_xy d c) cs) cs' = true | _, _ => True end).
    { clear E E'. do 4 (destruct d as [|d]; [vm_compute; reflexivity|]). lia. }
    rewrite E, E' in G. exact G. }
  clear E E' Hd. apply andb_true_iff in C. destruct C as (C1 & C2). rewrite forallb_forall in C1, C2. split; intros H.
  - specialize (C2 _ H). rewrite swap_swap in C2. apply cell_in_spec. exact C2.
  - apply cell_in_spec. apply C1. exact H.
Qed.
Lemma ex_cross_rows d (a b : vec) : (d = 1 \/ d = 2)%nat -> carried true swap_xy ex_cross ex_cross' d [a; b] [b; a].
Proof.
  intros Hd cs cs' i j q E E' Hi Hj.
  assert (C : exists p r, octree_xyzb ex_cross d true = Ok [p; r] /\ octree_xyzb ex_cross' d true = Ok [swap_xy d r; swap_xy d p] /\ p <> r).
  { clear E E'. destruct Hd as [->| ->]; [exists (0, 1, 0, 0), (1, 0, 1, 0)|exists (0, 2, 1, 0), (3, 0, 2, 0)]; (split; [vm_compute; reflexivity|]; split; [vm_compute; reflexivity|congruence]). }
  destruct C as (p & r & C & C' & Hn). rewrite C in E. rewrite C' in E'. injection E as <-. injection E' as <-. clear C C' Hd.
  assert (Hs : forall u v, swap_xy d u = swap_xy d v -> u = v) by (intros u v H; rewrite <- (swap_swap d u), H; apply swap_swap).
  destruct i as [|[|[|i]]]; cbn in Hi; try discriminate Hi; injection Hi as <-; destruct j as [|[|[|j]]]; cbn [nth_error] in Hj; try discriminate Hj; try reflexivity; injection Hj as Hj; apply Hs in Hj; congruence.
Qed.
Lemma ex_move_grad2 : motion 0 swap_xy turn_xy /\ keeps_first 0 swap_xy /\ moved 0 swap_xy ex_cross ex_cross' /\ wf_octree ex_cross /\ wf_octree ex_cross' /\
  conv_ready ex_cross 2 "333" 2 /\ conv_ready ex_cross' 2 "333" 2 /\ In ([3%nat], "333"%string) kernel_sizes /\
  node_count ex_cross 2 true = 2%nat /\ node_count ex_cross 1 true = 2%nat /\
  carried true swap_xy ex_cross ex_cross' 2 [[qz 1]; [qz 2]] [[qz 2]; [qz 1]] /\ carried true swap_xy ex_cross ex_cross' 1 [[qz 5]; [qz 7]] [[qz 7]; [qz 5]] /\
  turned turn_xy "333" ex_kernel ex_exch /\
  show (conv_backward (mkCfg 1 1 [3%nat] 2 true 100 true) ex_cross 2 [[qz 1]; [qz 2]] ex_kernel [[qz 5]; [qz 7]]) =
    ([[70]; [154]], [0; 0; 0; 0; 0; 0; 0; 0; 0; 0; 0; 0; 0; 0; 5; 0; 0; 0; 0; 0; 0; 0; 14; 0; 0; 0; 0])%Q /\
  show (conv_backward (mkCfg 1 1 [3%nat] 2 true 100 true) ex_cross' 2 [[qz 2]; [qz 1]] ex_exch [[qz 7]; [qz 5]]) =
    ([[154]; [70]], [0; 0; 0; 0; 0; 0; 0; 0; 0; 0; 0; 0; 0; 0; 5; 0; 14; 0; 0; 0; 0; 0; 0; 0; 0; 0; 0])%Q.
Proof.
  split; [apply thm_motions|]. split; [apply thm_firsts|]. split; [exact ex_cross_moved|].
  destruct (cross_ready (fun p => p)) as (W & R); [vm_compute; reflexivity..|]. destruct (cross_ready (fun p => let '(x, y, z) := p in (y, x, z))) as (W' & R'); [vm_compute; reflexivity..|].
  split; [exact W|]. split; [exact W'|]. split; [exact R|]. split; [exact R'|]. split; [cbn; tauto|]. clear W R W' R'.
  split; [vm_compute; reflexivity|]. split; [vm_compute; reflexivity|]. split; [apply ex_cross_rows; right; reflexivity|]. split; [apply ex_cross_rows; left; reflexivity|]. split.
  - intros k v Hk. assert (L : (k < 27)%nat) by (change 27%nat with (length (box "333")); apply nth_error_Some; congruence). exists (9 * ((k / 3) mod 3) + 3 * (k / 9) + k mod 3)%nat.
    do 27 (destruct k as [|k]; [vm_compute in Hk; injection Hk as <-; split; vm_compute; reflexivity|]). lia.
  - split; vm_compute; reflexivity.
Qed.
