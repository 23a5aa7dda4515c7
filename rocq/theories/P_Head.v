(** The last layer of the networks (ocnn/models). *)
From Coq Require Import String List ZArith Bool QArith Qcanon Lia.
From Verif Require Import Res Tensor Num Points Octree NnBasic NnConv NnInterp Features Net Examples ExampleFacts NetExamples
  SpecState SpecHead HeadFacts HeadNets HeadExamples.
Import ListNotations.
Open Scope Z_scope.

(** C127: if two checkpoints agree on all tensors before the last layer, and the last
    layer of the second has the weights of the first times c and the bias of the first
    times c plus s, then the logits of the second are those of the first times c plus s,
    or both calls raise the same exception.  With c = 1 this is a change of the bias
    alone, with s = 0 a change of the scale. *)
Theorem C127_unet : forall P P' g cin cout c s,
  same_checkpoint P P' (before_last_layer (unet_state g cin cout)) ->
  layer_changed P P' (sub (sub [] "header" 0) "1" 0) (u_head g) cout c s ->
  forall lin ne x o depth pts,
    outcomes (fun a a' => logits_changed cout c s (fst a) (fst a') /\ snd a' = snd a)
      (UNet g P cin cout lin ne x o depth pts) (UNet g P' cin cout lin ne x o depth pts).
Proof. exact (fun P P' g cin cout c s H Hl lin ne x o depth pts => unet_changed P P' c s g cin cout lin ne x o depth pts H Hl). Qed.
Print Assumptions C127_unet.
Theorem C127_segnet : forall P P' cin cout stages c s, (1 <= stages)%nat ->
  same_checkpoint P P' (before_last_layer (segnet_state cin cout stages)) ->
  layer_changed P P' (sub (sub [] "header" 0) "1" 0) 64 cout c s ->
  forall lin ne x o depth pts,
    outcomes (fun a a' => logits_changed cout c s (fst a) (fst a') /\ snd a' = snd a)
      (SegNet P cin cout stages lin ne x o depth pts) (SegNet P' cin cout stages lin ne x o depth pts).
Proof. exact (fun P P' cin cout stages c s Hs H Hl lin ne x o depth pts => segnet_changed P P' c s cin cout stages lin ne x o depth pts Hs H Hl). Qed.
Print Assumptions C127_segnet.
Theorem C127_lenet : forall P P' cin cout stages c s, same_noise P P' ->
  same_checkpoint P P' (before_last_layer (lenet_state cin cout stages)) ->
  layer_changed P P' (sub [] "header" 3) 128 cout c s ->
  forall ne x o depth, outcomes (logits_changed cout c s) (LeNet P cin cout stages ne x o depth) (LeNet P' cin cout stages ne x o depth).
Proof. exact (fun P P' cin cout stages c s Hn H Hl ne x o depth => lenet_changed P P' c s Hn cin cout stages ne x o depth H Hl). Qed.
Print Assumptions C127_lenet.
Theorem C127_resnet : forall P P' cin cout num stages c s, same_noise P P' ->
  same_checkpoint P P' (before_last_layer (resnet_state cin cout num stages)) ->
  layer_changed P P' (sub [] "header" 2) 512 cout c s ->
  forall ne x o depth, outcomes (logits_changed cout c s) (ResNet P cin cout num stages ne x o depth) (ResNet P' cin cout num stages ne x o depth).
Proof. exact (fun P P' cin cout num stages c s Hn H Hl ne x o depth => resnet_changed P P' c s Hn cin cout num stages ne x o depth H Hl). Qed.
Print Assumptions C127_resnet.
Theorem C127_hrnet : forall P P' cin cout stages num c s,
  same_checkpoint P P' (before_last_layer (hrnet_state cin cout stages num)) ->
  layer_changed P P' (sub (sub [] "cls_header" 0) "header" 1) 1024 cout c s ->
  forall ne x o depth, outcomes (logits_changed cout c s) (HRNet P cin cout stages num ne x o depth) (HRNet P' cin cout stages num ne x o depth).
Proof. exact (fun P P' cin cout stages num c s H Hl ne x o depth => hrnet_changed P P' c s cin cout stages num ne x o depth H Hl). Qed.
Print Assumptions C127_hrnet.

(** C127: the layers named above are the last of the checkpoints. *)
Theorem C127_last_layer :
  (forall g cin cout, last_layer (unet_state g cin cout) (sub (sub [] "header" 0) "1" 0) (u_head g) cout) /\
  (forall cin cout stages, last_layer (lenet_state cin cout stages) (sub [] "header" 3) 128 cout) /\
  (forall cin cout num stages, last_layer (resnet_state cin cout num stages) (sub [] "header" 2) 512 cout) /\
  (forall cin cout stages, last_layer (segnet_state cin cout stages) (sub (sub [] "header" 0) "1" 0) 64 cout) /\
  (forall cin cout stages num, last_layer (hrnet_state cin cout stages num) (sub (sub [] "cls_header" 0) "header" 1) 1024 cout).
Proof. exact all_last. Qed.
Print Assumptions C127_last_layer.

(** The hypotheses hold for checkpoints of all five networks that differ in the last layer. *)
Example C127_case :
  (same_checkpoint ex_params (ex_head (sub (sub [] "header" 0) "1" 0)) (before_last_layer (unet_state unet_default 4 16)) /\
   layer_changed ex_params (ex_head (sub (sub [] "header" 0) "1" 0)) (sub (sub [] "header" 0) "1" 0) (u_head unet_default) 16 (qz 2) ex_shift) /\
  same_checkpoint ex_params (ex_head (sub (sub [] "header" 0) "1" 0)) (before_last_layer (segnet_state 4 16 3)) /\
  same_checkpoint ex_params (ex_head (sub [] "header" 3)) (before_last_layer (lenet_state 4 40 3)) /\
  same_checkpoint ex_params (ex_head (sub [] "header" 2)) (before_last_layer (resnet_state 4 40 2 3)) /\
  same_checkpoint ex_params (ex_head (sub (sub [] "cls_header" 0) "header" 1)) (before_last_layer (hrnet_state 4 40 3 3)) /\
  same_noise ex_params (ex_head (sub [] "header" 3)).
Proof.
  split; [split; [apply ex_head_same; vm_compute; reflexivity|apply ex_head_changed]|].
  do 4 (split; [apply ex_head_same; vm_compute; reflexivity|]). split; reflexivity.
Qed.
(** And UNet returns logits on them: the second are twice the first plus 1, 2, 3. *)
Example C127_run :
  let x := [[qz 1; qz (-1)]; [qz 3; qz 2]; [qz 5; qz 1]] in let pts := [((qz (-1), qz (-1), qz (-1)), 0)] in
  match UNet ex_unet ex_params 2 3 true true x ex_neigh 5 pts,
        UNet ex_unet (ex_head (sub (sub [] "header" 0) "1" 0)) 2 3 true true x ex_neigh 5 pts with
  | Ok ([[a; b; c]], _), Ok ([r], _) =>
      map this r = map this [qz 2 * a + qz 1; qz 2 * b + qz 2; qz 2 * c + qz 3]%Qc /\ map this [a; b; c] <> map this [qz 0; qz 1; qz 2]
  | _, _ => False end.
Proof. vm_compute. split; [reflexivity|discriminate]. Qed.
