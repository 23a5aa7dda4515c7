(** Properties C118 and C119: gradients of a batch, and of a moved shape. *)
From Coq Require Import Ascii String List ZArith Bool QArith Qcanon Lia.
From Verif Require Import Res Tensor Key Num Points Octree NnBasic NnConv Features Net Spec SpecGeo SpecBuild WF SpecNeigh SpecMerge SpecNN SpecNet
  SpecBatch SpecMove SpecMoveSeg SpecShuffle MergeExamples BatchExamples Examples NetExamples MoveExamples ShuffleExamples ShuffleThms GradBatch GradMove GradMove2 GradExamples.
Import ListNotations.
Open Scope Z_scope.

(** C118: the backward pass of a convolution of a merged octree.  The gradient of the features
    is that of the samples, one after the other; the gradient of each weight is the sum over
    the samples. *)
Theorem C118_conv : forall o0 o' os os', mergeable o0 os -> (1 <= full_depth o0)%nat -> batched os o' os' ->
  forall d ks kernel stride ne ci co mb W (xs gs : list feat), (1 <= d <= depth o0)%nat -> In (ks, kernel) kernel_sizes -> (stride = 1 \/ stride = 2) ->
  Z.of_nat (List.length (box kernel)) * Z.of_nat ci <= mb -> shape3 (List.length (box kernel)) ci co W ->
  Forall2 (fun oi x => shape (node_count oi d ne) ci x) os' xs -> Forall2 (fun oi g => shape (out_count oi d stride ne) co g) os' gs ->
  exists r gw, mapM (fun q => conv_backward (mkCfg ci co ks stride ne mb true) (fst (fst q)) d (snd (fst q)) W (snd q)) (combine (combine os' xs) gs) = Ok r /\
    conv_backward (mkCfg ci co ks stride ne mb true) o' d (concat xs) W (concat gs) = Ok (concat (map fst r), gw) /\ shape3 (List.length (box kernel)) ci co gw /\
    forall k c j, (k < List.length (box kernel))%nat -> (c < ci)%nat -> (j < co)%nat -> at3 gw k c j = qsum_list (map (fun p => at3 (snd p) k c j) r).
Proof. exact thm_batch_conv_grad. Qed.
Print Assumptions C118_conv.

Theorem C118_dwconv : forall o0 o' os os', mergeable o0 os -> (1 <= full_depth o0)%nat -> batched os o' os' ->
  forall d ks kernel stride ne C mb W (xs gs : list feat), (1 <= d <= depth o0)%nat -> In (ks, kernel) kernel_sizes -> (stride = 1 \/ stride = 2) ->
  Z.of_nat (List.length (box kernel)) * Z.of_nat C <= mb -> shape3 (List.length (box kernel)) 1 C W ->
  Forall2 (fun oi x => shape (node_count oi d ne) C x) os' xs -> Forall2 (fun oi g => shape (out_count oi d stride ne) C g) os' gs ->
  exists r gw, mapM (fun q => dwconv_backward (mkCfg C C ks stride ne mb true) (fst (fst q)) d (snd (fst q)) W (snd q)) (combine (combine os' xs) gs) = Ok r /\
    dwconv_backward (mkCfg C C ks stride ne mb true) o' d (concat xs) W (concat gs) = Ok (concat (map fst r), gw) /\ shape3 (List.length (box kernel)) 1 C gw /\
    forall k c j, (k < List.length (box kernel))%nat -> (c < 1)%nat -> (j < C)%nat -> at3 gw k c j = qsum_list (map (fun p => at3 (snd p) k c j) r).
Proof. exact thm_batch_dwconv_grad. Qed.
Print Assumptions C118_dwconv.

(** The transposed convolution goes from layer [d] with [co] channels to the next finer layer or to
    the same layer, with [ci] channels. *)
Theorem C118_deconv : forall o0 o' os os', mergeable o0 os -> (1 <= full_depth o0)%nat -> batched os o' os' ->
  forall d ks kernel stride ne ci co mb W (ys gs : list feat), (1 <= up d stride <= depth o0)%nat -> In (ks, kernel) kernel_sizes -> (stride = 1 \/ stride = 2) ->
  Z.of_nat (List.length (box kernel)) * Z.of_nat ci <= mb -> shape3 (List.length (box kernel)) ci co W ->
  Forall2 (fun oi y => shape (out_count oi (up d stride) stride ne) co y) os' ys -> Forall2 (fun oi g => shape (node_count oi (up d stride) ne) ci g) os' gs ->
  exists r gw, mapM (fun q => deconv_backward (mkCfg co ci ks stride ne mb false) (fst (fst q)) d (snd (fst q)) W (snd q)) (combine (combine os' ys) gs) = Ok r /\
    deconv_backward (mkCfg co ci ks stride ne mb false) o' d (concat ys) W (concat gs) = Ok (concat (map fst r), gw) /\ shape3 (List.length (box kernel)) ci co gw /\
    forall k c j, (k < List.length (box kernel))%nat -> (c < ci)%nat -> (j < co)%nat -> at3 gw k c j = qsum_list (map (fun p => at3 (snd p) k c j) r).
Proof. exact thm_batch_deconv_grad. Qed.
Print Assumptions C118_deconv.

(** Three samples, one of them without points: the gradients of the samples and of the batch. *)
Example C118_case : mergeable ex_m0 ex_ms /\ batched ex_ms ex_om ex_bos /\ (1 <= full_depth ex_m0)%nat /\ (1 <= depth ex_m0)%nat /\
  In ([3; 3; 1]%nat, "331"%string) kernel_sizes /\ shape3 (List.length (box "331")) 1 1 ex_nine /\ Forall2 (fun oi x => shape (node_count oi 1 true) 1 x) ex_bos ex_ones /\
  map (fun q => ex_back (fst q) (snd q)) (combine ex_bos ex_ones) =
    [([[-12]; [-32]], [6; 0; 0; 0; 13; 0; 0; 0; 6]); ([], [0; 0; 0; 0; 0; 0; 0; 0; 0]); ([[-12]], [0; 0; 0; 0; 9; 0; 0; 0; 0])]%Q /\
  ex_back ex_om (concat ex_ones) = ([[-12]; [-32]; [-12]], [6; 0; 0; 0; 22; 0; 0; 0; 6])%Q.
Proof. exact ex_batch_grad. Qed.

(** C119: the backward pass on a moved shape.  With moved features, moved gradients at the
    output and turned weights, the gradient of the features is moved and the gradient of the
    weights is turned.  Samples may be renumbered. *)
Theorem C119_conv : forall renum e s turn o o' ne, motion_to renum e s turn -> moved e s o o' -> wf_octree o -> wf_octree o' ->
  forall d ks kernel mb, (lowest ne e <= d)%nat -> conv_ready o d kernel 1 -> conv_ready o' d kernel 1 -> In (ks, kernel) kernel_sizes ->
  forall ci co x x' W W' g g', Z.of_nat (List.length (box kernel)) * Z.of_nat ci <= mb ->
  shape (node_count o d ne) ci x -> shape (node_count o' d ne) ci x' -> carried ne s o o' d x x' ->
  shape3 (List.length (box kernel)) ci co W -> shape3 (List.length (box kernel)) ci co W' -> turned turn kernel W W' ->
  shape (node_count o d ne) co g -> shape (node_count o' d ne) co g' -> carried ne s o o' d g g' ->
  exists gd gw gd' gw', conv_backward (mkCfg ci co ks 1 ne mb true) o d x W g = Ok (gd, gw) /\ conv_backward (mkCfg ci co ks 1 ne mb true) o' d x' W' g' = Ok (gd', gw') /\
    shape (node_count o d ne) ci gd /\ shape (node_count o' d ne) ci gd' /\ shape3 (List.length (box kernel)) ci co gw /\ shape3 (List.length (box kernel)) ci co gw' /\
    carried ne s o o' d gd gd' /\ turned turn kernel gw gw'.
Proof. intros renum e s turn o o' ne; exact (thm_moved_conv_grad e s turn o o' ne renum). Qed.
Print Assumptions C119_conv.

Theorem C119_dwconv : forall renum e s turn o o' ne, motion_to renum e s turn -> moved e s o o' -> wf_octree o -> wf_octree o' ->
  forall d ks kernel mb, (lowest ne e <= d)%nat -> conv_ready o d kernel 1 -> conv_ready o' d kernel 1 -> In (ks, kernel) kernel_sizes ->
  forall C x x' W W' g g', Z.of_nat (List.length (box kernel)) * Z.of_nat C <= mb ->
  shape (node_count o d ne) C x -> shape (node_count o' d ne) C x' -> carried ne s o o' d x x' ->
  shape3 (List.length (box kernel)) 1 C W -> shape3 (List.length (box kernel)) 1 C W' -> turned turn kernel W W' ->
  shape (node_count o d ne) C g -> shape (node_count o' d ne) C g' -> carried ne s o o' d g g' ->
  exists gd gw gd' gw', dwconv_backward (mkCfg C C ks 1 ne mb true) o d x W g = Ok (gd, gw) /\ dwconv_backward (mkCfg C C ks 1 ne mb true) o' d x' W' g' = Ok (gd', gw') /\
    shape (node_count o d ne) C gd /\ shape (node_count o' d ne) C gd' /\ shape3 (List.length (box kernel)) 1 C gw /\ shape3 (List.length (box kernel)) 1 C gw' /\
    carried ne s o o' d gd gd' /\ turned turn kernel gw gw'.
Proof. intros renum e s turn o o' ne; exact (thm_moved_dwconv_grad e s turn o o' ne renum). Qed.
Print Assumptions C119_dwconv.

Theorem C119_deconv : forall renum e s turn o o' ne, motion_to renum e s turn -> moved e s o o' -> wf_octree o -> wf_octree o' ->
  forall d ks kernel mb, (lowest ne e <= d)%nat -> conv_ready o d kernel 1 -> conv_ready o' d kernel 1 -> In (ks, kernel) kernel_sizes ->
  forall ci co x x' W W' g g', Z.of_nat (List.length (box kernel)) * Z.of_nat ci <= mb ->
  shape (node_count o d ne) co x -> shape (node_count o' d ne) co x' -> carried ne s o o' d x x' ->
  shape3 (List.length (box kernel)) ci co W -> shape3 (List.length (box kernel)) ci co W' -> turned turn kernel W W' ->
  shape (node_count o d ne) ci g -> shape (node_count o' d ne) ci g' -> carried ne s o o' d g g' ->
  exists gd gw gd' gw', deconv_backward (mkCfg co ci ks 1 ne mb false) o d x W g = Ok (gd, gw) /\ deconv_backward (mkCfg co ci ks 1 ne mb false) o' d x' W' g' = Ok (gd', gw') /\
    shape (node_count o d ne) co gd /\ shape (node_count o' d ne) co gd' /\ shape3 (List.length (box kernel)) ci co gw /\ shape3 (List.length (box kernel)) ci co gw' /\
    carried ne s o o' d gd gd' /\ turned turn kernel gw gw'.
Proof. intros renum e s turn o o' ne; exact (thm_moved_deconv_grad e s turn o o' ne renum). Qed.
Print Assumptions C119_deconv.

(** C119: the forward pass of a transposed convolution of stride 1 moves too. *)
Theorem C119_deconv_forward : forall renum e s turn o o' ne, motion_to renum e s turn -> moved e s o o' -> wf_octree o -> wf_octree o' ->
  forall d ks kernel mb, (lowest ne e <= d)%nat -> conv_ready o d kernel 1 -> conv_ready o' d kernel 1 -> In (ks, kernel) kernel_sizes ->
  forall ci co y y' W W', Z.of_nat (List.length (box kernel)) * Z.of_nat ci <= mb ->
  shape (node_count o d ne) co y -> shape (node_count o' d ne) co y' -> carried ne s o o' d y y' ->
  shape3 (List.length (box kernel)) ci co W -> shape3 (List.length (box kernel)) ci co W' -> turned turn kernel W W' ->
  exists z z', deconv_forward (mkCfg co ci ks 1 ne mb false) o d y W = Ok z /\ deconv_forward (mkCfg co ci ks 1 ne mb false) o' d y' W' = Ok z' /\
    shape (node_count o d ne) ci z /\ shape (node_count o' d ne) ci z' /\ carried ne s o o' d z z'.
Proof. intros renum e s turn o o' ne; exact (thm_moved_deconv e s turn o o' ne renum). Qed.
Print Assumptions C119_deconv_forward.

(** A shape and its mirror image: the gradients of the two nodes change places, and the
    gradients of the weights are mirrored. *)
Example C119_case : motion 0 mirror_x turn_x /\ moved 0 mirror_x ex_left ex_right /\ wf_octree ex_left /\ wf_octree ex_right /\
  conv_ready ex_left 1 "333" 1 /\ conv_ready ex_right 1 "333" 1 /\ In ([3%nat], "333"%string) kernel_sizes /\
  shape (node_count ex_left 1 true) 1 [[qz 1]; [qz 2]] /\ carried true mirror_x ex_left ex_right 1 [[qz 1]; [qz 2]] [[qz 2]; [qz 1]] /\
  turned turn_x "333" ex_kernel ex_flip /\ shape3 (List.length (box "333")) 1 1 ex_kernel /\ shape3 (List.length (box "333")) 1 1 ex_flip /\
  show (conv_backward (mkCfg 1 1 [3%nat] 1 true 100 true) ex_left 1 [[qz 1]; [qz 2]] ex_kernel [[qz 5]; [qz 7]]) =
    ([[86]; [206]], [0; 0; 0; 7; 0; 0; 0; 0; 0; 0; 0; 0; 0; 19; 0; 0; 0; 0; 0; 0; 0; 0; 0; 10; 0; 0; 0])%Q /\
  show (conv_backward (mkCfg 1 1 [3%nat] 1 true 100 true) ex_right 1 [[qz 2]; [qz 1]] ex_flip [[qz 7]; [qz 5]]) =
    ([[206]; [86]], [0; 0; 0; 0; 0; 10; 0; 0; 0; 0; 0; 0; 0; 19; 0; 0; 0; 0; 0; 0; 0; 7; 0; 0; 0; 0; 0])%Q.
Proof. exact ex_move_grad. Qed.

(** C119, stride 2: the features belong to layer [S d] and the results to the non-empty nodes of
    the layer above.  The motion takes the first child of a cell to the first child of the moved
    cell, as shifts and exchanges of axes do. *)
Theorem C119_conv_stride2 : forall renum e s turn o o' ne, motion_to renum e s turn -> keeps_first e s -> moved e s o o' -> wf_octree o -> wf_octree o' ->
  forall d ks kernel mb, (lowest ne e <= d)%nat -> conv_ready o (S d) kernel 2 -> conv_ready o' (S d) kernel 2 -> In (ks, kernel) kernel_sizes ->
  forall ci co x x' W W' g g', Z.of_nat (List.length (box kernel)) * Z.of_nat ci <= mb ->
  shape (node_count o (S d) ne) ci x -> shape (node_count o' (S d) ne) ci x' -> carried ne s o o' (S d) x x' ->
  shape3 (List.length (box kernel)) ci co W -> shape3 (List.length (box kernel)) ci co W' -> turned turn kernel W W' ->
  shape (node_count o d true) co g -> shape (node_count o' d true) co g' -> carried true s o o' d g g' ->
  exists gd gw gd' gw', conv_backward (mkCfg ci co ks 2 ne mb true) o (S d) x W g = Ok (gd, gw) /\ conv_backward (mkCfg ci co ks 2 ne mb true) o' (S d) x' W' g' = Ok (gd', gw') /\
    shape (node_count o (S d) ne) ci gd /\ shape (node_count o' (S d) ne) ci gd' /\ shape3 (List.length (box kernel)) ci co gw /\ shape3 (List.length (box kernel)) ci co gw' /\
    carried ne s o o' (S d) gd gd' /\ turned turn kernel gw gw'.
Proof. intros renum e s turn o o' ne; exact (thm_moved_conv2_grad e s turn o o' ne renum). Qed.
Print Assumptions C119_conv_stride2.

Theorem C119_dwconv_stride2 : forall renum e s turn o o' ne, motion_to renum e s turn -> keeps_first e s -> moved e s o o' -> wf_octree o -> wf_octree o' ->
  forall d ks kernel mb, (lowest ne e <= d)%nat -> conv_ready o (S d) kernel 2 -> conv_ready o' (S d) kernel 2 -> In (ks, kernel) kernel_sizes ->
  forall C x x' W W' g g', Z.of_nat (List.length (box kernel)) * Z.of_nat C <= mb ->
  shape (node_count o (S d) ne) C x -> shape (node_count o' (S d) ne) C x' -> carried ne s o o' (S d) x x' ->
  shape3 (List.length (box kernel)) 1 C W -> shape3 (List.length (box kernel)) 1 C W' -> turned turn kernel W W' ->
  shape (node_count o d true) C g -> shape (node_count o' d true) C g' -> carried true s o o' d g g' ->
  exists gd gw gd' gw', dwconv_backward (mkCfg C C ks 2 ne mb true) o (S d) x W g = Ok (gd, gw) /\ dwconv_backward (mkCfg C C ks 2 ne mb true) o' (S d) x' W' g' = Ok (gd', gw') /\
    shape (node_count o (S d) ne) C gd /\ shape (node_count o' (S d) ne) C gd' /\ shape3 (List.length (box kernel)) 1 C gw /\ shape3 (List.length (box kernel)) 1 C gw' /\
    carried ne s o o' (S d) gd gd' /\ turned turn kernel gw gw'.
Proof. intros renum e s turn o o' ne; exact (thm_moved_dwconv2_grad e s turn o o' ne renum). Qed.
Print Assumptions C119_dwconv_stride2.

(** The transposed convolution goes the other way: from the non-empty nodes of layer [d] to
    layer [S d]. *)
Theorem C119_deconv_stride2 : forall renum e s turn o o' ne, motion_to renum e s turn -> keeps_first e s -> moved e s o o' -> wf_octree o -> wf_octree o' ->
  forall d ks kernel mb, (lowest ne e <= d)%nat -> conv_ready o (S d) kernel 2 -> conv_ready o' (S d) kernel 2 -> In (ks, kernel) kernel_sizes ->
  forall ci co x x' W W' g g', Z.of_nat (List.length (box kernel)) * Z.of_nat ci <= mb ->
  shape (node_count o d true) co x -> shape (node_count o' d true) co x' -> carried true s o o' d x x' ->
  shape3 (List.length (box kernel)) ci co W -> shape3 (List.length (box kernel)) ci co W' -> turned turn kernel W W' ->
  shape (node_count o (S d) ne) ci g -> shape (node_count o' (S d) ne) ci g' -> carried ne s o o' (S d) g g' ->
  exists gd gw gd' gw', deconv_backward (mkCfg co ci ks 2 ne mb false) o d x W g = Ok (gd, gw) /\ deconv_backward (mkCfg co ci ks 2 ne mb false) o' d x' W' g' = Ok (gd', gw') /\
    shape (node_count o d true) co gd /\ shape (node_count o' d true) co gd' /\ shape3 (List.length (box kernel)) ci co gw /\ shape3 (List.length (box kernel)) ci co gw' /\
    carried true s o o' d gd gd' /\ turned turn kernel gw gw'.
Proof. intros renum e s turn o o' ne; exact (thm_moved_deconv2_grad e s turn o o' ne renum). Qed.
Print Assumptions C119_deconv_stride2.

(** Two shapes that differ by the exchange of the first two axes. *)
Example C119_stride2_case : motion 0 swap_xy turn_xy /\ keeps_first 0 swap_xy /\ moved 0 swap_xy ex_cross ex_cross' /\ wf_octree ex_cross /\ wf_octree ex_cross' /\
  conv_ready ex_cross 2 "333" 2 /\ conv_ready ex_cross' 2 "333" 2 /\ In ([3%nat], "333"%string) kernel_sizes /\
  node_count ex_cross 2 true = 2%nat /\ node_count ex_cross 1 true = 2%nat /\
  carried true swap_xy ex_cross ex_cross' 2 [[qz 1]; [qz 2]] [[qz 2]; [qz 1]] /\ carried true swap_xy ex_cross ex_cross' 1 [[qz 5]; [qz 7]] [[qz 7]; [qz 5]] /\
  turned turn_xy "333" ex_kernel ex_exch /\
  show (conv_backward (mkCfg 1 1 [3%nat] 2 true 100 true) ex_cross 2 [[qz 1]; [qz 2]] ex_kernel [[qz 5]; [qz 7]]) =
    ([[70]; [154]], [0; 0; 0; 0; 0; 0; 0; 0; 0; 0; 0; 0; 0; 0; 5; 0; 0; 0; 0; 0; 0; 0; 14; 0; 0; 0; 0])%Q /\
  show (conv_backward (mkCfg 1 1 [3%nat] 2 true 100 true) ex_cross' 2 [[qz 2]; [qz 1]] ex_exch [[qz 7]; [qz 5]]) =
    ([[154]; [70]], [0; 0; 0; 0; 0; 0; 0; 0; 0; 0; 0; 0; 0; 0; 5; 0; 14; 0; 0; 0; 0; 0; 0; 0; 0; 0; 0])%Q.
Proof. exact ex_move_grad2. Qed.
