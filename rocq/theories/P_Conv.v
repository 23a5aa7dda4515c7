(** Properties C33-C41 and C50: padding, gathering, convolutions, voxels. *)
From Coq Require Import String List ZArith Bool QArith Qcanon.
From Verif Require Import Res Tensor Num Points Octree NnBasic NnConv SpecNeigh SpecMerge SpecNN WF
  PadFacts ConvOct Deconv DwGroup MergeConv VoxelThm Examples ExampleFacts MergeExamples ConvExamples.
Import ListNotations.
Open Scope Z_scope.

(** C33: pad after depad and depad after pad. *)
Theorem C33_pad_depad : forall A o d C (v : A), wf_octree o -> (d <= depth o)%nat ->
  exists flags, nempty_mask o (Z.of_nat d) = Ok flags /\ List.length flags = node_count o d false /\
    (forall x, shape (node_count o d true) C x ->
       exists y, octree_pad C x o (Z.of_nat d) v = Ok y /\ shape (node_count o d false) C y /\
         octree_depad y o (Z.of_nat d) = Ok x /\
         forall i, nth_error flags i = Some false -> nth_error y i = Some (repeat v C)) /\
    (forall y, shape (node_count o d false) C y ->
       exists x y', octree_depad y o (Z.of_nat d) = Ok x /\ shape (node_count o d true) C x /\
         octree_pad C x o (Z.of_nat d) v = Ok y' /\ List.length y' = List.length y /\
         forall i, (nth_error flags i = Some true -> nth_error y' i = nth_error y i) /\
                   (nth_error flags i = Some false -> nth_error y' i = Some (repeat v C))).
Proof. exact @thm_pad_depad. Qed.
Print Assumptions C33_pad_depad.

Example C33_case : wf_octree ex_built /\ shape (node_count ex_built 1 true) 2 (ramp 2 2) /\
  nums (octree_pad 2 (ramp 2 2) ex_built 1 (qz 7)) = Ok [[0; 1]; [7; 7]; [7; 7]; [7; 7]; [7; 7]; [7; 7]; [2; 3]; [7; 7]]%Q.
Proof. split; [exact ex_wf|]. split; [exact (ramp_shape 2 2)|]. vm_compute. reflexivity. Qed.

(** C34: octree2col reads the neighbours, zero where one is missing, and col2octree
    is its transpose. *)
Theorem C34_col_adjoint : forall o d kernel stride ne C x cols, conv_ready o d kernel stride ->
  shape (node_count o d ne) C x -> shape3 (out_count o d stride ne) (List.length (box kernel)) C cols ->
  exists t cx y, get_neigh o d kernel stride ne = Ok t /\
    octree2col C x o d kernel stride ne = Ok cx /\
    shape3 (out_count o d stride ne) (List.length (box kernel)) C cx /\
    (forall r k c, (r < out_count o d stride ne)%nat -> at3 cx r k c = at_row x (entry t r k) c) /\
    col2octree C cols o d kernel stride ne = Ok y /\ shape (node_count o d ne) C y /\
    inner3 (out_count o d stride ne) (List.length (box kernel)) C cx cols = inner (node_count o d ne) C x y.
Proof. exact thm_col_adjoint. Qed.
Print Assumptions C34_col_adjoint.

Example C34_case : conv_ready ex_neigh 5 "222" 1 /\ shape (node_count ex_neigh 5 true) 2 (ramp 3 2) /\
  shape3 (out_count ex_neigh 5 1 true) (List.length (box "222")) 2 (ramps 3 8 2) /\
  match octree2col 2 (ramp 3 2) ex_neigh 5 "222" 1 true, col2octree 2 (ramps 3 8 2) ex_neigh 5 "222" 1 true with
  | Ok cx, Ok y => (this (inner3 3 8 2 cx (ramps 3 8 2)), this (inner 3 2 (ramp 3 2) y)) = (154, 154)%Q
  | _, _ => False end.
Proof. split; [apply ex_conv_ready; [repeat constructor|right; left; reflexivity|left; reflexivity]|]. split; [exact (ramp_shape 3 2)|]. split; [exact (ramps_shape 3 8 2)|]. vm_compute. reflexivity. Qed.

(** C35: the buffered method with any buffer that holds one row of the column
    matrix gives what the direct method gives. *)
Theorem C35_buffer_independent : forall o d ks kernel stride ne ci co mb mb' x W bias,
  conv_ready o d kernel stride -> In (ks, kernel) kernel_sizes ->
  shape (node_count o d ne) ci x -> shape3 (List.length (box kernel)) ci co W -> bias_ok co bias ->
  Z.of_nat (List.length (box kernel)) * Z.of_nat ci <= mb ->
  exists y, OctreeConv (mkCfg ci co ks stride ne mb true) false W bias x o d = Ok y /\
    OctreeConv (mkCfg ci co ks stride ne mb' true) true W bias x o d = Ok y /\
    shape (node_count o (down d stride) ne) co y.
Proof. exact thm_conv_buffer. Qed.
Print Assumptions C35_buffer_independent.

(** C35: a smaller buffer divides by zero as soon as there is a row to compute. *)
Theorem C35_small_buffer_fails : forall o d ks kernel stride ne ci co mb x W bias,
  conv_ready o d kernel stride -> In (ks, kernel) kernel_sizes ->
  (0 < out_count o d stride ne)%nat -> 0 <= mb < Z.of_nat (List.length (box kernel)) * Z.of_nat ci ->
  OctreeConv (mkCfg ci co ks stride ne mb true) false W bias x o d = Err ZeroDivisionError.
Proof. exact thm_conv_small. Qed.
Print Assumptions C35_small_buffer_fails.

Example C35_case : conv_ready ex_neigh 5 "333" 1 /\ In ([3]%nat, "333"%string) kernel_sizes /\
  shape (node_count ex_neigh 5 true) 2 (ramp 3 2) /\ shape3 (List.length (box "333")) 2 1 (ramps 27 2 1) /\
  nums (OctreeConv (mkCfg 2 1 [3]%nat 1 true 60 true) false (ramps 27 2 1) (Some [qz 100]) (ramp 3 2) ex_neigh 5) = Ok [[114]; [398]; [230]]%Q /\
  nums (OctreeConv (mkCfg 2 1 [3]%nat 1 true 1 true) true (ramps 27 2 1) (Some [qz 100]) (ramp 3 2) ex_neigh 5) = Ok [[114]; [398]; [230]]%Q /\
  nums (OctreeConv (mkCfg 2 1 [3]%nat 1 true 53 true) false (ramps 27 2 1) (Some [qz 100]) (ramp 3 2) ex_neigh 5) = Err ZeroDivisionError.
Proof. split; [apply ex_conv_ready; [repeat constructor|left; reflexivity|left; reflexivity]|]. split; [left; reflexivity|]. split; [exact (ramp_shape 3 2)|]. split; [exact (ramps_shape 27 2 1)|]. vm_compute. auto. Qed.

(** C36, stride 1: each output row is the dense convolution with zero padding of the
    voxel grid, at the coordinates of the node. *)
Theorem C36_dense_stride1 : forall o d ks kernel ne ci co mb x W bias,
  conv_ready o d kernel 1 -> In (ks, kernel) kernel_sizes ->
  shape (node_count o d ne) ci x -> shape3 (List.length (box kernel)) ci co W -> bias_ok co bias ->
  Z.of_nat (List.length (box kernel)) * Z.of_nat ci <= mb ->
  exists vox cs y, octree2voxel ci x o d ne = Ok vox /\ octree_xyzb o d ne = Ok cs /\
    OctreeConv (mkCfg ci co ks 1 ne mb true) false W bias x o d = Ok y /\ shape (List.length cs) co y /\
    forall i X Y Z b c, nth_error cs i = Some (X, Y, Z, b) -> (c < co)%nat ->
      at2 y i c = (dense_conv d vox kernel ci W b X Y Z c + bias_at bias c)%Qc.
Proof. exact thm_dense1. Qed.
Print Assumptions C36_dense_stride1.

(** C36, stride 2: the dense strided convolution at twice the coordinates of the
    (non-empty) parent; empty parents get 0. *)
Theorem C36_dense_stride2 : forall o d ks kernel ne ci co mb x W bias,
  conv_ready o (S d) kernel 2 -> In (ks, kernel) kernel_sizes ->
  shape (node_count o (S d) ne) ci x -> shape3 (List.length (box kernel)) ci co W -> bias_ok co bias ->
  Z.of_nat (List.length (box kernel)) * Z.of_nat ci <= mb ->
  exists vox cs flags y, octree2voxel ci x o (S d) ne = Ok vox /\ octree_xyzb o d ne = Ok cs /\
    nempty_mask o (Z.of_nat d) = Ok flags /\
    OctreeConv (mkCfg ci co ks 2 ne mb true) false W bias x o (S d) = Ok y /\ shape (List.length cs) co y /\
    forall i X Y Z b c, nth_error cs i = Some (X, Y, Z, b) -> (c < co)%nat ->
      (ne = true \/ nth_error flags i = Some true ->
         at2 y i c = (dense_conv (S d) vox kernel ci W b (2 * X) (2 * Y) (2 * Z) c + bias_at bias c)%Qc) /\
      (ne = false -> nth_error flags i = Some false -> at2 y i c = 0%Qc).
Proof. exact thm_dense2. Qed.
Print Assumptions C36_dense_stride2.

Example C36_case : conv_ready ex_neigh2 3 "333" 2 /\ shape (node_count ex_neigh2 3 true) 2 (ramp 3 2) /\
  conv_ready ex_neigh 2 "333" 2 /\ shape (node_count ex_neigh 2 false) 2 (ramp 16 2) /\
  shape3 (List.length (box "333")) 2 1 (ramps 27 2 1) /\
  nums (OctreeConv (mkCfg 2 1 [3]%nat 2 true 60 true) false (ramps 27 2 1) (Some [qz 100]) (ramp 3 2) ex_neigh2 3)
    = Ok [[115]; [218]; [312]]%Q /\
  nums (OctreeConv (mkCfg 2 1 [3]%nat 2 false 60 true) false (ramps 27 2 1) (Some [qz 100]) (ramp 16 2) ex_neigh 2)
    = Ok [[2848]; [0]; [0]; [0]; [0]; [0]; [8079]; [0]]%Q.
Proof.
  split; [apply ex_conv_ready2; [repeat constructor|left; reflexivity|right; reflexivity]|]. split; [exact (ramp_shape 3 2)|].
  split; [apply ex_conv_ready; [repeat constructor|left; reflexivity|right; reflexivity]|]. split; [exact (ramp_shape 16 2)|].
  split; [exact (ramps_shape 27 2 1)|]. vm_compute. auto.
Qed.

(** C37: the backward pass of the convolution. *)
Theorem C37_conv_gradients : forall o d ks kernel stride ne ci co mb x W g,
  conv_ready o d kernel stride -> In (ks, kernel) kernel_sizes ->
  shape (node_count o d ne) ci x -> shape3 (List.length (box kernel)) ci co W ->
  shape (out_count o d stride ne) co g ->
  Z.of_nat (List.length (box kernel)) * Z.of_nat ci <= mb ->
  let cfg := mkCfg ci co ks stride ne mb true in
  let n := node_count o d ne in let K := List.length (box kernel) in let R := out_count o d stride ne in
  exists y gd gw, conv_forward cfg o d x W = Ok y /\ conv_backward cfg o d x W g = Ok (gd, gw) /\
    shape R co y /\ shape n ci gd /\ shape3 K ci co gw /\
    (forall dx, shape n ci dx -> exists y', conv_forward cfg o d (add2 n ci x dx) W = Ok y' /\
       inner R co g (sub2 R co y' y) = inner n ci gd dx) /\
    (forall dW, shape3 K ci co dW -> exists y', conv_forward cfg o d x (add3 K ci co W dW) = Ok y' /\
       inner R co g (sub2 R co y' y) = inner3 K ci co gw dW).
Proof. exact thm_conv_grad. Qed.
Print Assumptions C37_conv_gradients.

Example C37_case : conv_ready ex_neigh 5 "222" 1 /\ shape (node_count ex_neigh 5 true) 2 (ramp 3 2) /\
  shape3 (List.length (box "222")) 2 1 (ramps 8 2 1) /\ shape (out_count ex_neigh 5 1 true) 1 (ramp 3 1) /\
  match conv_backward (mkCfg 2 1 [2]%nat 1 true 20 true) ex_neigh 5 (ramp 3 2) (ramps 8 2 1) (ramp 3 1) with
  | Ok (gd, gw) => nums (Ok gd) = Ok [[0; 0]; [0; 1]; [6; 9]]%Q /\
      nums (Ok (concat gw)) = Ok [[10]; [13]; [0]; [0]; [0]; [0]; [0]; [0]; [0]; [0]; [0]; [0]; [4]; [5]; [0]; [0]]%Q
  | Err _ => False end.
Proof.
  split; [apply ex_conv_ready; [repeat constructor|right; left; reflexivity|left; reflexivity]|]. split; [exact (ramp_shape 3 2)|].
  split; [exact (ramps_shape 8 2 1)|]. split; [exact (ramp_shape 3 1)|]. vm_compute. auto.
Qed.

(** C38: deconvolution is the transpose of convolution. *)
Theorem C38_deconv_transpose : forall o d ks kernel stride ne ci co mb mb' x y W,
  conv_ready o (up d stride) kernel stride -> In (ks, kernel) kernel_sizes ->
  shape (node_count o (up d stride) ne) ci x -> shape (node_count o d ne) co y ->
  shape3 (List.length (box kernel)) ci co W ->
  Z.of_nat (List.length (box kernel)) * Z.of_nat ci <= mb -> Z.of_nat (List.length (box kernel)) * Z.of_nat ci <= mb' ->
  exists cx dy,
    OctreeConv (mkCfg ci co ks stride ne mb true) false W None x o (up d stride) = Ok cx /\
    shape (node_count o d ne) co cx /\
    OctreeDeconv (mkCfg co ci ks stride ne mb' false) false W None y o d = Ok dy /\
    shape (node_count o (up d stride) ne) ci dy /\
    inner (node_count o d ne) co cx y = inner (node_count o (up d stride) ne) ci x dy.
Proof. exact thm_deconv_transpose. Qed.
Print Assumptions C38_deconv_transpose.

(** C38: its backward pass. *)
Theorem C38_deconv_gradients : forall o d ks kernel stride ne ci co mb y W g,
  conv_ready o (up d stride) kernel stride -> In (ks, kernel) kernel_sizes ->
  shape (out_count o (up d stride) stride ne) co y -> shape3 (List.length (box kernel)) ci co W ->
  shape (node_count o (up d stride) ne) ci g ->
  Z.of_nat (List.length (box kernel)) * Z.of_nat ci <= mb ->
  let cfg := mkCfg co ci ks stride ne mb false in
  let n := node_count o (up d stride) ne in let K := List.length (box kernel) in
  let R := out_count o (up d stride) stride ne in
  exists z gd gw, deconv_forward cfg o d y W = Ok z /\ deconv_backward cfg o d y W g = Ok (gd, gw) /\
    shape n ci z /\ shape R co gd /\ shape3 K ci co gw /\
    (forall dy, shape R co dy -> exists z', deconv_forward cfg o d (add2 R co y dy) W = Ok z' /\
       inner n ci g (sub2 n ci z' z) = inner R co gd dy) /\
    (forall dW, shape3 K ci co dW -> exists z', deconv_forward cfg o d y (add3 K ci co W dW) = Ok z' /\
       inner n ci g (sub2 n ci z' z) = inner3 K ci co gw dW).
Proof. exact thm_deconv_grad. Qed.
Print Assumptions C38_deconv_gradients.

(** C38: buffered and direct methods agree when there is at least one row ... *)
Theorem C38_deconv_buffer_independent : forall o d ks kernel stride ne ci co mb mb' y W bias,
  conv_ready o (up d stride) kernel stride -> In (ks, kernel) kernel_sizes ->
  shape (node_count o d ne) co y -> shape3 (List.length (box kernel)) ci co W -> bias_ok ci bias ->
  Z.of_nat (List.length (box kernel)) * Z.of_nat ci <= mb -> (0 < out_count o (up d stride) stride ne)%nat ->
  exists z, OctreeDeconv (mkCfg co ci ks stride ne mb false) false W bias y o d = Ok z /\
    OctreeDeconv (mkCfg co ci ks stride ne mb' false) true W bias y o d = Ok z /\
    shape (node_count o (up d stride) ne) ci z.
Proof. exact thm_deconv_direct. Qed.
Print Assumptions C38_deconv_buffer_independent.

(** ... and differ when there is none: the direct method raises. *)
Theorem C38_deconv_no_rows_fails : forall o d ks kernel stride ne ci co mb y W bias,
  conv_ready o (up d stride) kernel stride -> In (ks, kernel) kernel_sizes ->
  shape (node_count o d ne) co y -> shape3 (List.length (box kernel)) ci co W ->
  Z.of_nat (List.length (box kernel)) * Z.of_nat ci <= mb -> out_count o (up d stride) stride ne = O ->
  (exists z, OctreeDeconv (mkCfg co ci ks stride ne mb false) false W bias y o d = Ok z) /\
  OctreeDeconv (mkCfg co ci ks stride ne mb false) true W bias y o d = Err RuntimeError.
Proof. exact thm_deconv_empty. Qed.
Print Assumptions C38_deconv_no_rows_fails.

Example C38_case : conv_ready ex_neigh (up 4 2) "222" 2 /\ shape (node_count ex_neigh (up 4 2) true) 2 (ramp 3 2) /\
  shape (node_count ex_neigh 4 true) 1 (ramp 2 1) /\ shape3 (List.length (box "222")) 2 1 (ramps 8 2 1) /\
  out_count ex_neigh (up 4 2) 2 true = 2%nat /\
  nums (OctreeDeconv (mkCfg 1 2 [2]%nat 2 true 20 false) false (ramps 8 2 1) (Some [qz 100; qz 200]) (ramp 2 1) ex_neigh 4)
    = Ok [[100; 200]; [100; 201]; [106; 207]]%Q.
Proof.
  split; [apply ex_conv_ready; [repeat constructor|right; left; reflexivity|right; reflexivity]|]. split; [exact (ramp_shape 3 2)|].
  split; [exact (ramp_shape 2 1)|]. split; [exact (ramps_shape 8 2 1)|]. vm_compute. auto.
Qed.

Example C38_no_rows_case : conv_ready ex_neigh_void (up 4 1) "222" 1 /\ out_count ex_neigh_void (up 4 1) 1 true = O /\
  nums (OctreeDeconv (mkCfg 1 2 [2]%nat 1 true 20 false) false (ramps 8 2 1) None [] ex_neigh_void 4) = Ok [] /\
  nums (OctreeDeconv (mkCfg 1 2 [2]%nat 1 true 20 false) true (ramps 8 2 1) None [] ex_neigh_void 4) = Err RuntimeError.
Proof. split; [apply ex_void_ready; [repeat constructor|right; left; reflexivity|left; reflexivity]|]. vm_compute. auto. Qed.

(** C39: depth-wise convolution is convolution with diagonal weights. *)
Theorem C39_dwconv_diagonal : forall o d ks kernel stride ne C mb mb' direct x W bias,
  conv_ready o d kernel stride -> In (ks, kernel) kernel_sizes ->
  shape (node_count o d ne) C x -> shape3 (List.length (box kernel)) 1 C W -> bias_ok C bias ->
  Z.of_nat (List.length (box kernel)) * Z.of_nat C <= mb -> Z.of_nat (List.length (box kernel)) * Z.of_nat C <= mb' ->
  exists y, OctreeDWConv (mkCfg C C ks stride ne mb true) W bias x o d = Ok y /\
    OctreeConv (mkCfg C C ks stride ne mb' true) direct (diagonal (List.length (box kernel)) C W) bias x o d = Ok y /\
    shape (node_count o (down d stride) ne) C y.
Proof. exact thm_dwconv. Qed.
Print Assumptions C39_dwconv_diagonal.

Theorem C39_dwconv_gradients : forall o d ks kernel stride ne C mb x W g,
  conv_ready o d kernel stride -> In (ks, kernel) kernel_sizes ->
  shape (node_count o d ne) C x -> shape3 (List.length (box kernel)) 1 C W -> shape (out_count o d stride ne) C g ->
  Z.of_nat (List.length (box kernel)) * Z.of_nat C <= mb ->
  let cfg := mkCfg C C ks stride ne mb true in
  let n := node_count o d ne in let K := List.length (box kernel) in let R := out_count o d stride ne in
  exists y gd gw, dwconv_forward cfg o d x W = Ok y /\ dwconv_backward cfg o d x W g = Ok (gd, gw) /\
    shape R C y /\ shape n C gd /\ shape3 K 1 C gw /\
    (forall dx, shape n C dx -> exists y', dwconv_forward cfg o d (add2 n C x dx) W = Ok y' /\
       inner R C g (sub2 R C y' y) = inner n C gd dx) /\
    (forall dW, shape3 K 1 C dW -> exists y', dwconv_forward cfg o d x (add3 K 1 C W dW) = Ok y' /\
       inner R C g (sub2 R C y' y) = inner3 K 1 C gw dW).
Proof. exact thm_dw_grad. Qed.
Print Assumptions C39_dwconv_gradients.

Example C39_case : conv_ready ex_neigh 5 "311" 1 /\ In ([3; 1]%nat, "311"%string) kernel_sizes /\
  shape (node_count ex_neigh 5 true) 2 (ramp 3 2) /\ shape3 (List.length (box "311")) 1 2 (ramps 3 1 2) /\
  nums (OctreeDWConv (mkCfg 2 2 [3; 1]%nat 1 true 6 true) (ramps 3 1 2) None (ramp 3 2) ex_neigh 5) = Ok [[0; 2]; [2; 6]; [4; 10]]%Q.
Proof.
  split; [apply ex_conv_ready; [repeat constructor|right; right; left; reflexivity|left; reflexivity]|]. split; [cbn; tauto|].
  split; [exact (ramp_shape 3 2)|]. split; [exact (ramps_shape 3 1 2)|]. vm_compute. auto.
Qed.

(** C40: group convolution is convolution with block-diagonal weights. *)
Theorem C40_group_conv : forall o d ks kernel stride ne g ci co Ws (use_bias : bool) bs mb direct x,
  conv_ready o d kernel stride -> In (ks, kernel) kernel_sizes ->
  (0 < g)%nat -> List.length Ws = g -> Forall (shape3 (List.length (box kernel)) ci co) Ws -> shape g co bs ->
  shape (node_count o d ne) (g * ci) x ->
  Z.of_nat (List.length (box kernel)) * Z.of_nat ci <= 200000000 ->
  Z.of_nat (List.length (box kernel)) * Z.of_nat (g * ci) <= mb ->
  exists y,
    OctreeGroupConv (g * ci) (g * co) ks stride ne g Ws (if use_bias then map Some bs else repeat None g) x o d = Ok y /\
    OctreeConv (mkCfg (g * ci) (g * co) ks stride ne mb true) direct
      (block_diagonal (List.length (box kernel)) g ci co Ws)
      (if use_bias then Some (concat bs) else None) x o d = Ok y /\
    shape (node_count o (down d stride) ne) (g * co) y.
Proof. exact thm_gconv. Qed.
Print Assumptions C40_group_conv.

Example C40_case : conv_ready ex_neigh 5 "222" 1 /\ In ([2]%nat, "222"%string) kernel_sizes /\
  Forall (shape3 (List.length (box "222")) 2 1) [ramps 8 2 1; ramps 8 2 1] /\ shape 2 1 [[qz 10]; [qz 20]] /\
  shape (node_count ex_neigh 5 true) (2 * 2) (ramp 3 4) /\
  nums (OctreeGroupConv 4 2 [2]%nat 1 true 2 [ramps 8 2 1; ramps 8 2 1] (map Some [[qz 10]; [qz 20]]) (ramp 3 4) ex_neigh 5)
    = Ok [[11; 23]; [126; 164]; [19; 31]]%Q.
Proof.
  split; [apply ex_conv_ready; [repeat constructor|right; left; reflexivity|left; reflexivity]|]. split; [cbn; tauto|].
  split; [repeat constructor|]. split; [repeat constructor|]. split; [exact (ramp_shape 3 4)|]. vm_compute. auto.
Qed.

(** C41: convolving a merged octree is convolving its members. *)
Theorem C41_conv_of_merged : forall o0 os o, mergeable o0 os -> (1 <= full_depth o0)%nat -> merge_octrees os = Ok o ->
  exists o' os', construct_all_neigh o = Ok o' /\ mapM construct_all_neigh os = Ok os' /\
    forall d ks kernel stride ne ci co mb direct W bias xs, (1 <= d <= depth o0)%nat -> In (ks, kernel) kernel_sizes ->
      (stride = 1 \/ stride = 2) -> shape3 (List.length (box kernel)) ci co W -> bias_ok co bias ->
      Z.of_nat (List.length (box kernel)) * Z.of_nat ci <= mb ->
      Forall2 (fun oi x => shape (node_count oi d ne) ci x) os' xs ->
      exists ys,
        mapM (fun ox => OctreeConv (mkCfg ci co ks stride ne mb true) direct W bias (snd ox) (fst ox) d) (combine os' xs) = Ok ys /\
        OctreeConv (mkCfg ci co ks stride ne mb true) direct W bias (concat xs) o' d = Ok (concat ys).
Proof. exact thm_merge_conv. Qed.
Print Assumptions C41_conv_of_merged.

Example C41_case : mergeable ex_m0 ex_ms /\ full_depth ex_m0 = 1%nat /\ map (fun o => node_count o 4 true) ex_ms = [2; 0; 2]%nat /\
  match merge_octrees ex_ms with
  | Ok o => match construct_all_neigh o with
            | Ok o' => nums (OctreeConv (mkCfg 2 1 [3]%nat 1 true 60 true) false (ramps 27 2 1) None (ramp 2 2 ++ [] ++ ramp 2 2) o' 4) = Ok [[14]; [68]; [14]; [68]]%Q
            | Err _ => False end
  | Err _ => False end.
Proof. split; [exact ex_mergeable|]. vm_compute. auto. Qed.

(** C50: the voxel grid. *)
Theorem C50_voxels : forall o d ne C x, wf_octree o -> (d <= depth o)%nat -> shape (node_count o d ne) C x ->
  exists cs vox, octree_xyzb o d ne = Ok cs /\ List.length cs = List.length x /\ NoDup cs /\
    octree2voxel C x o d ne = Ok vox /\ shape (batch_size o * 8 ^ d) C vox /\
    (forall i X Y Z b, nth_error cs i = Some (X, Y, Z, b) ->
       inside d X Y Z = true /\ 0 <= b < Z.of_nat (batch_size o) /\
       nth_error vox (vox_row d b X Y Z) = nth_error x i) /\
    (forall X Y Z b, inside d X Y Z = true -> 0 <= b < Z.of_nat (batch_size o) -> ~ In (X, Y, Z, b) cs ->
       nth_error vox (vox_row d b X Y Z) = Some (repeat 0%Qc C)).
Proof. exact thm_voxel. Qed.
Print Assumptions C50_voxels.

Example C50_case : wf_octree ex_neigh2 /\ shape (node_count ex_neigh2 3 true) 1 (ramp 3 1) /\
  match octree2voxel 1 (ramp 3 1) ex_neigh2 3 true with
  | Ok vox => List.length vox = 1024%nat /\ map (fun i => this (nth 0 (nth i vox []) 0%Qc)) [39; 343; 344; 855; 856]%nat = [0; 1; 0; 2; 0]%Q
  | Err _ => False end.
Proof. split; [apply ex_neigh2_ok|]. split; [exact (ramp_shape 3 1)|]. vm_compute. auto. Qed.
