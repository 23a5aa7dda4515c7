(** Model of /repo/ocnn/modules (modules.py, resblocks.py) and /repo/ocnn/models
    (lenet.py, resnet.py, segnet.py, unet.py, hrnet.py, autoencoder.py).

    A module is a function of its constructor arguments, of its name in the network
    ([path], the key of its parameters in the Python state_dict) and of the arguments
    of [forward].  Errors of a constructor appear when the module is first applied.
    Learned values are arbitrary: [params] gives the value of every entry of every
    weight tensor, and the constructors fix the sizes of the tensors.  A batch
    normalisation is an arbitrary function, which covers training and evaluation mode
    and every running statistic; dropout multiplies with an arbitrary mask; tanh is an
    arbitrary function.  Depths are integers; a negative depth stops the model
    (Python would index layers from the end). *)
From Coq Require Import String List ZArith Bool QArith Qcanon.
From Verif Require Import Res Tensor Key Num Points Octree NnBasic NnConv NnInterp Features.
Import ListNotations.
Open Scope Z_scope.

Definition path : Type := list (string * Z).
Record params := mkParams {
  p_weight : path -> nat -> nat -> nat -> Qc;
  p_bias : path -> nat -> Qc;
  p_norm : path -> nat -> feat -> res feat;
  p_mask : path -> nat -> nat -> Qc;
  p_tanh : Qc -> Qc
}.

(** torch.Tensor(a, b, c) filled with the given values *)
Definition tensor1 (a : nat) (f : nat -> Qc) : vec := map f (seq 0 a).
Definition tensor2 (a b : nat) (f : nat -> nat -> Qc) : feat := map (fun i => tensor1 b (f i)) (seq 0 a).
Definition tensor3 (a b c : nat) (f : nat -> nat -> nat -> Qc) : list feat := map (fun i => tensor2 b c (f i)) (seq 0 a).

Definition at_depth {A} (d : Z) (f : nat -> res A) : res A := if d <? 0 then Err IndexError else f (Z.to_nat d).

(** Element-wise operations: ReLU, tanh, dropout, sum of two tensors of the same
    shape (torch would broadcast a tensor with one row, which is not modelled). *)
Definition relu (x : feat) : feat := map (map (fun v => if qltb v 0 then 0%Qc else v)) x.
Definition tanh_ (P : params) (x : feat) : feat := map (map (p_tanh P)) x.
Definition dropout (P : params) (p : path) (x : feat) : feat :=
  map (fun ir => map (fun cv => (snd cv * p_mask P p (fst ir) (fst cv))%Qc) (combine (seq 0 (length (snd ir))) (snd ir)))
      (combine (seq 0 (length x)) x).
Definition add_feat (x y : feat) : res feat :=
  if Nat.eqb (length x) (length y) && forallb (fun rs => Nat.eqb (length (fst rs)) (length (snd rs))) (combine x y)
  then Ok (zip_with vadd x y) else Err RuntimeError.

(** ** modules.py *)

(** octree_conv.py:336-385 with the default arguments use_bias=False,
    direct_method=False and max_buffer=int(2e8) *)
Definition conv (P : params) (p : path) (ci co : nat) (ks : list nat) (stride : Z) (ne : bool)
    (x : feat) (o : octree) (d : Z) : res feat :=
  let g := mkCfg ci co ks stride ne 200000000 true in
  m <- conv_init g ;;
  at_depth d (OctreeConv g false (tensor3 (m_kdim m) (m_inconv m) (m_outconv m) (p_weight P p)) None x o).
(** octree_conv.py:388-429 *)
Definition deconv (P : params) (p : path) (ci co : nat) (ks : list nat) (stride : Z) (ne : bool)
    (x : feat) (o : octree) (d : Z) : res feat :=
  let g := mkCfg ci co ks stride ne 200000000 false in
  m <- conv_init g ;;
  at_depth d (OctreeDeconv g false (tensor3 (m_kdim m) (m_inconv m) (m_outconv m) (p_weight P p)) None x o).
(** modules.py:31-49 *)
Definition conv_bn (P : params) (p : path) (ci co : nat) (ks : list nat) (stride : Z) (ne : bool)
    (x : feat) (o : octree) (d : Z) : res feat :=
  out <- conv P p ci co ks stride ne x o d ;; p_norm P p co out.
(** modules.py:52-73 *)
Definition conv_bn_relu (P : params) (p : path) (ci co : nat) (ks : list nat) (stride : Z) (ne : bool)
    (x : feat) (o : octree) (d : Z) : res feat :=
  out <- conv P p ci co ks stride ne x o d ;; out <- p_norm P p co out ;; Ok (relu out).
(** modules.py:76-97 *)
Definition deconv_bn_relu (P : params) (p : path) (ci co : nat) (ks : list nat) (stride : Z) (ne : bool)
    (x : feat) (o : octree) (d : Z) : res feat :=
  out <- deconv P p ci co ks stride ne x o d ;; out <- p_norm P p co out ;; Ok (relu out).
(** modules.py:100-116 and torch.nn.Linear: x W^T + b with W of shape (co, ci) *)
Definition linear (P : params) (p : path) (ci co : nat) (use_bias : bool) (x : feat) : res feat :=
  out <- mm co x (transpose ci (tensor2 co ci (p_weight P p O))) ;;
  Ok (add_bias (if use_bias then Some (tensor1 co (p_bias P p)) else None) out).
(** modules.py:119-133 *)
Definition conv1x1_bn (P : params) (p : path) (ci co : nat) (x : feat) : res feat :=
  out <- linear P p ci co false x ;; p_norm P p co out.
(** modules.py:136-152 *)
Definition conv1x1_bn_relu (P : params) (p : path) (ci co : nat) (x : feat) : res feat :=
  out <- linear P p ci co false x ;; out <- p_norm P p co out ;; Ok (relu out).
(** modules.py:155-173; the input is already flat (N, C) *)
Definition fc_bn_relu (P : params) (p : path) (ci co : nat) (x : feat) : res feat :=
  out <- linear P p ci co false x ;; out <- p_norm P p co out ;; Ok (relu out).

(** octree_pool.py:143-156.  Minus infinity (a non-empty node without non-empty
    children) stops the model; Python computes on with it. *)
Definition finite_rows (x : list (list xnum)) : res feat :=
  mapM (mapM (fun v => match v with Some q => Ok q | None => Err RuntimeError end)) x.
Definition max_pool_ind (C : nat) (ne : bool) (x : feat) (o : octree) (d : Z) : res (feat * list (list Z)) :=
  at_depth d (fun d => '(y, idx) <- octree_max_pool C x o d ne ;; y <- finite_rows y ;; Ok (y, idx)).
Definition max_pool (C : nat) (ne : bool) (x : feat) (o : octree) (d : Z) : res feat :=
  '(y, _) <- max_pool_ind C ne x o d ;; Ok y.

(** ** resblocks.py *)

(** resblocks.py:37 and 77: int(out_channels / bottleneck) *)
Definition bottleneck_channels (co bneck : nat) : res nat :=
  if Nat.eqb bneck 0 then Err ZeroDivisionError else Ok (co / bneck)%nat.
(** resblocks.py:16-60 *)
Definition res_block (P : params) (p : path) (ci co : nat) (stride : Z) (bneck : nat) (ne : bool)
    (x : feat) (o : octree) (d : Z) : res feat :=
  cb <- bottleneck_channels co bneck ;;
  '(x, d) <- (if stride =? 2 then y <- max_pool ci ne x o d ;; Ok (y, d - 1) else Ok (x, d)) ;;
  conv1 <- conv1x1_bn_relu P (p ++ [("conv1x1a"%string, 0)]) ci cb x ;;
  conv2 <- conv_bn_relu P (p ++ [("conv3x3"%string, 0)]) cb cb [3%nat] 1 ne conv1 o d ;;
  conv3 <- conv1x1_bn P (p ++ [("conv1x1b"%string, 0)]) cb co conv2 ;;
  x <- (if Nat.eqb ci co then Ok x else conv1x1_bn P (p ++ [("conv1x1c"%string, 0)]) ci co x) ;;
  out <- add_feat conv3 x ;;
  Ok (relu out).
(** resblocks.py:63-97; stride 2 reads the missing attribute self.depth (line 80) *)
Definition res_block2 (P : params) (p : path) (ci co : nat) (stride : Z) (bneck : nat) (ne : bool)
    (x : feat) (o : octree) (d : Z) : res feat :=
  cb <- bottleneck_channels co bneck ;;
  _ <- (if stride =? 2 then Err AttributeError else Ok tt) ;;
  conv1 <- conv_bn_relu P (p ++ [("conv3x3a"%string, 0)]) ci cb [3%nat] 1 ne x o d ;;
  conv2 <- conv_bn P (p ++ [("conv3x3b"%string, 0)]) cb co [3%nat] 1 ne conv1 o d ;;
  x <- (if Nat.eqb ci co then Ok x else conv1x1_bn P (p ++ [("conv1x1"%string, 0)]) ci co x) ;;
  out <- add_feat conv2 x ;;
  Ok (relu out).
(** resblocks.py:100-123; [basic] selects OctreeResBlock2.  Checkpointing recomputes
    the same values and is not modelled. *)
Definition res_blocks (P : params) (p : path) (ci co num bneck : nat) (ne basic : bool)
    (x : feat) (o : octree) (d : Z) : res feat :=
  let channels := ci :: repeat co num in
  foldM (fun x i =>
    ci <- tget channels i ;;
    co <- tget channels (i + 1) ;;
    (if basic then res_block2 else res_block) P (p ++ [("resblks"%string, i)]) ci co 1 bneck ne x o d)
  x (arange num).

(** Python dictionaries from depths to tensors *)
Definition ddict (A : Type) : Type := list (Z * A).
Definition dput {A} (m : ddict A) (k : Z) (v : A) : ddict A := (k, v) :: m.
Fixpoint dfind {A} (m : ddict A) (k : Z) : res A :=
  match m with [] => Err KeyError | (k', v) :: m => if k =? k' then Ok v else dfind m k end.

(** The header of the segmentation networks (unet.py:54-57, segnet.py:43-46) and the
    prediction module of the auto-encoder (autoencoder.py:66-69) *)
Definition head (P : params) (p : path) (ci ch co : nat) (x : feat) : res feat :=
  x <- conv1x1_bn_relu P (p ++ [("0"%string, 0)]) ci ch x ;;
  linear P (p ++ [("1"%string, 0)]) ch co true x.

(** OctreeInterp(method, nempty) with bound_check=False and rescale_pts=True
    (octree_interp.py:108-126) *)
Definition interp (lin ne : bool) (C : nat) (x : feat) (o : octree) (d : Z) (pts : list qpoint)
  : res (feat * list qpoint) :=
  at_depth d (fun d => interp_forward lin ne false true C x o d pts).

(** ** unet.py *)

(** unet.py:59-69, the network configuration; subclasses override it *)
Record unet_cfg := mkUnet {
  u_enc_ch : list nat; u_dec_ch : list nat;
  u_enc_blk : list nat; u_dec_blk : list nat;
  u_head : nat; u_bneck : nat; u_basic : bool
}.
Definition unet_default : unet_cfg :=
  mkUnet [32; 32; 64; 128; 256]%nat [256; 256; 128; 96; 96]%nat [2; 3; 4; 6]%nat [2; 2; 2; 2]%nat 64 1 true.

(** unet.py:71-81 *)
Definition unet_down (g : unet_cfg) (P : params) (ne : bool) (o : octree) (depth : Z) (convd : ddict feat) (i : Z)
  : res (ddict feat) :=
  let d := depth - i in
  ci <- tget (u_enc_ch g) i ;; co <- tget (u_enc_ch g) (i + 1) ;; nb <- tget (u_enc_blk g) i ;;
  x <- dfind convd d ;;
  x <- conv_bn_relu P [("downsample"%string, i)] ci co [2%nat] 2 ne x o d ;;
  x <- res_blocks P [("encoder"%string, i)] co co nb (u_bneck g) ne (u_basic g) x o (d - 1) ;;
  Ok (dput convd (d - 1) x).
Definition unet_encoder (g : unet_cfg) (P : params) (cin : nat) (ne : bool) (x : feat) (o : octree) (depth : Z)
  : res (ddict feat) :=
  c0 <- tget (u_enc_ch g) 0 ;;
  x <- conv_bn_relu P [("conv1"%string, 0)] cin c0 [3%nat] 1 ne x o depth ;;
  foldM (unet_down g P ne o depth) (dput [] depth x) (arange (length (u_enc_blk g))).
(** unet.py:83-93, with the channels of lines 41-50 *)
Definition unet_up (g : unet_cfg) (P : params) (ne : bool) (o : octree) (depth : Z) (convd : ddict feat) (x : feat) (i : Z)
  : res feat :=
  let d := depth + i in
  ci <- tget (u_dec_ch g) i ;; co <- tget (u_dec_ch g) (i + 1) ;;
  ce <- tget (u_enc_ch g) (- i - 2) ;; nb <- tget (u_dec_blk g) i ;;
  x <- deconv_bn_relu P [("upsample"%string, i)] ci co [2%nat] 2 ne x o d ;;
  skip <- dfind convd (d + 1) ;;
  x <- cat_cols [skip; x] ;;
  res_blocks P [("decoder"%string, i)] (co + ce) co nb (u_bneck g) ne (u_basic g) x o (d + 1).
Definition unet_decoder (g : unet_cfg) (P : params) (ne : bool) (convd : ddict feat) (o : octree) (depth : Z) : res feat :=
  x <- dfind convd depth ;;
  foldM (unet_up g P ne o depth convd) x (arange (length (u_dec_blk g))).
(** unet.py:95-106; the result is the logits and the query tensor after the call *)
Definition UNet (g : unet_cfg) (P : params) (cin cout : nat) (lin ne : bool)
    (x : feat) (o : octree) (depth : Z) (pts : list qpoint) : res (feat * list qpoint) :=
  let es := zlen (u_enc_blk g) in let ds := zlen (u_dec_blk g) in
  convd <- unet_encoder g P cin ne x o depth ;;
  x <- unet_decoder g P ne convd o (depth - es) ;;
  c <- tget (u_dec_ch g) (-1) ;;
  '(x, pts) <- interp lin ne c x o (depth - es + ds) pts ;;
  logits <- head P [("header"%string, 0)] c (u_head g) cout x ;;
  Ok (logits, pts).

(** ** lenet.py, resnet.py, segnet.py *)

(** 2 ** max(i + k - stages, 2) for i in range(stages) *)
Definition stage_channels (k stages : nat) : list nat :=
  map (fun i => 2 ^ Nat.max (i + k - stages) 2)%nat (seq 0 stages).

(** lenet.py:26 and 40-43, one stage *)
Definition lenet_stage (P : params) (chs : list nat) (ne : bool) (o : octree) (depth : Z) (x : feat) (i : Z) : res feat :=
  let d := depth - i in
  ci <- tget chs i ;; co <- tget chs (i + 1) ;;
  x <- conv_bn_relu P [("convs"%string, i)] ci co [3%nat] 1 ne x o d ;;
  max_pool co ne x o d.
(** Flatten(start_dim=1) of a (B, n, n, n, C) tensor stored with [v] voxels per sample *)
Definition flatten_vox (B v : nat) (x : feat) : feat := map (@concat Qc) (chunk_rows B v x).
(** lenet.py:17-47; [C] columns arrive at octree2voxel *)
Definition LeNet (P : params) (cin cout stages : nat) (ne : bool) (x : feat) (o : octree) (depth : Z) : res feat :=
  let chs := cin :: stage_channels 7 stages in
  x <- foldM (lenet_stage P chs ne o depth) x (arange stages) ;;
  C <- tget chs (-1) ;;
  let d := depth - Z.of_nat stages in
  vox <- at_depth d (fun d => octree2voxel C x o d ne) ;;
  let x := flatten_vox (batch_size o) (8 ^ Z.to_nat d) vox in
  let x := dropout P [("header"%string, 0)] x in
  x <- fc_bn_relu P [("header"%string, 1)] 4096 128 x ;;
  let x := dropout P [("header"%string, 2)] x in
  linear P [("header"%string, 3)] 128 cout true x.

(** resnet.py:46-49, one stage *)
Definition resnet_stage (P : params) (chs : list nat) (num : nat) (ne : bool) (o : octree) (depth : Z) (x : feat) (i : Z)
  : res feat :=
  let d := depth - i - 1 in
  ci <- tget chs i ;; co <- tget chs (i + 1) ;;
  x <- res_blocks P [("resblocks"%string, i)] ci co num 4 ne false x o d ;;
  max_pool co ne x o d.
(** resnet.py:17-52 *)
Definition ResNet (P : params) (cin cout num stages : nat) (ne : bool) (x : feat) (o : octree) (depth : Z) : res feat :=
  let chs := stage_channels 9 stages in
  c0 <- tget chs 0 ;;
  x <- conv_bn_relu P [("conv1"%string, 0)] cin c0 [3%nat] 1 ne x o depth ;;
  x <- max_pool c0 ne x o depth ;;
  x <- foldM (resnet_stage P chs num ne o depth) x (arange (stages - 1)) ;;
  C <- tget chs (-1) ;;
  x <- at_depth (depth - Z.of_nat stages) (fun d => octree_global_pool C x o d ne) ;;
  x <- fc_bn_relu P [("header"%string, 0)] C 512 x ;;
  let x := dropout P [("header"%string, 1)] x in
  linear P [("header"%string, 2)] 512 cout true x.

(** segnet.py:53-57, one encoder stage *)
Definition segnet_down (P : params) (chs : list nat) (ne : bool) (o : octree) (depth : Z)
    (st : feat * ddict (list (list Z))) (i : Z) : res (feat * ddict (list (list Z))) :=
  let '(x, indices) := st in
  let d := depth - i in
  ci <- tget chs i ;; co <- tget chs (i + 1) ;;
  x <- conv_bn_relu P [("convs"%string, i)] ci co [3%nat] 1 ne x o d ;;
  '(x, idx) <- max_pool_ind co ne x o d ;;
  Ok (x, dput indices d idx).
(** segnet.py:63-66, one decoder stage; [depth] is depth - stages *)
Definition segnet_up (P : params) (chs : list nat) (ne : bool) (o : octree) (depth : Z)
    (indices : ddict (list (list Z))) (x : feat) (i : Z) : res feat :=
  let d := depth + i in
  ci <- tget chs i ;; co <- tget chs (i + 1) ;;
  idx <- dfind indices (d + 1) ;;
  x <- at_depth d (fun d => octree_max_unpool x idx o d ne) ;;
  conv_bn_relu P [("deconvs"%string, i)] ci co [3%nat] 1 ne x o (d + 1).
(** segnet.py:17-72; the bottleneck convolution of line 34 has no nempty argument *)
Definition SegNet (P : params) (cin cout stages : nat) (lin ne : bool)
    (x : feat) (o : octree) (depth : Z) (pts : list qpoint) : res (feat * list qpoint) :=
  let st := stage_channels 8 stages in
  let chs := cin :: st in
  '(x, indices) <- foldM (segnet_down P chs ne o depth) (x, []) (arange stages) ;;
  c <- tget chs (-1) ;;
  x <- conv_bn_relu P [("bottleneck"%string, 0)] c c [3%nat] 1 false x o (depth - Z.of_nat stages) ;;
  c0 <- tget st 0 ;;
  let chs := rev st ++ [c0] in
  x <- foldM (segnet_up P chs ne o (depth - Z.of_nat stages) indices) x (arange stages) ;;
  c <- tget chs (-1) ;;
  '(x, pts) <- interp lin ne c x o depth pts ;;
  logits <- head P [("header"%string, 0)] c 64 cout x ;;
  Ok (logits, pts).

(** ** autoencoder.py *)

(** autoencoder.py:28-64: the channels per depth, and the update of line 53 *)
Record ae_cfg := mkAe { a_ch : list nat; a_code : nat; a_depth : nat; a_full : nat; a_blocks : nat }.
Definition ae_default (depth full : nat) : ae_cfg :=
  mkAe [512; 512; 256; 256; 128; 128; 32; 32; 16; 16]%nat 64 depth full 2.
Definition dec_channels (g : ae_cfg) : res (list nat) := tset (a_ch g) (Z.of_nat (a_full g)) (a_code g).

(** logit.argmax(1) *)
Definition argmax (r : vec) : Z := snd (max_first (map (@Some Qc) r)).
(** octree.features[d] = x *)
Definition store_features (o : octree) (d : nat) (x : feat) : res octree :=
  upd_layer o d (fun l => set_features l (Some x)).

(** autoencoder.py:71-87, the loop body of line 79 for layer [d], then the whole *)
Definition ae_enc_step (g : ae_cfg) (P : params) (o : octree) (convs : ddict feat) (i : Z) : res (ddict feat) :=
  let d := Z.of_nat (a_depth g) - i in
  c <- tget (a_ch g) d ;;
  x <- dfind convs d ;;
  x <- res_blocks P [("encoder_blks"%string, i)] c c (a_blocks g) 4 false false x o d ;;
  let convs := dput convs d x in
  if Z.of_nat (a_full g) <? d
  then c' <- tget (a_ch g) (d - 1) ;;
       y <- conv_bn_relu P [("downsample"%string, i)] c c' [2%nat] 2 false x o d ;;
       Ok (dput convs (d - 1) y)
  else Ok convs.
Definition ae_encoder (g : ae_cfg) (P : params) (cin CF : nat) (feature : string) (o : octree) : res feat :=
  x <- get_input_feature CF o feature false ;;
  _ <- assert_ (forallb (fun r => Nat.eqb (length r) cin) x) ;;
  c <- tget (a_ch g) (Z.of_nat (a_depth g)) ;;
  x <- conv_bn_relu P [("conv1"%string, 0)] cin c [3%nat] 1 false x o (Z.of_nat (a_depth g)) ;;
  convs <- foldM (ae_enc_step g P o) (dput [] (Z.of_nat (a_depth g)) x) (arange (S (a_depth g) - a_full g)) ;;
  x <- dfind convs (Z.of_nat (a_full g)) ;;
  cf <- tget (a_ch g) (Z.of_nat (a_full g)) ;;
  x <- linear P [("proj"%string, 0)] cf (a_code g) true x ;;
  Ok (tanh_ P x).

(** autoencoder.py:89-121.  The state is the tensor, the octree and the logits. *)
Definition ae_dec_step (g : ae_cfg) (P : params) (update : bool)
    (st : feat * octree * ddict feat) (i : Z) : res (feat * octree * ddict feat) :=
  let '(x, o, logits) := st in
  let d := Z.of_nat (a_full g) + i in
  chs <- dec_channels g ;;
  c <- tget chs d ;;
  x <- (if 0 <? i
        then c' <- tget chs (d - 1) ;;
             deconv_bn_relu P [("upsample"%string, i - 1)] c' c [2%nat] 2 false x o (d - 1)
        else Ok x) ;;
  x <- res_blocks P [("decoder_blks"%string, i)] c c (a_blocks g) 4 false false x o d ;;
  logit <- head P [("predict"%string, i)] c 64 2 x ;;
  o <- (if update
        then o <- octree_split o (map argmax logit) (Z.to_nat d) ;;
             if d <? Z.of_nat (a_depth g) then octree_grow o (Z.to_nat d + 1) true else Ok o
        else Ok o) ;;
  Ok (x, o, dput logits d logit).
Definition ae_decoder (g : ae_cfg) (P : params) (cout : nat) (code : feat) (o : octree) (update : bool)
  : res (ddict feat * feat * octree) :=
  '(x, o, logits) <- foldM (ae_dec_step g P update) (code, o, []) (arange (S (a_depth g) - a_full g)) ;;
  chs <- dec_channels g ;;
  c <- tget chs (Z.of_nat (a_depth g)) ;;
  s <- head P [("header"%string, 0)] c 64 cout x ;;
  s <- octree_depad (tanh_ P s) o (Z.of_nat (a_depth g)) ;;
  o <- (if update then store_features o (a_depth g) s else Ok o) ;;
  Ok (logits, s, o).
(** autoencoder.py:134-146 *)
Definition ae_init_octree (g : ae_cfg) (dev : nat) (code : feat) : res octree :=
  init_octree (a_depth g) (a_full g) (length code / 2 ^ (3 * a_full g)) dev.
(** autoencoder.py:123-132 *)
Definition ae_decode_code (g : ae_cfg) (P : params) (cout dev : nat) (code : feat) : res (ddict feat * feat * octree) :=
  o <- ae_init_octree g dev code ;;
  ae_decoder g P cout code o true.
(** autoencoder.py:148-155 *)
Definition AutoEncoder (g : ae_cfg) (P : params) (cin cout CF dev : nat) (feature : string) (o : octree) (update : bool)
  : res (ddict feat * feat * octree) :=
  code <- ae_encoder g P cin CF feature o ;;
  o <- (if update then ae_init_octree g dev code else Ok o) ;;
  ae_decoder g P cout code o update.

(** ** hrnet.py *)

(** hrnet.py:15-34 *)
Definition hr_branches (P : params) (p : path) (chs : list nat) (num : nat) (ne : bool)
    (datas : list feat) (o : octree) (depth : Z) : res (list feat) :=
  _ <- assert_ (Nat.eqb (length datas) (length chs)) ;;
  mapM (fun i =>
    c <- tget chs i ;; x <- tget datas i ;;
    res_blocks P (p ++ [("resblocks"%string, i)]) c c num (if Nat.ltb c 256 then 4 else 8) ne false x o (depth - i))
  (arange (length chs)).
(** hrnet.py:49-63; the upsampling is OctreeUpsample('nearest') *)
Definition hr_trans (P : params) (p : path) (ci co : nat) (ne : bool) (x : feat) (o : octree) (ind outd : Z) : res feat :=
  let project x := if Nat.eqb ci co then Ok x else conv1x1_bn_relu P p ci co x in
  if outd <? ind then
    x <- foldM (fun x i => max_pool ci ne x o (ind - i)) x (arange (Z.to_nat (ind - outd))) ;;
    project x
  else if ind <? outd then
    x <- project x ;;
    foldM (fun x i => at_depth (ind + i) (fun d => octree_upsample "nearest" ne co x o d None)) x
      (arange (Z.to_nat (outd - ind)))
  else Ok x.
(** torch.stack(features).sum(0) *)
Definition sum_feats (xs : list feat) : res feat :=
  match xs with [] => Err RuntimeError | x :: xs => foldM add_feat x xs end.
(** hrnet.py:66-94 *)
Definition hr_transitions (P : params) (p : path) (chs : list nat) (ne : bool) (datas : list feat) (o : octree) (depth : Z)
  : res (list feat) :=
  let num := zlen chs in
  mapM (fun j =>
    fs <- mapM (fun i =>
      ci <- tget chs i ;; co <- tget chs j ;; x <- tget datas i ;;
      hr_trans P (p ++ [("trans_func"%string, i * num + j)]) ci co ne x o (depth - i) (depth - j))
      (arange (length chs - 1)) ;;
    sum_feats fs) (arange (length chs)).
(** hrnet.py:97-118 for the three channels of line 171 *)
Definition hr_front (P : params) (c0 c1 c2 : nat) (ne : bool) (x : feat) (o : octree) (depth : Z) : res feat :=
  x <- conv_bn_relu P [("front"%string, 0); ("conv"%string, 0)] c0 c1 [3%nat] 1 ne x o depth ;;
  x <- max_pool c1 ne x o depth ;;
  conv_bn_relu P [("front"%string, 0); ("conv"%string, 1)] c1 c2 [3%nat] 1 ne x o (depth - 1).
(** hrnet.py:121-153; the pooled depth 2 is a constant *)
Definition hr_header (P : params) (chs : list nat) (cout : nat) (ne : bool) (datas : list feat) (o : octree) (depth : Z)
  : res feat :=
  outs <- mapM (fun i =>
    x <- tget datas i ;; c <- tget chs i ;;
    foldM (fun x j => max_pool c ne x o (depth - i - j)) x (arange (Z.to_nat (depth - i - 2))))
    (arange (length datas)) ;;
  x <- cat_cols outs ;;
  x <- conv1x1_bn_relu P [("cls_header"%string, 0); ("conv1x1"%string, 0)] (fold_right Nat.add O chs) 1024 x ;;
  x <- octree_global_pool 1024 x o 2 ne ;;
  linear P [("cls_header"%string, 0); ("header"%string, 1)] 1024 cout true x.
(** hrnet.py:156-194; the network has the channels of line 169 *)
Definition hr_channels : list nat := [128; 256; 512; 512]%nat.
Definition HRNet (P : params) (cin cout stages num : nat) (ne : bool) (x : feat) (o : octree) (depth : Z) : res feat :=
  x <- hr_front P cin 32 128 ne x o depth ;;
  let depth := depth - 1 in
  convs <- foldM (fun convs i =>
    convs <- hr_branches P [("branches"%string, i)] (firstn (Z.to_nat i + 1) hr_channels) num ne convs o depth ;;
    if i <? Z.of_nat stages - 1
    then hr_transitions P [("transitions"%string, i)] (firstn (Z.to_nat i + 2) hr_channels) ne convs o depth
    else Ok convs) [x] (arange stages) ;;
  hr_header P (firstn stages hr_channels) cout ne convs o depth.
