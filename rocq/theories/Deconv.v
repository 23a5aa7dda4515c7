(** Deconvolution, octree2col/col2octree, dense convolution. *)
From Coq Require Import String List ZArith Bool QArith Qcanon Lia Field.
From Verif Require Import Res Tensor Num NumFacts Points Octree NnBasic NnConv Spec SpecGeo SpecNeigh SpecNN WF ListFacts ScatterFacts SumFacts NnFacts
  KeyFacts KidsFacts WFFacts SearchFacts NeighFacts NeighSparse GetNeigh NeighThms ConvFacts PadFacts ConvOct.
Import ListNotations.
Open Scope Z_scope.

(** ** C34 *)
Lemma thm_col_adjoint o d kernel stride ne C x cols : conv_ready o d kernel stride ->
  shape (node_count o d ne) C x -> shape3 (out_count o d stride ne) (length (box kernel)) C cols ->
  exists t cx y, get_neigh o d kernel stride ne = Ok t /\
    octree2col C x o d kernel stride ne = Ok cx /\ shape3 (out_count o d stride ne) (length (box kernel)) C cx /\
    (forall r k c, (r < out_count o d stride ne)%nat -> at3 cx r k c = at_row x (entry t r k) c) /\
    col2octree C cols o d kernel stride ne = Ok y /\ shape (node_count o d ne) C y /\
    inner3 (out_count o d stride ne) (length (box kernel)) C cx cols = inner (node_count o d ne) C x y.
Proof.
  intros Hr Hx Hc. destruct (conv_table o d kernel stride ne Hr) as (K & M & t & T & E & _ & _ & Ht & Hl).
  destruct Hr as (_ & Hd & _ & _ & _). rewrite <- Hl in *. set (n := node_count o d ne) in *.
  destruct (scatter_table n (length (box kernel)) C (repeat (repeat 0%Qc C) n) cols t) as (y & S1 & S2 & S3); [apply shape_repeat|exact Hc|exact Ht|].
  exists t, (map (grow C x) t), y. split; [exact E|]. split.
  { unfold octree2col. rewrite E. cbn [bind]. apply (gather_cols_Ok C x t (length (box kernel)) n); [apply Hx|exact Ht]. }
  split; [apply (map_grow_shape C x t _ n); assumption|]. split; [intros r k c Hr; apply at3_grow; exact Hr|]. split.
  { unfold col2octree. rewrite E. cbn [bind]. destruct (layer_counts o _ K M T d Hd) as (l & -> & _ & En & Ene). cbn [bind].
    rewrite (valid_rows_Ok (length t) (length (box kernel)) C cols t n) by (reflexivity || assumption). cbn [bind].
    replace (if ne then nnum_nempty l else nnum l) with (Z.of_nat n) by (unfold n; destruct ne; congruence).
    unfold full_rows. replace (Z.of_nat n <? 0) with false by (symmetry; apply Z.ltb_ge; lia). rewrite Nat2Z.id. cbn [bind]. exact S1. }
  split; [exact S2|]. rewrite <- (gather_scatter t (length (box kernel)) n C x y cols Ht).
  - unfold inner3. apply sum_ext. intros r Hr. apply sum_ext. intros k Hk. apply sum_ext. intros c Hc'. rewrite at3_grow by exact Hr. reflexivity.
  - intros i c Hi Hc'. rewrite S3 by exact Hi. rewrite at2_zero. ring.
Qed.

(** ** C38 *)
Lemma deconv_Ok o d kernel stride ne ci co ks mb y W : conv_ready o (up d stride) kernel stride -> In (ks, kernel) kernel_sizes ->
  fits (Z.of_nat (out_count o (up d stride) stride ne)) (Z.of_nat (length (box kernel)) * Z.of_nat ci) mb ->
  shape (out_count o (up d stride) stride ne) co y -> shape3 (length (box kernel)) ci co W ->
  exists t z, get_neigh o (up d stride) kernel stride ne = Ok t /\ table_ok t (length (box kernel)) (node_count o (up d stride) ne) /\
    length t = out_count o (up d stride) stride ne /\
    deconv_forward (mkCfg co ci ks stride ne mb false) o d y W = Ok z /\ shape (node_count o (up d stride) ne) ci z /\
    (forall i c, (i < node_count o (up d stride) ne)%nat -> (c < ci)%nat -> at2 z i c = bw_entry (length (box kernel)) co W y t i c) /\
    ((0 < out_count o (up d stride) stride ne)%nat ->
      (col <- mm (length (box kernel) * ci) y (transpose co (concat W)) ;;
       col <- (if Nat.eqb (length col) 0 then Err RuntimeError else Ok (map (chunk_rows (length (box kernel)) ci) col)) ;;
       col2octree ci col o (up d stride) kernel stride ne) = Ok z) /\
    (out_count o (up d stride) stride ne = O ->
      (col <- mm (length (box kernel) * ci) y (transpose co (concat W)) ;;
       col <- (if Nat.eqb (length col) 0 then Err RuntimeError else Ok (map (chunk_rows (length (box kernel)) ci) col)) ;;
       col2octree ci col o (up d stride) kernel stride ne) = Err RuntimeError).
Proof.
  intros Hr Hk Hf Hy HW. set (K := length (box kernel)) in *. set (n := node_count o (up d stride) ne) in *. set (R := out_count o (up d stride) stride ne) in *.
  destruct (deconv_setup_Ok o d kernel stride ne co ci ks mb K ci co Hr Hf) as (t & pn & h & E1 & E2 & E3 & E4 & E5 & _).
  fold K n R in E1, E3, E4. set (s := mkGeo _ _ t pn h) in E1.
  assert (Hy' : shape (length t) co y) by (rewrite E4; exact Hy).
  destruct (bw_scatter n K ci co (repeat (repeat 0%Qc ci) n) y W t (shape_repeat _ _ _) Hy' E3 HW) as (z & B1 & B2 & B3).
  exists t, z. split; [exact E2|]. split; [exact E3|]. split; [exact E4|]. split.
  { unfold deconv_forward. destruct (ksize_ok ks kernel co ci stride ne mb false Hk) as [_ ->]. cbn [bind]. fold K. rewrite E1. cbn [bind].
    rewrite (check_Ok _ s y R n) by (reflexivity || exact Hy). cbn [bind c_out].
    rewrite (backward_gemm_eq (mkDims kernel K ci co) s n K) by (reflexivity || assumption). exact B1. }
  split; [exact B2|]. split.
  { intros i c Hi Hc. rewrite B3 by assumption. rewrite at2_zero. ring. }
  assert (Emm : exists p, mm (K * ci) y (transpose co (concat W)) = Ok p /\ map (chunk_rows K ci) p = map (spr K ci co W) y /\ length p = length y).
  { rewrite mm_Ok; [|intros r Hr'; rewrite transpose_length; destruct Hy as [_ Hy]; rewrite Forall_forall in Hy; apply Hy; exact Hr'].
    eexists. split; [reflexivity|]. rewrite map_map, map_length. split; reflexivity. }
  destruct Emm as (p & -> & Ep & Lp). cbn [bind]. rewrite Lp. destruct Hy as [Hy1 Hy2]. rewrite Hy1. split; intros HR.
  - replace (Nat.eqb R 0) with false by (symmetry; apply Nat.eqb_neq; lia). cbn [bind]. rewrite Ep. unfold col2octree. rewrite E2. cbn [bind].
    destruct Hr as ((K' & M & T) & Hd & _). destruct (layer_counts o _ K' M T _ Hd) as (l & -> & _ & En & Ene). cbn [bind].
    rewrite (valid_rows_Ok (length t) K ci _ t n) by (try reflexivity; try assumption; apply spr_shape3; apply Hy'). cbn [bind].
    replace (if ne then nnum_nempty l else nnum l) with (Z.of_nat n) by (unfold n; destruct ne; congruence).
    unfold full_rows. replace (Z.of_nat n <? 0) with false by (symmetry; apply Z.ltb_ge; lia). rewrite Nat2Z.id. cbn [bind]. exact B1.
  - rewrite HR. reflexivity.
Qed.

(** pad and depad are adjoint *)
Lemma fill_inner C m : forall (l : feat) z y, length m = length l -> length m = length y -> count_true m = length z ->
  (forall i c, at2 l i c = 0%Qc) ->
  inner (length m) C (fill m l z) y = inner (length z) C z (select m y).
Proof.
  (* sums over lists from the front *)
  assert (Front : forall n f, sum_n (S n) f = (f O + sum_n n (fun i => f (S i)))%Qc).
  { intros n f. change (S n) with (1 + n)%nat. rewrite sum_app. cbn [sum_n Nat.add]. ring. }
  induction m as [|b m IH]; intros l z y Hl Hy Hz H0.
  - destruct z; [reflexivity|discriminate].
  - destruct l as [|a l]; [discriminate|]. destruct y as [|w y]; [discriminate|]. cbn in Hl, Hy. rewrite count_true_cons in Hz.
    assert (H0' : forall i c, at2 l i c = 0%Qc) by (intros i c; apply (H0 (S i) c)).
    destruct b; cbn [fill select].
    + destruct z as [|v z]; [discriminate|]. cbn [length]. unfold inner. rewrite !Front.
      change (sum_n (length m) (fun i => sum_n C (fun c => at2 (v :: fill m l z) (S i) c * at2 (w :: y) (S i) c)%Qc)) with (inner (length m) C (fill m l z) y).
      change (sum_n (length z) (fun i => sum_n C (fun c => at2 (v :: z) (S i) c * at2 (w :: select m y) (S i) c)%Qc)) with (inner (length z) C z (select m y)).
      rewrite IH by (cbn in Hz; lia || assumption). reflexivity.
    + cbn [length]. unfold inner at 1. rewrite Front.
      change (sum_n (length m) (fun i => sum_n C (fun c => at2 (a :: fill m l z) (S i) c * at2 (w :: y) (S i) c)%Qc)) with (inner (length m) C (fill m l z) y).
      rewrite IH by (lia || assumption). rewrite (sum_zero C); [ring|].
      intros c _. change (at2 (a :: fill m l z) 0 c) with (at2 (a :: l) 0 c). rewrite H0. ring.
Qed.
Lemma select_true {A} (l : list A) n : n = length l -> select (repeat true n) l = l.
Proof. intros ->. induction l as [|a l IH]; [reflexivity|]. cbn. f_equal. exact IH. Qed.

(** input of the transposed convolution, after depad *)
Definition start (o : octree) (d : nat) (stride : Z) (ne : bool) (y : feat) : res feat :=
  if (stride =? 2) && negb ne then octree_depad y o (Z.of_nat d) else Ok y.
Lemma start_Ok o d kernel stride ne C y : conv_ready o (up d stride) kernel stride -> shape (node_count o d ne) C y ->
  exists y', start o d stride ne y = Ok y' /\ shape (out_count o (up d stride) stride ne) C y' /\
    forall z, shape (out_count o (up d stride) stride ne) C z ->
      exists w, finish o (up d stride) C stride ne z = Ok w /\ shape (node_count o d ne) C w /\
        inner (node_count o d ne) C w y = inner (out_count o (up d stride) stride ne) C z y'.
Proof.
  intros Hr Hy. pose proof Hr as ((K & M & T) & Hd & _ & _ & Hs). unfold start.
  assert (Ed : down (up d stride) stride = d) by (unfold up, down; destruct (stride =? 2); lia).
  assert (Main : exists y' fl, (if (stride =? 2) && negb ne then octree_depad y o (Z.of_nat d) else Ok y) = Ok y' /\ y' = select fl y /\
     length fl = node_count o d ne /\ shape (out_count o (up d stride) stride ne) C y' /\
     ((stride = 2 /\ ne = false) -> nempty_mask o (Z.of_nat d) = Ok fl) /\
     (~ (stride = 2 /\ ne = false) -> fl = repeat true (node_count o d ne))).
  { destruct Hs as [->|[-> Hd1]]; unfold up, out_count in *; cbn [Z.eqb Pos.eqb andb] in *.
    - exists y, (repeat true (node_count o d ne)). split; [reflexivity|]. split; [symmetry; apply select_true; symmetry; apply Hy|].
      split; [apply repeat_length|]. split; [exact Hy|]. split; [intros [[=] _]|reflexivity].
    - replace (S d - 1)%nat with d by lia. destruct ne; cbn [negb].
      + exists y, (repeat true (node_count o d true)). split; [reflexivity|]. split; [symmetry; apply select_true; symmetry; apply Hy|].
        split; [apply repeat_length|]. split; [exact Hy|]. split; [intros [_ [=]]|reflexivity].
      + destruct (mask_len o _ K M T d ltac:(lia)) as [Hm Hc]. rewrite (tree_depad o _ K M T) by (try lia; apply Hy).
        exists (select (M d) y), (M d). split; [reflexivity|]. split; [reflexivity|]. split; [exact Hm|]. split.
        * split; [rewrite select_length; [exact Hc|rewrite Hm; symmetry; apply Hy]|]. apply Forall_select. apply Hy.
        * split; [intros _; apply (tree_mask o _ K M T); lia|intros []; split; reflexivity]. }
  destruct Main as (y' & fl & E1 & -> & Lf & Sy & F1 & F2). exists (select fl y). split; [exact E1|]. split; [exact Sy|]. intros z Hz.
  destruct (finish_Ok o (up d stride) kernel stride ne C z Hr Hz) as (w & fl' & W1 & W2 & W3 & W4 & W5 & W6 & W7). rewrite Ed in *.
  exists w. split; [exact W1|]. split; [exact W2|].
  assert (fl' = fl).
  { destruct (Z.eq_dec stride 2) as [E2|N2]; [destruct ne eqn:En|].
    - rewrite F2, W6 by (intros [_ ?]; discriminate). f_equal. rewrite <- W3. rewrite W6 by (intros [_ ?]; discriminate). rewrite repeat_length. reflexivity.
    - subst stride. assert (A : nempty_mask o (Z.of_nat d) = Ok fl') by (rewrite <- W5 by (split; reflexivity); f_equal; unfold up; cbn; lia).
      rewrite F1 in A by (split; reflexivity). injection A as <-. reflexivity.
    - rewrite F2, W6 by (intros [? _]; contradiction). f_equal. rewrite <- W3. rewrite W6 by (intros [? _]; contradiction). rewrite repeat_length. reflexivity. }
  subst fl'. rewrite W7, <- Lf. rewrite fill_inner.
  - f_equal. apply Hz.
  - rewrite repeat_length. reflexivity.
  - rewrite Lf. symmetry. apply Hy.
  - exact W4.
  - intros i c. apply at2_zero.
Qed.
Lemma OctreeDeconv_Ok o d kernel stride ne ci co ks mb direct y W : conv_ready o (up d stride) kernel stride -> In (ks, kernel) kernel_sizes ->
  (direct = true /\ (0 < out_count o (up d stride) stride ne)%nat \/
   direct = false /\ Z.of_nat (length (box kernel)) * Z.of_nat ci <= mb) ->
  shape (node_count o d ne) co y -> shape3 (length (box kernel)) ci co W ->
  exists t y' z, get_neigh o (up d stride) kernel stride ne = Ok t /\ table_ok t (length (box kernel)) (node_count o (up d stride) ne) /\
    length t = out_count o (up d stride) stride ne /\ start o d stride ne y = Ok y' /\
    (forall bias, OctreeDeconv (mkCfg co ci ks stride ne mb false) direct W bias y o d = Ok (add_bias bias z)) /\ shape (node_count o (up d stride) ne) ci z /\
    (forall i c, (i < node_count o (up d stride) ne)%nat -> (c < ci)%nat -> at2 z i c = bw_entry (length (box kernel)) co W y' t i c).
Proof.
  intros Hr Hk Hf Hy HW. destruct (start_Ok o d kernel stride ne co y Hr Hy) as (y' & E & Sy & _).
  set (mb' := Z.max mb (Z.of_nat (length (box kernel)) * Z.of_nat ci)).
  assert (Hfm : fits (Z.of_nat (out_count o (up d stride) stride ne)) (Z.of_nat (length (box kernel)) * Z.of_nat ci) mb') by (left; unfold mb'; lia).
  destruct (deconv_Ok o d kernel stride ne ci co ks mb' y' W Hr Hk Hfm Sy HW) as (t & z & E2 & E3 & E4 & E5 & E6 & E7 & E8 & _).
  exists t, y', z. split; [exact E2|]. split; [exact E3|]. split; [exact E4|]. split; [exact E|]. split; [|split; assumption].
  intros bias. unfold OctreeDeconv. destruct (ksize_ok ks kernel co ci stride ne mb false Hk) as [_ ->]. cbn [bind c_stride c_nempty m_kdim m_inconv m_outconv m_kernel c_out].
  fold (start o d stride ne y). rewrite E. cbn [bind].
  replace (if stride =? 2 then (d + 1)%nat else d) with (up d stride) by (unfold up; destruct (stride =? 2); lia).
  destruct Hf as [[-> HR]|[-> Hmb]].
  - rewrite E8 by exact HR. reflexivity.
  - replace mb with mb' by (unfold mb'; lia). rewrite E5. reflexivity.
Qed.
(** direct and buffered agree, and the transpose property *)
Lemma thm_deconv_transpose o d ks kernel stride ne ci co mb mb' x y W : conv_ready o (up d stride) kernel stride -> In (ks, kernel) kernel_sizes ->
  shape (node_count o (up d stride) ne) ci x -> shape (node_count o d ne) co y -> shape3 (length (box kernel)) ci co W ->
  Z.of_nat (length (box kernel)) * Z.of_nat ci <= mb -> Z.of_nat (length (box kernel)) * Z.of_nat ci <= mb' ->
  exists cx dy, OctreeConv (mkCfg ci co ks stride ne mb true) false W None x o (up d stride) = Ok cx /\ shape (node_count o d ne) co cx /\
    OctreeDeconv (mkCfg co ci ks stride ne mb' false) false W None y o d = Ok dy /\ shape (node_count o (up d stride) ne) ci dy /\
    inner (node_count o d ne) co cx y = inner (node_count o (up d stride) ne) ci x dy.
Proof.
  intros Hr Hk Hx Hy HW Hm Hm'.
  destruct (OctreeConv_Ok o (up d stride) kernel stride ne ci co ks mb false x W None Hr Hk) as (t & E & Ht & Hl & F); [right; left; exact Hm|assumption..|].
  destruct (OctreeDeconv_Ok o d kernel stride ne ci co ks mb' false y W Hr Hk) as (t' & y' & z & E' & _ & _ & S1 & S2 & S3 & S4); [right; split; [reflexivity|exact Hm']|assumption..|].
  rewrite E in E'. injection E' as <-.
  destruct (start_Ok o d kernel stride ne co y Hr Hy) as (y'' & S1' & Sy & Adj). rewrite S1 in S1'. injection S1' as <-.
  cbn [add_bias] in F. destruct (Adj (cv ci co x W t)) as (w & W1 & W2 & W3); [rewrite <- Hl; apply cv_shape|].
  exists w, z. split; [rewrite F; exact W1|]. split; [exact W2|]. split; [apply (S2 None)|]. split; [exact S3|].
  rewrite W3, <- Hl. apply (cv_adjoint _ (length (box kernel))); try assumption. rewrite Hl. exact Sy.
Qed.
Lemma thm_deconv_direct o d ks kernel stride ne ci co mb mb' y W bias : conv_ready o (up d stride) kernel stride -> In (ks, kernel) kernel_sizes ->
  shape (node_count o d ne) co y -> shape3 (length (box kernel)) ci co W -> bias_ok ci bias ->
  Z.of_nat (length (box kernel)) * Z.of_nat ci <= mb -> (0 < out_count o (up d stride) stride ne)%nat ->
  exists z, OctreeDeconv (mkCfg co ci ks stride ne mb false) false W bias y o d = Ok z /\
    OctreeDeconv (mkCfg co ci ks stride ne mb' false) true W bias y o d = Ok z /\ shape (node_count o (up d stride) ne) ci z.
Proof.
  intros Hr Hk Hy HW Hb Hm HR.
  destruct (OctreeDeconv_Ok o d kernel stride ne ci co ks mb false y W Hr Hk) as (t & y1 & z1 & A1 & A2 & A3 & A4 & A5 & A6 & A7); [right; split; [reflexivity|exact Hm]|assumption..|].
  destruct (OctreeDeconv_Ok o d kernel stride ne ci co ks mb' true y W Hr Hk) as (t' & y2 & z2 & B1 & _ & _ & B4 & B5 & B6 & B7); [left; split; [reflexivity|exact HR]|assumption..|].
  rewrite A1 in B1. injection B1 as <-. rewrite A4 in B4. injection B4 as <-.
  assert (z1 = z2). { apply (shape_ext (node_count o (up d stride) ne) ci); [assumption..|]. intros i c Hi Hc. rewrite A7, B7 by assumption. reflexivity. }
  subst z2. exists (add_bias bias z1). rewrite A5, B5. split; [reflexivity|]. split; [reflexivity|]. apply add_bias_shape; assumption.
Qed.
Lemma thm_deconv_empty o d ks kernel stride ne ci co mb y W bias : conv_ready o (up d stride) kernel stride -> In (ks, kernel) kernel_sizes ->
  shape (node_count o d ne) co y -> shape3 (length (box kernel)) ci co W ->
  Z.of_nat (length (box kernel)) * Z.of_nat ci <= mb -> out_count o (up d stride) stride ne = O ->
  (exists z, OctreeDeconv (mkCfg co ci ks stride ne mb false) false W bias y o d = Ok z) /\
  OctreeDeconv (mkCfg co ci ks stride ne mb false) true W bias y o d = Err RuntimeError.
Proof.
  intros Hr Hk Hy HW Hm HR.
  destruct (OctreeDeconv_Ok o d kernel stride ne ci co ks mb false y W Hr Hk) as (t & y1 & z1 & _ & _ & _ & A4 & A5 & _); [right; split; [reflexivity|exact Hm]|assumption..|].
  split; [eexists; apply A5|].
  destruct (start_Ok o d kernel stride ne co y Hr Hy) as (y' & E & Sy & _).
  assert (Hfm : fits (Z.of_nat (out_count o (up d stride) stride ne)) (Z.of_nat (length (box kernel)) * Z.of_nat ci) mb) by (left; lia).
  destruct (deconv_Ok o d kernel stride ne ci co ks mb y' W Hr Hk Hfm Sy HW) as (_ & _ & _ & _ & _ & _ & _ & _ & _ & E9).
  unfold OctreeDeconv. destruct (ksize_ok ks kernel co ci stride ne mb false Hk) as [_ ->]. cbn [bind c_stride c_nempty m_kdim m_inconv m_outconv m_kernel c_out].
  fold (start o d stride ne y). rewrite E. cbn [bind].
  replace (if stride =? 2 then (d + 1)%nat else d) with (up d stride) by (unfold up; destruct (stride =? 2); lia).
  rewrite E9 by exact HR. reflexivity.
Qed.

(** the backward pass of the deconvolution *)
Lemma bw_add_g K Co n W g h t i c : shape n Co g -> shape n Co h -> length t = n ->
  bw_entry K Co W (add2 n Co g h) t i c = (bw_entry K Co W g t i c + bw_entry K Co W h t i c)%Qc.
Proof.
  intros Hg Hh Hl. unfold bw_entry. rewrite <- sum_plus. apply sum_ext. intros r Hr. rewrite <- sum_plus. apply sum_ext. intros k Hk.
  destruct (entry t r k =? Z.of_nat i); [|ring]. rewrite <- sum_plus. apply sum_ext. intros o Ho. unfold add2. rewrite at2_tabulate by lia. ring.
Qed.
Lemma bw_add_w K Ci Co W V g t i c : (c < Ci)%nat ->
  bw_entry K Co (add3 K Ci Co W V) g t i c = (bw_entry K Co W g t i c + bw_entry K Co V g t i c)%Qc.
Proof.
  intros Hc. unfold bw_entry. rewrite <- sum_plus. apply sum_ext. intros r Hr. rewrite <- sum_plus. apply sum_ext. intros k Hk.
  destruct (entry t r k =? Z.of_nat i); [|ring]. rewrite <- sum_plus. apply sum_ext. intros o Ho. rewrite at3_add3 by assumption. ring.
Qed.
Lemma thm_deconv_grad o d ks kernel stride ne ci co mb y W g : conv_ready o (up d stride) kernel stride -> In (ks, kernel) kernel_sizes ->
  shape (out_count o (up d stride) stride ne) co y -> shape3 (length (box kernel)) ci co W -> shape (node_count o (up d stride) ne) ci g ->
  Z.of_nat (length (box kernel)) * Z.of_nat ci <= mb ->
  let cfg := mkCfg co ci ks stride ne mb false in
  let n := node_count o (up d stride) ne in let K := length (box kernel) in let R := out_count o (up d stride) stride ne in
  exists z gd gw, deconv_forward cfg o d y W = Ok z /\ deconv_backward cfg o d y W g = Ok (gd, gw) /\
    shape n ci z /\ shape R co gd /\ shape3 K ci co gw /\
    (forall dy, shape R co dy -> exists z', deconv_forward cfg o d (add2 R co y dy) W = Ok z' /\
       inner n ci g (sub2 n ci z' z) = inner R co gd dy) /\
    (forall dW, shape3 K ci co dW -> exists z', deconv_forward cfg o d y (add3 K ci co W dW) = Ok z' /\
       inner n ci g (sub2 n ci z' z) = inner3 K ci co gw dW).
Proof.
  intros Hr Hk Hy HW Hg Hf0 cfg n K R. assert (Hf : fits (Z.of_nat R) (Z.of_nat K * Z.of_nat ci) mb) by (left; exact Hf0).
  destruct (deconv_setup_Ok o d kernel stride ne co ci ks mb K ci co Hr Hf) as (t & pn & h & E1 & E2 & E3 & E4 & E5 & _).
  fold K n R in E1, E3, E4. set (s := mkGeo _ _ t pn h) in E1.
  assert (FW : forall y W, shape R co y -> shape3 K ci co W -> exists z, deconv_forward cfg o d y W = Ok z /\ shape n ci z /\
     forall i c, (i < n)%nat -> (c < ci)%nat -> at2 z i c = bw_entry K co W y t i c).
  { intros y' W' Hy' HW'. destruct (deconv_Ok o d kernel stride ne ci co ks mb y' W' Hr Hk Hf Hy' HW') as (t' & z & A1 & _ & _ & A4 & A5 & A6 & _).
    rewrite E2 in A1. injection A1 as <-. exists z. split; [exact A4|]. split; assumption. }
  destruct (FW y W Hy HW) as (z & Z1 & Z2 & Z3).
  destruct (weight_gemm_Ok (mkDims kernel K ci co) s n K g y W) as (gw & W1 & W2 & W3); try reflexivity; try assumption.
  { cbn [s g_neigh m_outconv]. rewrite E4. exact Hy. }
  cbn [s g_neigh m_inconv m_outconv] in W1, W2, W3.
  exists z, (cv ci co g W t), gw. split; [exact Z1|]. split.
  { unfold deconv_backward, cfg. destruct (ksize_ok ks kernel co ci stride ne mb false Hk) as [_ ->]. cbn [bind]. fold K. rewrite E1. cbn [bind].
    rewrite (forward_gemm_Ok (mkDims kernel K ci co) s n K); try reflexivity; try assumption.
    - cbn [bind]. fold s in W1. rewrite W1. reflexivity.
    - cbn [s g_neigh]. unfold zeros_like. rewrite map_length, E4. apply Hy. }
  split; [exact Z2|]. split; [rewrite <- E4; apply cv_shape|]. split; [exact W2|]. split.
  - intros dy Hdy. destruct (FW (add2 R co y dy) W (add2_shape _ _ _ _) HW) as (z' & A1 & A2 & A3). exists z'. split; [exact A1|].
    destruct (FW dy W Hdy HW) as (zd & _ & D2 & D3).
    rewrite (sub2_inner n ci g z z' zd Z2 A2).
    + rewrite <- E4. symmetry. apply (cv_adjoint n K); try assumption. rewrite E4. exact Hdy.
    + intros i c Hi Hc. rewrite A3, Z3, D3 by assumption. apply (bw_add_g K); [exact Hy|exact Hdy|exact E4].
  - intros dW HdW. destruct (FW y (add3 K ci co W dW) Hy (add3_shape _ _ _ _ _)) as (z' & A1 & A2 & A3). exists z'. split; [exact A1|].
    destruct (FW y dW Hy HdW) as (zd & _ & D2 & D3).
    rewrite (sub2_inner n ci g z z' zd Z2 A2).
    + rewrite <- (cv_adjoint n K ci co g dW t y zd) by (try rewrite E4; assumption).
      rewrite (gw_adjoint n K ci co g dW t y gw) by (try rewrite E4; assumption).
      unfold inner3. apply sum_ext. intros k _. apply sum_ext. intros c _. apply sum_ext. intros j _. ring.
    + intros i c Hi Hc. rewrite A3, Z3, D3 by assumption. apply (bw_add_w K ci). exact Hc.
Qed.

(** ** C36 *)
Lemma voxel_cell o L K M C x d ne vox b X Y Z c : tree_upto o L K M -> (d <= L)%nat -> 0 <= b < Z.of_nat (batch_size o) ->
  (forall i x' y z b, nth_error (sel K M ne d) i = Some (key_of d b x' y z) -> in_cube d x' y z ->
       nth_error vox (vox_row d b x' y z) = nth_error x i) ->
  (forall x y z b, in_cube d x y z -> 0 <= b < Z.of_nat (batch_size o) -> ~ In (key_of d b x y z) (sel K M ne d) ->
       nth_error vox (vox_row d b x y z) = Some (vzero C)) ->
  at_row x (cellno d (sel K M ne d) b X Y Z) c = voxel d vox b X Y Z c.
Proof.
  intros T Hd Hb V1 V2. unfold voxel.
  assert (N : forall (l l' : feat) i j, nth_error l i = nth_error l' j -> at2 l i c = at2 l' j c).
  { intros l l' i j E. unfold at2. f_equal. destruct (nth_error l i) as [v|] eqn:E1.
    - rewrite (nth_error_nth _ _ [] E1). symmetry. apply nth_error_nth. congruence.
    - rewrite !nth_overflow by (apply nth_error_None; congruence). reflexivity. }
  destruct (cellno_found d (sel K M ne d) b X Y Z) as [(H0 & Hin & Hn)|[-> Hnot]].
  - rewrite (proj2 (inside_in_cube d X Y Z) Hin). unfold at_row. rewrite (proj2 (Z.ltb_ge _ _) H0). apply N. symmetry. apply V1; assumption.
  - unfold at_row. cbn [Z.ltb Z.compare]. destruct (inside d X Y Z) eqn:Ei; [|reflexivity]. apply inside_in_cube in Ei. unfold at2.
    rewrite (nth_error_nth _ _ _ (V2 X Y Z b Ei Hb (fun h => Hnot (conj Ei h)))). unfold vzero. symmetry. apply nth_repeat_same.
Qed.
Lemma dense_row o L K M d ne kernel ci co x W vox cs t r k X Y Z b c : tree_upto o L K M -> (d <= L)%nat ->
  shape (node_count o d ne) ci x -> shape3 (length (box kernel)) ci co W ->
  (forall i x' y z b, nth_error (sel K M ne d) i = Some (key_of d b x' y z) -> in_cube d x' y z ->
       nth_error vox (vox_row d b x' y z) = nth_error x i) ->
  (forall x y z b, in_cube d x y z -> 0 <= b < Z.of_nat (batch_size o) -> ~ In (key_of d b x y z) (sel K M ne d) ->
       nth_error vox (vox_row d b x y z) = Some (vzero ci)) ->
  t = map (nb_rowg d (sel K M ne d) (box kernel)) cs -> table_ok t (length (box kernel)) (node_count o d ne) ->
  nth_error cs r = Some k -> coords d k = (X, Y, Z, b) -> 0 <= b < Z.of_nat (batch_size o) -> (c < co)%nat ->
  at2 (cv ci co x W t) r c = dense_conv d vox kernel ci W b X Y Z c.
Proof.
  intros T Hd Hx HW V1 V2 Et Ht Hr Hk Hb Hc. assert (Hlt : (r < length t)%nat) by (rewrite Et, map_length; apply nth_error_Some; congruence).
  rewrite (cv_entry (node_count o d ne) (length (box kernel))) by assumption. unfold dense_conv. apply sum_ext. intros j Hj.
  assert (Een : entry t r j = let '(dx, dy, dz) := nth j (box kernel) (0, 0, 0) in cellno d (sel K M ne d) b (X + dx) (Y + dy) (Z + dz)).
  { unfold entry. rewrite Et. erewrite (nth_error_nth (map _ cs) r); [|rewrite nth_error_map, Hr; reflexivity].
    unfold nb_rowg. rewrite Hk. destruct (nth_error (box kernel) j) as [[[dx dy] dz]|] eqn:Ej; [|apply nth_error_None in Ej; lia].
    erewrite nth_error_nth; [|rewrite nth_error_map, Ej; reflexivity]. rewrite (nth_error_nth _ _ _ Ej). reflexivity. }
  rewrite Een. destruct (nth j (box kernel) (0, 0, 0)) as [[dx dy] dz]. apply sum_ext. intros c' Hc'. f_equal.
  apply (voxel_cell o L K M ci); assumption.
Qed.
Lemma vkey_coords B d k : (d <= 16)%nat -> vkey B d k -> exists X Y Z b, coords d k = (X, Y, Z, b) /\ 0 <= b < Z.of_nat B /\ in_cube d X Y Z /\ k = key_of d b X Y Z.
Proof.
  intros Hd Hk. destruct (coords d k) as [[[X Y] Z] b] eqn:E. exists X, Y, Z, b. destruct (coords_key_of B d k X Y Z b Hd Hk E) as (H1 & H2 & H3). auto.
Qed.
Lemma first_kid_key d b X Y Z : (d < 16)%nat -> first_kid (key_of d b X Y Z) = key_of (S d) b (2 * X) (2 * Y) (2 * Z).
Proof.
  intros Hd. pose proof (kids_nth (key_of d b X Y Z) 0 ltac:(lia)) as E. rewrite kids_key_of in E by exact Hd. cbn [map nth_error] in E.
  unfold first_kid. rewrite Z.add_0_r in E. rewrite !Z.add_0_r in E. symmetry. apply (f_equal (fun o => match o with Some a => a | None => 0 end)) in E. exact E.
Qed.
Lemma thm_dense1 o d ks kernel ne ci co mb x W bias : conv_ready o d kernel 1 -> In (ks, kernel) kernel_sizes ->
  shape (node_count o d ne) ci x -> shape3 (length (box kernel)) ci co W -> bias_ok co bias ->
  Z.of_nat (length (box kernel)) * Z.of_nat ci <= mb ->
  exists vox cs y, octree2voxel ci x o d ne = Ok vox /\ octree_xyzb o d ne = Ok cs /\
    OctreeConv (mkCfg ci co ks 1 ne mb true) false W bias x o d = Ok y /\ shape (length cs) co y /\
    forall i X Y Z b c, nth_error cs i = Some (X, Y, Z, b) -> (c < co)%nat ->
      at2 y i c = (dense_conv d vox kernel ci W b X Y Z c + bias_at bias c)%Qc.
Proof.
  intros Hr Hk Hx HW Hb Hm.
  destruct (OctreeConv_Ok o d kernel 1 ne ci co ks mb false x W bias Hr Hk) as (t & E & Ht & Hl & F); [right; left; exact Hm|assumption..|].
  destruct (conv_table o d kernel 1 ne Hr) as (K & M & t' & T & E' & Et & Hv & _). rewrite E in E'. injection E' as <-.
  pose proof (t_depth _ _ _ _ T). pose proof Hr as (_ & Hd & _). unfold centres in Et, Hv. cbn [Z.eqb Pos.eqb] in Et, Hv.
  destruct (tree_voxel o _ K M ci x d ne T Hd Hx) as (vox & V0 & _ & V1 & V2).
  exists vox, (map (coords d) (sel K M ne d)), (add_bias bias (cv ci co x W t)). split; [exact V0|]. split; [apply (tree_xyzb o (depth o) K M); assumption|].
  split; [rewrite F; reflexivity|].
  assert (Sh : shape (length (map (coords d) (sel K M ne d))) co (cv ci co x W t)).
  { rewrite map_length. replace (length (sel K M ne d)) with (length t) by (rewrite Et, map_length; reflexivity). apply cv_shape. }
  split; [apply add_bias_shape; assumption|]. intros i X Y Z b c Hi Hc.
  assert (Hlt : (i < length (map (coords d) (sel K M ne d)))%nat) by (apply nth_error_Some; congruence).
  rewrite (at2_add_bias (length (map (coords d) (sel K M ne d))) co) by assumption. f_equal.
  rewrite nth_error_map in Hi. destruct (nth_error (sel K M ne d) i) as [k|] eqn:Ek; [|discriminate]. cbn [option_map] in Hi.
  assert (Hkk : coords d k = (X, Y, Z, b)) by congruence. rewrite Forall_forall in Hv. pose proof (Hv k (nth_error_In _ _ Ek)) as Hvk.
  destruct (coords_key_of _ d k X Y Z b ltac:(lia) Hvk Hkk) as (_ & _ & Hb').
  eapply (dense_row o (depth o) K M); try eassumption.
Qed.
Lemma thm_dense2 o d ks kernel ne ci co mb x W bias : conv_ready o (S d) kernel 2 -> In (ks, kernel) kernel_sizes ->
  shape (node_count o (S d) ne) ci x -> shape3 (length (box kernel)) ci co W -> bias_ok co bias ->
  Z.of_nat (length (box kernel)) * Z.of_nat ci <= mb ->
  exists vox cs flags y, octree2voxel ci x o (S d) ne = Ok vox /\ octree_xyzb o d ne = Ok cs /\ nempty_mask o (Z.of_nat d) = Ok flags /\
    OctreeConv (mkCfg ci co ks 2 ne mb true) false W bias x o (S d) = Ok y /\ shape (length cs) co y /\
    forall i X Y Z b c, nth_error cs i = Some (X, Y, Z, b) -> (c < co)%nat ->
      (ne = true \/ nth_error flags i = Some true ->
         at2 y i c = (dense_conv (S d) vox kernel ci W b (2 * X) (2 * Y) (2 * Z) c + bias_at bias c)%Qc) /\
      (ne = false -> nth_error flags i = Some false -> at2 y i c = 0%Qc).
Proof.
  intros Hr Hk Hx HW Hb Hm.
  destruct (OctreeConv_Ok o (S d) kernel 2 ne ci co ks mb false x W bias Hr Hk) as (t & E & Ht & Hl & F); [right; left; exact Hm|assumption..|].
  destruct (conv_table o (S d) kernel 2 ne Hr) as (K & M & t' & T & E' & Et & Hv & _). rewrite E in E'. injection E' as <-.
  pose proof (t_depth _ _ _ _ T). pose proof Hr as (_ & Hd & _). unfold centres in Et, Hv. cbn [Z.eqb Pos.eqb Nat.pred] in Et, Hv.
  destruct (tree_voxel o _ K M ci x (S d) ne T Hd Hx) as (vox & V0 & _ & V1 & V2).
  set (z := add_bias bias (cv ci co x W t)) in *.
  assert (Sz : shape (out_count o (S d) 2 ne) co z) by (apply add_bias_shape; [exact Hb|rewrite <- Hl; apply cv_shape]).
  destruct (finish_Ok o (S d) kernel 2 ne co z Hr Sz) as (y & fl & Y1 & Y2 & Y3 & Y4 & Y5 & Y6 & Y7).
  unfold down in *. cbn [Z.eqb Pos.eqb] in Y2, Y3, Y7. replace (S d - 1)%nat with d in * by lia.
  assert (Lcs : length (map (coords d) (sel K M ne d)) = node_count o d ne) by (rewrite map_length; symmetry; apply (node_count_sel o _ K M T); lia).
  exists vox, (map (coords d) (sel K M ne d)), (M d), y. split; [exact V0|]. split; [apply (tree_xyzb o (depth o) K M); [exact T|lia]|].
  split; [apply (tree_mask o _ K M T); lia|]. split; [rewrite F; exact Y1|]. split; [rewrite Lcs; exact Y2|].
  (* entries of the unpadded result *)
  assert (Zent : forall j k X Y Z b c, nth_error (select (M d) (K d)) j = Some k -> coords d k = (X, Y, Z, b) -> (c < co)%nat ->
     at2 z j c = (dense_conv (S d) vox kernel ci W b (2 * X) (2 * Y) (2 * Z) c + bias_at bias c)%Qc).
  { intros j k X Y Z b c Hj Hkk Hc. assert (Hlt : (j < length t)%nat) by (rewrite Et, !map_length; apply nth_error_Some; congruence).
    unfold z. rewrite (at2_add_bias (length t) co) by (try assumption; apply cv_shape). f_equal.
    assert (Hvk : vkey (batch_size o) d k). { pose proof (sel_vkey o _ K M T true d ltac:(lia)) as F'. rewrite Forall_forall in F'. apply F'. cbn [sel]. eapply nth_error_In; exact Hj. }
    destruct (coords_key_of _ d k X Y Z b ltac:(lia) Hvk Hkk) as (Ek & Hin & Hb').
    eapply (dense_row o (depth o) K M) with (cs := map first_kid (select (M d) (K d))) (k := first_kid k); try eassumption.
    - rewrite nth_error_map, Hj. reflexivity.
    - rewrite Ek, first_kid_key by lia. apply coords_of_key; [lia|]. apply in_cube_half. rewrite !(Z.mul_comm 2), !Z.div_mul by lia. exact Hin. }
  intros i X Y Z b c Hi Hc. rewrite nth_error_map in Hi. destruct (nth_error (sel K M ne d) i) as [k|] eqn:Ek; [|discriminate]. cbn [option_map] in Hi.
  assert (Hkk : coords d k = (X, Y, Z, b)) by congruence.
  destruct ne.
  - split; [|intros [=]]. intros _. assert (Eyz : y = z). { unfold finish in Y1. cbn [negb Z.eqb Pos.eqb andb] in Y1. congruence. }
    rewrite Eyz. apply (Zent i k); assumption.
  - assert (Efl : fl = M d). { pose proof (Y5 (conj eq_refl eq_refl)) as A. rewrite (tree_mask o _ K M T) in A by lia. congruence. } subst fl.
    assert (Hle : length (M d) = length (K d)) by (apply (t_mask _ _ _ _ T); lia). cbn [sel] in Ek.
    assert (Hlr : length (M d) = length (repeat (repeat 0%Qc co) (node_count o d false))) by (rewrite repeat_length; exact Y3).
    split.
    + intros [[=]|Hfl]. pose proof (nth_select_pos (M d) (K d) i Hle Hfl) as E1. rewrite Ek in E1.
      rewrite <- (Zent _ k X Y Z b c E1 Hkk Hc). unfold at2. f_equal. rewrite Y7.
      assert (Hcz : (count_true (firstn i (M d)) < length z)%nat).
      { rewrite <- Y4. rewrite <- (select_length (M d) (K d)) by exact Hle. apply nth_error_Some. congruence. }
      destruct (nth_error z (count_true (firstn i (M d)))) as [v|] eqn:Ev; [|apply nth_error_None in Ev; lia].
      rewrite (nth_error_nth z _ _ Ev). apply nth_error_nth. rewrite fill_true by assumption. exact Ev.
    + intros _ Hfl. assert (Ey : nth_error y i = Some (repeat 0%Qc co)).
      { rewrite Y7, fill_false by assumption. apply nth_error_repeat. rewrite <- Y3. apply nth_error_Some. congruence. }
      unfold at2. rewrite (nth_error_nth y _ _ Ey).
      apply nth_repeat_same.
Qed.
