(** Depth-wise and group convolution. *)
From Coq Require Import String List ZArith Bool QArith Qcanon Lia Field.
From Verif Require Import Res Tensor Num NumFacts Points Octree NnBasic NnConv Spec SpecGeo SpecNeigh SpecNN WF ListFacts ScatterFacts SumFacts NnFacts
  KidsFacts WFFacts SearchFacts NeighFacts NeighSparse GetNeigh NeighThms ConvFacts PadFacts ConvOct Deconv.
Import ListNotations.
Open Scope Z_scope.

Definition dwv (C : nat) (x : feat) (W : list feat) (t : list (list Z)) : feat :=
  map (fun row => dw_row C (grow C x row) (concat W)) t.
Lemma diagonal_shape K C W : shape3 K C C (diagonal K C W).
Proof.
  split; [unfold diagonal; rewrite map_length, seq_length; reflexivity|]. apply Forall_forall. intros f Hf.
  unfold diagonal in Hf. apply in_map_iff in Hf. destruct Hf as (k & <- & _). apply tabulate_shape.
Qed.
Lemma at3_diagonal K C W k c c' : (k < K)%nat -> (c < C)%nat -> (c' < C)%nat ->
  at3 (diagonal K C W) k c c' = if Nat.eqb c c' then at3 W k 0 c else 0%Qc.
Proof.
  intros Hk Hc Hc'. unfold at3 at 1, diagonal. rewrite (nth_map_lt _ _ _ O) by (rewrite seq_length; exact Hk).
  rewrite seq_nth by exact Hk. cbn [Nat.add]. apply at2_tabulate; assumption.
Qed.
Lemma dw_row_length C b W : length (dw_row C b W) = C.
Proof. unfold dw_row. rewrite map_length, seq_length. reflexivity. Qed.
Lemma dw_row_nth C b W c K : length b = K -> length W = K -> (c < C)%nat ->
  nth c (dw_row C b W) 0%Qc = sum_n K (fun k => nth c (nth k b []) 0 * nth c (nth k W []) 0)%Qc.
Proof.
  intros Hb HW Hc. unfold dw_row. rewrite (nth_map_lt _ _ _ O) by (rewrite seq_length; exact Hc). rewrite seq_nth by exact Hc. cbn [Nat.add].
  rewrite (qsum_list_sum _ _ ([], [])). rewrite combine_length, Hb, HW, Nat.min_id. apply sum_ext. intros k Hk.
  rewrite combine_nth by congruence. reflexivity.
Qed.
Lemma concat_one K C (W : list feat) k c : shape3 K 1 C W -> (k < K)%nat -> nth c (nth k (concat W) []) 0%Qc = at3 W k 0 c.
Proof.
  intros HW Hk. change (nth c (nth k (concat W) []) 0%Qc) with (at2 (concat W) k c).
  replace k with (k * 1 + 0)%nat at 1 by lia. apply (at2_concat K 1 C); [exact HW|exact Hk|lia].
Qed.
Lemma concat_one_len K C (W : list feat) : shape3 K 1 C W -> length (concat W) = K.
Proof. intros HW. rewrite (concat_concat_len K 1 C) by exact HW. lia. Qed.
Lemma dwv_entry n K C x W t r c : shape n C x -> table_ok t K n -> shape3 K 1 C W -> (r < length t)%nat -> (c < C)%nat ->
  at2 (dwv C x W t) r c = sum_n K (fun k => at_row x (entry t r k) c * at3 W k 0 c)%Qc.
Proof.
  intros Hx Ht HW Hr Hc. unfold at2 at 1, dwv. rewrite (nth_map_lt _ _ _ []) by exact Hr.
  destruct (table_row t K n r Ht Hr) as [Hl Hf].
  rewrite (dw_row_nth C _ _ c K); [|unfold grow; rewrite map_length; exact Hl|apply (concat_one_len K C); exact HW|exact Hc].
  apply sum_ext. intros k Hk. rewrite (concat_one K C) by assumption. f_equal. apply (at2_grow C x (nth r t []) k c).
Qed.
Lemma dwv_cv n K C x W t : shape n C x -> table_ok t K n -> shape3 K 1 C W -> dwv C x W t = cv C C x (diagonal K C W) t.
Proof.
  intros Hx Ht HW. apply (shape_ext (length t) C).
  - apply shape_map; [reflexivity|]. intros. apply dw_row_length.
  - apply cv_shape.
  - intros r c Hr Hc. rewrite (dwv_entry n K) by assumption. rewrite (cv_entry n K) by (try apply diagonal_shape; assumption).
    apply sum_ext. intros k Hk. rewrite (sum_one C c).
    + rewrite at3_diagonal, Nat.eqb_refl by assumption. reflexivity.
    + exact Hc.
    + intros c' Hc' Hne. rewrite at3_diagonal by assumption. rewrite (proj2 (Nat.eqb_neq c' c) Hne). ring.
Qed.
Lemma dw_forward_Ok m s n K out x W : plan_ok (g_n s) (g_h s) (zlen (g_neigh s)) ->
  shape n (m_inconv m) x -> table_ok (g_neigh s) K n -> shape3 K 1 (m_inconv m) W -> length out = length (g_neigh s) ->
  dw_forward_gemm m s out x W = Ok (dwv (m_inconv m) x W (g_neigh s)).
Proof.
  intros P Hx Ht HW Ho. unfold dw_forward_gemm.
  apply (forward_loop_Ok s P (m_inconv m) K n _ (fun b => dw_row (m_inconv m) b (concat W))); try assumption.
  - intros buf R [_ Hb]. rewrite (proj2 (forallb_forall _ _)); [reflexivity|]. intros r Hr. apply Nat.eqb_eq.
    rewrite (concat_one_len K (m_inconv m)) by exact HW. rewrite Forall_forall in Hb. apply Hb. exact Hr.
  - unfold zlen. rewrite Ho. reflexivity.
Qed.

Lemma dwconv_forward_Ok o d kernel stride ne C ks mb x W : conv_ready o d kernel stride -> In (ks, kernel) kernel_sizes ->
  Z.of_nat (length (box kernel)) * Z.of_nat C <= mb ->
  shape (node_count o d ne) C x -> shape3 (length (box kernel)) 1 C W ->
  dwconv_forward (mkCfg C C ks stride ne mb true) o d x W = conv_forward (mkCfg C C ks stride ne mb true) o d x (diagonal (length (box kernel)) C W) /\
  exists t, get_neigh o d kernel stride ne = Ok t /\ table_ok t (length (box kernel)) (node_count o d ne) /\ length t = out_count o d stride ne /\
    dwconv_forward (mkCfg C C ks stride ne mb true) o d x W = Ok (dwv C x W t).
Proof.
  intros Hr Hk Hf Hx HW.
  destruct (conv_forward_Ok o d kernel stride ne C C ks mb x (diagonal (length (box kernel)) C W) Hr Hk (or_introl Hf) Hx (diagonal_shape _ _ _)) as (t & E & Ht & Hl & F).
  destruct (conv_setup_Ok o d kernel stride ne C C ks mb _ C C Hr (or_introl Hf)) as (t' & n & h & E1 & E2 & E3 & E4 & E5 & _).
  rewrite E in E2. injection E2 as <-.
  assert (D : dwconv_forward (mkCfg C C ks stride ne mb true) o d x W = Ok (dwv C x W t)).
  { unfold dwconv_forward. destruct (ksize_ok ks kernel C C stride ne mb true Hk) as [_ ->]. cbn [bind]. rewrite E1. cbn [bind].
    rewrite (check_Ok _ _ x (node_count o d ne) (out_count o d stride ne)) by (reflexivity || exact Hx). cbn [bind].
    refine (dw_forward_Ok (mkDims kernel (length (box kernel)) C C) (mkGeo _ _ t n h) (node_count o d ne) (length (box kernel)) _ x W _ _ _ _ _);
      cbn [g_n g_h g_neigh m_kdim m_inconv m_outconv]; try assumption. rewrite repeat_length. symmetry. exact E4. }
  split; [rewrite D, F; f_equal; apply (dwv_cv (node_count o d ne)); assumption|]. exists t. auto.
Qed.
Lemma thm_dwconv o d ks kernel stride ne C mb mb' direct x W bias : conv_ready o d kernel stride -> In (ks, kernel) kernel_sizes ->
  shape (node_count o d ne) C x -> shape3 (length (box kernel)) 1 C W -> bias_ok C bias ->
  Z.of_nat (length (box kernel)) * Z.of_nat C <= mb -> Z.of_nat (length (box kernel)) * Z.of_nat C <= mb' ->
  exists y, OctreeDWConv (mkCfg C C ks stride ne mb true) W bias x o d = Ok y /\
    OctreeConv (mkCfg C C ks stride ne mb' true) direct (diagonal (length (box kernel)) C W) bias x o d = Ok y /\
    shape (node_count o (down d stride) ne) C y.
Proof.
  intros Hr Hk Hx HW Hb Hm Hm'.
  destruct (dwconv_forward_Ok o d kernel stride ne C ks mb x W Hr Hk Hm Hx HW) as (_ & t & E & Ht & Hl & F).
  destruct (OctreeConv_Ok o d kernel stride ne C C ks mb' direct x (diagonal (length (box kernel)) C W) bias Hr Hk) as (t' & E' & _ & _ & F');
    [right; left; exact Hm'|assumption|apply diagonal_shape|].
  rewrite E in E'. injection E' as <-. rewrite <- (dwv_cv (node_count o d ne)) in F' by assumption.
  assert (Hz : shape (out_count o d stride ne) C (add_bias bias (dwv C x W t))).
  { apply add_bias_shape; [exact Hb|]. rewrite <- Hl. apply shape_map; [reflexivity|]. intros; apply dw_row_length. }
  destruct (finish_Ok o d kernel stride ne C _ Hr Hz) as (y & _ & Ey & Sy & _). exists y. rewrite F', Ey.
  split; [|split; [reflexivity|exact Sy]]. unfold OctreeDWConv. rewrite F. cbn [bind c_stride c_nempty c_out]. exact Ey.
Qed.

(** backward *)
Lemma vmul_len a b : length a = length b -> length (vmul a b) = length a.
Proof. intros H. unfold vmul, zip_with. rewrite map_length, combine_length. lia. Qed.
Lemma vmul_nth a b c : length a = length b -> nth c (vmul a b) 0%Qc = (nth c a 0 * nth c b 0)%Qc.
Proof.
  intros H. unfold vmul, zip_with. destruct (Nat.lt_ge_cases c (length a)) as [Hc|Hc].
  - rewrite (nth_map_lt _ _ _ (0%Qc, 0%Qc)) by (rewrite combine_length; lia). rewrite combine_nth by exact H. reflexivity.
  - rewrite !nth_overflow by (rewrite ?map_length, ?combine_length; lia). ring.
Qed.
Lemma dw_backward_entries m s n K C W g x : plan_ok (g_n s) (g_h s) (zlen (g_neigh s)) -> m_inconv m = C ->
  table_ok (g_neigh s) K n -> shape3 K 1 C W -> shape (length (g_neigh s)) C g -> shape n C x ->
  (forall i c, (i < n)%nat -> (c < C)%nat -> at2 x i c = 0%Qc) ->
  exists gd, dw_backward_gemm m s x g W = Ok gd /\ shape n C gd /\
    forall i c, (i < n)%nat -> (c < C)%nat -> at2 gd i c = bw_entry K C (diagonal K C W) g (g_neigh s) i c.
Proof.
  intros P Hi Ht HW Hg Hx Hz. set (f := fun g : vec => map (fun w => vmul g w) (concat W)).
  assert (Sf : forall r, length r = C -> shape K C (f r)).
  { intros r Hr. unfold f. split; [rewrite map_length; apply (concat_one_len K C); exact HW|]. apply Forall_map.
    destruct (shape_concat K 1 C W HW) as [_ F]. eapply Forall_impl; [|exact F]. intros w Hw. rewrite vmul_len; congruence. }
  assert (E : dw_backward_gemm m s x g W = scatter_add_into vadd x (filter (Z.leb 0) (concat (g_neigh s))) (srcs (concat (map f g)) (concat (g_neigh s)))).
  { unfold dw_backward_gemm. apply (backward_loop_Ok s P C K n C); try assumption. intros gr _. reflexivity. }
  assert (S3 : shape3 (length (g_neigh s)) K C (map f g)).
  { destruct Hg as [Hg1 Hg2]. rewrite <- Hg1. apply shape3_map. intros a Ha. apply Sf. rewrite Forall_forall in Hg2. apply Hg2. exact Ha. }
  destruct (scatter_table n K C x (map f g) (g_neigh s) Hx S3 Ht) as (z & Z1 & Z2 & Z3).
  exists z. split; [rewrite E; exact Z1|]. split; [exact Z2|]. intros i c Hi' Hc. rewrite Z3, Hz by assumption. rewrite Qcplus_0_l.
  unfold bw_entry. apply sum_ext. intros r Hr. apply sum_ext. intros k Hk. destruct (entry (g_neigh s) r k =? Z.of_nat i); [|reflexivity].
  rewrite (sum_one C c).
  - rewrite at3_diagonal, Nat.eqb_refl by assumption. unfold at3 at 1, at2 at 1. rewrite (nth_map_lt _ _ _ []) by (destruct Hg as [-> _]; exact Hr).
    unfold f. rewrite (nth_map_lt _ _ _ []) by (rewrite (concat_one_len K C) by exact HW; exact Hk). rewrite vmul_nth.
    + rewrite (concat_one K C) by assumption. reflexivity.
    + rewrite (shape_nth (length (g_neigh s)) C) by assumption. symmetry. apply (shape_nth K C); [|exact Hk].
      destruct (shape_concat K 1 C W HW) as [F1 F2]. split; [lia|exact F2].
  - exact Hc.
  - intros c' Hc' Hne. rewrite at3_diagonal by assumption. rewrite (proj2 (Nat.eqb_neq c c')) by congruence. ring.
Qed.
Lemma dw_weight_Ok m s n K C x g W : plan_ok (g_n s) (g_h s) (zlen (g_neigh s)) -> m_kdim m = K -> m_inconv m = C ->
  shape n C x -> table_ok (g_neigh s) K n -> shape3 K 1 C W -> shape (length (g_neigh s)) C g ->
  exists gw, dw_weight_gemm m s (map zeros_like W) x g = Ok gw /\ shape3 K 1 C gw /\
    forall k c, (k < K)%nat -> (c < C)%nat -> at3 gw k 0 c = gw_entry x g (g_neigh s) k c c.
Proof.
  intros P HK HC Hx Ht HW Hg.
  assert (Hz : shape K C (concat (map zeros_like W))).
  { destruct (shape_concat K 1 C _ (zeros_like_shape3 K 1 C W HW)) as [F1 F2]. split; [lia|exact F2]. }
  unfold dw_weight_gemm. rewrite HK, HC.
  destruct (weight_loop_Ok s P C K n C K C (fun out buf gr =>
         if Nat.eqb (length buf) (length gr) then
           let p := map (fun k => map (fun c =>
                      qsum_list (map (fun bg => nth c (nth k (fst bg) []) 0 * nth c (snd bg) 0)%Qc (combine buf gr)))
                      (seq 0 C)) (seq 0 K) in
           if Nat.eqb (length p) (length out) then Ok (zip_with vadd out p) else Err RuntimeError
         else Err RuntimeError)
     (fun b gr k c => (nth c (nth k b []) 0 * nth c gr 0)%Qc) (concat (map zeros_like W)) x g Hx Ht Hg Hz) as (z & E1 & S1 & A1).
  { intros R out buf gr Ho [Hb1 Hb2] [Hg1 Hg2]. rewrite Hb1, Hg1, Nat.eqb_refl. cbn zeta.
    fold (tabulate K C (fun k c => qsum_list (map (fun bg : feat * vec => nth c (nth k (fst bg) []) 0 * nth c (snd bg) 0)%Qc (combine buf gr)))).
    set (p := tabulate K C _). assert (Hp : shape K C p) by apply tabulate_shape.
    destruct Hp as [Hp1 Hp2]. destruct Ho as [Ho1 Ho2]. rewrite Hp1, Ho1, Nat.eqb_refl.
    exists (zip_with vadd out p). split; [reflexivity|]. split; [apply zip_vadd_shape; split; assumption|]. intros a b Ha Hb.
    rewrite (at2_zip_vadd K C) by (try split; assumption). f_equal. unfold p. rewrite at2_tabulate by assumption.
    rewrite (qsum_list_sum _ _ ([], [])). rewrite combine_length, Hb1, Hg1, Nat.min_id. apply sum_ext. intros r Hr.
    rewrite combine_nth by congruence. reflexivity. }
  cbn zeta in E1. rewrite E1. cbn [bind]. assert (S1' : shape (K * 1) C z) by (rewrite Nat.mul_1_r; exact S1).
  exists (chunk_rows K 1 z). split; [reflexivity|]. split; [apply chunk_rows_shape3; exact S1'|].
  intros k c Hk Hc. rewrite (at3_chunk_rows K 1 C) by (try assumption; lia). replace (k * 1 + 0)%nat with k by lia. rewrite A1 by assumption.
  change (at2 (concat (map zeros_like W)) k c) with (nth c (nth k (concat (map zeros_like W)) []) 0%Qc).
  rewrite (concat_one K C) by (try apply zeros_like_shape3; assumption). rewrite zeros_like3, Qcplus_0_l. unfold gw_entry.
  apply sum_ext. intros r Hr. unfold at2. f_equal. apply (at2_grow C x (nth r (g_neigh s) []) k c).
Qed.
Lemma thm_dw_grad o d ks kernel stride ne C mb x W g : conv_ready o d kernel stride -> In (ks, kernel) kernel_sizes ->
  shape (node_count o d ne) C x -> shape3 (length (box kernel)) 1 C W -> shape (out_count o d stride ne) C g ->
  Z.of_nat (length (box kernel)) * Z.of_nat C <= mb ->
  let cfg := mkCfg C C ks stride ne mb true in
  let n := node_count o d ne in let K := length (box kernel) in let R := out_count o d stride ne in
  exists y gd gw, dwconv_forward cfg o d x W = Ok y /\ dwconv_backward cfg o d x W g = Ok (gd, gw) /\
    shape R C y /\ shape n C gd /\ shape3 K 1 C gw /\
    (forall dx, shape n C dx -> exists y', dwconv_forward cfg o d (add2 n C x dx) W = Ok y' /\
       inner R C g (sub2 R C y' y) = inner n C gd dx) /\
    (forall dW, shape3 K 1 C dW -> exists y', dwconv_forward cfg o d x (add3 K 1 C W dW) = Ok y' /\
       inner R C g (sub2 R C y' y) = inner3 K 1 C gw dW).
Proof.
  intros Hr Hk Hx HW Hg Hf cfg n K R.
  destruct (conv_setup_Ok o d kernel stride ne C C ks mb _ C C Hr (or_introl Hf)) as (t & pn & h & E1 & E2 & E3 & E4 & E5 & _).
  assert (FW : forall x W, shape n C x -> shape3 K 1 C W -> dwconv_forward cfg o d x W = Ok (dwv C x W t)).
  { intros x' W' Hx' HW'. destruct (dwconv_forward_Ok o d kernel stride ne C ks mb x' W' Hr Hk Hf Hx' HW') as (_ & t' & E' & _ & _ & F).
    rewrite E2 in E'. injection E' as <-. exact F. }
  set (s := mkGeo _ _ t pn h) in E1. fold R in E4. fold K in E1.
  destruct (dw_backward_entries (mkDims kernel K C C) s n K C W g (zeros_like x)) as (gd & G1 & G2 & G3); try reflexivity; try assumption.
  { cbn [s g_neigh]. rewrite E4. exact Hg. } { apply zeros_like_shape. exact Hx. } { intros. apply zeros_like_entry. }
  destruct (dw_weight_Ok (mkDims kernel K C C) s n K C x g W) as (gw & W1 & W2 & W3); try reflexivity; try assumption.
  { cbn [s g_neigh]. rewrite E4. exact Hg. }
  cbn [s g_neigh] in G3, W3.
  exists (dwv C x W t), gd, gw. split; [apply FW; assumption|]. split.
  { unfold dwconv_backward, cfg. destruct (ksize_ok ks kernel C C stride ne mb true Hk) as [_ ->]. cbn [bind]. fold K. rewrite E1. cbn [bind].
    rewrite G1. cbn [bind]. rewrite W1. reflexivity. }
  assert (Sh : forall x W, shape R C (dwv C x W t)) by (intros; rewrite <- E4; apply shape_map; [reflexivity|]; intros; apply dw_row_length).
  split; [apply Sh|]. split; [exact G2|]. split; [exact W2|]. split.
  - intros dx Hdx. exists (dwv C (add2 n C x dx) W t). split; [apply FW; [apply add2_shape|exact HW]|].
    rewrite (sub2_inner R C g _ _ (cv C C dx (diagonal K C W) t)); [|apply Sh..|].
    + rewrite inner_comm, <- E4. rewrite (cv_adjoint n K C C dx _ t g gd); try assumption; [apply inner_comm|apply diagonal_shape|rewrite E4; exact Hg].
    + intros i c Hi Hc. rewrite !(dwv_cv n K) by (try apply add2_shape; assumption). apply (cv_add_x n K); try assumption; [apply diagonal_shape|]. rewrite E4. exact Hi.
  - intros dW HdW. exists (dwv C x (add3 K 1 C W dW) t). split; [apply FW; [exact Hx|apply add3_shape]|].
    rewrite (sub2_inner R C g _ _ (dwv C x dW t)); [|apply Sh..|].
    + unfold inner, inner3. rewrite <- E4.
      transitivity (sum_n (length t) (fun r => sum_n K (fun k => sum_n C (fun c => at3 dW k 0 c * (at_row x (entry t r k) c * at2 g r c))%Qc))).
      * apply sum_ext. intros r Hr'. rewrite (sum_swap K). apply sum_ext. intros c Hc. rewrite (dwv_entry n K) by assumption. rewrite <- sum_scale.
        apply sum_ext. intros k Hk'. ring.
      * rewrite (sum_swap (length t)). apply sum_ext. intros k Hk'. rewrite (sum_swap (length t)). cbn [sum_n]. rewrite Qcplus_0_l. apply sum_ext. intros c Hc.
        rewrite W3 by assumption. unfold gw_entry. rewrite <- sum_scale_r. apply sum_ext. intros r Hr'. ring.
    + intros i c Hi Hc. rewrite <- E4 in Hi. rewrite !(dwv_entry n K) by (try apply add3_shape; assumption). rewrite <- sum_plus. apply sum_ext. intros k Hk'.
      rewrite at3_add3 by (try assumption; lia). ring.
Qed.

(** ** group convolution *)
Lemma block_shape K g ci co Ws : shape3 K (g * ci) (g * co) (block_diagonal K g ci co Ws).
Proof.
  split; [unfold block_diagonal; rewrite map_length, seq_length; reflexivity|]. apply Forall_forall. intros f Hf.
  unfold block_diagonal in Hf. apply in_map_iff in Hf. destruct Hf as (k & <- & _). apply tabulate_shape.
Qed.
Lemma at3_block K g ci co Ws k c c' : (k < K)%nat -> (c < g * ci)%nat -> (c' < g * co)%nat ->
  at3 (block_diagonal K g ci co Ws) k c c' =
  if Nat.eqb (c / ci) (c' / co) then at3 (nth (c / ci) Ws []) k (c mod ci) (c' mod co) else 0%Qc.
Proof.
  intros Hk Hc Hc'. unfold at3 at 1, block_diagonal. rewrite (nth_map_lt _ _ _ O) by (rewrite seq_length; exact Hk).
  rewrite seq_nth by exact Hk. cbn [Nat.add]. apply at2_tabulate; assumption.
Qed.
Lemma divmod_block a b n : (b < n)%nat -> ((a * n + b) / n = a)%nat /\ ((a * n + b) mod n = b)%nat.
Proof.
  intros H. split; [rewrite Nat.div_add_l by lia; rewrite Nat.div_small by exact H; lia|].
  rewrite Nat.add_comm, Nat.mod_add by lia. apply Nat.mod_small. exact H.
Qed.
(** columns i*C .. of the rows *)
Definition colslice (C : nat) (i : Z) (x : feat) : feat := map (fun r => tslice r (i * Z.of_nat C) ((i + 1) * Z.of_nat C)) x.
Lemma colslice_shape n g C i x : shape n (g * C) x -> (i < g)%nat -> shape n C (colslice C (Z.of_nat i) x).
Proof.
  intros [H1 H2] Hi. unfold colslice. split; [rewrite map_length; exact H1|]. apply Forall_map. eapply Forall_impl; [|exact H2].
  intros r Hr. rewrite tslice_len; [lia|nia|unfold zlen; rewrite Hr; nia].
Qed.
Lemma at2_colslice n g C i x r c : shape n (g * C) x -> (i < g)%nat -> (c < C)%nat ->
  at2 (colslice C (Z.of_nat i) x) r c = at2 x r (i * C + c).
Proof.
  intros [H1 H2] Hi Hc. unfold at2, colslice. destruct (Nat.lt_ge_cases r (length x)) as [Hr|Hr].
  - rewrite (nth_map_lt _ _ _ []) by exact Hr. rewrite nth_tslice by lia. f_equal. lia.
  - rewrite !(nth_overflow _ []) by (rewrite ?map_length; lia). destruct c, (i * C + _)%nat; reflexivity.
Qed.
Lemma at_row_colslice n g C i x e c : shape n (g * C) x -> (i < g)%nat -> (c < C)%nat ->
  at_row (colslice C (Z.of_nat i) x) e c = at_row x e (i * C + c).
Proof. intros Hx Hi Hc. unfold at_row. destruct (e <? 0); [reflexivity|]. apply (at2_colslice n g); assumption. Qed.
Lemma cv_block n K g ci co x Ws t r i c : shape n (g * ci) x -> table_ok t K n -> length Ws = g -> Forall (shape3 K ci co) Ws ->
  (r < length t)%nat -> (i < g)%nat -> (c < co)%nat ->
  at2 (cv (g * ci) (g * co) x (block_diagonal K g ci co Ws) t) r (i * co + c) = at2 (cv ci co (colslice ci (Z.of_nat i) x) (nth i Ws []) t) r c.
Proof.
  intros Hx Ht Hl HWs Hr Hi Hc. assert (Hco : (i * co + c < g * co)%nat) by nia.
  rewrite (cv_entry n K) by (try apply block_shape; assumption).
  assert (HWi : shape3 K ci co (nth i Ws [])) by (rewrite Forall_forall in HWs; apply HWs, nth_In; lia).
  rewrite (cv_entry n K) by (try apply (colslice_shape n g); assumption). apply sum_ext. intros k Hk. rewrite sum_mul.
  rewrite (sum_one g i).
  - apply sum_ext. intros c' Hc'. rewrite (at_row_colslice n g) by assumption. f_equal. rewrite at3_block by (try assumption; nia).
    destruct (divmod_block i c' ci Hc') as [-> ->]. destruct (divmod_block i c co Hc) as [-> ->]. rewrite Nat.eqb_refl. reflexivity.
  - exact Hi.
  - intros i' Hi' Hne. apply sum_zero. intros c' Hc'. rewrite at3_block by (try assumption; nia).
    destruct (divmod_block i' c' ci Hc') as [-> _]. destruct (divmod_block i c co Hc) as [-> _]. rewrite (proj2 (Nat.eqb_neq i' i) Hne). ring.
Qed.

(** concatenation of columns *)
Lemma foldM_cat_cols n co rest : forall acc m, Forall (shape n co) rest -> shape n m acc ->
  exists y, foldM (fun acc y => if Nat.eqb (length acc) (length y) then Ok (zip_with (@app Qc) acc y) else Err RuntimeError) acc rest = Ok y /\
    shape n (m + length rest * co) y /\
    (forall r c, (r < n)%nat -> (c < m)%nat -> at2 y r c = at2 acc r c) /\
    (forall r i c, (r < n)%nat -> (i < length rest)%nat -> (c < co)%nat -> at2 y r (m + i * co + c) = at2 (nth i rest []) r c).
Proof.
  induction rest as [|b rest IH]; intros acc m HF Ha; cbn [foldM].
  - exists acc. split; [reflexivity|]. split; [cbn; rewrite Nat.add_0_r; exact Ha|]. split; [reflexivity|]. intros r i c _ Hi. cbn in Hi. lia.
  - inversion HF as [|? ? Hb HF']; subst. pose proof Ha as [Ha1 Ha2]. pose proof Hb as [Hb1 Hb2]. rewrite Ha1, Hb1, Nat.eqb_refl. cbn [bind].
    assert (SS : shape n (m + co) (zip_with (@app Qc) acc b)).
    { unfold zip_with. split; [rewrite map_length, combine_length; lia|]. apply Forall_forall. intros v Hv. apply in_map_iff in Hv. destruct Hv as ([u w] & <- & Hin).
      rewrite Forall_forall in Ha2, Hb2. cbn [fst snd]. rewrite app_length, (Ha2 u), (Hb2 w); [reflexivity|eapply in_combine_r; exact Hin|eapply in_combine_l; exact Hin]. }
    assert (Az : forall r, (r < n)%nat -> nth r (zip_with (@app Qc) acc b) [] = nth r acc [] ++ nth r b []).
    { intros r Hr. unfold zip_with. rewrite (nth_map_lt _ _ _ ([], [])) by (rewrite combine_length; lia). rewrite combine_nth by congruence. reflexivity. }
    destruct (IH _ _ HF' SS) as (y & E & Sy & Y1 & Y2). exists y. split; [exact E|]. split; [cbn [length]; replace (m + S (length rest) * co)%nat with (m + co + length rest * co)%nat by lia; exact Sy|].
    split.
    + intros r c Hr Hc. rewrite Y1 by lia. unfold at2. rewrite Az by exact Hr. apply app_nth1. rewrite (shape_nth n m) by assumption. exact Hc.
    + intros r i c Hr Hi Hc. destruct i as [|i].
      * cbn [nth]. rewrite Y1 by lia. unfold at2. rewrite Az by exact Hr. rewrite app_nth2 by (rewrite (shape_nth n m) by assumption; lia).
        rewrite (shape_nth n m) by assumption. f_equal. lia.
      * cbn [nth]. cbn [length] in Hi. replace (m + S i * co + c)%nat with (m + co + i * co + c)%nat by lia. apply Y2; lia.
Qed.
Lemma cat_cols_Ok n co outs : outs <> [] -> Forall (shape n co) outs ->
  exists y, cat_cols outs = Ok y /\ shape n (length outs * co) y /\
    forall r i c, (r < n)%nat -> (i < length outs)%nat -> (c < co)%nat -> at2 y r (i * co + c) = at2 (nth i outs []) r c.
Proof.
  intros Hne HF. destruct outs as [|x rest]; [contradiction|]. inversion HF as [|? ? Hx HF']; subst. cbn [cat_cols].
  destruct (foldM_cat_cols n co rest x co HF' Hx) as (y & E & SS & Y1 & Y2). exists y. split; [exact E|].
  split; [cbn [length]; rewrite Nat.mul_succ_l, Nat.add_comm; exact SS|]. intros r i c Hr Hi Hc. destruct i as [|i].
  - cbn [nth Nat.mul Nat.add]. apply Y1; assumption.
  - cbn [nth length] in *. replace (S i * co + c)%nat with (co + i * co + c)%nat by lia. apply Y2; lia.
Qed.
Lemma mapM_arange {A} (f : Z -> res A) (h : nat -> A) n : (forall i, (i < n)%nat -> f (Z.of_nat i) = Ok (h i)) ->
  mapM f (arange n) = Ok (map h (seq 0 n)).
Proof.
  intros H. unfold arange. rewrite mapM_map. apply mapM_Ok. intros i Hi. apply H. apply in_seq in Hi. lia.
Qed.

Lemma finish_fill o d kernel stride ne : conv_ready o d kernel stride ->
  exists fl, length fl = node_count o (down d stride) ne /\ count_true fl = out_count o d stride ne /\
    forall co z, shape (out_count o d stride ne) co z ->
      finish o d co stride ne z = Ok (fill fl (repeat (repeat 0%Qc co) (node_count o (down d stride) ne)) z) /\
      shape (node_count o (down d stride) ne) co (fill fl (repeat (repeat 0%Qc co) (node_count o (down d stride) ne)) z).
Proof.
  intros Hr. destruct (finish_Ok o d kernel stride ne 0 (repeat (repeat 0%Qc 0) (out_count o d stride ne)) Hr (shape_repeat _ _ _)) as (y & fl & _ & _ & L & C & F1 & F2 & _).
  rewrite repeat_length in C, F2. exists fl. split; [exact L|]. split; [exact C|]. intros co z Hz.
  destruct (finish_Ok o d kernel stride ne co z Hr Hz) as (y' & fl' & E & S & _ & _ & G1 & G2 & Hy).
  assert (fl' = fl) as ->.
  { destruct (Z.eq_dec stride 2) as [Hs|Hs]; [destruct ne|].
    - rewrite G2, F2 by (intros [_ [=]]). f_equal. apply Hz.
    - specialize (G1 (conj Hs eq_refl)). specialize (F1 (conj Hs eq_refl)). congruence.
    - rewrite G2, F2 by (intros [? _]; contradiction). f_equal. apply Hz. }
  rewrite <- Hy. split; assumption.
Qed.
Lemma at2_fill fl n C z r c : length fl = n -> count_true fl = length z -> (r < n)%nat ->
  at2 (fill fl (repeat (repeat 0%Qc C) n) z) r c = if nth r fl false then at2 z (count_true (firstn r fl)) c else 0%Qc.
Proof.
  intros Hl Hc Hr. destruct (nth_error fl r) as [b|] eqn:E; [|apply nth_error_None in E; lia].
  rewrite (nth_error_nth _ _ _ E). unfold at2 at 1. destruct b.
  - unfold at2. f_equal. pose proof (fill_true fl (repeat (repeat 0%Qc C) n) z r) as F. rewrite repeat_length in F. specialize (F Hl Hc E).
    destruct (nth_error z (count_true (firstn r fl))) as [v|] eqn:Ev.
    + rewrite (nth_error_nth _ _ _ F), (nth_error_nth _ _ _ Ev). reflexivity.
    + apply nth_error_None in F, Ev. rewrite !nth_overflow by assumption. reflexivity.
  - pose proof (fill_false fl (repeat (repeat 0%Qc C) n) z r) as F. rewrite repeat_length in F. specialize (F Hl E).
    rewrite nth_error_repeat in F by exact Hr. rewrite (nth_error_nth _ _ _ F). apply nth_repeat_same.
Qed.
Lemma count_true_app m m' : count_true (m ++ m') = (count_true m + count_true m')%nat.
Proof. induction m as [|b m IH]; [reflexivity|]. cbn [app]. rewrite !count_true_cons, IH. lia. Qed.
Lemma floordiv_mul g c : (0 < g)%nat -> floordiv (Z.of_nat (g * c)) (Z.of_nat g) = Ok (Z.of_nat c).
Proof.
  intros H. unfold floordiv. destruct (Z.of_nat g =? 0) eqn:E; [lia|]. f_equal. rewrite Nat2Z.inj_mul, Z.mul_comm. apply Z.div_mul. lia.
Qed.
Lemma thm_gconv o d ks kernel stride ne g ci co Ws (use_bias : bool) bs mb direct x : conv_ready o d kernel stride -> In (ks, kernel) kernel_sizes ->
  (0 < g)%nat -> length Ws = g -> Forall (shape3 (length (box kernel)) ci co) Ws -> shape g co bs ->
  shape (node_count o d ne) (g * ci) x ->
  Z.of_nat (length (box kernel)) * Z.of_nat ci <= 200000000 ->
  Z.of_nat (length (box kernel)) * Z.of_nat (g * ci) <= mb ->
  exists y,
    OctreeGroupConv (g * ci) (g * co) ks stride ne g Ws (if use_bias then map Some bs else repeat None g) x o d = Ok y /\
    OctreeConv (mkCfg (g * ci) (g * co) ks stride ne mb true) direct (block_diagonal (length (box kernel)) g ci co Ws)
      (if use_bias then Some (concat bs) else None) x o d = Ok y /\
    shape (node_count o (down d stride) ne) (g * co) y.
Proof.
  intros Hr Hk Hg HL HWs Hbs Hx Hm Hm'. set (K := length (box kernel)) in *.
  set (n := node_count o d ne) in *. set (R := out_count o d stride ne).
  set (bias := if use_bias then Some (concat bs) else None). set (biases := if use_bias then map Some bs else repeat None g).
  assert (Hb : bias_ok (g * co) bias) by (unfold bias; destruct use_bias; cbn; [apply length_concat_shape; exact Hbs|exact I]).
  destruct (OctreeConv_Ok o d kernel stride ne (g * ci) (g * co) ks mb direct x (block_diagonal K g ci co Ws) bias Hr Hk) as (t & E & Ht & Hl & F);
    [right; left; exact Hm'|exact Hx|apply block_shape|].
  fold K n R in E, Ht, Hl, F. destruct (finish_fill o d kernel stride ne Hr) as (fl & L & C & FF). fold R in C, FF.
  set (N := node_count o (down d stride) ne) in *.
  set (zT := add_bias bias (cv (g * ci) (g * co) x (block_diagonal K g ci co Ws) t)) in *.
  assert (SzT : shape R (g * co) zT) by (apply add_bias_shape; [exact Hb|rewrite <- Hl; apply cv_shape]).
  set (bi := fun i => nth i biases None). set (zi := fun i => add_bias (bi i) (cv ci co (colslice ci (Z.of_nat i) x) (nth i Ws []) t)).
  assert (Hbi : forall i, (i < g)%nat -> nth_error biases i = Some (bi i) /\ bias_ok co (bi i) /\
     forall c, (c < co)%nat -> bias_at (bi i) c = bias_at bias (i * co + c)).
  { intros i Hi. unfold bi, biases, bias. destruct use_bias; cbn [bias_ok bias_at].
    - destruct Hbs as [B1 B2]. rewrite (nth_map_lt _ _ _ []) by lia. split; [rewrite nth_error_map, (nth_error_nth' bs []) by lia; reflexivity|].
      split; [cbn; rewrite Forall_forall in B2; apply B2, nth_In; lia|]. intros c Hc. symmetry. cbn [bias_at]. apply (nth_concat 0%Qc g co); [split; assumption|exact Hi|exact Hc].
    - split; [rewrite nth_error_repeat by exact Hi; rewrite nth_repeat_lt by exact Hi; reflexivity|]. rewrite nth_repeat_lt by exact Hi. split; [exact I|reflexivity]. }
  assert (HWi : forall i, (i < g)%nat -> shape3 K ci co (nth i Ws [])) by (intros i Hi; rewrite Forall_forall in HWs; apply HWs, nth_In; lia).
  assert (Szi : forall i, (i < g)%nat -> shape R co (zi i)) by (intros i Hi; apply add_bias_shape; [apply Hbi; exact Hi|rewrite <- Hl; apply cv_shape]).
  set (yi := fun i => fill fl (repeat (repeat 0%Qc co) N) (zi i)).
  assert (Eo : mapM (fun i => W <- tget Ws i ;; b <- tget biases i ;;
            let slice := map (fun r => tslice r (i * Z.of_nat ci) ((i + 1) * Z.of_nat ci)) x in
            OctreeConv (mkCfg ci co ks stride ne 200000000 true) false W b slice o d) (arange g) = Ok (map yi (seq 0 g))).
  { apply mapM_arange. intros i Hi. rewrite (tget_nth Ws _ []) by (unfold zlen; lia). cbn [bind].
    destruct (Hbi i Hi) as (B1 & B2 & B3). 
    assert (zlen biases = Z.of_nat g) as Lb.
    { unfold zlen, biases. f_equal. destruct use_bias; [rewrite map_length; apply Hbs|apply repeat_length]. }
    rewrite (tget_nth biases _ None) by lia. rewrite !Nat2Z.id. cbn [bind]. cbn zeta. fold (bi i).
    fold (colslice ci (Z.of_nat i) x).
    destruct (OctreeConv_Ok o d kernel stride ne ci co ks 200000000 false (colslice ci (Z.of_nat i) x) (nth i Ws []) (bi i) Hr Hk) as (t' & E' & _ & _ & F');
      [right; left; exact Hm|apply (colslice_shape n g); assumption|apply HWi; exact Hi|].
    rewrite E in E'. injection E' as <-. rewrite F'. apply FF. apply Szi. exact Hi. }
  assert (Sy : Forall (shape N co) (map yi (seq 0 g))).
  { apply Forall_map, Forall_forall. intros i Hi. apply in_seq in Hi. apply FF. apply Szi. lia. }
  destruct (cat_cols_Ok N co (map yi (seq 0 g))) as (y & Ey & Shy & Ay); [destruct g; [lia|discriminate]|exact Sy|].
  rewrite map_length, seq_length in Shy, Ay.
  exists y. split; [|split; [|exact Shy]].
  - unfold OctreeGroupConv. rewrite !floordiv_mul by exact Hg. cbn [bind].
    rewrite !Nat2Z.inj_mul. rewrite !(Z.mul_comm (Z.of_nat g)), !Z.mod_mul by lia. cbn [Z.eqb andb assert_ bind].
    rewrite (proj2 (forallb_forall _ _)). 2:{ intros r Hin. apply Nat.eqb_eq. destruct Hx as [_ Hx]. rewrite Forall_forall in Hx. apply Hx. exact Hin. }
    cbn [assert_ bind]. rewrite !Nat2Z.id. fold biases. cbn zeta in Eo |- *. rewrite Eo. cbn [bind]. exact Ey.
  - rewrite F. destruct (FF _ _ SzT) as [-> ST]. f_equal. apply (shape_ext N (g * co)); [exact ST|exact Shy|]. intros r j Hr' Hj.
    assert (Hco : (0 < co)%nat) by (destruct co; lia).
    assert (Hi : (j / co < g)%nat) by (apply Nat.div_lt_upper_bound; lia). assert (Hc : (j mod co < co)%nat) by (apply Nat.mod_upper_bound; lia).
    assert (Ej : j = (j / co * co + j mod co)%nat) by (rewrite (Nat.div_mod j co) at 1 by lia; lia).
    revert Hi Hc Ej. generalize (j / co)%nat, (j mod co)%nat. intros i c Hi Hc ->. rewrite Ay by assumption.
    rewrite nth_map_seq by exact Hi. unfold yi. pose proof SzT as [LT _]. pose proof (Szi i Hi) as [Li _].
    rewrite !at2_fill by (try assumption; congruence). destruct (nth r fl false) eqn:Em; [|reflexivity].
    assert (Hp : (count_true (firstn r fl) < R)%nat).
    { rewrite <- C. rewrite <- (firstn_skipn r fl) at 2. rewrite count_true_app.
      destruct (skipn r fl) as [|b s'] eqn:Es.
      - assert (length (skipn r fl) = 0)%nat by (rewrite Es; reflexivity). rewrite skipn_length in H. lia.
      - assert (b = true) as ->. { rewrite <- (firstn_skipn r fl), app_nth2, Es in Em by (rewrite firstn_length; lia).
          rewrite firstn_length, Nat.min_l, Nat.sub_diag in Em by lia. exact Em. }
        rewrite count_true_cons. lia. }
    unfold zT, zi. rewrite (at2_add_bias R (g * co)) by (try assumption; rewrite <- Hl; apply cv_shape).
    rewrite (at2_add_bias R co); [|apply Hbi; exact Hi|rewrite <- Hl; apply cv_shape|exact Hp].
    f_equal; [|symmetry; apply Hbi; assumption]. apply (cv_block n); try assumption. rewrite Hl. exact Hp.
Qed.
