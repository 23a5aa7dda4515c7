(** The convolutions on octrees. *)
From Coq Require Import String List ZArith Bool QArith Qcanon Lia Field.
From Verif Require Import Res Tensor Num NumFacts Points Octree NnBasic NnConv Spec SpecGeo SpecNeigh SpecNN WF ListFacts ScatterFacts SumFacts NnFacts
  KidsFacts WFFacts SearchFacts NeighFacts NeighSparse GetNeigh NeighThms ConvFacts PadFacts.
Import ListNotations.
Open Scope Z_scope.

(** ** tables of octrees *)
Lemma cellno_bound d ks b x y z : cellno d ks b x y z < zlen ks.
Proof.
  destruct (cellno_found d ks b x y z) as [(H0 & _ & Hn)|[-> _]]; [|unfold zlen; lia].
  assert (Z.to_nat (cellno d ks b x y z) < length ks)%nat by (apply nth_error_Some; congruence). unfold zlen. lia.
Qed.
Lemma nb_rowg_ok d ks offs k : length (nb_rowg d ks offs k) = length offs /\ Forall (fun e => e < zlen ks) (nb_rowg d ks offs k).
Proof.
  unfold nb_rowg. destruct (coords d k) as [[[x y] z] b]. split; [apply map_length|].
  apply Forall_map. apply Forall_forall. intros [[dx dy] dz] _. apply cellno_bound.
Qed.
Lemma conv_table o d kernel stride ne : conv_ready o d kernel stride ->
  exists K M t, tree_upto o (depth o) K M /\ get_neigh o d kernel stride ne = Ok t /\
    t = map (nb_rowg d (sel K M ne d) (box kernel)) (centres K M d stride ne) /\
    Forall (vkey (batch_size o) d) (centres K M d stride ne) /\
    table_ok t (length (box kernel)) (node_count o d ne) /\ length t = out_count o d stride ne.
Proof.
  intros ((K & M & T) & Hd & Hn & Hk & Hs). pose proof (has_neigh_upto o _ K M d T Hd Hn) as N.
  exists K, M. eexists. split; [exact T|].
  assert (T' : tree_upto o d K M) by (eapply tree_upto_le; [exact Hd|exact T]).
  split; [apply (get_neigh_Ok o d K M d T' N); [lia|exact Hk|exact Hs]|]. split; [reflexivity|].
  split; [apply (centres_vkey o (depth o) K M T); assumption|]. split.
  - apply Forall_map. apply Forall_forall. intros k _. rewrite (node_count_sel o _ K M T) by exact Hd. apply nb_rowg_ok.
  - rewrite map_length. unfold centres, out_count. destruct Hs as [->|[-> Hd1]].
    + cbn [Z.eqb Pos.eqb]. symmetry. apply (node_count_sel o _ K M T). exact Hd.
    + cbn [Z.eqb Pos.eqb]. rewrite map_length. rewrite (node_count_sel o _ K M T) by lia. cbn [sel]. rewrite Nat.sub_1_r. reflexivity.
Qed.

(** ** constructor arguments *)
Lemma ksize_ok ks kernel ci co stride ne mb b : In (ks, kernel) kernel_sizes ->
  In kernel kernels /\ conv_init (mkCfg ci co ks stride ne mb b) =
    Ok (mkDims kernel (length (box kernel)) (if b then ci else co) (if b then co else ci)).
Proof.
  intros H. unfold kernel_sizes in H. cbn [In] in H.
  repeat (destruct H as [H|H]; [injection H as <- <-; split; [cbn; tauto|reflexivity]|]). destruct H.
Qed.

Lemma conv_setup_Ok o d kernel stride ne ci co ks mb K Ci Co : conv_ready o d kernel stride ->
  fits (Z.of_nat (out_count o d stride ne)) (Z.of_nat K * Z.of_nat Ci) mb ->
  exists t n h, conv_setup (mkCfg ci co ks stride ne mb true) (mkDims kernel K Ci Co) o d
    = Ok (mkGeo (Z.of_nat (node_count o d ne)) (Z.of_nat (out_count o d stride ne)) t n h) /\
    get_neigh o d kernel stride ne = Ok t /\ table_ok t (length (box kernel)) (node_count o d ne) /\
    length t = out_count o d stride ne /\ plan_ok n h (zlen t) /\ h * (Z.of_nat K * Z.of_nat Ci) <= mb.
Proof.
  intros Hr Hf. destruct (conv_table o d kernel stride ne Hr) as (K' & M & t & T & E & _ & _ & Ht & Hl).
  destruct Hr as (_ & Hd & _ & _ & Hs). rewrite <- Hl in Hf.
  destruct (buffer_plan_Ok (Z.of_nat (length t)) (Z.of_nat K) (Z.of_nat Ci) mb) as (n & h & P1 & P2 & P3); [lia..|exact Hf|].
  exists t, n, h. split; [|repeat split; try assumption; apply P2].
  destruct (layer_counts o _ K' M T d Hd) as (l & E1 & _ & E2 & E3).
  unfold conv_setup. cbn [c_stride c_isconv c_nempty m_kernel m_kdim m_inconv c_maxbuf].
  destruct Hs as [->|[-> Hd1]].
  - cbn [Z.eqb Pos.eqb andb]. rewrite E1. cbn [bind]. rewrite E. cbn [bind]. unfold zlen. rewrite P1. cbn [bind]. rewrite E2, E3.
    unfold out_count. cbn [Z.eqb Pos.eqb]. destruct ne; reflexivity.
  - cbn [Z.eqb Pos.eqb andb negb]. rewrite E1. cbn [bind]. replace (Z.of_nat d - 1) with (Z.of_nat (d - 1)) by lia.
    destruct (layer_counts o _ K' M T (d - 1)%nat ltac:(lia)) as (l' & E1' & _ & E2' & E3'). rewrite E1'. cbn [bind]. rewrite E. cbn [bind].
    unfold zlen. rewrite P1. cbn [bind]. rewrite E2, E3, E3'. unfold out_count. cbn [Z.eqb Pos.eqb]. destruct ne; reflexivity.
Qed.
(** layer of the fine nodes of a deconvolution *)
Lemma deconv_setup_Ok o d kernel stride ne ci co ks mb K Ci Co : conv_ready o (up d stride) kernel stride ->
  fits (Z.of_nat (out_count o (up d stride) stride ne)) (Z.of_nat K * Z.of_nat Ci) mb ->
  exists t n h, conv_setup (mkCfg ci co ks stride ne mb false) (mkDims kernel K Ci Co) o d
    = Ok (mkGeo (Z.of_nat (out_count o (up d stride) stride ne)) (Z.of_nat (node_count o (up d stride) ne)) t n h) /\
    get_neigh o (up d stride) kernel stride ne = Ok t /\ table_ok t (length (box kernel)) (node_count o (up d stride) ne) /\
    length t = out_count o (up d stride) stride ne /\ plan_ok n h (zlen t) /\ h * (Z.of_nat K * Z.of_nat Ci) <= mb.
Proof.
  intros Hr Hf. destruct (conv_table o _ kernel stride ne Hr) as (K' & M & t & T & E & _ & _ & Ht & Hl).
  destruct Hr as (_ & Hd & _ & _ & Hs). rewrite <- Hl in Hf.
  destruct (buffer_plan_Ok (Z.of_nat (length t)) (Z.of_nat K) (Z.of_nat Ci) mb) as (n & h & P1 & P2 & P3); [lia..|exact Hf|].
  exists t, n, h. split; [|repeat split; try assumption; apply P2].
  unfold conv_setup. cbn [c_stride c_isconv c_nempty m_kernel m_kdim m_inconv c_maxbuf].
  destruct Hs as [->|[-> Hd1]]; unfold up in *; cbn [Z.eqb Pos.eqb andb negb] in *.
  - destruct (layer_counts o _ K' M T d Hd) as (l & E1 & _ & E2 & E3). rewrite E1. cbn [bind]. rewrite E. cbn [bind]. unfold zlen. rewrite P1. cbn [bind]. rewrite E2, E3.
    unfold out_count. cbn [Z.eqb Pos.eqb]. destruct ne; reflexivity.
  - destruct (layer_counts o _ K' M T d ltac:(lia)) as (l & E1 & _ & E2 & E3).
    destruct (layer_counts o _ K' M T (S d) Hd) as (l' & E1' & _ & E2' & E3').
    rewrite E1. cbn [bind]. replace (Z.of_nat d + 1) with (Z.of_nat (S d)) by lia. rewrite E1'. cbn [bind].
    replace (d + 1)%nat with (S d) by lia. rewrite E. cbn [bind]. unfold zlen. rewrite P1. cbn [bind]. rewrite E2', E3, E3'.
    unfold out_count. cbn [Z.eqb Pos.eqb]. replace (S d - 1)%nat with d by lia. destruct ne; reflexivity.
Qed.
Lemma has_shape_true n C x : shape n C x -> has_shape (Z.of_nat n) C x = true.
Proof.
  intros [H1 H2]. unfold has_shape, zlen. rewrite H1, Z.eqb_refl. cbn [andb]. apply forallb_forall. rewrite Forall_forall in H2.
  intros r Hr. apply Nat.eqb_eq. apply H2. exact Hr.
Qed.
Lemma check_Ok g s x n m : g_in_h s = Z.of_nat n -> g_out_h s = Z.of_nat m -> shape n (c_in g) x ->
  check_and_init g s x = Ok (repeat (repeat 0%Qc (c_out g)) m).
Proof.
  intros H1 H2 Hx. unfold check_and_init. rewrite H1, has_shape_true by exact Hx. cbn [assert_ bind]. unfold full_rows. rewrite H2.
  replace (Z.of_nat m <? 0) with false by (symmetry; apply Z.ltb_ge; lia). rewrite Nat2Z.id. reflexivity.
Qed.

(** ** bias *)
Lemma add_bias_shape n Co bias z : bias_ok Co bias -> shape n Co z -> shape n Co (add_bias bias z).
Proof.
  intros Hb [H1 H2]. destruct bias as [b|]; [|split; assumption]. cbn [add_bias]. cbn in Hb. split; [rewrite map_length; exact H1|].
  apply Forall_map. eapply Forall_impl; [|exact H2]. intros r Hr. rewrite vadd_len; [exact Hr|congruence].
Qed.
Lemma at2_add_bias n Co bias z i c : bias_ok Co bias -> shape n Co z -> (i < n)%nat -> at2 (add_bias bias z) i c = (at2 z i c + bias_at bias c)%Qc.
Proof.
  intros Hb Hz Hi. destruct bias as [b|]; cbn [add_bias bias_at]; [|ring]. cbn in Hb. unfold at2. pose proof Hz as [H1 _].
  rewrite (nth_map_lt _ _ _ []) by lia. apply vadd_nth. rewrite (shape_nth n Co) by assumption. congruence.
Qed.

(** ** forward passes *)
Lemma conv_forward_Ok o d kernel stride ne ci co ks mb x W : conv_ready o d kernel stride -> In (ks, kernel) kernel_sizes ->
  fits (Z.of_nat (out_count o d stride ne)) (Z.of_nat (length (box kernel)) * Z.of_nat ci) mb ->
  shape (node_count o d ne) ci x -> shape3 (length (box kernel)) ci co W ->
  exists t, get_neigh o d kernel stride ne = Ok t /\ table_ok t (length (box kernel)) (node_count o d ne) /\ length t = out_count o d stride ne /\
    conv_forward (mkCfg ci co ks stride ne mb true) o d x W = Ok (cv ci co x W t).
Proof.
  intros Hr Hk Hf Hx HW. destruct (conv_setup_Ok o d kernel stride ne ci co ks mb _ ci co Hr Hf) as (t & n & h & E1 & E2 & E3 & E4 & E5 & _).
  exists t. split; [exact E2|]. split; [exact E3|]. split; [exact E4|]. unfold conv_forward.
  destruct (ksize_ok ks kernel ci co stride ne mb true Hk) as [_ ->]. cbn [bind]. rewrite E1. cbn [bind].
  rewrite (check_Ok _ _ x (node_count o d ne) (out_count o d stride ne)) by (reflexivity || exact Hx). cbn [bind].
  refine (forward_gemm_Ok (mkDims kernel (length (box kernel)) ci co) (mkGeo _ _ t n h) (node_count o d ne) (length (box kernel)) _ x W _ _ _ _ _ _); cbn [g_n g_h g_neigh m_kdim m_inconv m_outconv]; try assumption; try reflexivity.
  rewrite repeat_length. symmetry. exact E4.
Qed.
Lemma direct_conv_Ok ci co x W t K n : shape n ci x -> table_ok t K n -> shape3 K ci co W ->
  (col <- gather_cols ci x t ;; mm co (map (@concat Qc) col) (concat W)) = Ok (cv ci co x W t).
Proof.
  intros Hx Ht HW. rewrite (gather_cols_Ok ci x t K n) by (try apply Hx; assumption). cbn [bind]. rewrite mm_Ok; [rewrite !map_map; reflexivity|].
  intros r Hr. rewrite map_map in Hr. apply in_map_iff in Hr. destruct Hr as (row & <- & Hin).
  unfold table_ok in Ht. rewrite Forall_forall in Ht. destruct (Ht _ Hin) as [Hl Hf].
  rewrite (length_concat_shape K ci); [symmetry; apply (concat_concat_len K ci co); exact HW|]. rewrite <- Hl. apply (grow_shape ci x row n); assumption.
Qed.
(** depth of the output rows of a convolution *)
Definition finish (o : octree) (d co : nat) (stride : Z) (ne : bool) (z : feat) : res feat :=
  if (stride =? 2) && negb ne then octree_pad co z o (Z.of_nat d - 1) (0%Qc) else Ok z.
Lemma finish_Ok o d kernel stride ne co z : conv_ready o d kernel stride -> shape (out_count o d stride ne) co z ->
  exists y fl, finish o d co stride ne z = Ok y /\ shape (node_count o (down d stride) ne) co y /\
    length fl = node_count o (down d stride) ne /\ count_true fl = length z /\
    ((stride = 2 /\ ne = false) -> nempty_mask o (Z.of_nat (d - 1)) = Ok fl) /\
    (~ (stride = 2 /\ ne = false) -> fl = repeat true (length z)) /\
    y = fill fl (repeat (repeat 0%Qc co) (node_count o (down d stride) ne)) z.
Proof.
  intros ((K & M & T) & Hd & _ & _ & Hs) Hz. unfold finish.
  assert (Triv : forall n, length z = n -> z = fill (repeat true (length z)) (repeat (repeat 0%Qc co) n) z).
  { intros n <-. apply nth_error_ext. intros i. destruct (Nat.lt_ge_cases i (length z)) as [Hi|Hi].
    - rewrite (fill_true (repeat true (length z))); [|rewrite !repeat_length; reflexivity| |apply nth_error_repeat; exact Hi].
      + f_equal. clear -Hi. revert Hi. generalize (length z). induction i; intros n Hi; [reflexivity|]. destruct n; [lia|]. cbn [repeat firstn].
        rewrite count_true_cons. rewrite <- IHi by lia. reflexivity.
      + clear. induction (length z); [reflexivity|]. cbn [repeat]. rewrite count_true_cons. lia.
    - rewrite !(proj2 (nth_error_None _ _)); [reflexivity|rewrite fill_length, repeat_length; lia|lia]. }
  assert (Ct : count_true (repeat true (length z)) = length z).
  { clear. induction (length z); [reflexivity|]. cbn [repeat]. rewrite count_true_cons. lia. }
  destruct Hs as [->|[-> Hd1]]; unfold down, out_count in *; cbn [Z.eqb Pos.eqb andb] in *.
  - exists z, (repeat true (length z)). split; [reflexivity|]. split; [exact Hz|]. split; [rewrite repeat_length; apply Hz|]. split; [exact Ct|].
    split; [intros [[=] _]|]. split; [reflexivity|]. apply Triv. apply Hz.
  - destruct ne; cbn [negb].
    + exists z, (repeat true (length z)). split; [reflexivity|]. split; [exact Hz|]. split; [rewrite repeat_length; apply Hz|]. split; [exact Ct|].
      split; [intros [_ [=]]|]. split; [reflexivity|]. apply Triv. apply Hz.
    + replace (Z.of_nat d - 1) with (Z.of_nat (d - 1)) by lia.
      destruct (mask_len o _ K M T (d - 1)%nat ltac:(lia)) as [Hm Hc].
      rewrite (tree_pad o _ K M T) by (try lia; apply Hz). eexists. exists (M (d - 1)%nat). split; [reflexivity|]. split.
      * split; [rewrite fill_length, repeat_length; reflexivity|]. apply fill_Forall; [apply (shape_repeat (node_count o (d - 1) false))|apply Hz].
      * split; [exact Hm|]. split; [rewrite Hc; symmetry; apply Hz|]. split; [intros _; apply (tree_mask o _ K M T); lia|].
        split; [intros []; split; reflexivity|reflexivity].
Qed.
Lemma OctreeConv_Ok o d kernel stride ne ci co ks mb direct x W bias : conv_ready o d kernel stride -> In (ks, kernel) kernel_sizes ->
  (direct = true \/ fits (Z.of_nat (out_count o d stride ne)) (Z.of_nat (length (box kernel)) * Z.of_nat ci) mb) ->
  shape (node_count o d ne) ci x -> shape3 (length (box kernel)) ci co W ->
  exists t, get_neigh o d kernel stride ne = Ok t /\ table_ok t (length (box kernel)) (node_count o d ne) /\ length t = out_count o d stride ne /\
    OctreeConv (mkCfg ci co ks stride ne mb true) direct W bias x o d = finish o d co stride ne (add_bias bias (cv ci co x W t)).
Proof.
  intros Hr Hk Hf Hx HW. destruct (conv_table o d kernel stride ne Hr) as (_ & _ & t & _ & E & _ & _ & Ht & Hl).
  exists t. split; [exact E|]. split; [exact Ht|]. split; [exact Hl|]. unfold OctreeConv.
  destruct (ksize_ok ks kernel ci co stride ne mb true Hk) as [_ ->]. cbn [bind m_kernel c_in c_out c_stride c_nempty m_outconv m_inconv].
  destruct direct.
  - unfold octree2col. rewrite E. cbn [bind]. change (gather_cols ci x t) with (gather_cols ci x t).
    pose proof (direct_conv_Ok ci co x W t _ _ Hx Ht HW) as D. destruct (gather_cols ci x t) as [col|]; [|discriminate]. cbn [bind] in D |- *. rewrite D. reflexivity.
  - destruct Hf as [Hf|Hf]; [discriminate|]. destruct (conv_forward_Ok o d kernel stride ne ci co ks mb x W Hr Hk Hf Hx HW) as (t' & E' & _ & _ & F).
    rewrite E in E'. injection E' as <-. rewrite F. reflexivity.
Qed.

(** C35 *)
Lemma thm_conv_buffer o d ks kernel stride ne ci co mb mb' x W bias : conv_ready o d kernel stride -> In (ks, kernel) kernel_sizes ->
  shape (node_count o d ne) ci x -> shape3 (length (box kernel)) ci co W -> bias_ok co bias ->
  Z.of_nat (length (box kernel)) * Z.of_nat ci <= mb ->
  exists y, OctreeConv (mkCfg ci co ks stride ne mb true) false W bias x o d = Ok y /\
    OctreeConv (mkCfg ci co ks stride ne mb' true) true W bias x o d = Ok y /\
    shape (node_count o (down d stride) ne) co y.
Proof.
  intros Hr Hk Hx HW Hb Hf.
  destruct (OctreeConv_Ok o d kernel stride ne ci co ks mb false x W bias Hr Hk) as (t & E & Ht & Hl & F); [right; left; exact Hf|assumption..|].
  destruct (OctreeConv_Ok o d kernel stride ne ci co ks mb' true x W bias Hr Hk) as (t' & E' & _ & _ & F'); [left; reflexivity|assumption..|].
  rewrite E in E'. injection E' as <-.
  assert (Hz : shape (out_count o d stride ne) co (add_bias bias (cv ci co x W t))) by (apply add_bias_shape; [exact Hb|rewrite <- Hl; apply cv_shape]).
  destruct (finish_Ok o d kernel stride ne co _ Hr Hz) as (y & _ & Ey & Sy & _). exists y. rewrite F, F', Ey. repeat split; apply Sy.
Qed.
Lemma thm_conv_small o d ks kernel stride ne ci co mb x W bias : conv_ready o d kernel stride -> In (ks, kernel) kernel_sizes ->
  (0 < out_count o d stride ne)%nat -> 0 <= mb < Z.of_nat (length (box kernel)) * Z.of_nat ci ->
  OctreeConv (mkCfg ci co ks stride ne mb true) false W bias x o d = Err ZeroDivisionError.
Proof.
  intros Hr Hk Hn Hm. destruct (conv_table o d kernel stride ne Hr) as (K & M & t & T & E & _ & _ & Ht & Hl).
  unfold OctreeConv, conv_forward. destruct (ksize_ok ks kernel ci co stride ne mb true Hk) as [_ ->]. cbn [bind].
  assert (B : buffer_plan (zlen t) (Z.of_nat (length (box kernel))) (Z.of_nat ci) mb = Err ZeroDivisionError) by (apply buffer_plan_small; unfold zlen; lia).
  destruct Hr as (_ & Hd & _ & _ & Hs).
  assert (S : conv_setup (mkCfg ci co ks stride ne mb true) (mkDims kernel (length (box kernel)) ci co) o d = Err ZeroDivisionError).
  { unfold conv_setup. cbn [c_stride c_isconv c_nempty m_kernel m_kdim m_inconv c_maxbuf].
    destruct (layer_counts o _ K M T d Hd) as (l & -> & _). cbn [bind].
    destruct Hs as [->|[-> Hd1]]; cbn [Z.eqb Pos.eqb andb negb].
    - destruct (layer_counts o _ K M T d Hd) as (l' & -> & _). cbn [bind]. rewrite E. cbn [bind]. rewrite B. reflexivity.
    - replace (Z.of_nat d - 1) with (Z.of_nat (d - 1)) by lia. destruct (layer_counts o _ K M T (d - 1)%nat ltac:(lia)) as (l' & -> & _). cbn [bind].
      rewrite E. cbn [bind]. rewrite B. reflexivity. }
  rewrite S. reflexivity.
Qed.

(** C37 *)
Lemma sub2_inner n C g y y' z : shape n C y -> shape n C y' -> (forall i c, (i < n)%nat -> (c < C)%nat -> at2 y' i c = (at2 y i c + at2 z i c)%Qc) ->
  inner n C g (sub2 n C y' y) = inner n C g z.
Proof.
  intros Hy Hy' H. unfold inner. apply sum_ext. intros i Hi. apply sum_ext. intros c Hc. unfold sub2. rewrite at2_tabulate by assumption.
  rewrite H by assumption. ring.
Qed.
Lemma backward_entries m s n K Ci Co W g x : plan_ok (g_n s) (g_h s) (zlen (g_neigh s)) -> m_kdim m = K -> m_inconv m = Ci -> m_outconv m = Co ->
  table_ok (g_neigh s) K n -> shape3 K Ci Co W -> shape (length (g_neigh s)) Co g -> shape n Ci x ->
  (forall i c, (i < n)%nat -> (c < Ci)%nat -> at2 x i c = 0%Qc) ->
  exists gd, backward_gemm m s x g W = Ok gd /\ shape n Ci gd /\
    forall i c, (i < n)%nat -> (c < Ci)%nat -> at2 gd i c = bw_entry K Co W g (g_neigh s) i c.
Proof.
  intros P HK Hi Ho Ht HW Hg Hx Hz. rewrite (backward_gemm_eq m s n K) by (try rewrite Ho; assumption). rewrite Hi, Ho.
  destruct (bw_scatter n K Ci Co x g W (g_neigh s) Hx Hg Ht HW) as (z & E & S & A). exists z. split; [exact E|]. split; [exact S|].
  intros i c Hi' Hc. rewrite A, Hz by assumption. ring.
Qed.
Lemma thm_conv_grad o d ks kernel stride ne ci co mb x W g : conv_ready o d kernel stride -> In (ks, kernel) kernel_sizes ->
  shape (node_count o d ne) ci x -> shape3 (length (box kernel)) ci co W -> shape (out_count o d stride ne) co g ->
  Z.of_nat (length (box kernel)) * Z.of_nat ci <= mb ->
  let cfg := mkCfg ci co ks stride ne mb true in
  let n := node_count o d ne in let K := length (box kernel) in let R := out_count o d stride ne in
  exists y gd gw, conv_forward cfg o d x W = Ok y /\ conv_backward cfg o d x W g = Ok (gd, gw) /\
    shape R co y /\ shape n ci gd /\ shape3 K ci co gw /\
    (forall dx, shape n ci dx -> exists y', conv_forward cfg o d (add2 n ci x dx) W = Ok y' /\
       inner R co g (sub2 R co y' y) = inner n ci gd dx) /\
    (forall dW, shape3 K ci co dW -> exists y', conv_forward cfg o d x (add3 K ci co W dW) = Ok y' /\
       inner R co g (sub2 R co y' y) = inner3 K ci co gw dW).
Proof.
  intros Hr Hk Hx HW Hg Hf0 cfg n K R. assert (Hf : fits (Z.of_nat R) (Z.of_nat K * Z.of_nat ci) mb) by (left; exact Hf0).
  destruct (conv_setup_Ok o d kernel stride ne ci co ks mb _ ci co Hr Hf) as (t & pn & h & E1 & E2 & E3 & E4 & E5 & _).
  assert (FW : forall x W, shape n ci x -> shape3 K ci co W -> conv_forward cfg o d x W = Ok (cv ci co x W t)).
  { intros x' W' Hx' HW'. destruct (conv_forward_Ok o d kernel stride ne ci co ks mb x' W' Hr Hk Hf Hx' HW') as (t' & E' & _ & _ & F). rewrite E2 in E'. injection E' as <-. exact F. }
  set (s := mkGeo _ _ t pn h) in E1. fold R in E4.
  destruct (backward_entries (mkDims kernel K ci co) s n K ci co W g (zeros_like x)) as (gd & G1 & G2 & G3); try reflexivity; try assumption.
  { cbn [s g_neigh]. rewrite E4. exact Hg. } { apply zeros_like_shape. exact Hx. } { intros. apply zeros_like_entry. }
  destruct (weight_gemm_Ok (mkDims kernel K ci co) s n K x g W) as (gw & W1 & W2 & W3); try reflexivity; try assumption.
  { cbn [s g_neigh m_outconv]. rewrite E4. exact Hg. }
  cbn [s g_neigh m_inconv m_outconv] in *.
  exists (cv ci co x W t), gd, gw. split; [apply FW; assumption|]. split.
  { unfold conv_backward, cfg. destruct (ksize_ok ks kernel ci co stride ne mb true Hk) as [_ ->]. cbn [bind]. fold K. rewrite E1. cbn [bind].
    fold s in G1, W1. rewrite G1. cbn [bind]. rewrite W1. reflexivity. }
  assert (Sh : forall x W, shape R co (cv ci co x W t)) by (intros; rewrite <- E4; apply cv_shape).
  split; [apply Sh|]. split; [exact G2|]. split; [exact W2|]. split.
  - intros dx Hdx. exists (cv ci co (add2 n ci x dx) W t). split; [apply FW; [apply add2_shape|exact HW]|].
    rewrite (sub2_inner R co g _ _ (cv ci co dx W t)); [|apply Sh..|].
    + rewrite inner_comm, <- E4. rewrite (cv_adjoint n K ci co dx W t g gd) by (try rewrite E4; assumption). apply inner_comm.
    + intros i c Hi Hc. apply (cv_add_x n K); try assumption. rewrite E4. exact Hi.
  - intros dW HdW. exists (cv ci co x (add3 K ci co W dW) t). split; [apply FW; [exact Hx|apply add3_shape]|].
    rewrite (sub2_inner R co g _ _ (cv ci co x dW t)); [|apply Sh..|].
    + rewrite inner_comm, <- E4. rewrite (gw_adjoint n K ci co x dW t g gw) by (try rewrite E4; assumption).
      unfold inner3. apply sum_ext. intros k _. apply sum_ext. intros c _. apply sum_ext. intros j _. ring.
    + intros i c Hi Hc. apply (cv_add_w n K); try assumption. rewrite E4. exact Hi.
Qed.
