(** Shapes of the outputs of the modules. *)
From Coq Require Import String List ZArith Bool QArith Qcanon Lia.
From Verif Require Import Res Tensor Key Num Points Octree NnBasic NnConv NnInterp Net Spec WF SpecNeigh SpecNN SpecNet
  ListFacts WFFacts NnFacts ConvFacts ConvOct Deconv PadFacts PoolFacts Finite SumFacts LinearFacts.
Import ListNotations.
Open Scope Z_scope.

(** ** truncation: an operation on layers up to L sees the octree of depth L *)
Definition trunc (o : octree) (L : nat) : octree :=
  mkOctree L (Nat.min (full_depth o) L) (batch_size o) (device o) (firstn (S L) (layers o)).

Lemma nth_firstn {A} n i (l : list A) : (i < n)%nat -> nth_error (firstn n l) i = nth_error l i.
Proof. revert i l. induction n as [|n IH]; intros i l H; [lia|]. destruct l as [|a l]; [reflexivity|]. destruct i as [|i]; cbn; [reflexivity|]. apply IH. lia. Qed.
Lemma trunc_nth o L i : (i <= L)%nat -> nth_error (layers (trunc o L)) i = nth_error (layers o) i.
Proof. intros H. unfold trunc, layers at 1. apply nth_firstn. lia. Qed.
Lemma trunc_wf o L : wf_upto o L -> wf_octree (trunc o L).
Proof.
  intros (K & M & T). exists K, M. pose proof (t_L _ _ _ _ T) as HL. pose proof (t_len _ _ _ _ T) as Hlen. pose proof (t_depth _ _ _ _ T) as H16.
  constructor; cbn [trunc depth full_depth batch_size].
  - lia.
  - exact (t_batch _ _ _ _ T).
  - lia.
  - lia.
  - unfold trunc, layers at 1. rewrite firstn_length. lia.
  - intros d Hd. destruct (t_layer _ _ _ _ T d Hd) as (l & Hl & R). exists l. rewrite trunc_nth by exact Hd. auto.
  - exact (t_mask _ _ _ _ T).
  - intros d Hd Hf. apply (t_grid _ _ _ _ T); [exact Hd|lia].
  - exact (t_link _ _ _ _ T).
Qed.
Lemma trunc_layer o L i : wf_upto o L -> 0 <= i <= Z.of_nat L -> get_layer (trunc o L) i = get_layer o i.
Proof.
  intros W Hi. destruct (trunc_wf o L W) as (K & M & T). pose proof (t_len _ _ _ _ T) as Hl. cbn [depth trunc] in Hl.
  destruct W as (K' & M' & T'). pose proof (t_len _ _ _ _ T') as Hl'. pose proof (t_L _ _ _ _ T').
  unfold get_layer. rewrite <- (Z2Nat.id i) by lia. set (n := Z.to_nat i). assert (n <= L)%nat by lia.
  destruct (t_layer _ _ _ _ T' n ltac:(lia)) as (l & El & _).
  assert (El2 : nth_error (layers (trunc o L)) n = Some l) by (rewrite trunc_nth by lia; exact El).
  rewrite (tget_Ok _ _ _ El). rewrite (tget_Ok _ _ _ El2). reflexivity.
Qed.

Lemma trunc_mask o L i : wf_upto o L -> 0 <= i <= Z.of_nat L -> nempty_mask (trunc o L) i = nempty_mask o i.
Proof. intros W Hi. unfold nempty_mask. rewrite trunc_layer by assumption. reflexivity. Qed.
Lemma trunc_pad {A} o L C (x : list (list A)) i v : wf_upto o L -> 0 <= i <= Z.of_nat L -> octree_pad C x (trunc o L) i v = octree_pad C x o i v.
Proof. intros W Hi. unfold octree_pad. rewrite trunc_layer, trunc_mask by assumption. reflexivity. Qed.
Lemma trunc_depad {A} o L (x : list A) i : wf_upto o L -> 0 <= i <= Z.of_nat L -> octree_depad x (trunc o L) i = octree_depad x o i.
Proof. intros W Hi. unfold octree_depad. rewrite trunc_mask by assumption. reflexivity. Qed.
Lemma trunc_neigh o L d k s ne : wf_upto o L -> (d <= L)%nat -> get_neigh (trunc o L) d k s ne = get_neigh o d k s ne.
Proof. intros W Hd. unfold get_neigh. rewrite trunc_layer by (assumption || lia). reflexivity. Qed.
Lemma trunc_count o L d ne : (d <= L)%nat -> node_count (trunc o L) d ne = node_count o d ne.
Proof. intros Hd. unfold node_count. rewrite trunc_nth by exact Hd. reflexivity. Qed.
Lemma trunc_has o L d : (d <= L)%nat -> has_neigh o d -> has_neigh (trunc o L) d.
Proof. intros Hd (l & ks & t & H). exists l, ks, t. rewrite trunc_nth by exact Hd. exact H. Qed.

Lemma trunc_setup o L g m d : wf_upto o L -> (d <= L)%nat ->
  (c_stride g = 1 \/ (c_stride g = 2 /\ if c_isconv g then (1 <= d)%nat else (S d <= L)%nat)) ->
  conv_setup g m (trunc o L) d = conv_setup g m o d.
Proof.
  intros Wf Hd Hs. unfold conv_setup. rewrite trunc_layer by (assumption || lia).
  destruct (get_layer o (Z.of_nat d)) as [li|]; cbn [bind]; [|reflexivity].
  rewrite trunc_layer; [|assumption|].
  2: { destruct Hs as [->|[-> H]]; cbn [Z.eqb Pos.eqb]; [lia|]. destruct (c_isconv g); lia. }
  destruct (get_layer o _) as [lo|]; cbn [bind]; [|reflexivity].
  rewrite trunc_neigh; [reflexivity|assumption|].
  destruct Hs as [->|[-> H]]; cbn [Z.eqb Pos.eqb andb]; [lia|]. destruct (c_isconv g); cbn [negb]; lia.
Qed.
Lemma bind_ext {A B} (x x' : res A) (f g : A -> res B) : x = x' -> (forall a, f a = g a) -> bind x f = bind x' g.
Proof. intros -> H. destruct x' as [a|]; cbn; [apply H|reflexivity]. Qed.
Lemma trunc_conv o L g W b x d : wf_upto o L -> c_isconv g = true -> (d <= L)%nat -> (c_stride g = 1 \/ (c_stride g = 2 /\ (1 <= d)%nat)) ->
  OctreeConv g false W b x (trunc o L) d = OctreeConv g false W b x o d.
Proof.
  intros Wf Ec Hd Hs. unfold OctreeConv, conv_forward. apply bind_ext; [reflexivity|]. intros m. apply bind_ext.
  - apply bind_ext; [reflexivity|]. intros m'. rewrite trunc_setup; [reflexivity|assumption|assumption|]. rewrite Ec. exact Hs.
  - intros y. destruct ((c_stride g =? 2) && negb (c_nempty g)) eqn:E; [|reflexivity]. apply trunc_pad; [assumption|].
    apply andb_true_iff in E. destruct E as [E _]. apply Z.eqb_eq in E. lia.
Qed.
Lemma trunc_deconv o L g W b x d : wf_upto o L -> c_isconv g = false -> (d <= L)%nat -> (c_stride g = 1 \/ (c_stride g = 2 /\ (S d <= L)%nat)) ->
  OctreeDeconv g false W b x (trunc o L) d = OctreeDeconv g false W b x o d.
Proof.
  intros Wf Ec Hd Hs. unfold OctreeDeconv, deconv_forward. apply bind_ext; [reflexivity|]. intros m. apply bind_ext.
  - rewrite trunc_depad by (assumption || lia). reflexivity.
  - intros y. apply bind_ext; [|reflexivity]. apply bind_ext; [reflexivity|]. intros m'. rewrite trunc_setup; [reflexivity|assumption|assumption|]. rewrite Ec. exact Hs.
Qed.

(** ** elementary shapes *)
Lemma tensor1_len a f : length (tensor1 a f) = a.
Proof. unfold tensor1. rewrite map_length, seq_length. reflexivity. Qed.
Lemma tensor2_shape a b f : shape a b (tensor2 a b f).
Proof. unfold tensor2. split; [rewrite map_length, seq_length; reflexivity|]. apply Forall_map, Forall_forall. intros i _. apply tensor1_len. Qed.
Lemma tensor3_shape a b c f : shape3 a b c (tensor3 a b c f).
Proof. unfold tensor3. split; [rewrite map_length, seq_length; reflexivity|]. apply Forall_map, Forall_forall. intros i _. apply tensor2_shape. Qed.
Lemma relu_shape n C x : shape n C x -> shape n C (relu x).
Proof. intros [H1 H2]. unfold relu. split; [rewrite map_length; exact H1|]. apply Forall_map. apply Forall_forall. rewrite Forall_forall in H2. intros r Hr. rewrite map_length. auto. Qed.
Lemma tanh_shape P n C x : shape n C x -> shape n C (tanh_ P x).
Proof. intros [H1 H2]. unfold tanh_. split; [rewrite map_length; exact H1|]. apply Forall_map. apply Forall_forall. rewrite Forall_forall in H2. intros r Hr. rewrite map_length. auto. Qed.
Lemma dropout_shape P p n C x : shape n C x -> shape n C (dropout P p x).
Proof.
  intros [H1 H2]. unfold dropout. split; [rewrite map_length, combine_length, seq_length; lia|]. apply Forall_map. apply Forall_forall. rewrite Forall_forall in H2.
  intros [i r] Hr. apply in_combine_r in Hr. cbn [fst snd]. rewrite map_length, combine_length, seq_length. rewrite (H2 r Hr). lia.
Qed.
Lemma transpose_len n B : length (transpose n B) = n.
Proof. unfold transpose. rewrite map_length, seq_length. reflexivity. Qed.
Lemma mm_shape n k m A B : shape n k A -> length B = k -> exists y, mm m A B = Ok y /\ shape n m y.
Proof.
  intros [H1 H2] HB. unfold mm. replace (forallb _ A) with true.
  2: { symmetry. apply forallb_forall. rewrite Forall_forall in H2. intros r Hr. rewrite (H2 r Hr), HB. apply Nat.eqb_refl. }
  eexists. split; [reflexivity|]. split; [rewrite map_length; exact H1|]. apply Forall_map, Forall_forall. intros r _. unfold vecmat. rewrite map_length, seq_length. reflexivity.
Qed.
Lemma add_bias_shape n C b x : bias_ok C b -> shape n C x -> shape n C (add_bias b x).
Proof.
  intros Hb [H1 H2]. destruct b as [b|]; [|split; assumption]. cbn in Hb |- *. split; [rewrite map_length; exact H1|].
  apply Forall_map. apply Forall_forall. rewrite Forall_forall in H2. intros r Hr. rewrite vadd_len by (rewrite Hb; auto). auto.
Qed.
Lemma linear_shape P p ci co ub n x : shape n ci x -> exists y, linear P p ci co ub x = Ok y /\ shape n co y.
Proof.
  intros H. unfold linear. destruct (mm_shape n ci co x (transpose ci (tensor2 co ci (p_weight P p O))) H (transpose_len _ _)) as (y & E & Hy).
  rewrite E. cbn [bind]. eexists. split; [reflexivity|]. apply add_bias_shape; [|exact Hy]. destruct ub; cbn; [apply tensor1_len|exact I].
Qed.
Lemma add_feat_shape n C x y : shape n C x -> shape n C y -> exists z, add_feat x y = Ok z /\ shape n C z.
Proof.
  intros [H1 H2] [H3 H4]. unfold add_feat. rewrite H1, H3, Nat.eqb_refl. cbn [andb]. rewrite Forall_forall in H2, H4.
  replace (forallb _ _) with true.
  2: { symmetry. apply forallb_forall. intros [r s] Hr. cbn. rewrite (H2 r (in_combine_l _ _ _ _ Hr)), (H4 s (in_combine_r _ _ _ _ Hr)). apply Nat.eqb_refl. }
  eexists. split; [reflexivity|]. unfold zip_with. split; [rewrite map_length, combine_length; lia|]. apply Forall_map, Forall_forall.
  intros [r s] Hr. pose proof (H2 r (in_combine_l _ _ _ _ Hr)). pose proof (H4 s (in_combine_r _ _ _ _ Hr)). cbn [fst snd]. rewrite vadd_len; congruence.
Qed.
Lemma cat_shape n a b x y : shape n a x -> shape n b y -> exists z, cat_cols [x; y] = Ok z /\ shape n (a + b) z.
Proof.
  intros [H1 H2] [H3 H4]. unfold cat_cols. cbn [foldM]. rewrite H1, H3, Nat.eqb_refl. cbn [bind]. rewrite Forall_forall in H2, H4.
  eexists. split; [reflexivity|]. unfold zip_with. split; [rewrite map_length, combine_length; lia|]. apply Forall_map, Forall_forall.
  intros [r s] Hr. cbn [fst snd]. rewrite app_length. rewrite (H2 r (in_combine_l _ _ _ _ Hr)), (H4 s (in_combine_r _ _ _ _ Hr)). lia.
Qed.

(** ** modules *)
Lemma kdim_case ks ci co st ne cv : (ks = [3]%nat /\ exists m, conv_init (mkCfg ci co ks st ne 200000000 cv) = Ok m /\ m_kernel m = "333"%string /\ m_kdim m = length (box "333") /\
     m_inconv m = (if cv then ci else co) /\ m_outconv m = (if cv then co else ci) /\ In (ks, "333"%string) kernel_sizes /\ Z.of_nat (length (box "333")) = 27) \/
  (ks = [2]%nat /\ exists m, conv_init (mkCfg ci co ks st ne 200000000 cv) = Ok m /\ m_kernel m = "222"%string /\ m_kdim m = length (box "222") /\
     m_inconv m = (if cv then ci else co) /\ m_outconv m = (if cv then co else ci) /\ In (ks, "222"%string) kernel_sizes /\ Z.of_nat (length (box "222")) = 8) \/ (ks <> [3]%nat /\ ks <> [2]%nat).
Proof.
  destruct (list_eq_dec Nat.eq_dec ks [3]%nat) as [->|N]; [left; split; [reflexivity|]|].
  { eexists. split; [reflexivity|]. destruct cv; repeat split; cbn; auto. }
  destruct (list_eq_dec Nat.eq_dec ks [2]%nat) as [->|N2]; [right; left; split; [reflexivity|]|right; right; auto].
  eexists. split; [reflexivity|]. destruct cv; repeat split; cbn; auto.
Qed.
Lemma std_kernel ks ci co st ne cv : (ks = [3] \/ ks = [2])%nat -> exists m k, conv_init (mkCfg ci co ks st ne 200000000 cv) = Ok m /\ m_kdim m = length (box k) /\
     m_inconv m = (if cv then ci else co) /\ m_outconv m = (if cv then co else ci) /\ In (ks, k) kernel_sizes /\ In k kernels /\ Z.of_nat (length (box k)) <= 27.
Proof.
  intros H. destruct (kdim_case ks ci co st ne cv) as [[_ (m & E & _ & H1 & H2 & H3 & H4 & H5)]|[[_ (m & E & _ & H1 & H2 & H3 & H4 & H5)]|[N1 N2]]].
  - exists m, "333"%string. repeat split; try assumption; [cbn; tauto|lia].
  - exists m, "222"%string. repeat split; try assumption; [cbn; tauto|lia].
  - destruct H; contradiction.
Qed.

Section Shapes.
  Variables (o : octree) (L lo : nat) (ne : bool) (P : params).
  Hypothesis W : wf_upto o L.
  Hypothesis HN : norms_keep lo P.

  Definition at_layer (d C : nat) (x : list (list Qc)) : Prop := shape (node_count o d ne) C x.
  (** stride 1 or 2 on a layer with a table *)
  Lemma conv_shape p ci co ks st d x : (ks = [3] \/ ks = [2])%nat -> (d <= L)%nat -> has_neigh o d ->
    (st = 1 \/ (st = 2 /\ (1 <= d)%nat)) -> Z.of_nat ci <= 5000000 -> at_layer d ci x ->
    exists y, conv P p ci co ks st ne x o (Z.of_nat d) = Ok y /\ at_layer (down d st) co y.
  Proof.
    intros Hk Hd Hn Hs Hc Hx. destruct (std_kernel ks ci co st ne true Hk) as (m & k & E & E1 & E2 & E3 & Hin & Hk2 & Hle).
    unfold conv. rewrite E. cbn [bind]. unfold at_depth. replace (Z.of_nat d <? 0) with false by (symmetry; apply Z.ltb_ge; lia). rewrite Nat2Z.id.
    rewrite <- (trunc_conv o L) by (assumption || reflexivity).
    destruct (thm_conv_buffer (trunc o L) d ks k st ne ci co 200000000 200000000 x
      (tensor3 (m_kdim m) (m_inconv m) (m_outconv m) (p_weight P p)) None) as (y & Ey & _ & Hy).
    - split; [apply trunc_wf; exact W|]. split; [exact Hd|]. split; [apply trunc_has; assumption|]. split; [exact Hk2|exact Hs].
    - exact Hin.
    - rewrite trunc_count by exact Hd. exact Hx.
    - rewrite E1, E2, E3. apply tensor3_shape.
    - exact I.
    - nia.
    - exists y. split; [exact Ey|]. unfold at_layer. rewrite <- (trunc_count o L); [exact Hy|]. unfold down. destruct (st =? 2); lia.
  Qed.
  Lemma deconv_shape p ci co ks st d x : (ks = [3] \/ ks = [2])%nat -> (up d st <= L)%nat -> has_neigh o (up d st) ->
    (st = 1 \/ st = 2) -> Z.of_nat co <= 5000000 -> at_layer d ci x ->
    exists y, deconv P p ci co ks st ne x o (Z.of_nat d) = Ok y /\ at_layer (up d st) co y.
  Proof.
    intros Hk Hd Hn Hs Hc Hx. destruct (std_kernel ks ci co st ne false Hk) as (m & k & E & E1 & E2 & E3 & Hin & Hk2 & Hle).
    assert (Hd' : (d <= L)%nat) by (unfold up in Hd; destruct (st =? 2); lia).
    unfold deconv. rewrite E. cbn [bind]. unfold at_depth. replace (Z.of_nat d <? 0) with false by (symmetry; apply Z.ltb_ge; lia). rewrite Nat2Z.id.
    rewrite <- (trunc_deconv o L); [|assumption|reflexivity|exact Hd'|].
    2: { cbn [c_stride]. destruct Hs as [->| ->]; [left; reflexivity|right; split; [reflexivity|exact Hd]]. }
    destruct (thm_deconv_transpose (trunc o L) d ks k st ne co ci 200000000 200000000 (tensor2 (node_count o (up d st) ne) co (fun _ _ => 0%Qc)) x
      (tensor3 (m_kdim m) (m_inconv m) (m_outconv m) (p_weight P p))) as (cx & y & _ & _ & Ey & Hy & _).
    - split; [apply trunc_wf; exact W|]. split; [exact Hd|]. split; [apply trunc_has; assumption|]. split; [exact Hk2|].
      destruct Hs as [->| ->]; [left; reflexivity|right; split; [reflexivity|cbn; lia]].
    - exact Hin.
    - rewrite trunc_count by exact Hd. apply tensor2_shape.
    - rewrite trunc_count by exact Hd'. exact Hx.
    - rewrite E1, E2, E3. apply tensor3_shape.
    - nia.
    - nia.
    - exists y. split; [exact Ey|]. unfold at_layer. rewrite <- (trunc_count o L); [exact Hy|]. exact Hd.
  Qed.

  Definition busy (d : nat) : Prop := (lo <= node_count o d ne)%nat.

  Lemma conv_bn_shape p ci co ks st d x : (ks = [3] \/ ks = [2])%nat -> (d <= L)%nat -> has_neigh o d ->
    (st = 1 \/ (st = 2 /\ (1 <= d)%nat)) -> Z.of_nat ci <= 5000000 -> busy (down d st) -> at_layer d ci x ->
    exists y, conv_bn P p ci co ks st ne x o (Z.of_nat d) = Ok y /\ at_layer (down d st) co y.
  Proof.
    intros Hk Hd Hn Hs Hc Hb Hx. destruct (conv_shape p ci co ks st d x Hk Hd Hn Hs Hc Hx) as (y & E & Hy).
    unfold conv_bn. rewrite E. cbn [bind]. apply (HN p co _ y Hb Hy).
  Qed.
  Lemma conv_bn_relu_shape p ci co ks st d x : (ks = [3] \/ ks = [2])%nat -> (d <= L)%nat -> has_neigh o d ->
    (st = 1 \/ (st = 2 /\ (1 <= d)%nat)) -> Z.of_nat ci <= 5000000 -> busy (down d st) -> at_layer d ci x ->
    exists y, conv_bn_relu P p ci co ks st ne x o (Z.of_nat d) = Ok y /\ at_layer (down d st) co y.
  Proof.
    intros Hk Hd Hn Hs Hc Hb Hx. destruct (conv_bn_shape p ci co ks st d x Hk Hd Hn Hs Hc Hb Hx) as (y & E & Hy).
    unfold conv_bn in E. unfold conv_bn_relu. destruct (conv P p ci co ks st ne x o (Z.of_nat d)) as [z|]; [|discriminate]. cbn [bind] in *.
    rewrite E. cbn [bind]. eexists. split; [reflexivity|]. apply relu_shape. exact Hy.
  Qed.
  Lemma deconv_bn_relu_shape p ci co ks st d x : (ks = [3] \/ ks = [2])%nat -> (up d st <= L)%nat -> has_neigh o (up d st) ->
    (st = 1 \/ st = 2) -> Z.of_nat co <= 5000000 -> busy (up d st) -> at_layer d ci x ->
    exists y, deconv_bn_relu P p ci co ks st ne x o (Z.of_nat d) = Ok y /\ at_layer (up d st) co y.
  Proof.
    intros Hk Hd Hn Hs Hc Hb Hx. destruct (deconv_shape p ci co ks st d x Hk Hd Hn Hs Hc Hx) as (y & E & Hy).
    unfold deconv_bn_relu. rewrite E. cbn [bind]. destruct (HN p co _ y Hb Hy) as (z & Ez & Hz). rewrite Ez. cbn [bind].
    eexists. split; [reflexivity|]. apply relu_shape. exact Hz.
  Qed.
  Lemma conv1x1_bn_shape p ci co n x : (lo <= n)%nat -> shape n ci x -> exists y, conv1x1_bn P p ci co x = Ok y /\ shape n co y.
  Proof.
    intros Hb Hx. destruct (linear_shape P p ci co false n x Hx) as (y & E & Hy). unfold conv1x1_bn. rewrite E. cbn [bind]. apply (HN p co n y Hb Hy).
  Qed.
  Lemma conv1x1_bn_relu_shape p ci co n x : (lo <= n)%nat -> shape n ci x -> exists y, conv1x1_bn_relu P p ci co x = Ok y /\ shape n co y.
  Proof.
    intros Hb Hx. destruct (linear_shape P p ci co false n x Hx) as (y & E & Hy). unfold conv1x1_bn_relu. rewrite E. cbn [bind].
    destruct (HN p co n y Hb Hy) as (z & Ez & Hz). rewrite Ez. cbn [bind]. eexists. split; [reflexivity|]. apply relu_shape. exact Hz.
  Qed.
  Lemma head_shape p ci ch co n x : (lo <= n)%nat -> shape n ci x -> exists y, head P p ci ch co x = Ok y /\ shape n co y.
  Proof.
    intros Hb Hx. unfold head. destruct (conv1x1_bn_relu_shape (p ++ [("0"%string, 0)]) ci ch n x Hb Hx) as (y & E & Hy). rewrite E. cbn [bind].
    apply linear_shape. exact Hy.
  Qed.

  Lemma res_block_shape p ci co bk d x : (d <= L)%nat -> has_neigh o d -> busy d -> bk <> O -> channel_ok co -> at_layer d ci x ->
    exists y, res_block P p ci co 1 bk ne x o (Z.of_nat d) = Ok y /\ at_layer d co y.
  Proof.
    intros Hd Hn Hb Hk Hc Hx. unfold res_block, bottleneck_channels. destruct (Nat.eqb bk 0) eqn:Eb; [apply Nat.eqb_eq in Eb; contradiction|]. cbn [bind Z.eqb Pos.eqb].
    pose proof (Nat.div_le_upper_bound co bk co Hk ltac:(nia)) as Hcb.
    destruct (conv1x1_bn_relu_shape (p ++ [("conv1x1a"%string, 0)]) ci (co / bk) _ x Hb Hx) as (y1 & E1 & H1). rewrite E1. cbn [bind].
    destruct (conv_bn_relu_shape (p ++ [("conv3x3"%string, 0)]) (co / bk) (co / bk) [3%nat] 1 d y1) as (y2 & E2 & H2); auto.
    { unfold channel_ok in Hc. lia. }
    rewrite E2. cbn [bind].
    destruct (conv1x1_bn_shape (p ++ [("conv1x1b"%string, 0)]) (co / bk) co _ y2 Hb H2) as (y3 & E3 & H3). rewrite E3. cbn [bind].
    assert (G : exists x', (if Nat.eqb ci co then Ok x else conv1x1_bn P (p ++ [("conv1x1c"%string, 0)]) ci co x) = Ok x' /\ at_layer d co x').
    { destruct (Nat.eqb ci co) eqn:E; [apply Nat.eqb_eq in E; subst; eauto|]. apply conv1x1_bn_shape; assumption. }
    destruct G as (x' & Ex & Hx'). rewrite Ex. cbn [bind].
    destruct (add_feat_shape _ _ y3 x' H3 Hx') as (z & Ez & Hz). rewrite Ez. cbn [bind]. eexists. split; [reflexivity|]. apply relu_shape. exact Hz.
  Qed.
  Lemma res_block2_shape p ci co bk d x : (d <= L)%nat -> has_neigh o d -> busy d -> bk <> O -> channel_ok co -> Z.of_nat ci <= 5000000 -> at_layer d ci x ->
    exists y, res_block2 P p ci co 1 bk ne x o (Z.of_nat d) = Ok y /\ at_layer d co y.
  Proof.
    intros Hd Hn Hb Hk Hc Hci Hx. unfold res_block2, bottleneck_channels. destruct (Nat.eqb bk 0) eqn:Eb; [apply Nat.eqb_eq in Eb; contradiction|]. cbn [bind Z.eqb Pos.eqb].
    pose proof (Nat.div_le_upper_bound co bk co Hk ltac:(nia)) as Hcb.
    destruct (conv_bn_relu_shape (p ++ [("conv3x3a"%string, 0)]) ci (co / bk) [3%nat] 1 d x) as (y1 & E1 & H1); auto.
    rewrite E1. cbn [bind].
    destruct (conv_bn_shape (p ++ [("conv3x3b"%string, 0)]) (co / bk) co [3%nat] 1 d y1) as (y3 & E3 & H3); auto.
    { unfold channel_ok in Hc. lia. }
    rewrite E3. cbn [bind].
    assert (G : exists x', (if Nat.eqb ci co then Ok x else conv1x1_bn P (p ++ [("conv1x1"%string, 0)]) ci co x) = Ok x' /\ at_layer d co x').
    { destruct (Nat.eqb ci co) eqn:E; [apply Nat.eqb_eq in E; subst; eauto|]. apply conv1x1_bn_shape; assumption. }
    destruct G as (x' & Ex & Hx'). rewrite Ex. cbn [bind].
    destruct (add_feat_shape _ _ y3 x' H3 Hx') as (z & Ez & Hz). rewrite Ez. cbn [bind]. eexists. split; [reflexivity|]. apply relu_shape. exact Hz.
  Qed.
End Shapes.
