(** The gradients of convolutions on a batch are those of the samples. *)
From Coq Require Import String List ZArith Bool QArith Qcanon Lia.
From Verif Require Import Res Tensor Key Num NumFacts Points Octree NnBasic NnConv Spec SpecGeo WF SpecNeigh SpecMerge SpecNN SpecBatch
  KeyFacts ListFacts KidsFacts WFFacts SearchFacts NeighFacts NeighSparse GetNeigh NeighThms MergeFacts NnFacts SumFacts ConvFacts ConvOct DwGroup Deconv PadFacts MergeConv CatFacts NetBatch BatchThms GradFacts.
Import ListNotations.
Open Scope Z_scope.

Lemma deconv_is_gd o d ks kernel stride ne ci co mb x y W : conv_ready o (up d stride) kernel stride -> In (ks, kernel) kernel_sizes ->
  Z.of_nat (length (box kernel)) * Z.of_nat ci <= mb -> shape (node_count o (up d stride) ne) ci x ->
  shape (out_count o (up d stride) stride ne) co y -> shape3 (length (box kernel)) ci co W ->
  exists z gw, deconv_forward (mkCfg co ci ks stride ne mb false) o d y W = Ok z /\ shape (node_count o (up d stride) ne) ci z /\
    conv_backward (mkCfg ci co ks stride ne mb true) o (up d stride) x W y = Ok (z, gw).
Proof.
  intros Hr Hk Hf Hx Hy HW. set (K := length (box kernel)) in *. set (n := node_count o (up d stride) ne) in *. set (R := out_count o (up d stride) stride ne) in *.
  destruct (deconv_Ok o d kernel stride ne ci co ks mb y W Hr Hk (or_introl Hf) Hy HW) as (t & z & D1 & D2 & D3 & D4 & D5 & D6 & _).
  destruct (conv_setup_Ok o (up d stride) kernel stride ne ci co ks mb K ci co Hr (or_introl Hf)) as (t' & pn & h & E1 & E2 & E3 & E4 & E5 & _).
  rewrite D1 in E2. injection E2 as <-. set (s := mkGeo _ _ t pn h) in E1. fold n R in D2, D3, D5, D6, E3, E4. fold K in D2, D6.
  destruct (backward_entries (mkDims kernel K ci co) s n K ci co W y (zeros_like x)) as (gd & G1 & G2 & G3); try reflexivity; try assumption.
  { cbn [s g_neigh]. rewrite E4. exact Hy. } { apply zeros_like_shape. exact Hx. } { intros. apply zeros_like_entry. }
  destruct (weight_gemm_Ok (mkDims kernel K ci co) s n K x y W) as (gw & W1 & W2 & W3); try reflexivity; try assumption.
  { cbn [s g_neigh m_outconv]. rewrite E4. exact Hy. }
  cbn [s g_neigh m_inconv m_outconv] in *. assert (gd = z) by (apply (shape_ext n ci); [exact G2|exact D5|]; intros i c Hi Hc; rewrite G3, D6 by assumption; reflexivity). subst gd.
  exists z, gw. split; [exact D4|]. split; [exact D5|]. unfold conv_backward. destruct (ksize_ok ks kernel ci co stride ne mb true Hk) as [_ ->]. cbn [bind]. fold K. rewrite E1. cbn [bind].
  fold s in G1, W1. rewrite G1. cbn [bind]. rewrite W1. reflexivity.
Qed.

Section Batch.
  Variables (o0 o' : octree) (os os' : list octree).
  Hypothesis Hm : mergeable o0 os.
  Hypothesis Hf : (1 <= full_depth o0)%nat.
  Hypothesis HBt : batched os o' os'.
  Notation n := (length os').
  Notation mo := (mo o0 os').
  Notation L := (depth o0).
  Lemma Eq {A} (a b : A) : Ok a = Ok b -> a = b. Proof. congruence. Qed.
  Lemma setup : exists kms, Forall2 (fun o km => full_tree L o (fst km) (snd km)) os' kms /\ full_tree L o' (mK kms) (mM kms) /\ (0 < n)%nat /\
    (forall d kernel stride ne, (1 <= d <= L)%nat -> In kernel kernels -> (stride = 1 \/ stride = 2) -> exists tss, length tss = n /\
      (forall i, (i < n)%nat -> get_neigh (mo i) d kernel stride ne = Ok (nth i tss [])) /\
      get_neigh o' d kernel stride ne = Ok (join_tables (map (fun i => Z.of_nat (node_count (mo i) d ne)) (seq 0 n)) tss)) /\
    (forall d ne, (d <= L)%nat -> node_count o' d ne = length (cat n (fun i => repeat tt (node_count (mo i) d ne)))).
  Proof.
    destruct (mergeable_members _ _ Hm) as (kms & Hk). destruct (batched_tables o0 os o' os' kms Hm Hk Hf HBt) as (Hn & Hl & Hk' & FT & HB & HC). exists kms.
    split. { clear - Hk'. induction Hk' as [|o km os kms ((T & _ & D & _) & N) H IH]; constructor; [|exact IH]. split; [exact D|]. split; assumption. }
    split; [exact FT|]. split; [exact Hn|]. split.
    - intros d kernel stride ne Hd Hkk Hs. destruct HBt as (o & E & E1 & E2). destruct (thm_merge_neigh o0 os o Hm Hf E) as (o1 & os1 & F1 & F2 & TN).
      assert (o1 = o') by congruence. assert (os1 = os') by congruence. subst o1 os1. destruct (TN d kernel stride ne Hd Hkk Hs) as (ls & tss & J1 & J2 & J3).
      exists tss. split; [apply (mapM_length _ _ _ J2)|]. split.
      + intros i Hi. destruct (Finite.mapM_nth_l _ _ _ i (mo i) J2) as (t & Et & Eg). { apply nth_error_nth'. exact Hi. } rewrite Eg. rewrite (nth_error_nth _ _ [] Et). reflexivity.
      + rewrite J3. do 2 f_equal. assert (Eo : map (fun i => Z.of_nat (node_count (mo i) d ne)) (seq 0 n) = map (fun oi => Z.of_nat (node_count oi d ne)) os').
        { rewrite <- (map_map mo (fun oi => Z.of_nat (node_count oi d ne))), <- (os_seq o0 os'). reflexivity. }
        rewrite Eo. clear - J1 Hk Hk' Hd. revert ls J1 os' Hk'. induction Hk as [|o km os kms Hmem Hk IH]; intros ls J1 os' Hk'.
        * inversion J1; subst. inversion Hk'; subst. reflexivity.
        * inversion J1 as [|? l ? ls' Hl J1']; subst. inversion Hk' as [|o' ? os'' ? [(T' & _) _] Hk'']; subst. cbn [map]. f_equal.
          -- destruct Hmem as (T & _).
             rewrite (node_count_sel o' (depth o0) _ _ T') by lia. rewrite <- (node_count_sel o (depth o0) _ _ T) by lia.
             destruct (layer_counts o (depth o0) _ _ T d ltac:(lia)) as (l' & _ & El & C1 & C2). rewrite Hl in El. injection El as <-. destruct ne; assumption.
          -- apply IH; assumption.
    - intros d ne Hd. assert (Hl' : forall i, (i < n)%nat -> length (repeat tt (node_count (mo i) d ne)) = node_count (mo i) d ne) by (intros; apply repeat_length).
      apply (count_cat o0 o' os' kms Hk' FT d ne Hd).
  Qed.

  Lemma rows_cat kms d ne C (X : nat -> feat) : (forall d ne, (d <= L)%nat -> node_count o' d ne = length (cat n (fun i => repeat tt (node_count (mo i) d ne)))) ->
    Forall2 (fun o km => full_tree L o (fst km) (snd km)) os' kms -> (d <= L)%nat ->
    (forall i, (i < n)%nat -> shape (node_count (mo i) d ne) C (X i)) -> shape (node_count o' d ne) C (cat n X).
  Proof.
    intros H _ Hd HX. split; [|apply cat_Forall; intros i Hi; apply HX; exact Hi]. rewrite H by exact Hd. apply cat_len. intros i Hi. rewrite repeat_length. apply HX. exact Hi.
  Qed.
  Lemma member_full kms i : Forall2 (fun o km => full_tree L o (fst km) (snd km)) os' kms -> (i < n)%nat -> exists K M, full_tree L (mo i) K M.
  Proof.
    intros H Hi. assert (E : nth_error os' i = Some (mo i)) by (apply nth_error_nth'; exact Hi). destruct (nth_error kms i) as [km|] eqn:Ek.
    - exists (fst km), (snd km). apply (SearchFacts.Forall2_nth _ _ _ i _ _ H E Ek).
    - apply nth_error_None in Ek. pose proof (SearchFacts.Forall2_len _ _ _ H). lia.
  Qed.
  Definition Cn (d : nat) (ne : bool) (i : nat) : nat := node_count (mo i) d ne.
  Definition Cr (d : nat) (stride : Z) (ne : bool) (i : nat) : nat := out_count (mo i) d stride ne.
  Lemma conv_by_member d ks kernel stride ne ci co mb : (1 <= d <= L)%nat -> In (ks, kernel) kernel_sizes -> (stride = 1 \/ stride = 2) ->
    Z.of_nat (length (box kernel)) * Z.of_nat ci <= mb ->
    by_member n ci co (length (box kernel)) ci co (Cn d ne) (Cr d stride ne)
      (fun i x W => conv_forward (mkCfg ci co ks stride ne mb true) (mo i) d x W) (fun x W => conv_forward (mkCfg ci co ks stride ne mb true) o' d x W).
  Proof.
    intros Hd Hk Hs Hmb X W HW HX. destruct setup as (kms & FM & FT & Hn & TN & NC).
    destruct (TN d kernel stride ne Hd) as (tss & Lt & T1 & T2); [apply (ksize_ok ks kernel 1 1 1 false 0 true Hk)|exact Hs|].
    assert (HT : forall i, (i < n)%nat -> table_ok (nth i tss []) (length (box kernel)) (Cn d ne i) /\ length (nth i tss []) = Cr d stride ne i /\
       conv_forward (mkCfg ci co ks stride ne mb true) (mo i) d (X i) W = Ok (cv ci co (X i) W (nth i tss []))).
    { intros i Hi. destruct (member_full kms i FM Hi) as (K & M & F). pose proof (full_ready L (mo i) K M d ks kernel stride F Hd Hk Hs) as R.
      destruct (conv_forward_Ok (mo i) d kernel stride ne ci co ks mb (X i) W R Hk (or_introl Hmb) (HX i Hi) HW) as (t & E & Ht & Hl & EC).
      rewrite T1 in E by exact Hi. apply Eq in E. subst t. auto. }
    exists (fun i => cv ci co (X i) W (nth i tss [])). split.
    - intros i Hi. destruct (HT i Hi) as (_ & H2 & H3). split; [exact H3|]. rewrite <- H2. apply cv_shape.
    - pose proof (full_ready L o' _ _ d ks kernel stride FT Hd Hk Hs) as R.
      destruct (conv_forward_Ok o' d kernel stride ne ci co ks mb (cat n X) W R Hk (or_introl Hmb)) as (t & E & _ & _ & EC); [|exact HW|].
      { apply (rows_cat kms); [exact NC|exact FM|lia|exact HX]. }
      rewrite T2 in E. apply Eq in E. subst t. rewrite EC. f_equal.
      assert (Etss : tss = map (fun i => nth i tss []) (seq 0 n)) by (apply (list_seq os'); exact Lt).
      assert (Esz : map (fun i => Z.of_nat (node_count (mo i) d ne)) (seq 0 n) = map zlen (map X (seq 0 n))).
      { rewrite map_map. apply map_ext_in. intros i Hi. apply in_seq in Hi. unfold zlen. destruct (HX i ltac:(lia)) as [-> _]. reflexivity. }
      rewrite Esz. unfold cat. rewrite Etss at 1. rewrite (cv_joined ci co W (length (box kernel))).
      + rewrite combine_maps, map_map. reflexivity.
      + assert (G : forall i, In i (seq 0 n) -> table_ok (nth i tss []) (length (box kernel)) (length (X i))).
        { intros i Hi. apply in_seq in Hi. destruct (HX i ltac:(lia)) as [-> _]. apply HT. lia. }
        clear - G. induction (seq 0 n) as [|a l IH]; cbn [map]; constructor; [apply G; left; reflexivity|]. apply IH. intros i Hi. apply G. right. exact Hi.
  Qed.

  Lemma joined_grads (BW : octree -> feat -> feat -> res (feat * list feat)) C1 C2 K a b nn rr FW F W xs gs N R : by_member n C1 C2 K a b nn rr FW F ->
    length xs = n -> length gs = n -> shape3 K a b W ->
    (forall i, (i < n)%nat -> exists r, BW (mo i) (nth i xs []) (nth i gs []) = Ok r /\
       is_grad (nn i) (rr i) C1 C2 K a b (FW i) (nth i xs []) W (nth i gs []) (fst r) (snd r)) ->
    (exists r, BW o' (concat xs) (concat gs) = Ok r /\ is_grad N R C1 C2 K a b F (concat xs) W (concat gs) (fst r) (snd r)) ->
    exists r gw, mapM (fun q => BW (fst (fst q)) (snd (fst q)) (snd q)) (combine (combine os' xs) gs) = Ok r /\
      BW o' (concat xs) (concat gs) = Ok (concat (map fst r), gw) /\ shape3 K a b gw /\
      forall k c j, (k < K)%nat -> (c < a)%nat -> (j < b)%nat -> at3 gw k c j = qsum_list (map (fun p => at3 (snd p) k c j) r).
  Proof.
    intros HBM Lx Lg HW HMem ([gd0 gw0] & EB & HG). cbn [fst snd] in HG. destruct setup as (kms & _ & _ & Hn & _).
    destruct (choose os' Hn (fun i => BW (mo i) (nth i xs []) (nth i gs [])) (fun i r => is_grad (nn i) (rr i) C1 C2 K a b (FW i) (nth i xs []) W (nth i gs []) (fst r) (snd r)) HMem) as (r & Hr).
    assert (Ex : concat xs = cat n (fun i => nth i xs [])) by (unfold cat; rewrite <- (list_seq os' [] xs) by exact Lx; reflexivity).
    assert (Eg : concat gs = cat n (fun i => nth i gs [])) by (unfold cat; rewrite <- (list_seq os' [] gs) by exact Lg; reflexivity).
    destruct (grad_members n C1 C2 K a b nn rr FW F HBM (concat xs) W (concat gs) _ _ (fun i => fst (r i)) (fun i => snd (r i)) gd0 gw0 N R HW Ex Eg (fun i Hi => proj2 (Hr i Hi)) HG) as [E1 E2].
    exists (map r (seq 0 n)), gw0. split.
    - rewrite (list_seq os' [] xs Lx) at 1. rewrite (list_seq os' [] gs Lg) at 1. rewrite (os_seq o0 os') at 1. rewrite !combine_maps. apply BatchThms.mapM_map.
      intros i Hi. cbn [fst snd]. apply Hr. apply in_seq in Hi. lia.
    - split; [rewrite EB, E1; unfold cat; rewrite map_map; reflexivity|]. split; [apply HG|]. intros k c j H1 H2 H3. rewrite E2 by assumption. rewrite map_map.
      clear. induction (seq 0 n) as [|u l IH]; [reflexivity|]. cbn [map qsum qsum_list fold_right]. unfold qsum, qsum_list in IH. rewrite IH. reflexivity.
  Qed.
  Lemma at_member {P : octree -> feat -> Prop} xs i : Forall2 P os' xs -> (i < n)%nat -> P (mo i) (nth i xs []).
  Proof. intros H Hi. pose proof (SearchFacts.Forall2_len _ _ _ H) as Hl. apply (SearchFacts.Forall2_nth _ _ _ i _ _ H); apply nth_error_nth'; lia. Qed.
  Lemma all_rows_cat d ne C (xs : list feat) : (d <= L)%nat -> Forall2 (fun oi x => shape (node_count oi d ne) C x) os' xs -> shape (node_count o' d ne) C (concat xs).
  Proof.
    intros Hd H. destruct setup as (kms & FM & FT & Hn & TN & NC). rewrite (list_seq os' [] xs ((SearchFacts.Forall2_len _ _ _ H))).
    apply (rows_cat kms d ne C (fun i => nth i xs []) NC FM Hd). intros i Hi. apply (at_member xs i H Hi).
  Qed.
  Lemma out_rows_cat d stride ne C (gs : list feat) : (1 <= d <= L)%nat -> Forall2 (fun oi x => shape (out_count oi d stride ne) C x) os' gs -> shape (out_count o' d stride ne) C (concat gs).
  Proof. intros Hd H. unfold out_count in *. destruct (stride =? 1); apply all_rows_cat; try exact H; lia. Qed.

  Theorem thm_batch_conv_grad d ks kernel stride ne ci co mb W xs gs : (1 <= d <= L)%nat -> In (ks, kernel) kernel_sizes -> (stride = 1 \/ stride = 2) ->
    Z.of_nat (length (box kernel)) * Z.of_nat ci <= mb -> shape3 (length (box kernel)) ci co W ->
    Forall2 (fun oi x => shape (node_count oi d ne) ci x) os' xs -> Forall2 (fun oi g => shape (out_count oi d stride ne) co g) os' gs ->
    exists r gw, mapM (fun q => conv_backward (mkCfg ci co ks stride ne mb true) (fst (fst q)) d (snd (fst q)) W (snd q)) (combine (combine os' xs) gs) = Ok r /\
      conv_backward (mkCfg ci co ks stride ne mb true) o' d (concat xs) W (concat gs) = Ok (concat (map fst r), gw) /\ shape3 (length (box kernel)) ci co gw /\
      forall k c j, (k < length (box kernel))%nat -> (c < ci)%nat -> (j < co)%nat -> at3 gw k c j = qsum_list (map (fun p => at3 (snd p) k c j) r).
  Proof.
    intros Hd Hk Hs Hmb HW Hx Hg. destruct setup as (kms & FM & FT & Hn & TN & NC).
    apply (joined_grads (fun oi x g => conv_backward (mkCfg ci co ks stride ne mb true) oi d x W g) ci co (length (box kernel)) ci co _ _ _ _ W xs gs (node_count o' d ne) (out_count o' d stride ne)
      (conv_by_member d ks kernel stride ne ci co mb Hd Hk Hs Hmb) ((SearchFacts.Forall2_len _ _ _ Hx)) ((SearchFacts.Forall2_len _ _ _ Hg)) HW).
    - intros i Hi. destruct (member_full kms i FM Hi) as (K & M & F). pose proof (full_ready L (mo i) K M d ks kernel stride F Hd Hk Hs) as R.
      pose proof (at_member xs i Hx Hi) as Sx. pose proof (at_member gs i Hg Hi) as Sg. cbn beta in Sx, Sg.
      destruct (thm_conv_grad (mo i) d ks kernel stride ne ci co mb (nth i xs []) W (nth i gs []) R Hk Sx HW Sg Hmb) as (y & gd & gw & A1 & A2 & A3 & A4 & A5 & A6 & A7).
      exists (gd, gw). split; [exact A2|]. cbn [fst snd]. repeat (split; [assumption|]). exists y. repeat (split; [assumption|]). assumption.
    - pose proof (full_ready L o' _ _ d ks kernel stride FT Hd Hk Hs) as R.
      pose proof (all_rows_cat d ne ci xs ltac:(lia) Hx) as Sx. pose proof (out_rows_cat d stride ne co gs Hd Hg) as Sg.
      destruct (thm_conv_grad o' d ks kernel stride ne ci co mb (concat xs) W (concat gs) R Hk Sx HW Sg Hmb) as (y & gd & gw & A1 & A2 & A3 & A4 & A5 & A6 & A7).
      exists (gd, gw). split; [exact A2|]. cbn [fst snd]. repeat (split; [assumption|]). exists y. repeat (split; [assumption|]). assumption.
  Qed.
  Lemma dw_by_member d ks kernel stride ne C mb : (1 <= d <= L)%nat -> In (ks, kernel) kernel_sizes -> (stride = 1 \/ stride = 2) ->
    Z.of_nat (length (box kernel)) * Z.of_nat C <= mb ->
    by_member n C C (length (box kernel)) 1 C (Cn d ne) (Cr d stride ne)
      (fun i x W => dwconv_forward (mkCfg C C ks stride ne mb true) (mo i) d x W) (fun x W => dwconv_forward (mkCfg C C ks stride ne mb true) o' d x W).
  Proof.
    intros Hd Hk Hs Hmb X W HW HX. destruct setup as (kms & FM & FT & Hn & TN & NC).
    destruct (conv_by_member d ks kernel stride ne C C mb Hd Hk Hs Hmb X (diagonal (length (box kernel)) C W) (diagonal_shape _ _ _) HX) as (Y & H1 & H2).
    exists Y. split.
    - intros i Hi. destruct (member_full kms i FM Hi) as (K & M & F). pose proof (full_ready L (mo i) K M d ks kernel stride F Hd Hk Hs) as R.
      destruct (dwconv_forward_Ok (mo i) d kernel stride ne C ks mb (X i) W R Hk Hmb (HX i Hi) HW) as [-> _]. apply H1. exact Hi.
    - pose proof (full_ready L o' _ _ d ks kernel stride FT Hd Hk Hs) as R.
      destruct (dwconv_forward_Ok o' d kernel stride ne C ks mb (cat n X) W R Hk Hmb) as [-> _]; [apply (rows_cat kms); [exact NC|exact FM|lia|exact HX]|exact HW|exact H2].
  Qed.
  Theorem thm_batch_dwconv_grad d ks kernel stride ne C mb W xs gs : (1 <= d <= L)%nat -> In (ks, kernel) kernel_sizes -> (stride = 1 \/ stride = 2) ->
    Z.of_nat (length (box kernel)) * Z.of_nat C <= mb -> shape3 (length (box kernel)) 1 C W ->
    Forall2 (fun oi x => shape (node_count oi d ne) C x) os' xs -> Forall2 (fun oi g => shape (out_count oi d stride ne) C g) os' gs ->
    exists r gw, mapM (fun q => dwconv_backward (mkCfg C C ks stride ne mb true) (fst (fst q)) d (snd (fst q)) W (snd q)) (combine (combine os' xs) gs) = Ok r /\
      dwconv_backward (mkCfg C C ks stride ne mb true) o' d (concat xs) W (concat gs) = Ok (concat (map fst r), gw) /\ shape3 (length (box kernel)) 1 C gw /\
      forall k c j, (k < length (box kernel))%nat -> (c < 1)%nat -> (j < C)%nat -> at3 gw k c j = qsum_list (map (fun p => at3 (snd p) k c j) r).
  Proof.
    intros Hd Hk Hs Hmb HW Hx Hg. destruct setup as (kms & FM & FT & Hn & TN & NC).
    apply (joined_grads (fun oi x g => dwconv_backward (mkCfg C C ks stride ne mb true) oi d x W g) C C (length (box kernel)) 1 C _ _ _ _ W xs gs (node_count o' d ne) (out_count o' d stride ne)
      (dw_by_member d ks kernel stride ne C mb Hd Hk Hs Hmb) ((SearchFacts.Forall2_len _ _ _ Hx)) ((SearchFacts.Forall2_len _ _ _ Hg)) HW).
    - intros i Hi. destruct (member_full kms i FM Hi) as (K & M & F). pose proof (full_ready L (mo i) K M d ks kernel stride F Hd Hk Hs) as R.
      pose proof (at_member xs i Hx Hi) as Sx. pose proof (at_member gs i Hg Hi) as Sg. cbn beta in Sx, Sg.
      destruct (thm_dw_grad (mo i) d ks kernel stride ne C mb (nth i xs []) W (nth i gs []) R Hk Sx HW Sg Hmb) as (y & gd & gw & A1 & A2 & A3 & A4 & A5 & A6 & A7).
      exists (gd, gw). split; [exact A2|]. cbn [fst snd]. repeat (split; [assumption|]). exists y. repeat (split; [assumption|]). assumption.
    - pose proof (full_ready L o' _ _ d ks kernel stride FT Hd Hk Hs) as R.
      pose proof (all_rows_cat d ne C xs ltac:(lia) Hx) as Sx. pose proof (out_rows_cat d stride ne C gs Hd Hg) as Sg.
      destruct (thm_dw_grad o' d ks kernel stride ne C mb (concat xs) W (concat gs) R Hk Sx HW Sg Hmb) as (y & gd & gw & A1 & A2 & A3 & A4 & A5 & A6 & A7).
      exists (gd, gw). split; [exact A2|]. cbn [fst snd]. repeat (split; [assumption|]). exists y. repeat (split; [assumption|]). assumption.
  Qed.

  Lemma deconv_by_member d ks kernel stride ne ci co mb : (1 <= up d stride <= L)%nat -> In (ks, kernel) kernel_sizes -> (stride = 1 \/ stride = 2) ->
    Z.of_nat (length (box kernel)) * Z.of_nat ci <= mb ->
    by_member n co ci (length (box kernel)) ci co (Cr (up d stride) stride ne) (Cn (up d stride) ne)
      (fun i y W => deconv_forward (mkCfg co ci ks stride ne mb false) (mo i) d y W) (fun y W => deconv_forward (mkCfg co ci ks stride ne mb false) o' d y W).
  Proof.
    intros Hd Hk Hs Hmb Y W HW HY. destruct setup as (kms & FM & FT & Hn & TN & NC). set (u := up d stride) in *.
    set (X := fun i => tabulate (Cn u ne i) ci (fun _ _ => 0%Qc)).
    assert (SX : forall i, (i < n)%nat -> shape (node_count (mo i) u ne) ci (X i)) by (intros; apply tabulate_shape).
    assert (FX : forall (P : octree -> feat -> Prop) V, (forall i, (i < n)%nat -> P (mo i) (V i)) -> Forall2 P os' (map V (seq 0 n))).
    { intros P V H. rewrite (os_seq o0 os') at 1. assert (G : forall i, In i (seq 0 n) -> P (mo i) (V i)) by (intros i Hi; apply in_seq in Hi; apply H; lia). clear H TN NC.
      induction (seq 0 n) as [|q l IH]; cbn [map]; [constructor|]. apply Forall2_cons; [exact (G q (or_introl eq_refl))|]. apply IH. exact (fun i Hi => G i (or_intror Hi)). }
    destruct (thm_batch_conv_grad u ks kernel stride ne ci co mb W (map X (seq 0 n)) (map Y (seq 0 n)) Hd Hk Hs Hmb HW (FX _ X SX) (FX _ Y HY)) as (r & gw & E1 & E2 & _).
    exists (fun i => fst (nth i r ([], []))). assert (Lr : length r = n).
    { rewrite (mapM_length _ _ _ E1), !combine_length, !map_length, seq_length. lia. }
    split.
    - intros i Hi. destruct (member_full kms i FM Hi) as (K & M & F). pose proof (full_ready L (mo i) K M u ks kernel stride F Hd Hk Hs) as R.
      destruct (deconv_is_gd (mo i) d ks kernel stride ne ci co mb (X i) (Y i) W R Hk Hmb (SX i Hi) (HY i Hi) HW) as (z & gwi & A1 & A2 & A3).
      destruct (Finite.mapM_nth_l _ _ _ i ((mo i, X i), Y i) E1) as (p & Ep & Eb).
      { rewrite (os_seq o0 os') at 1. rewrite !combine_maps. rewrite nth_error_map. rewrite (nth_error_nth' (seq 0 n) 0%nat) by (rewrite seq_length; exact Hi). rewrite seq_nth by exact Hi. reflexivity. }
      cbn [fst snd] in Eb. fold u in A3. rewrite A3 in Eb. apply Eq in Eb. subst p. rewrite (nth_error_nth _ _ ([], []) Ep). cbn [fst]. split; assumption.
    - pose proof (full_ready L o' _ _ u ks kernel stride FT Hd Hk Hs) as R.
      destruct (deconv_is_gd o' d ks kernel stride ne ci co mb (cat n X) (cat n Y) W R Hk Hmb) as (z & gwi & A1 & A2 & A3); [apply (all_rows_cat u ne ci (map X (seq 0 n))); [lia|apply FX; exact SX]|apply (out_rows_cat u stride ne co (map Y (seq 0 n))); [lia|apply FX; exact HY]|exact HW|].
      rewrite A1. f_equal. fold u in A3. unfold cat in A3 at 1 2. rewrite E2 in A3. apply Eq in A3. pose proof (f_equal fst A3) as A4. cbn [fst] in A4. rewrite <- A4. unfold cat.
      rewrite (list_seq os' ([], []) r Lr) at 1. rewrite map_map. reflexivity.
  Qed.
  Theorem thm_batch_deconv_grad d ks kernel stride ne ci co mb W ys gs : (1 <= up d stride <= L)%nat -> In (ks, kernel) kernel_sizes -> (stride = 1 \/ stride = 2) ->
    Z.of_nat (length (box kernel)) * Z.of_nat ci <= mb -> shape3 (length (box kernel)) ci co W ->
    Forall2 (fun oi y => shape (out_count oi (up d stride) stride ne) co y) os' ys -> Forall2 (fun oi g => shape (node_count oi (up d stride) ne) ci g) os' gs ->
    exists r gw, mapM (fun q => deconv_backward (mkCfg co ci ks stride ne mb false) (fst (fst q)) d (snd (fst q)) W (snd q)) (combine (combine os' ys) gs) = Ok r /\
      deconv_backward (mkCfg co ci ks stride ne mb false) o' d (concat ys) W (concat gs) = Ok (concat (map fst r), gw) /\ shape3 (length (box kernel)) ci co gw /\
      forall k c j, (k < length (box kernel))%nat -> (c < ci)%nat -> (j < co)%nat -> at3 gw k c j = qsum_list (map (fun p => at3 (snd p) k c j) r).
  Proof.
    intros Hd Hk Hs Hmb HW Hx Hg. destruct setup as (kms & FM & FT & Hn & TN & NC).
    apply (joined_grads (fun oi x g => deconv_backward (mkCfg co ci ks stride ne mb false) oi d x W g) co ci (length (box kernel)) ci co _ _ _ _ W ys gs (out_count o' (up d stride) stride ne) (node_count o' (up d stride) ne)
      (deconv_by_member d ks kernel stride ne ci co mb Hd Hk Hs Hmb) ((SearchFacts.Forall2_len _ _ _ Hx)) ((SearchFacts.Forall2_len _ _ _ Hg)) HW).
    - intros i Hi. destruct (member_full kms i FM Hi) as (K & M & F). pose proof (full_ready L (mo i) K M (up d stride) ks kernel stride F Hd Hk Hs) as R.
      pose proof (at_member ys i Hx Hi) as Sx. pose proof (at_member gs i Hg Hi) as Sg. cbn beta in Sx, Sg.
      destruct (thm_deconv_grad (mo i) d ks kernel stride ne ci co mb (nth i ys []) W (nth i gs []) R Hk Sx HW Sg Hmb) as (y & gd & gw & A1 & A2 & A3 & A4 & A5 & A6 & A7).
      exists (gd, gw). split; [exact A2|]. cbn [fst snd]. repeat (split; [assumption|]). exists y. repeat (split; [assumption|]). assumption.
    - pose proof (full_ready L o' _ _ (up d stride) ks kernel stride FT Hd Hk Hs) as R.
      pose proof (all_rows_cat (up d stride) ne ci gs ltac:(lia) Hg) as Sg. pose proof (out_rows_cat (up d stride) stride ne co ys Hd Hx) as Sx.
      destruct (thm_deconv_grad o' d ks kernel stride ne ci co mb (concat ys) W (concat gs) R Hk Sx HW Sg Hmb) as (y & gd & gw & A1 & A2 & A3 & A4 & A5 & A6 & A7).
      exists (gd, gw). split; [exact A2|]. cbn [fst snd]. repeat (split; [assumption|]). exists y. repeat (split; [assumption|]). assumption.
  Qed.
End Batch.
