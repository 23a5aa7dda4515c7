(** Input features and the auto-encoder on a merged octree. *)
From Coq Require Import String Ascii List ZArith Bool QArith Qcanon Lia.
From Verif Require Import Res Tensor Key Num NumFacts Points Octree NnBasic NnConv NnInterp Features Net Spec SpecGeo WF SpecNeigh SpecMerge SpecNN SpecInterp SpecNet SpecFeature SpecBatch
  KeyFacts ListFacts KidsFacts WFFacts SearchFacts NeighFacts NeighSparse GetNeigh NeighThms MergeFacts NnFacts SumFacts ConvFacts ConvOct PadFacts MergeConv FeatureFacts CatFacts NetBatch BatchThms.
Import ListNotations.
Open Scope char_scope.
Open Scope Z_scope.

(** ** input features *)

Definition feature_blocks (CF d : nat) (s : string) (ns ps : list (v3 Qc)) (fs : list (list Qc)) : list (list (list Qc)) :=
  (if asks s "N" "n" then [map v3list ns] else []) ++
  (if asks s "D" "d" then [zip_with displacement (local_points ps) ns] else []) ++
  (if asks s "L" "l" then [map v3list (local_points ps)] else []) ++
  (if asks s "P" "p" then [map (fun p => v3list (v3map (fun c => c * q2pow (1 - Z.of_nat d) - 1)%Qc p)) ps] else []) ++
  (if asks s "F" "f" then [fs] else []).
Definition feature_widths (CF : nat) (s : string) : list nat :=
  (if asks s "N" "n" then [3%nat] else []) ++ (if asks s "D" "d" then [1%nat] else []) ++ (if asks s "L" "l" then [3%nat] else []) ++
  (if asks s "P" "p" then [3%nat] else []) ++ (if asks s "F" "f" then [CF] else []).
Lemma widths_sum CF s : fold_right Nat.add O (feature_widths CF s) = channels s CF.
Proof. unfold feature_widths, channels. destruct (asks s "N" "n"), (asks s "D" "d"), (asks s "L" "l"), (asks s "P" "p"), (asks s "F" "f"); cbn; lia. Qed.
Lemma gif_blocks CF o s ne l ns ps fs : get_layer o (Z.of_nat (depth o)) = Ok l ->
  (asks s "N" "n" || asks s "D" "d" = true -> l_normals l = Some ns) ->
  (asks s "D" "d" || asks s "L" "l" || asks s "P" "p" = true -> l_points l = Some ps) ->
  (asks s "F" "f" = true -> l_features l = Some fs) ->
  (asks s "D" "d" = true -> length ps = length ns) ->
  get_input_feature CF o s ne = bind (cat_cols (feature_blocks CF (depth o) s ns ps fs)) (fun out =>
    if ne then Ok out else octree_pad (channels s CF) out o (Z.of_nat (depth o)) (0%Qc)).
Proof.
  intros Hl HN HP HF HD. unfold get_input_feature. rewrite Hl. cbn [bind]. rewrite hasN, hasD, hasL, hasP, hasF. rewrite <- widths_sum. unfold feature_blocks, feature_widths.
  assert (LL : asks s "D" "d" = true -> Nat.eqb (length (local_points ps)) (length ns) = true) by (intros E; unfold local_points; rewrite map_length; apply Nat.eqb_eq; auto).
  destruct (asks s "N" "n"), (asks s "D" "d"), (asks s "L" "l"), (asks s "P" "p"), (asks s "F" "f"); cbn [orb] in *;
  rewrite ?HN, ?HP, ?HF by reflexivity; cbn [bind need option_map]; rewrite ?LL by reflexivity; cbn [bind app mapM need snd map fst]; reflexivity.
Qed.
Lemma only_all o o' : wf_octree o -> (1 <= full_depth o)%nat -> construct_all_neigh o = Ok o' -> only_neighs o o'.
Proof.
  intros (K & M & T) Hf E. destruct (tree_all_neigh o K M T Hf) as (o2 & E2 & H & _). assert (o2 = o') by congruence. subst o2. exact H.
Qed.
Lemma only_layer o o' d l : only_neighs o o' -> nth_error (layers o) d = Some l ->
  exists l', nth_error (layers o') d = Some l' /\ l_normals l' = l_normals l /\ l_points l' = l_points l /\ l_features l' = l_features l.
Proof.
  intros (_ & _ & _ & _ & Hl & H) E. destruct (nth_error (layers o') d) as [l'|] eqn:E'.
  - exists l'. split; [reflexivity|]. destruct (H d l l' E E') as (v & ->). repeat split.
  - apply nth_error_None in E'. assert (d < length (layers o))%nat by (apply nth_error_Some; congruence). lia.
Qed.

Section Feat.
  Variables (o0 o' : octree) (os os' : list octree).
  Hypothesis Hm : mergeable o0 os.
  Hypothesis Hf : (1 <= full_depth o0)%nat.
  Hypothesis HBt : batched os o' os'.
  Notation n := (length os').
  Notation mo := (mo o0 os').
  Notation L := (depth o0).
  Definition joins {A} (f : layer -> option (list A)) (LS : nat -> layer) (l : layer) : Prop :=
    forall X, (forall i, (i < n)%nat -> f (LS i) = Some (X i)) -> f l = Some (cat n X).
  Lemma joins_signal {A} (f : layer -> option (list A)) LS l l' : (0 < n)%nat -> f l' = joined_signal f true (map LS (seq 0 n)) -> f l = f l' -> joins f LS l.
  Proof.
    intros Hn E E' X HX. rewrite E', E. unfold joined_signal. cbn [andb]. assert (E1 : first_has f (map LS (seq 0 n)) = true).
    { destruct n as [|m]; [lia|]. cbn [seq map first_has]. rewrite HX by lia. reflexivity. }
    rewrite E1. f_equal. unfold cat_some, cat. rewrite map_map. f_equal. apply map_ext_in. intros i Hi. apply in_seq in Hi. rewrite HX by lia. reflexivity.
  Qed.
  Lemma layers_joined : exists LS l, (forall i, (i < n)%nat -> nth_error (layers (mo i)) L = Some (LS i)) /\ nth_error (layers o') L = Some l /\
    joins l_normals LS l /\ joins l_points LS l /\ joins l_features LS l.
  Proof.
    destruct (batched_setup o0 os o' os' Hm Hf HBt) as (kms & Hn & Hl & HK & _). destruct HBt as (o & E & E1 & E2).
    destruct (thm_merge o0 os Hm) as (o1 & E' & W & Hd & Hfd & _ & _ & HJ). assert (o1 = o) by congruence. subst o1. clear E'.
    destruct (HJ L (le_n _)) as (ls & l & Hls & El & J1 & J2 & J3 & J4 & J5 & J6 & S1 & S2 & S3). rewrite Nat.eqb_refl in *.
    destruct (only_layer o o' L l) as (l' & El' & Q1 & Q2 & Q3); [apply only_all; [exact W|lia|exact E1]|exact El|].
    assert (Hm2 : forall i, (i < n)%nat -> exists li, nth_error (layers (mo i)) L = Some li /\ exists l0, nth_error ls i = Some l0 /\ l_normals li = l_normals l0 /\ l_points li = l_points l0 /\ l_features li = l_features l0).
    { intros i Hi. destruct (nth_error os i) as [oi|] eqn:Eo; [|apply nth_error_None in Eo; lia].
      destruct (Finite.mapM_nth_l _ _ _ i oi E2 Eo) as (oi' & Eo' & Ec). assert (Emo : mo i = oi') by (unfold NetBatch.mo; apply nth_error_nth; exact Eo').
      destruct (nth_error ls i) as [l0|] eqn:E0; [|apply nth_error_None in E0; rewrite <- (GlobalPool.Forall2_len _ _ _ Hls) in E0; lia].
      pose proof (SearchFacts.Forall2_nth _ _ _ i _ _ Hls Eo E0) as Hl0. cbn beta in Hl0. destruct Hm as (_ & _ & HW & _). rewrite Forall_forall in HW. destruct (HW oi (nth_error_In _ _ Eo)) as (Wi & _ & _ & Hfi & _).
      destruct (only_layer oi oi' L l0) as (li & F1 & F2 & F3 & F4); [apply only_all; [exact Wi|lia|exact Ec]|exact Hl0|]. exists li. rewrite Emo. split; [exact F1|]. exists l0. auto. }
    assert (Hll : length ls = n) by (rewrite <- (GlobalPool.Forall2_len _ _ _ Hls); symmetry; exact Hl).
    set (LS := fun i => match nth_error (layers (mo i)) L with Some li => li | None => (empty_layer 0) end).
    assert (HLS : forall i, (i < n)%nat -> nth_error (layers (mo i)) L = Some (LS i)) by (intros i Hi; unfold LS; destruct (Hm2 i Hi) as (li & -> & _); reflexivity).
    exists LS, l'. split; [exact HLS|]. split; [exact El'|].
    assert (G : forall A (f : layer -> option (list A)), (forall i li l0, (i < n)%nat -> nth_error (layers (mo i)) L = Some li -> nth_error ls i = Some l0 -> f li = f l0) -> f l' = joined_signal f true ls -> joins f LS l').
    { intros A f Hff Ef. apply (joins_signal f LS l' l' Hn); [|reflexivity]. rewrite Ef. unfold joined_signal. cbn [andb].
      assert (Em : map f (map LS (seq 0 n)) = map f ls).
      { rewrite map_map, (list_seq os' (empty_layer 0) ls Hll) at 1. rewrite map_map. apply map_ext_in. intros i Hi. apply in_seq in Hi. apply (Hff i); [lia|apply HLS; lia|]. apply nth_error_nth'. lia. }
      assert (Eh : first_has f ls = first_has f (map LS (seq 0 n))) by (destruct ls as [|a t], (map LS (seq 0 n)) as [|b u]; try discriminate Em; [reflexivity|]; cbn [map] in Em; cbn [first_has]; injection Em as Em _; rewrite Em; reflexivity).
      rewrite Eh. unfold cat_some. rewrite <- (map_map f (fun r => match r with Some r => r | None => [] end)), <- Em, <- (map_map f (fun r => match r with Some r => r | None => [] end)). reflexivity. }
    assert (U : forall i li l0, (i < n)%nat -> nth_error (layers (mo i)) L = Some li -> nth_error ls i = Some l0 -> l_normals li = l_normals l0 /\ l_points li = l_points l0 /\ l_features li = l_features l0).
    { intros i li l0 Hi F1 F2. destruct (Hm2 i Hi) as (a & A1 & b & A2 & A3). assert (a = li) by congruence. assert (b = l0) by congruence. subst. exact A3. }
    split; [|split]; apply G; try congruence; intros i li l0 Hi F1 F2; apply (U i li l0 Hi F1 F2).
  Qed.

  Lemma JLs_app N cs1 cs2 X1 x1 X2 x2 : JL os' (fun k => J os' N (nth k cs1 O)) (length cs1) X1 x1 -> JL os' (fun k => J os' N (nth k cs2 O)) (length cs2) X2 x2 ->
    JL os' (fun k => J os' N (nth k (cs1 ++ cs2) O)) (length (cs1 ++ cs2)) (fun i => X1 i ++ X2 i) (x1 ++ x2).
  Proof.
    intros (A1 & A2 & A3) (B1 & B2 & B3). rewrite app_length. split; [intros i Hi; rewrite app_length, A1, B1 by exact Hi; reflexivity|]. split; [rewrite app_length, A2, B2; reflexivity|].
    intros k Hk. destruct (Nat.lt_ge_cases k (length cs1)) as [Hk1|Hk1].
    - rewrite app_nth1 by lia. rewrite (app_nth1 x1) by lia. eapply J_ext; [|apply A3; exact Hk1]. intros i Hi. cbn beta. rewrite app_nth1 by (rewrite A1 by exact Hi; lia). reflexivity.
    - rewrite app_nth2 by lia. rewrite (app_nth2 x1) by lia. rewrite A2. eapply J_ext; [|apply B3; lia]. intros i Hi. cbn beta. rewrite app_nth2 by (rewrite A1 by exact Hi; lia). rewrite A1 by exact Hi. reflexivity.
  Qed.
  Lemma JLs_one N c (b : bool) X x : (b = true -> J os' N c X x) -> JL os' (fun k => J os' N (nth k (if b then [c] else []) O)) (length (if b then [c] else [])) (fun i => if b then [X i] else []) (if b then [x] else []).
  Proof.
    intros H. destruct b; (split; [reflexivity|split; [reflexivity|]]); intros k Hk; cbn [length] in Hk; [|lia]. assert (k = O) by lia. subst k. exact (H eq_refl).
  Qed.
  Lemma J_of_rows {A} N C (f : A -> list Qc) (X : nat -> list A) : (forall a, length (f a) = C) -> (forall i, (i < n)%nat -> length (X i) = N i) -> J os' N C (fun i => map f (X i)) (map f (cat n X)).
  Proof.
    intros H1 H2. split; [apply cat_map|]. intros i Hi. split; [rewrite map_length; auto|]. apply Forall_forall. intros r Hr. apply in_map_iff in Hr. destruct Hr as (a & <- & _). apply H1.
  Qed.
  Lemma run_feature CF s ne : asks_any s = true -> Forall (carries CF s) os' ->
    run os' (J os' (nodes o0 os' L ne) (channels s CF)) (fun i => get_input_feature CF (mo i) s ne) (get_input_feature CF o' s ne).
  Proof.
    intros Hany HCa. destruct (batched_setup o0 os o' os' Hm Hf HBt) as (kms & Hn & Hlen & HK & HT & HB & HC). destruct layers_joined as (LS & l & EL & El & JN & JP & JF).
    assert (Hdo : depth o' = L) by apply HT. 
    assert (Hdi : forall i, (i < n)%nat -> depth (mo i) = L).
    { intros i Hi. destruct (nth_error kms i) as [km|] eqn:Ek; [|apply nth_error_None in Ek; rewrite <- (GlobalPool.Forall2_len _ _ _ HK) in Ek; lia].
      apply (SearchFacts.Forall2_nth _ _ _ i (mo i) km HK); [apply nth_error_nth'; exact Hi|exact Ek]. }
    assert (Hg : forall x d y, nth_error (layers x) d = Some y -> get_layer x (Z.of_nat d) = Ok y) by (intros x d y Hx; apply BuildFacts.get_layer_Ok; exact Hx).
    assert (HCi : forall i, (i < n)%nat -> carries CF s (mo i)) by (intros i Hi; rewrite Forall_forall in HCa; apply HCa; apply nth_In; exact Hi).
    set (N := fun i => match l_normals (LS i) with Some x => x | None => [] end).
    set (P := fun i => match l_points (LS i) with Some x => x | None => [] end).
    set (F := fun i => match l_features (LS i) with Some x => x | None => [] end).
    assert (HN : asks s "N" "n" || asks s "D" "d" = true -> forall i, (i < n)%nat -> l_normals (LS i) = Some (N i) /\ length (N i) = nodes o0 os' L true i).
    { intros Ha i Hi. destruct (HCi i Hi) as (li & E & H1 & _). rewrite (Hdi i Hi) in *. rewrite (EL i Hi) in E. assert (LS i = li) by congruence. destruct (H1 Ha) as (ns & E1 & E2). unfold N. subst li. rewrite E1. auto. }
    assert (HP : asks s "D" "d" || asks s "L" "l" || asks s "P" "p" = true -> forall i, (i < n)%nat -> l_points (LS i) = Some (P i) /\ length (P i) = nodes o0 os' L true i).
    { intros Ha i Hi. destruct (HCi i Hi) as (li & E & _ & H1 & _). rewrite (Hdi i Hi) in *. rewrite (EL i Hi) in E. assert (LS i = li) by congruence. destruct (H1 Ha) as (ns & E1 & E2). unfold P. subst li. rewrite E1. auto. }
    assert (HF : asks s "F" "f" = true -> forall i, (i < n)%nat -> l_features (LS i) = Some (F i) /\ shape (nodes o0 os' L true i) CF (F i)).
    { intros Ha i Hi. destruct (HCi i Hi) as (li & E & _ & _ & H1). rewrite (Hdi i Hi) in *. rewrite (EL i Hi) in E. assert (LS i = li) by congruence. destruct (H1 Ha) as (ns & E1 & E2). unfold F. subst li. rewrite E1. auto. }
    assert (HD : asks s "D" "d" = true -> forall i, (i < n)%nat -> length (P i) = length (N i)).
    { intros Ha i Hi. rewrite Ha in *. rewrite orb_true_r in HN. destruct (HN eq_refl i Hi) as [_ ->], (HP eq_refl i Hi) as [_ ->]. reflexivity. }
    eapply (run_ext os' _ (fun i => bind (cat_cols (feature_blocks CF L s (N i) (P i) (F i))) (fun out => if ne then Ok out else octree_pad (channels s CF) out (mo i) (Z.of_nat L) (0%Qc)))
      _ (bind (cat_cols (feature_blocks CF L s (cat n N) (cat n P) (cat n F))) (fun out => if ne then Ok out else octree_pad (channels s CF) out o' (Z.of_nat L) (0%Qc)))).
    { intros i Hi. symmetry. rewrite <- (Hdi i Hi). apply (gif_blocks CF (mo i) s ne (LS i)); [apply Hg; rewrite (Hdi i Hi); apply EL; exact Hi|intros Ha; apply HN|intros Ha; apply HP|intros Ha; apply HF|intros Ha; apply HD]; assumption. }
    { symmetry. rewrite <- Hdo. apply (gif_blocks CF o' s ne l); [apply Hg; rewrite Hdo; exact El|intros Ha; apply JN; intros i Hi; apply HN|intros Ha; apply JP; intros i Hi; apply HP|intros Ha; apply JF; intros i Hi; apply HF|intros Ha; apply cat_len; apply HD]; assumption. }
    eapply (run_bind os' (J os' (nodes o0 os' L true) (channels s CF))).
    - rewrite <- widths_sum. apply (run_cats o0 o' os' Hn HB HC _ (feature_widths CF s) (length (feature_widths CF s))); [|reflexivity|].
      { unfold feature_widths, asks_any in *. destruct (asks s "N" "n"), (asks s "D" "d"), (asks s "L" "l"), (asks s "P" "p"), (asks s "F" "f"); cbn in *; discriminate. }
      unfold feature_blocks, feature_widths. apply JLs_app; [|apply JLs_app; [|apply JLs_app; [|apply JLs_app]]]; apply JLs_one; intros Ha.
      + apply J_of_rows; [intros [[x y] z]; reflexivity|]. intros i Hi. apply HN; [rewrite Ha; reflexivity|exact Hi].
      + split.
        * unfold local_points. rewrite cat_map. apply cat_zip. intros i Hi. rewrite map_length. apply HD; assumption.
        * intros i Hi. split; [unfold zip_with; rewrite map_length, combine_length; unfold local_points; rewrite map_length, (HD Ha i Hi), Nat.min_id; apply HN; [rewrite Ha; apply orb_true_r|exact Hi]|].
          unfold zip_with. apply Forall_forall. intros r Hr. apply in_map_iff in Hr. destruct Hr as (ab & <- & _). reflexivity.
      + unfold local_points. rewrite map_map. eapply J_ext; [|apply (J_of_rows _ 3 (fun p => v3list (v3map (fun c => qfrac c - Q2Qc (1 # 2))%Qc p)) P)].
        * intros i Hi. cbn beta. rewrite map_map. reflexivity.
        * intros [[x y] z]; reflexivity.
        * intros i Hi. apply HP; [rewrite Ha; rewrite orb_true_r; reflexivity|exact Hi].
      + apply J_of_rows; [intros [[x y] z]; reflexivity|]. intros i Hi. apply HP; [rewrite Ha; apply orb_true_r|exact Hi].
      + split; [reflexivity|]. intros i Hi. apply HF; assumption.
    - intros X x HX. destruct ne; [apply run_ret; exact HX|]. apply (run_pad o0 o' os' kms Hn HK HT); [lia|exact HX].
  Qed.
  Theorem thm_batch_feature CF s ne : asks_any s = true -> Forall (carries CF s) os' ->
    exists xs, mapM (fun oi => get_input_feature CF oi s ne) os' = Ok xs /\ get_input_feature CF o' s ne = Ok (concat xs) /\
      Forall2 (fun oi x => shape (node_count oi (depth o0) ne) (channels s CF) x) os' xs.
  Proof.
    intros Hany HCa. destruct (run_feature CF s ne Hany HCa) as (Y & y & E1 & E2 & HJ). exists (map Y (seq 0 n)). split; [|split].
    - rewrite (os_list o0 os') at 1. apply mapM_map. intros i Hi. apply E1. apply in_seq in Hi. lia.
    - rewrite E2, (rows_of _ _ _ _ _ HJ). reflexivity.
    - rewrite (os_list o0 os') at 1. destruct HJ as [_ HS]. unfold nodes in HS. revert HS. generalize (length os'). intros m HS.
      assert (G : forall k, (k <= m)%nat -> Forall2 (fun oi x => shape (node_count oi L ne) (channels s CF) x) (map mo (seq (m - k) k)) (map Y (seq (m - k) k))).
      { induction k as [|k IH]; intros Hk; [constructor|]. cbn [seq map]. replace (Datatypes.S (m - Datatypes.S k)) with (m - k)%nat by lia. constructor; [apply HS; lia|apply IH; lia]. }
      specialize (G m (le_n _)). rewrite Nat.sub_diag in G. exact G.
  Qed.
  Theorem thm_batch_ae g P cin cout CF dev s : ae_config g -> eval_mode P -> (1 <= a_full g)%nat -> a_depth g = depth o0 -> channel_ok cin ->
    asks_any s = true -> channels s CF = cin -> Forall (carries CF s) os' ->
    exists ys lg, mapM (fun oi => AutoEncoder g P cin cout CF dev s oi false) os' = Ok ys /\
      AutoEncoder g P cin cout CF dev s o' false = Ok (lg, concat (map (fun y => snd (fst y)) ys), o') /\ map snd ys = os' /\
      forall d, (a_full g <= d <= a_depth g)%nat -> exists lgs, mapM (fun y => dfind (fst (fst y)) (Z.of_nat d)) ys = Ok lgs /\ dfind lg (Z.of_nat d) = Ok (concat lgs).
  Proof.
    intros HA HP Hfu Hde Hcin Hany Hch HCa. destruct (batched_setup o0 os o' os' Hm Hf HBt) as (kms & Hn & Hlen & HK & HT & HB & HC).
    destruct (run_autoencoder o0 o' os' kms Hn HK HT HB HC g P cin cout CF s HA HP Hfu Hde Hcin dev) as (Y & y & E1 & E2 & HD & HJ & Ho & Ho').
    { rewrite Hde, <- Hch. apply run_feature; assumption. }
    destruct y as [[lg y] o2]. cbn [fst snd] in *. subst o2. exists (map Y (seq 0 n)), lg. split; [|split; [|split]].
    - rewrite (os_list o0 os') at 1. apply mapM_map. intros i Hi. apply E1. apply in_seq in Hi. lia.
    - rewrite E2, (rows_of _ _ _ _ _ HJ). rewrite map_map. reflexivity.
    - rewrite map_map. rewrite (os_list o0 os') at 2. apply map_ext_in. intros i Hi. apply in_seq in Hi. apply Ho. lia.
    - intros d Hd. destruct (HD d Hd) as (Z' & z & F1 & F2 & HJ'). exists (map Z' (seq 0 n)). split; [|rewrite F2, (rows_of _ _ _ _ _ HJ'); reflexivity].
      apply mapM_map. intros i Hi. apply F1. apply in_seq in Hi. lia.
  Qed.
End Feat.
