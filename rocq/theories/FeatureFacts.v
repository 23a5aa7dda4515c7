(** Proofs about get_input_feature. *)
From Coq Require Import String Ascii List ZArith Bool QArith Qcanon Lia Lqa.
From Verif Require Import Res Tensor Key Num Points Octree NnBasic NnConv Spec SpecGeo SpecBuild SpecNN WF
  ListFacts NumFacts SumFacts PadFacts BuildThms Features SpecFeature.
Import ListNotations.
Open Scope Z_scope.

Lemma has_asks s up lo : (forall a, Ascii.eqb up (upper1 a) = Ascii.eqb a up || Ascii.eqb a lo) -> has up (upper s) = asks s up lo.
Proof.
  intros H. unfold has, upper, asks. induction (list_ascii_of_string s) as [|a l IH]; [reflexivity|].
  cbn [map existsb]. rewrite IH, H. reflexivity.
Qed.
Ltac letters := intros [[] [] [] [] [] [] [] []]; reflexivity.
Lemma hasN s : has "N" (upper s) = asks s "N" "n". Proof. apply has_asks. letters. Qed.
Lemma hasD s : has "D" (upper s) = asks s "D" "d". Proof. apply has_asks. letters. Qed.
Lemma hasL s : has "L" (upper s) = asks s "L" "l". Proof. apply has_asks. letters. Qed.
Lemma hasP s : has "P" (upper s) = asks s "P" "p". Proof. apply has_asks. letters. Qed.
Lemma hasF s : has "F" (upper s) = asks s "F" "f". Proof. apply has_asks. letters. Qed.

Lemma map_nth_seq {A} (d : A) l : l = map (fun i => nth i l d) (seq 0 (length l)).
Proof.
  apply (list_ext d (length l)); [reflexivity|rewrite map_length, seq_length; reflexivity|].
  intros i Hi. rewrite nth_map_seq by exact Hi. reflexivity.
Qed.
Lemma as_rows {A B} (f : A -> B) (d : A) l n : length l = n -> map f l = map (fun i => f (nth i l d)) (seq 0 n).
Proof. intros <-. rewrite (map_nth_seq d l) at 1. rewrite map_map. reflexivity. Qed.

Lemma cat_rows n (fs : list (nat -> vec)) : forall f,
  cat_cols (map (fun g => map g (seq 0 n)) (f :: fs)) = Ok (map (fun i => concat (map (fun g => g i) (f :: fs))) (seq 0 n)).
Proof.
  intros f. cbn [map cat_cols].
  assert (G : forall fs acc, foldM (fun acc y => if Nat.eqb (length acc) (length y) then Ok (zip_with (@app Qc) acc y) else Err RuntimeError)
     (map acc (seq 0 n)) (map (fun g => map g (seq 0 n)) fs) = Ok (map (fun i => acc i ++ concat (map (fun g => g i) fs)) (seq 0 n))).
  { clear. induction fs as [|g fs IH]; intros acc; cbn [map foldM concat].
    - f_equal. apply map_ext. intros i. rewrite app_nil_r. reflexivity.
    - rewrite !map_length, !Nat.eqb_refl. cbn [bind].
      replace (zip_with (@app Qc) (map acc (seq 0 n)) (map g (seq 0 n))) with (map (fun i => acc i ++ g i) (seq 0 n)).
      + rewrite IH. f_equal. apply map_ext. intros i. rewrite app_assoc. reflexivity.
      + unfold zip_with. generalize (seq 0 n). induction l as [|a l IHl]; [reflexivity|]. cbn [map combine fst snd]. rewrite IHl. reflexivity. }
  rewrite G. reflexivity.
Qed.

Lemma frac_local c : (0 <= c)%Qc -> (qfrac c - Q2Qc (1 # 2))%Qc = local_coord c.
Proof. intros H. unfold qfrac, local_coord. rewrite qtrunc_floor by exact H. unfold qfloor. ring. Qed.
Lemma scale_global d c : (c * q2pow (1 - Z.of_nat d) - 1)%Qc = global_coord d c.
Proof.
  unfold global_coord. rewrite qz_1. f_equal.
  assert (Hn : qz (2 ^ Z.of_nat d) <> 0%Qc) by (apply qz_neq0; apply Z.pow_nonzero; lia).
  assert (E : (q2pow (1 - Z.of_nat d) * qz (2 ^ Z.of_nat d))%Qc = qz 2).
  { destruct d as [|d].
    - change (2 ^ Z.of_nat 0) with 1. rewrite qz_1, Qcmult_1_r. reflexivity.
    - unfold q2pow. destruct (Z.leb_spec 0 (1 - Z.of_nat (S d))) as [H|H].
      + assert (d = O) by lia. subst d. change (2 ^ (1 - Z.of_nat 1)) with 1. change (2 ^ Z.of_nat 1) with 2. rewrite qz_1. ring.
      + replace (- (1 - Z.of_nat (S d))) with (Z.of_nat d) by lia. replace (Z.of_nat (S d)) with (Z.of_nat d + 1) by lia.
        rewrite Z.pow_add_r by lia. change (2 ^ 1) with 2. rewrite qz_mul.
        assert (qz (2 ^ Z.of_nat d) <> 0%Qc) by (apply qz_neq0; apply Z.pow_nonzero; lia). field. assumption. }
  apply (f_equal (fun x => (c * x / qz (2 ^ Z.of_nat d))%Qc)) in E. rewrite <- E. field. exact Hn.
Qed.

Definition nonneg3 (p : v3 Qc) : Prop := let '(x, y, z) := p in (0 <= x)%Qc /\ (0 <= y)%Qc /\ (0 <= z)%Qc.

Section Layout.
Variables (CF n : nat) (o : octree) (s : string) (l : layer) (ns ps : list (v3 Qc)) (fs : list vec).
Hypothesis Hl : get_layer o (Z.of_nat (depth o)) = Ok l.
Hypothesis Hns : length ns = n.
Hypothesis Hps : length ps = n.
Hypothesis Hfs : shape n CF fs.
Hypothesis Hpos : Forall nonneg3 ps.
Hypothesis HN : asks s "N" "n" || asks s "D" "d" = true -> l_normals l = Some ns.
Hypothesis HP : asks s "D" "d" || asks s "L" "l" || asks s "P" "p" = true -> l_points l = Some ps.
Hypothesis HF : asks s "F" "f" = true -> l_features l = Some fs.

Definition row (i : nat) : vec := feature_row s (depth o) (nth i ns v3zero) (nth i ps v3zero) (nth i fs []).
Definition parts : list (nat * (nat -> vec)) :=
  (if asks s "N" "n" then [(3%nat, fun i => v3list (nth i ns v3zero))] else []) ++
  (if asks s "D" "d" then [(1%nat, fun i => [dot3 (v3map local_coord (nth i ps v3zero)) (nth i ns v3zero)])] else []) ++
  (if asks s "L" "l" then [(3%nat, fun i => v3list (v3map local_coord (nth i ps v3zero)))] else []) ++
  (if asks s "P" "p" then [(3%nat, fun i => v3list (v3map (global_coord (depth o)) (nth i ps v3zero)))] else []) ++
  (if asks s "F" "f" then [(CF, fun i => nth i fs [])] else []).
Lemma parts_row i : concat (map (fun g => g i) (map snd parts)) = row i.
Proof.
  unfold parts, row, feature_row. destruct (asks s "N" "n"), (asks s "D" "d"), (asks s "L" "l"), (asks s "P" "p"), (asks s "F" "f");
  cbn [app map concat snd]; rewrite ?app_nil_r; reflexivity.
Qed.
Lemma parts_channels : fold_right Nat.add O (map fst parts) = channels s CF.
Proof.
  unfold parts, channels. destruct (asks s "N" "n"), (asks s "D" "d"), (asks s "L" "l"), (asks s "P" "p"), (asks s "F" "f");
  cbn [app map fold_right fst]; lia.
Qed.
Lemma local_eq : local_points ps = map (v3map local_coord) ps.
Proof.
  unfold local_points. apply map_ext_in. intros [[x y] z] Hin. rewrite Forall_forall in Hpos. destruct (Hpos _ Hin) as (H1 & H2 & H3).
  cbn [v3map]. rewrite !frac_local by assumption. reflexivity.
Qed.
Lemma disp_eq : zip_with displacement (local_points ps) ns = map (fun i => [dot3 (v3map local_coord (nth i ps v3zero)) (nth i ns v3zero)]) (seq 0 n).
Proof.
  rewrite local_eq. unfold zip_with. apply (list_ext [] n).
  - rewrite map_length, combine_length, map_length. lia.
  - rewrite map_length, seq_length. reflexivity.
  - intros i Hi. rewrite nth_map_seq by exact Hi.
    rewrite (nth_indep _ _ ((fun ab => displacement (fst ab) (snd ab)) (v3map local_coord v3zero, v3zero))) by (rewrite map_length, combine_length, map_length; lia).
    rewrite (map_nth (fun ab => displacement (fst ab) (snd ab))), nth_combine by (rewrite map_length; congruence).
    rewrite (map_nth (v3map local_coord)). cbn [fst snd].
    destruct (nth i ps v3zero) as [[a b] c], (nth i ns v3zero) as [[x y] z]. unfold displacement. cbn [v3map v3zip v3list dot3 fold_right].
    f_equal. ring.
Qed.
Lemma row_shape : shape n (channels s CF) (map row (seq 0 n)).
Proof.
  split; [rewrite map_length, seq_length; reflexivity|]. apply Forall_forall. intros r Hr. apply in_map_iff in Hr. destruct Hr as (i & <- & Hi).
  apply in_seq in Hi. unfold row, feature_row, channels.
  assert (Hf : length (nth i fs []) = CF) by (apply (shape_nth n CF fs i Hfs); lia).
  destruct (nth i ns v3zero) as [[x y] z], (nth i ps v3zero) as [[a b] c].
  destruct (asks s "N" "n"), (asks s "D" "d"), (asks s "L" "l"), (asks s "P" "p"), (asks s "F" "f");
  cbn [app v3list v3map length]; rewrite ?app_nil_r, ?Hf; cbn [length]; lia.
Qed.
Lemma gif_layout ne :
  asks s "N" "n" || asks s "D" "d" || asks s "L" "l" || asks s "P" "p" || asks s "F" "f" = true ->
  get_input_feature CF o s ne = if ne then Ok (map row (seq 0 n)) else octree_pad (channels s CF) (map row (seq 0 n)) o (Z.of_nat (depth o)) (0%Qc).
Proof.
  intros Hany. unfold get_input_feature. rewrite Hl. cbn [bind]. rewrite hasN, hasD, hasL, hasP, hasF.
  rewrite <- parts_channels.
  assert (NE : parts <> []).
  { unfold parts. destruct (asks s "N" "n"), (asks s "D" "d"), (asks s "L" "l"), (asks s "P" "p"), (asks s "F" "f"); try discriminate. }
  assert (EL : map v3list (local_points ps) = map (fun i => v3list (v3map local_coord (nth i ps v3zero))) (seq 0 n)).
  { rewrite local_eq, map_map. apply (as_rows (fun p => v3list (v3map local_coord p)) v3zero ps n Hps). }
  assert (EP : map (fun p => v3list (v3map (fun c => c * q2pow (1 - Z.of_nat (depth o)) - 1)%Qc p)) ps
    = map (fun i => v3list (v3map (global_coord (depth o)) (nth i ps v3zero))) (seq 0 n)).
  { rewrite <- (as_rows (fun p => v3list (v3map (global_coord (depth o)) p)) v3zero ps n Hps). apply map_ext.
    intros [[x y] z]. cbn [v3map]. rewrite !scale_global. reflexivity. }
  assert (EN : map v3list ns = map (fun i => v3list (nth i ns v3zero)) (seq 0 n)) by (apply as_rows; exact Hns).
  assert (EF : fs = map (fun i => nth i fs []) (seq 0 n)) by (rewrite <- (proj1 Hfs); apply map_nth_seq).
  assert (LL : length (local_points ps) = length ns) by (unfold local_points; rewrite map_length; congruence).
  match goal with |- context [bind (if asks s "L" "l" || asks s "D" "d" then _ else _) ?k] => set (K := k) end.
  assert (Fin : forall C fts, fts = map (fun cf : nat * (nat -> vec) => (fst cf, Some (map (snd cf) (seq 0 n)))) parts ->
    C = fold_right Nat.add O (map fst parts) ->
    bind (mapM (fun cf : nat * option feat => need (snd cf)) fts) (fun blocks => bind (cat_cols blocks) (fun out => if ne then Ok out else octree_pad C out o (Z.of_nat (depth o)) (0%Qc)))
    = (if ne then Ok (map row (seq 0 n)) else octree_pad C (map row (seq 0 n)) o (Z.of_nat (depth o)) (0%Qc))).
  { intros C fts -> _. rewrite (mapM_Ok _ (fun cf => match snd cf with Some x => x | None => [] end)).
    - rewrite map_map. cbn [snd bind]. rewrite <- (map_map snd (fun g => map g (seq 0 n))).
      destruct parts as [|p0 pt] eqn:EPt; [congruence|]. cbn [map snd]. change (map (snd p0) (seq 0 n) :: map (fun g => map g (seq 0 n)) (map snd pt))
        with (map (fun g => map g (seq 0 n)) (snd p0 :: map snd pt)). rewrite cat_rows. cbn [bind].
      replace (map (fun i => concat (map (fun g => g i) (snd p0 :: map snd pt))) (seq 0 n)) with (map row (seq 0 n)); [reflexivity|].
      apply map_ext. intros i. rewrite <- parts_row, EPt. reflexivity.
    - intros [c x] Hin. apply in_map_iff in Hin. destruct Hin as (cf & E & _). injection E as <- <-. reflexivity. }
  subst K. unfold parts in *.
  destruct (asks s "N" "n"), (asks s "D" "d"), (asks s "L" "l"), (asks s "P" "p"), (asks s "F" "f"); try discriminate Hany; cbn [orb] in *;
  rewrite ?HN, ?HP, ?HF by reflexivity; cbn [bind need option_map]; rewrite ?LL, ?Nat.eqb_refl; cbn [bind];
  apply Fin; cbn [app map fst snd]; rewrite ?disp_eq, ?EL, ?EP, ?EN; try rewrite <- EF; reflexivity.
Qed.
End Layout.

Theorem thm_layout : forall CF o s l ns ps fs, wf_octree o -> get_layer o (Z.of_nat (depth o)) = Ok l ->
  length ns = node_count o (depth o) true -> length ps = node_count o (depth o) true -> shape (node_count o (depth o) true) CF fs ->
  Forall (fun p : v3 Qc => let '(x, y, z) := p in (0 <= x)%Qc /\ (0 <= y)%Qc /\ (0 <= z)%Qc) ps ->
  (asks s "N" "n" || asks s "D" "d" = true -> l_normals l = Some ns) ->
  (asks s "D" "d" || asks s "L" "l" || asks s "P" "p" = true -> l_points l = Some ps) ->
  (asks s "F" "f" = true -> l_features l = Some fs) ->
  asks s "N" "n" || asks s "D" "d" || asks s "L" "l" || asks s "P" "p" || asks s "F" "f" = true ->
  exists x y flags, get_input_feature CF o s true = Ok x /\ get_input_feature CF o s false = Ok y /\
    nempty_mask o (Z.of_nat (depth o)) = Ok flags /\
    shape (node_count o (depth o) true) (channels s CF) x /\ shape (node_count o (depth o) false) (channels s CF) y /\
    (forall i n p f, nth_error ns i = Some n -> nth_error ps i = Some p -> nth_error fs i = Some f ->
       nth_error x i = Some (feature_row s (depth o) n p f)) /\
    octree_depad y o (Z.of_nat (depth o)) = Ok x /\
    (forall i, nth_error flags i = Some false -> nth_error y i = Some (repeat 0%Qc (channels s CF))).
Proof.
  intros CF o s l ns ps fs W Hl Hn Hp Hf Hpos HN HP HF Hany.
  set (n := node_count o (depth o) true) in *.
  destruct (thm_pad_depad o (depth o) (channels s CF) (0%Qc) W (le_n _)) as (flags & Em & _ & Hpad & _).
  assert (RS : shape n (channels s CF) (map (row o s ns ps fs) (seq 0 n))) by (eapply row_shape; eassumption).
  destruct (Hpad _ RS) as (y & Ey & Sy & Dy & Zy).
  exists (map (row o s ns ps fs) (seq 0 n)), y, flags.
  pose proof (fun ne => gif_layout CF n o s l ns ps fs Hl Hn Hp Hf Hpos HN HP HF ne Hany) as G.
  split; [exact (G true)|]. split; [rewrite (G false); exact Ey|]. split; [exact Em|]. split; [exact RS|]. split; [exact Sy|].
  split; [|split; [exact Dy|exact Zy]].
  intros i nv pv fv E1 E2 E3.
  assert (Hi : (i < n)%nat) by (rewrite <- Hn; apply nth_error_Some; congruence).
  rewrite nth_error_map, (nth_error_nth' _ O) by (rewrite seq_length; exact Hi). rewrite seq_nth by exact Hi. cbn [option_map Nat.add].
  unfold row. rewrite (nth_error_nth _ _ v3zero E1), (nth_error_nth _ _ v3zero E2), (nth_error_nth _ _ [] E3). reflexivity.
Qed.

(** Order and case of the letters. *)
Theorem thm_layout_letters : forall CF o s s' ne,
  asks s "N" "n" = asks s' "N" "n" -> asks s "D" "d" = asks s' "D" "d" -> asks s "L" "l" = asks s' "L" "l" ->
  asks s "P" "p" = asks s' "P" "p" -> asks s "F" "f" = asks s' "F" "f" ->
  get_input_feature CF o s ne = get_input_feature CF o s' ne.
Proof.
  intros CF o s s' ne H1 H2 H3 H4 H5. unfold get_input_feature. rewrite !hasN, !hasD, !hasL, !hasP, !hasF, H1, H2, H3, H4, H5. reflexivity.
Qed.
Lemma upper_idem a : upper1 (upper1 a) = upper1 a.
Proof. destruct a as [[] [] [] [] [] [] [] []]; reflexivity. Qed.
Theorem thm_input_feature : forall CF s ne o, input_feature CF s ne o = get_input_feature CF o s ne.
Proof.
  intros CF s ne o. unfold input_feature, get_input_feature.
  replace (upper (string_of_list_ascii (upper s))) with (upper s); [reflexivity|].
  unfold upper. rewrite list_ascii_of_string_of_list_ascii, map_map. apply map_ext. intros a. symmetry. apply upper_idem.
Qed.
(** Missing signals. *)
Theorem thm_layout_missing : forall CF o s ne l, get_layer o (Z.of_nat (depth o)) = Ok l ->
  (asks s "N" "n" || asks s "D" "d" = true /\ l_normals l = None) \/
  (asks s "D" "d" || asks s "L" "l" || asks s "P" "p" = true /\ l_points l = None) \/
  (asks s "F" "f" = true /\ l_features l = None) \/
  asks s "N" "n" || asks s "D" "d" || asks s "L" "l" || asks s "P" "p" || asks s "F" "f" = false ->
  exists e, get_input_feature CF o s ne = Err e.
Proof.
  intros CF o s ne l Hl H. unfold get_input_feature. rewrite Hl. cbn [bind]. rewrite hasN, hasD, hasL, hasP, hasF.
  assert (HM : forall (k : feat -> feat -> res feat) fts, Exists (fun cf : nat * option feat => snd cf = None) fts ->
    exists e, bind (mapM (fun cf => need (snd cf)) fts) (fun blocks => bind (cat_cols blocks) (k [])) = Err e).
  { intros k fts HE. assert (E : exists e, mapM (fun cf : nat * option feat => need (snd cf)) fts = Err e).
    { induction HE as [[c x] t Hx|[c x] t Hx IH]; cbn [mapM snd] in *.
      - rewrite Hx. eexists. reflexivity.
      - destruct IH as [e IH]. destruct x; cbn [need bind]; [rewrite IH|]; eexists; reflexivity. }
    destruct E as [e E]. rewrite E. eexists. reflexivity. }
  destruct (asks s "N" "n"), (asks s "D" "d"), (asks s "L" "l"), (asks s "P" "p"), (asks s "F" "f"); cbn [orb] in *;
  try (cbn [app map fold_right bind mapM cat_cols]; eexists; reflexivity);
  destruct (l_points l) as [pts|] eqn:EP; cbn [bind need] in *; try (eexists; reflexivity);
  destruct (l_normals l) as [nrm|] eqn:EN; cbn [bind need option_map] in *; try (eexists; reflexivity);
  try (match goal with |- context [Nat.eqb ?a ?b] => destruct (Nat.eqb a b) end; cbn [bind]; try (eexists; reflexivity));
  destruct (l_features l) as [fs|] eqn:EF; cbn [bind need option_map] in *;
  try (exfalso; destruct H as [[H1 H2]|[[H1 H2]|[[H1 H2]|H1]]]; discriminate);
  cbn [app map fst fold_right];
  apply (HM (fun _ out => if ne then Ok out else octree_pad _ out o (Z.of_nat (depth o)) (0%Qc)));
  repeat (first [apply Exists_cons_hd; reflexivity | apply Exists_cons_tl]).
Qed.
