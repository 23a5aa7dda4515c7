(** Proofs about octrees in single precision: the tree is the exact tree of a cloud
    that is a little moved. *)
From Coq Require Import List ZArith Bool Reals Lra Lia QArith Qcanon Qreals.
From Flocq Require Import Core.Core IEEE754.BinarySingleNaN.
From Verif Require Import Res Tensor Key Spec Num KeyFacts NumFacts ListFacts Points Octree NnBasic NnInterp SpecGeo SpecBuild WF WFFacts ScatterFacts KidsFacts
  BuildFacts BuildClosed BuildProps SearchFacts BuildThms Float32 FloatMean SpecSingle FloatFacts BuildFloat SpecNudge.
Import ListNotations.
Open Scope R_scope.

(** ** the exact value of a binary32 number *)
Definition f2q (x : f32) : Qc :=
  match x with
  | B754_finite s m e _ => ((if s then - qz (Zpos m) else qz (Zpos m)) * q2pow e)%Qc
  | _ => 0%Qc
  end.
Definition nudge (c : f32) : Qc := (f2q (fadd c fone) - 1)%Qc.

Lemma Q2R_opp' a : Q2R (- a)%Qc = - Q2R a.
Proof. unfold Qcopp. rewrite Q2R_Q2Qc. apply Qreals.Q2R_opp. Qed.
Lemma Q2R_minus' a b : Q2R (a - b)%Qc = Q2R a - Q2R b.
Proof. unfold Qcminus. rewrite Q2R_plus, Q2R_opp'. lra. Qed.
Lemma Q2R_inj (a b : Qc) : Q2R a = Q2R b -> a = b.
Proof. intros H. apply Qc_is_canon. apply eqR_Qeq. exact H. Qed.
Lemma Q2R_q2pow e : Q2R (q2pow e) = bpow radix2 e.
Proof.
  unfold q2pow. destruct (Z.leb_spec 0 e) as [H|H].
  - rewrite Q2R_qz. apply IZR_pow; lia.
  - unfold Qcinv. rewrite Q2R_Q2Qc, Q2R_inv.
    + rewrite Q2R_qz, IZR_pow by lia. rewrite <- bpow_opp. f_equal. lia.
    + intros E. apply Qeq_eqR in E. rewrite Q2R_qz, IZR_pow in E by lia.
      pose proof (bpow_gt_0 radix2 (- e)). rewrite RMicromega.Q2R_0 in E. lra.
Qed.
Lemma f2q_val x : Q2R (f2q x) = B2R x.
Proof.
  destruct x as [s|s| |s m e H]; cbn [f2q B2R]; try apply RMicromega.Q2R_0.
  rewrite Q2R_mult, Q2R_q2pow. unfold F2R. cbn [Fnum Fexp]. f_equal.
  destruct s; [rewrite Q2R_opp'|]; rewrite Q2R_qz; cbn [SpecFloat.cond_Zopp]; [rewrite <- opp_IZR|]; reflexivity.
Qed.
Lemma Q2R_one : Q2R 1%Qc = 1.
Proof. change 1%Qc with (qz 1). apply Q2R_qz. Qed.
Lemma nudge_val c : in_unit32 c -> Q2R (nudge c) = rne (B2R c + 1) - 1.
Proof.
  intros [Hf Hb]. unfold nudge. rewrite Q2R_minus', f2q_val, Q2R_one. destruct (fadd_one c Hf Hb) as (-> & _). reflexivity.
Qed.

Lemma nudge_near c : in_unit32 c -> Rabs (Q2R (nudge c) - B2R c) <= / 2 ^ 24 /\ -1 <= Q2R (nudge c) <= 1.
Proof.
  intros H. rewrite (nudge_val c H). destruct H as [Hf Hb]. destruct (fadd_one c Hf Hb) as (_ & _ & Hr). rewrite inv24.
  split; [|lra]. destruct (Rlt_dec (B2R c) 1) as [Hlt|Hge].
  - pose proof (rne_err (B2R c + 1) ltac:(lra)) as He. replace (rne (B2R c + 1) - 1 - B2R c) with (rne (B2R c + 1) - (B2R c + 1)) by lra. exact He.
  - assert (E : B2R c = 1) by lra. rewrite E. replace (1 + 1) with (bpow radix2 1) by (cbn; lra). rewrite rne_id by (apply fmt_bpow; lia).
    replace (bpow radix2 1 - 1 - 1) with 0 by (cbn; lra). rewrite Rabs_R0. apply bpow_ge_0.
Qed.
Lemma nudge_box c : safe32 c -> in_unit (nudge c).
Proof.
  intros Hs. destruct (safe_le c Hs) as (Hf & Hb & Hlt). assert (Hu : in_unit32 c) by (split; assumption).
  pose proof (nudge_near c Hu) as [_ [H0 _]]. pose proof (nudge_val c Hu) as Hv.
  split.
  - unfold Qcle. apply Rle_Qle. change (this (qz (-1))) with (this (qz (-1))). rewrite Q2R_qz. lra.
  - unfold Qclt. apply Rlt_Qlt. rewrite Q2R_qz, Hv. lra.
Qed.
Lemma nudge_grid c : in_unit32 c -> B2R c < 1 -> on_grid c -> Q2R (nudge c) = B2R c.
Proof. intros H Hl (k & Hk). rewrite (nudge_val c H), (grid_fmt c k); [lra| |exact Hk]. destruct H. lra. Qed.

(** ** keys *)
Lemma frescale_exact dep c : (dep <= 62)%nat -> in_unit32 c -> is_finite (frescale dep c) = true /\
  B2R (frescale dep c) = Q2R ((nudge c + 1) * q2pow (Z.of_nat dep - 1))%Qc /\ 0 <= B2R (frescale dep c) <= bpow radix2 (Z.of_nat dep).
Proof.
  intros Hd H. pose proof H as [Hf Hb]. destruct (frescale_val dep c ltac:(lia) Hf Hb) as [Hv Hvf]. destruct (fadd_one c Hf Hb) as (_ & _ & Hr).
  split; [exact Hvf|]. split.
  - rewrite Hv, Q2R_mult, Q2R_plus, Q2R_q2pow, Q2R_one, (nudge_val c H). f_equal. lra.
  - rewrite Hv. pose proof (bpow_ge_0 radix2 (Z.of_nat dep - 1)) as Hp. split; [apply Rmult_le_pos; lra|].
    replace (bpow radix2 (Z.of_nat dep)) with (2 * bpow radix2 (Z.of_nat dep - 1)).
    + apply Rmult_le_compat_r; lra.
    + replace (Z.of_nat dep) with (1 + (Z.of_nat dep - 1))%Z at 2 by lia. rewrite bpow_plus. cbn; lra.
Qed.
Lemma cell_nudge dep c : (dep <= 62)%nat -> in_unit32 c -> cell32 dep c = Some (qtrunc ((nudge c + 1) * q2pow (Z.of_nat dep - 1))%Qc).
Proof.
  intros Hd H. destruct (frescale_exact dep c Hd H) as (Hf & Hv & Hr). unfold cell32.
  destruct (flong_val (frescale dep c) Hf) as (t & -> & ->).
  - split; [lra|]. eapply Rle_lt_trans; [apply Hr|]. apply bpow_lt. lia.
  - f_equal. symmetry. apply floor_qtrunc; [symmetry; exact Hv|lra].
Qed.
Lemma key_nudge dep p b : (dep <= 62)%nat -> point_in_unit32 p -> point_key32 dep p b = point_key dep (v3map nudge p) b.
Proof.
  intros Hd. destruct p as [[x y] z]. intros (Hx & Hy & Hz). unfold point_key32, point_key, rescale. cbn [v3map].
  rewrite !cell_nudge by assumption. reflexivity.
Qed.

(** ** the tree *)
Lemma mapM_map' {A B C} (f : A -> B) (g : B -> res C) l : mapM g (map f l) = mapM (fun a => g (f a)) l.
Proof. induction l as [|a l IH]; [reflexivity|]. cbn [map mapM]. rewrite IH. reflexivity. Qed.
Lemma mapM_ext' {A B} (f g : A -> res B) l : (forall a, In a l -> f a = g a) -> mapM f l = mapM g l.
Proof.
  intros H. induction l as [|a l IH]; [reflexivity|]. cbn [mapM]. rewrite (H a) by (left; reflexivity).
  rewrite IH; [reflexivity|]. intros; apply H; right; assumption.
Qed.
Lemma combine_map_l' {A B C} (f : A -> B) (l : list A) (m : list C) : combine (map f l) m = map (fun ab => (f (fst ab), snd ab)) (combine l m).
Proof. revert m; induction l as [|a l IH]; intros [|c m]; cbn; try reflexivity. rewrite IH. reflexivity. Qed.

Lemma keys32_nudge dep pts batch : (dep <= 62)%nat -> Forall point_in_unit32 pts ->
  keys32 dep pts batch = match batch with
    | None => mapM (fun p => point_key dep p None) (map (v3map nudge) pts)
    | Some bid => if Nat.eqb (List.length bid) (List.length (map (v3map nudge) pts))
        then mapM (fun pb => point_key dep (fst pb) (Some (snd pb))) (combine (map (v3map nudge) pts) bid) else Err RuntimeError end.
Proof.
  intros Hd Hp. rewrite Forall_forall in Hp. unfold keys32. destruct batch as [bid|].
  - rewrite map_length. destruct (Nat.eqb _ _); [|reflexivity]. rewrite combine_map_l', mapM_map'. apply mapM_ext'.
    intros [p b] Hin. cbn [fst snd]. apply key_nudge; [exact Hd|]. apply Hp. eapply in_combine_l; exact Hin.
  - rewrite mapM_map'. apply mapM_ext'. intros p Hin. apply key_nudge; [exact Hd|]. apply Hp; exact Hin.
Qed.

Lemma set_nth_map_same {A B} (f : A -> B) (l : list A) i a b : nth_error l i = Some a -> f b = f a -> map f (set_nth l i b) = map f l.
Proof.
  revert i; induction l as [|x l IH]; intros [|i]; cbn [nth_error set_nth map]; try discriminate.
  - intros [= ->] E. rewrite E. reflexivity.
  - intros Hn E. rewrite (IH i Hn E). reflexivity.
Qed.
Lemma no_signals_upd o d f o' : upd_layer o d f = Ok o' ->
  (forall l, set_features (set_normals (set_points (f l) None) None) None = set_features (set_normals (set_points l None) None) None) ->
  no_signals o' = no_signals o.
Proof.
  intros E Hf. unfold upd_layer in E. destruct (nth_error (layers o) d) as [l|] eqn:El; [|discriminate].
  injection E as <-. unfold no_signals, with_layers. cbn [depth full_depth batch_size device layers]. f_equal.
  eapply set_nth_map_same; [exact El|apply Hf].
Qed.

Lemma thm_tree32 normalize o pc : build_input o (move_points nudge pc) -> Forall point_in_unit32 (p_points pc) ->
  exists o' idx o32, build_octree normalize o (move_points nudge pc) = Ok (o', idx) /\ build_tree32 o pc = Ok (o32, idx) /\
    no_signals o32 = no_signals o'.
Proof.
  intros Hi Hp. destruct (thm_build_wf normalize _ _ Hi) as (o' & idx & E & _). exists o', idx.
  assert (Hd : (depth o <= 62)%nat) by (pose proof (bi_depth _ _ Hi); lia).
  pose proof E as E0. unfold build_octree in E. unfold build_tree32. cbn [p_points p_batch_id p_batch_size p_normals p_features p_device move_points depth full_depth batch_size] in E |- *.
  destruct (assert_ _) as [u|e]; [|discriminate]. cbn [bind] in E |- *.
  match goal with |- context [bind ?k _] => set (K := k) end.
  match type of E with bind ?k _ = _ => assert (EK : k = K) end.
  { unfold K. destruct (Nat.eqb (batch_size o) 1); [rewrite keys32_nudge by assumption; reflexivity|].
    destruct (p_batch_id pc); [|reflexivity]. rewrite keys32_nudge by assumption. reflexivity. }
  rewrite EK in E. clear EK. destruct K as [key|e]; [|discriminate]. cbn [bind] in E |- *.
  destruct (unique key) as [[node_key idx'] counts].
  destruct (foldM _ _ (seq 0 _)) as [o1|e]; [|discriminate]. cbn [bind] in E |- *.
  destruct (foldM build_step _ _) as [[o2 nk]|e]; [|discriminate]. cbn [bind] in E |- *.
  destruct (build_full_children o2 nk) as [o3|e]; [|discriminate]. cbn [bind] in E |- *.
  destruct (scatter_add _ _ _ _ _) as [ps|e]; [|discriminate]. cbn [bind] in E.
  destruct (upd_layer o3 _ _) as [o4|e] eqn:E4; [|discriminate]. cbn [bind] in E. injection E as <- <-.
  exists o3. split; [exact E0|]. split; [reflexivity|]. symmetry. eapply no_signals_upd; [exact E4|reflexivity].
Qed.

(** ** queries *)
Definition nudge_row (pb : v3 f32 * Z) : qpoint := (v3map nudge (fst pb), snd pb).
Definition scaled (d : nat) (pts : list qpoint) : list qpoint :=
  map (fun '(p, b) => (v3map (fun c => (c + 1) * q2pow (Z.of_nat d - 1))%Qc p, b)) pts.
Definition scaled32 (d : nat) (pts : list (v3 f32 * Z)) : list (v3 f32 * Z) := map (fun '(p, b) => (rescale32 d p, b)) pts.

Lemma long_nudge d pts : (d <= 62)%nat -> Forall (fun pb => point_in_unit32 (fst pb)) pts ->
  mapM long_row32 (scaled32 d pts) = Ok (map (fun '((x, y, z), b) => (qtrunc x, qtrunc y, qtrunc z, b)) (scaled d (map nudge_row pts))).
Proof.
  intros Hd Hp. unfold scaled32, scaled. rewrite !map_map. rewrite mapM_map'. apply mapM_Ok. intros [[[x y] z] b] Hin.
  rewrite Forall_forall in Hp. destruct (Hp _ Hin) as (Hx & Hy & Hz). cbn [nudge_row fst snd v3map long_row32 rescale32].
  change (flong (frescale d x)) with (cell32 d x). change (flong (frescale d y)) with (cell32 d y). change (flong (frescale d z)) with (cell32 d z).
  rewrite !cell_nudge by assumption. reflexivity.
Qed.
Lemma search_nudge o d ne pts : (d <= 62)%nat -> Forall (fun pb => point_in_unit32 (fst pb)) pts ->
  search_pts32 o (scaled32 d pts) d ne = search_pts o (scaled d (map nudge_row pts)) d ne.
Proof. intros Hd Hp. unfold search_pts32, search_pts. rewrite long_nudge by assumption. reflexivity. Qed.

Lemma Q2R_zero : Q2R (this 0%Qc) = 0.
Proof. change 0%Qc with (qz 0). apply Q2R_qz. Qed.
Lemma leb_zero (x : f32) (q : Qc) : is_finite x = true -> B2R x = Q2R q -> Bleb fzero x = qleb 0 q.
Proof.
  intros Hf E. rewrite Bleb_correct by (reflexivity || exact Hf). rewrite E. cbn [B2R fzero]. unfold qleb.
  destruct (Rle_bool_spec 0 (Q2R q)) as [H|H]; symmetry.
  - apply Qle_bool_iff. apply Rle_Qle. rewrite Q2R_zero. exact H.
  - apply not_true_is_false. intros Ht. apply Qle_bool_iff, Qle_Rle in Ht. rewrite Q2R_zero in Ht. lra.
Qed.
Lemma ltb_pow (x : f32) (q : Qc) d : (d <= 62)%nat -> is_finite x = true -> B2R x = Q2R q ->
  Bltb x (@Bldexp 24 128 f32_prec f32_emax mode_NE fone (Z.of_nat d)) = qltb q (qz (2 ^ Z.of_nat d)).
Proof.
  intros Hd Hf E. destruct (fscale_val (S d) ltac:(lia)) as [Hs Hsf]. unfold fscale in Hs, Hsf.
  replace (Z.of_nat (S d) - 1)%Z with (Z.of_nat d) in Hs, Hsf by lia.
  rewrite Bltb_correct by assumption. rewrite Hs, E. unfold qltb. rewrite <- IZR_pow by lia. rewrite <- Q2R_qz.
  destruct (Rlt_bool_spec (Q2R q) (Q2R (qz (2 ^ Z.of_nat d)))) as [H|H]; symmetry.
  - apply negb_true_iff. apply not_true_is_false. intros Ht. apply Qle_bool_iff, Qle_Rle in Ht. lra.
  - apply negb_false_iff. apply Qle_bool_iff. apply Rle_Qle. exact H.
Qed.
Lemma bound_nudge d pts : (d <= 62)%nat -> Forall (fun pb => point_in_unit32 (fst pb)) pts ->
  map (fun p => in_bound32 d (fst p)) (scaled32 d pts) = map (fun p => in_bound d (fst p)) (scaled d (map nudge_row pts)).
Proof.
  intros Hd Hp. unfold scaled32, scaled. rewrite !map_map. apply map_ext_in. intros [[[x y] z] b] Hin.
  rewrite Forall_forall in Hp. destruct (Hp _ Hin) as (Hx & Hy & Hz). cbn [nudge_row fst snd v3map rescale32 in_bound32 in_bound].
  destruct (frescale_exact d x Hd Hx) as (Fx & Vx & _). destruct (frescale_exact d y Hd Hy) as (Fy & Vy & _). destruct (frescale_exact d z Hd Hz) as (Fz & Vz & _).
  rewrite !(leb_zero _ _ Fx Vx), !(leb_zero _ _ Fy Vy), !(leb_zero _ _ Fz Vz).
  rewrite (ltb_pow _ _ d Hd Fx Vx), (ltb_pow _ _ d Hd Fy Vy), (ltb_pow _ _ d Hd Fz Vz). reflexivity.
Qed.
Lemma thm_interp32 ne bc C data o d pts : (d <= 62)%nat -> Forall (fun pb => point_in_unit32 (fst pb)) pts ->
  interp_nearest32 ne bc C data o d pts = (r <- interp_forward false ne bc true C data o d (map nudge_row pts) ;; Ok (fst r)).
Proof.
  intros Hd Hp. unfold interp_nearest32, interp_forward, octree_nearest_pts32, octree_nearest_pts. fold (scaled32 d pts). fold (scaled d (map nudge_row pts)).
  rewrite search_nudge, bound_nudge by assumption.
  replace (length (scaled32 d pts)) with (length (scaled d (map nudge_row pts))) by (unfold scaled, scaled32; rewrite !map_length; reflexivity).
  destruct (check_rows data o d ne); [|reflexivity]. cbn [bind]. destruct (search_pts _ _ _ _); [|reflexivity]. cbn [bind].
  destruct (mask_get _ _); [|reflexivity]. cbn [bind]. destruct (gather _ _); [|reflexivity]. cbn [bind]. destruct (mask_put _ _ _); reflexivity.
Qed.

(** ** the points of the cloud are found *)
Lemma key_no_signals o d ne : octree_key (no_signals o) d ne = octree_key o d ne.
Proof.
  assert (G : forall i, get_layer (no_signals o) i = (l <- get_layer o i ;; Ok (set_features (set_normals (set_points l None) None) None))).
  { intros i. unfold get_layer, no_signals. cbn [layers]. unfold tget, zlen. rewrite map_length.
    destruct (norm_index _ _) as [n|]; [|reflexivity]. rewrite nth_error_map. destruct (nth_error (layers o) n); reflexivity. }
  unfold octree_key, nempty_mask. rewrite G. destruct (get_layer o d) as [l|e]; [|reflexivity]. cbn [bind].
  reflexivity.
Qed.

Lemma scaled_keys pc dep d : (d <= dep)%nat -> (dep <= 16)%nat -> forall bs B, good_cloud B pc -> (Z.of_nat B <= 32768)%Z ->
  bs = combine (p_points pc) (point_batches pc) ->
  mapM (fun '(x, y, z, b) => xyz2key x y z (Some b) d) (map (fun '((x, y, z), b) => (qtrunc x, qtrunc y, qtrunc z, b)) (scaled d bs))
  = Ok (cloud_keys d pc).
Proof.
  intros Hd H16 bs B G HB ->. unfold scaled, cloud_keys, zip_with. rewrite !map_map. rewrite mapM_map'. apply mapM_Ok.
  intros [[[x y] z] b] Hin. cbn [v3map fst snd]. destruct (point_batches_ok _ _ G) as [_ Hf]. rewrite Forall_forall in Hf.
  apply in_combine_r in Hin. specialize (Hf b Hin). rewrite xyz2key_b by lia. reflexivity.
Qed.

Section Find.
  Variable normalize : v3 Qc -> v3 Qc.
  Variables (o : octree) (pc : pcloud Qc).
  Hypothesis Hi : build_input o pc.
  Hypothesis Hbox : Forall in_box (p_points pc).
  Lemma find_all d : (full_depth o <= d <= depth o)%nat -> forall o' idx, build_octree normalize o pc = Ok (o', idx) ->
    exists js, search_pts o' (scaled d (located pc)) d true = Ok js /\ length js = length (p_points pc) /\ Forall (fun j => (0 <= j)%Z) js /\
      (d = depth o -> js = idx).
  Proof.
    intros Hd o' idx E. destruct Hi as [Hf H16 HB Hlen G].
    destruct (built_tree normalize o pc Hf H16 HB Hlen G) as (o'' & E' & Hd' & Hfd & Hbs & _ & T & _).
    rewrite E in E'. injection E' as <- ->.
    unfold search_pts, search_xyzb. erewrite scaled_keys with (dep := depth o); [|lia|exact H16|exact G|exact HB|reflexivity]. cbn [bind].
    destruct (tree_search o' _ _ _ d true (cloud_keys d pc) T ltac:(lia)) as (r & -> & F).
    assert (Hs : sel (bK o pc) (bM o pc) true d = NE (depth o) pc d) by (cbn [sel]; apply bM_select; assumption || lia).
    rewrite Hs in F. pose proof (cloud_keys_length _ d pc G) as Hl.
    exists r. split; [reflexivity|]. split; [rewrite (Forall2_len _ _ _ F); exact Hl|]. split.
    - apply Forall_forall. intros j Hj. apply In_nth_error in Hj. destruct Hj as [i Hj].
      assert (Hlt : (i < length (cloud_keys d pc))%nat) by (rewrite <- (Forall2_len _ _ _ F); apply nth_error_Some; rewrite Hj; discriminate).
      destruct (nth_error (cloud_keys d pc) i) as [k|] eqn:Ek; [|apply nth_error_None in Ek; lia].
      destruct (Forall2_nth _ _ _ _ _ _ F Ek Hj) as [[H0 _]|[_ Hn]]; [exact H0|]. exfalso. apply Hn.
      apply in_NE; [assumption|lia|assumption|]. apply in_cloud_keys. eapply nth_error_In; exact Ek.
    - intros ->. apply nth_error_ext. intros i.
      assert (Hlen' : length (inverse_of (cloud_keys (depth o) pc)) = length r) by (unfold inverse_of; rewrite map_length, (Forall2_len _ _ _ F); reflexivity).
      destruct (nth_error (cloud_keys (depth o) pc) i) as [k|] eqn:Ek.
      + assert (Hlt : (i < length (cloud_keys (depth o) pc))%nat) by (apply nth_error_Some; rewrite Ek; discriminate).
        destruct (nth_error r i) as [a|] eqn:Ea; [|apply nth_error_None in Ea; rewrite (Forall2_len _ _ _ F) in Ea; lia].
        destruct (nth_error (inverse_of (cloud_keys (depth o) pc)) i) as [b|] eqn:Eb;
          [|apply nth_error_None in Eb; rewrite Hlen', (Forall2_len _ _ _ F) in Eb; lia].
        f_equal. apply (found_unique (cells (depth o) pc) k).
        * apply (cells_ok _ _ _ G).
        * rewrite <- NE_top. exact (Forall2_nth _ _ _ _ _ _ F Ek Ea).
        * left. apply (inverse_nth _ _ _ _ Ek Eb).
      + apply nth_error_None in Ek. transitivity (@None Z); [|symmetry]; apply nth_error_None; [rewrite (Forall2_len _ _ _ F); exact Ek|].
        rewrite Hlen', (Forall2_len _ _ _ F). exact Ek.
  Qed.
End Find.

Lemma search_no_signals a b pts d ne : no_signals a = no_signals b -> search_pts a pts d ne = search_pts b pts d ne.
Proof. intros E. unfold search_pts, search_xyzb, search_key. rewrite <- (key_no_signals a), E, key_no_signals. reflexivity. Qed.
Lemma located_nudge pc : map nudge_row (located32 pc) = located (move_points nudge pc).
Proof.
  unfold located32, located, point_batches, move_points. cbn [p_points p_batch_size p_batch_id]. rewrite map_length.
  rewrite combine_map_l'. reflexivity.
Qed.
Lemma located_unit pc : Forall point_in_unit32 (p_points pc) -> Forall (fun pb => point_in_unit32 (fst pb)) (located32 pc).
Proof.
  rewrite !Forall_forall. intros H [p b] Hin. apply H. eapply in_combine_l; exact Hin.
Qed.
Lemma safe_unit p : safe_point32 p -> point_in_unit32 p.
Proof.
  destruct p as [[x y] z]. intros (Hx & Hy & Hz). repeat split; try apply safe_le; assumption.
Qed.

Lemma thm_found32 o pc o32 idx : build_input o (move_points nudge pc) -> Forall safe_point32 (p_points pc) -> build_tree32 o pc = Ok (o32, idx) ->
  search_pts32 o32 (scaled32 (depth o) (located32 pc)) (depth o) true = Ok idx /\
  forall d, (full_depth o <= d <= depth o)%nat ->
    exists js, search_pts32 o32 (scaled32 d (located32 pc)) d true = Ok js /\ length js = length (p_points pc) /\ Forall (fun j => (0 <= j)%Z) js.
Proof.
  intros Hi Hs E. assert (Hu : Forall point_in_unit32 (p_points pc)) by (eapply Forall_impl; [|exact Hs]; exact safe_unit).
  destruct (thm_tree32 (fun p => p) o pc Hi Hu) as (o' & idx' & o32' & E1 & E2 & E3). rewrite E in E2. injection E2 as <- <-.
  assert (Hb : Forall in_box (p_points (move_points nudge pc))).
  { cbn [p_points move_points]. apply Forall_map. eapply Forall_impl; [|exact Hs]. intros [[x y] z] (Hx & Hy & Hz).
    repeat split; apply nudge_box; assumption. }
  assert (K : forall d, (full_depth o <= d <= depth o)%nat ->
    exists js, search_pts32 o32 (scaled32 d (located32 pc)) d true = Ok js /\ length js = length (p_points pc) /\ Forall (fun j => (0 <= j)%Z) js /\ (d = depth o -> js = idx)).
  { intros d Hd. destruct (find_all _ _ _ Hi Hb d Hd _ _ E1) as (js & Ej & Hl & Hf & He). exists js.
    rewrite search_nudge, (search_no_signals o32 o') by (pose proof (bi_depth _ _ Hi); first [lia|apply located_unit; exact Hu|exact E3]).
    rewrite located_nudge. cbn [p_points move_points] in Hl. rewrite map_length in Hl. auto. }
  split.
  - destruct (K (depth o)) as (js & Ej & _ & _ & He); [pose proof (bi_full _ _ Hi); lia|]. rewrite (He eq_refl) in Ej. exact Ej.
  - intros d Hd. destruct (K d Hd) as (js & Ej & Hl & Hf & _). exists js. auto.
Qed.

(** ** statements of the property file *)
Lemma thm_nudge c : in_unit32 c -> Rabs (Q2R (nudge c) - B2R c) <= / 2 ^ 24 /\ -1 <= Q2R (nudge c) <= 1 /\
  (safe32 c -> Q2R (nudge c) < 1) /\ (B2R c < 1 -> on_grid c -> Q2R (nudge c) = B2R c).
Proof.
  intros H. destruct (nudge_near c H) as [H1 H2]. split; [exact H1|]. split; [exact H2|]. split.
  - intros Hs. destruct (nudge_box c Hs) as [_ Hlt]. unfold Qclt in Hlt. apply Qlt_Rlt in Hlt. rewrite Q2R_qz in Hlt. exact Hlt.
  - intros Hl Hg. apply nudge_grid; assumption.
Qed.
Lemma thm_points_found : forall o pc ids o32 idx, (full_depth o <= depth o <= 16)%nat -> (0 < Z.of_nat (batch_size o) <= 32768)%Z ->
  length (layers o) = S (depth o) -> p_batch_size pc = batch_size o -> length ids = length (p_points pc) ->
  (if Nat.eqb (batch_size o) 1 then ids = repeat 0%Z (length ids)
   else p_batch_id pc = Some ids /\ Forall (fun b => (0 <= b < Z.of_nat (batch_size o))%Z) ids) ->
  Forall safe_point32 (p_points pc) -> build_tree32 o pc = Ok (o32, idx) ->
  let query d := combine (map (rescale32 d) (p_points pc)) ids in
  search_pts32 o32 (query (depth o)) (depth o) true = Ok idx /\
  forall d, (full_depth o <= d <= depth o)%nat ->
    exists found, search_pts32 o32 (query d) d true = Ok found /\ length found = length (p_points pc) /\ Forall (fun j => (0 <= j)%Z) found.
Proof.
  intros o pc ids o32 idx Hd HB Hl Hs Hn Hids Hsafe E query.
  assert (Hloc : forall d, query d = scaled32 d (located32 pc)).
  { intros d. unfold query, scaled32, located32. rewrite Hs.
    replace (if Nat.eqb (batch_size o) 1 then repeat 0%Z (length (p_points pc)) else match p_batch_id pc with Some b => b | None => [] end) with ids.
    - rewrite combine_map_l'. apply map_ext. intros [p b]. reflexivity.
    - destruct (Nat.eqb (batch_size o) 1); [rewrite <- Hn; exact Hids|]. destruct Hids as [-> _]. reflexivity. }
  rewrite Hloc.
  assert (Hi : build_input o (move_points nudge pc)).
  { constructor; try lia. constructor; cbn [move_points p_batch_size p_batch_id p_points p_normals p_features]; try discriminate; try lia.
    intros H1. apply Nat.eqb_neq in H1. rewrite H1 in Hids. exists ids. rewrite map_length. tauto. }
  destruct (thm_found32 o pc o32 idx Hi Hsafe E) as [H1 H2]. split; [exact H1|].
  intros d Hdd. rewrite Hloc. apply H2; exact Hdd.
Qed.
Lemma thm_batch_size : forall normalize (o : octree) (pc : pcloud f32) (move : f32 -> Qc), p_batch_size pc <> batch_size o ->
  build_octree normalize o (move_points move pc) = Err AssertionError /\ build_tree32 o pc = Err AssertionError.
Proof.
  intros normalize o pc move H. apply Nat.eqb_neq in H. unfold build_octree, build_tree32.
  cbn [p_points p_batch_id p_batch_size p_normals p_features p_device move_points depth full_depth batch_size]. rewrite H. split; reflexivity.
Qed.
