(** Proofs about Transform and the whole pipeline. *)
From Coq Require Import String Ascii List ZArith Bool QArith Qcanon Lia Sorted Permutation.
From Verif Require Import Res Tensor Key Num Points Octree PointsOps Spec SpecGeo SpecBuild SpecNeigh SpecMerge SpecPoints WF
  ListFacts NumFacts SumFacts BuildThms NeighThms MergeFacts BuildMerge PointsFacts PointsClip Dataset SpecDataset DatasetFacts.
Import ListNotations.
Open Scope Z_scope.

Lemma on_rows_comp f g f' g' p : on_rows f g (on_rows f' g' p) = on_rows (fun v => f (f' v)) (fun v => g (g' v)) p.
Proof.
  unfold on_rows, set_pnormals, set_points. cbn [p_points p_normals p_features p_labels p_batch_id p_batch_size p_batch_npt p_device].
  rewrite map_map. f_equal. destruct (p_normals p) as [n|]; [|reflexivity]. cbn [option_map]. rewrite map_map. reflexivity.
Qed.
Lemma on_rows_ext f g f' g' p : (forall v, f v = f' v) -> (forall v, g v = g' v) -> on_rows f g p = on_rows f' g' p.
Proof.
  intros H1 H2. unfold on_rows, set_pnormals, set_points. cbn [p_points p_normals p_features p_labels p_batch_id p_batch_size p_batch_npt p_device].
  rewrite (map_ext _ _ H1). f_equal. destruct (p_normals p) as [n|]; [|reflexivity]. cbn [option_map]. rewrite (map_ext _ _ H2). reflexivity.
Qed.

Definition lsign (l : list ascii) (a : ascii) : Qc := if Nat.even (List.length (filter (Ascii.eqb a) l)) then qz 1 else qz (-1).
Definition flipped (l : list ascii) (v : v3 Qc) : v3 Qc :=
  let '(x, y, z) := v in (x * lsign l "x", y * lsign l "y", z * lsign l "z")%Qc.
Lemma lsign_cons c l a : lsign (c :: l) a = (if Ascii.eqb a c then qz (-1) * lsign l a else lsign l a)%Qc.
Proof.
  unfold lsign. cbn [filter]. destruct (Ascii.eqb a c); [|reflexivity]. cbn [List.length].
  rewrite Nat.even_succ, <- Nat.negb_even. destruct (Nat.even _); cbn [negb]; apply Qc_is_canon; reflexivity.
Qed.
Lemma flip_fold l : Forall (fun a => In a ["x"; "y"; "z"]%char) l -> forall p,
  foldM (fun p c => idx <- axis_of c ;; Ok (on_rows (qneg_at idx) (qneg_at idx) p)) p l = Ok (on_rows (flipped l) (flipped l) p).
Proof.
  induction l as [|c l IH]; intros H p.
  - cbn [foldM]. f_equal. rewrite (on_rows_ext (flipped []) (flipped []) (fun v => v) (fun v => v)).
    + unfold on_rows, set_pnormals, set_points. cbn [p_points p_normals p_features p_labels p_batch_id p_batch_size p_batch_npt p_device].
      rewrite map_id. destruct p as [pts [n|] f lb b bs bn d]; cbn [p_points p_normals option_map p_features p_labels p_batch_id p_batch_size p_batch_npt p_device]; [rewrite map_id|]; reflexivity.
    + intros [[x y] z]. unfold flipped, lsign. cbn [filter List.length Nat.even]. change (qz 1) with 1%Qc. rewrite !Qcmult_1_r. reflexivity.
    + intros [[x y] z]. unfold flipped, lsign. cbn [filter List.length Nat.even]. change (qz 1) with 1%Qc. rewrite !Qcmult_1_r. reflexivity.
  - inversion H as [|c' l' Hc Hl]; subst. cbn [foldM].
    assert (K : exists idx, axis_of c = Ok idx /\ forall v, flipped l (qneg_at idx v) = flipped (c :: l) v).
    { destruct Hc as [<-|[<-|[<-|[]]]]; eexists; (split; [reflexivity|]); intros [[x y] z]; unfold flipped; rewrite !lsign_cons; cbn -[Qcmult Qcplus qz lsign];
      rewrite ?Qcmult_assoc; reflexivity. }
    destruct K as (idx & Ei & Ef). rewrite Ei. cbn [bind]. rewrite IH by exact Hl. rewrite on_rows_comp. f_equal. apply on_rows_ext; exact Ef.
Qed.

Lemma is_true (a b : Qc) : (if Qc_eq_dec a b then true else false) = true <-> a = b.
Proof. destruct (Qc_eq_dec a b); split; congruence. Qed.
Definition rescaled (nrm : v3 Qc -> v3 Qc) (sx sy sz : Qc) (n : v3 Qc) : v3 Qc :=
  let '(nx, ny, nz) := n in
  if Qc_eq_dec sx sy then if Qc_eq_dec sx sz then (nx, ny, nz) else nrm (nx / sx, ny / sy, nz / sz)%Qc else nrm (nx / sx, ny / sy, nz / sz)%Qc.
Lemma qscale_ok nrm fx fy fz : fx <> 0%Qc -> fy <> 0%Qc -> fz <> 0%Qc ->
  forall p, qscale nrm (fx, fy, fz) p = Ok (on_rows (fun v => v3zip Qcmult v (fx, fy, fz)) (rescaled nrm fx fy fz) p).
Proof.
  intros Hx Hy Hz p. unfold qscale.
  assert (N : forall a, a <> 0%Qc -> negb (if Qc_eq_dec a 0%Qc then true else false) = true) by (intros a Ha; destruct (Qc_eq_dec a 0%Qc); [contradiction|reflexivity]).
  rewrite !N by assumption. cbn [andb assert_ bind].
  destruct ((if Qc_eq_dec fx 1 then true else false) && (if Qc_eq_dec fy 1 then true else false) && (if Qc_eq_dec fz 1 then true else false)) eqn:E.
  - rewrite !andb_true_iff, !is_true in E. destruct E as [[-> ->] ->]. f_equal.
    unfold on_rows, set_pnormals, set_points. destruct p as [pts n f lb b bs bn d]. cbn [p_points p_normals p_features p_labels p_batch_id p_batch_size p_batch_npt p_device].
    f_equal.
    + symmetry. rewrite <- (map_id pts) at 2. apply map_ext. intros [[x y] z]. cbn [v3zip]. rewrite !Qcmult_1_r. reflexivity.
    + destruct n as [n|]; [|reflexivity]. cbn [option_map]. f_equal. symmetry. rewrite <- (map_id n) at 2. apply map_ext. intros [[x y] z]. unfold rescaled.
      destruct (Qc_eq_dec 1 1) as [_|N1]; [reflexivity|congruence].
  - f_equal. unfold on_rows, set_pnormals, set_points. cbn [p_points p_normals p_features p_labels p_batch_id p_batch_size p_batch_npt p_device].
    destruct (p_normals p) as [n|]; [|reflexivity]. cbn [option_map]. f_equal. f_equal. apply map_ext. intros [[x y] z]. unfold rescaled.
    destruct (Qc_eq_dec fx fx) as [_|Nx]; [|congruence]. cbn [negb orb].
    destruct (Qc_eq_dec fy fx) as [Ey|Ny]; destruct (Qc_eq_dec fx fy) as [Ey'|Ny']; try congruence; cbn [negb orb]; [|cbn [v3zip v3map]; unfold Qcdiv; reflexivity].
    destruct (Qc_eq_dec fz fx) as [Ez|Nz]; destruct (Qc_eq_dec fx fz) as [Ez'|Nz']; try congruence; cbn [negb]; [reflexivity|cbn [v3zip v3map]; unfold Qcdiv; reflexivity].
Qed.
Lemma qltb_true a b : qltb a b = true <-> (a < b)%Qc.
Proof.
  unfold qltb. rewrite negb_true_iff. split; intros H.
  - apply Qcnot_le_lt. intros C. apply Qle_bool_iff in C. congruence.
  - destruct (Qle_bool b a) eqn:E; [|reflexivity]. apply Qle_bool_iff in E. exfalso. exact (Qcle_not_lt b a E H).
Qed.
Lemma qlt_dec {A} a b (u v : A) : (if qltb a b then u else v) = if Qclt_le_dec a b then u else v.
Proof.
  destruct (Qclt_le_dec a b) as [L|L]; [apply qltb_true in L; rewrite L; reflexivity|]. destruct (qltb a b) eqn:E; [|reflexivity]. apply qltb_true in E. exfalso. apply (Qclt_not_le _ _ E). exact L.
Qed.
Lemma qorient_ok axis : In axis ["x"; "y"; "z"; "xyz"]%string -> forall p, qorient axis p = Ok (on_rows (fun v => v) (oriented axis) p).
Proof.
  assert (K : forall g p, on_rows (fun v => v) g p = set_pnormals p g).
  { intros g p. unfold on_rows, set_points, set_pnormals. cbn [p_points p_normals p_features p_labels p_batch_id p_batch_size p_batch_npt p_device]. rewrite map_id. reflexivity. }
  assert (K0 : forall g (p : pcloud Qc), p_normals p = None -> set_pnormals p g = p).
  { intros g p H. destruct p. cbn in H. subst. reflexivity. }
  assert (K1 : forall g g' (p : pcloud Qc), (forall n, g n = g' n) -> set_pnormals p g = set_pnormals p g').
  { intros g g' p Hg. unfold set_pnormals. destruct (p_normals p); cbn [option_map]; [rewrite (map_ext _ _ Hg)|]; reflexivity. }
  intros H p. unfold qorient. rewrite K. destruct (p_normals p) as [nl|] eqn:E; [|rewrite K0 by exact E; reflexivity].
  destruct H as [<-|[<-|[<-|[<-|[]]]]]; cbn [String.eqb Ascii.eqb Bool.eqb]; f_equal; apply K1; intros [[x y] z]; unfold qorient_row, oriented, reversed, qabs; rewrite ?qlt_dec; cbn [String.eqb Ascii.eqb Bool.eqb v3map].
  1-3: match goal with |- context [Qclt_le_dec 0 ?c] => destruct (Qclt_le_dec 0 c) end; f_equal; try f_equal; (rewrite Qcmult_1_r; reflexivity) || (change (qz (-1)) with (- (1))%Qc; ring).
  rewrite !qlt_dec. reflexivity.
Qed.

(** The geometric part: one map for the points, one for the normals. *)
Lemma augment_ok nrm c r : In (t_orient c) [""; "x"; "y"; "z"; "xyz"]%string -> (t_distort c = true -> draw_ok r) ->
  forall p, (points <- (if t_distort c then
               points <- qflip (d_flip r) p ;;
               let points := qrotate (d_rot r) points in
               let points := qtranslate (d_jitter r) points in
               qscale nrm (d_scale r) points
             else Ok p) ;;
     (if String.eqb (t_orient c) "" then Ok points else qorient (t_orient c) points))
   = Ok (on_rows (if t_distort c then augmented r else (fun v => v)) (fun n => oriented (t_orient c) (if t_distort c then turned nrm r n else n)) p).
Proof.
  intros Ho Hd.
  assert (A : forall p, (if t_distort c then
               points <- qflip (d_flip r) p ;;
               let points := qrotate (d_rot r) points in
               let points := qtranslate (d_jitter r) points in
               qscale nrm (d_scale r) points
             else Ok p) = Ok (on_rows (if t_distort c then augmented r else (fun v => v)) (fun n => if t_distort c then turned nrm r n else n) p)).
  { destruct (t_distort c).
    - destruct (Hd eq_refl) as [Hf Hs]. destruct (d_scale r) as [[sx sy] sz] eqn:Es. destruct Hs as (S1 & S2 & S3).
      pose proof (qscale_ok nrm sx sy sz S1 S2 S3) as Hg. intros p. unfold qflip. rewrite flip_fold by exact Hf. cbn [bind]. cbn zeta.
      rewrite Hg. f_equal. unfold qrotate, qtranslate.
      change (set_points ?q ?f) with (set_points q f).
      assert (T : forall q f, set_points q f = on_rows f (fun v => v) q).
      { intros q f. unfold on_rows, set_pnormals, set_points. destruct q as [pts [n|] fe lb b bs bn d]; cbn [p_points p_normals p_features p_labels p_batch_id p_batch_size p_batch_npt p_device option_map]; [rewrite map_id|]; reflexivity. }
      rewrite T, !on_rows_comp. apply on_rows_ext.
      + intros [[x y] z]. unfold augmented. rewrite Es. unfold flipped, sign_of, lsign, qvecmat.
        destruct (d_rot r) as [[[[a1 a2] a3] [[b1 b2] b3]] [[c1 c2] c3]]. destruct (d_jitter r) as [[j1 j2] j3]. reflexivity.
      + intros [[x y] z]. unfold turned. rewrite Es. unfold flipped, sign_of, lsign, qvecmat.
        destruct (d_rot r) as [[[[a1 a2] a3] [[b1 b2] b3]] [[c1 c2] c3]]. reflexivity.
    - intros p. f_equal. unfold on_rows, set_pnormals, set_points.
      destruct p as [pts [n|] f lb b bs bn d]; cbn [p_points p_normals option_map p_features p_labels p_batch_id p_batch_size p_batch_npt p_device]; rewrite !map_id; reflexivity. }
  destruct (String.eqb_spec (t_orient c) "") as [E|N].
  - intros p. rewrite A. cbn [bind]. f_equal. apply on_rows_ext; intros v; [reflexivity|]. rewrite E. destruct (if t_distort c then turned nrm r v else v) as [[x y] z]. reflexivity.
  - destruct Ho as [Ho|Ho]; [congruence|]. intros p. rewrite A. cbn [bind]. rewrite (qorient_ok _ Ho), on_rows_comp. reflexivity.
Qed.

Lemma dpop_spec {A} (d : dict A) k v : NoDup (map fst d) -> dlookup d k = Some v ->
  exists d', dpop d k = Ok (v, d') /\ NoDup (map fst d') /\ (forall k', dlookup d' k' = if String.eqb k' k then None else dlookup d k') /\
    (forall k', In k' (map fst d') <-> In k' (map fst d) /\ k' <> k).
Proof.
  induction d as [|[k0 v0] d IH]; [discriminate|]. cbn [map fst]. intros Hn Hl. inversion Hn as [|a b Hn1 Hn2]; subst. cbn [dlookup dpop] in *.
  assert (Hno : forall k' (d : dict A), ~ In k' (map fst d) -> dlookup d k' = None).
  { clear. intros k' d. induction d as [|[a b] d IH]; [reflexivity|]. cbn [map fst dlookup]. intros H. destruct (String.eqb_spec k' a) as [->|]; [exfalso; apply H; left; reflexivity|].
    apply IH. intros Hin. apply H. right. exact Hin. }
  destruct (String.eqb_spec k k0) as [->|N].
  - injection Hl as ->. exists d. split; [reflexivity|]. split; [exact Hn2|]. split.
    + intros k'. destruct (String.eqb_spec k' k0) as [->|]; [apply Hno; exact Hn1|reflexivity].
    + intros k'. split; [intros H; split; [right; exact H|intros ->; contradiction]|intros [[->|H] Hne]; [congruence|exact H]].
  - destruct (IH Hn2 Hl) as (d' & E & Hn' & Hd & Hk). rewrite E. cbn [bind]. exists ((k0, v0) :: d'). split; [reflexivity|]. split.
    + cbn [map fst]. constructor; [|exact Hn']. rewrite Hk. tauto.
    + split.
      * intros k'. cbn [dlookup]. rewrite Hd. destruct (String.eqb_spec k' k0) as [->|]; [|reflexivity]. destruct (String.eqb_spec k0 k); [congruence|reflexivity].
      * intros k'. cbn [map fst In]. rewrite Hk. split; [intros [<-|[H1 H2]]; auto|intros [[->|H1] H2]; auto].
Qed.
Lemma dlookup_in {A} (d : dict A) k v : dlookup d k = Some v -> In k (map fst d).
Proof.
  induction d as [|[a b] d IH]; [discriminate|]. cbn [dlookup map fst In]. destruct (String.eqb_spec k a) as [->|]; [left; reflexivity|right; apply IH; assumption].
Qed.
Lemma dset_nodup {A} (d : dict A) k v : NoDup (map fst d) -> NoDup (map fst (dset d k v)).
Proof.
  intros H. destruct (in_dec string_dec k (map fst d)) as [Hi|Hi].
  - rewrite dset_keys_in by exact Hi. exact H.
  - rewrite dset_keys_new by exact Hi. apply (Permutation_NoDup (Permutation_cons_append _ _)). constructor; assumption.
Qed.
Lemma dset_keys {A} (d : dict A) k v k' : In k' (map fst (dset d k v)) <-> In k' (map fst d) \/ k' = k.
Proof.
  destruct (in_dec string_dec k (map fst d)) as [Hi|Hi].
  - rewrite dset_keys_in by exact Hi. split; [auto|intros [H| ->]; assumption].
  - rewrite dset_keys_new by exact Hi. rewrite in_app_iff. cbn [In]. split; [intros [H|[H|[]]]; auto|intros [H|H]; auto].
Qed.

Lemma rows_at_map {A B} keep (f : A -> B) l l' : SpecPoints.rows_at keep (fun x => x) (map f l) l' -> SpecPoints.rows_at keep f l l'.
Proof.
  unfold SpecPoints.rows_at. intros H. induction H as [|i b k l' Hi H IH]; constructor; [|exact IH].
  rewrite nth_error_map in Hi. destruct (nth_error l i); exact Hi.
Qed.

Theorem thm_transform : forall nrm c r, cfg_ok c -> (t_distort c = true -> draw_ok r) ->
  forall s xyz normals, sample_ok s xyz normals ->
  let f := if t_distort c then augmented r else (fun v => v) in
  let g := fun n => oriented (t_orient c) (if t_distort c then turned nrm r n else n) in
  exists out q mask keep o idx, transform_call nrm c r s = Ok out /\ NoDup (map fst out) /\
    dlookup out "points" = Some (VPts q) /\ dlookup out "inbox_mask" = Some (VMask mask) /\ dlookup out "octree" = Some (VOct o) /\
    dlookup out "normals" = None /\
    (forall k, ~ In k ["points"; "normals"; "inbox_mask"; "octree"]%string -> dlookup out k = dlookup s k) /\
    (forall k, In k (map fst out) <-> k <> "normals"%string /\ (In k (map fst s) \/ In k ["inbox_mask"; "octree"]%string)) /\
    List.length mask = List.length xyz /\
    carried keep f g (mkPoints xyz (Some normals) None None None 1 None 0) q /\
    (forall i v, nth_error xyz i = Some v ->
       (In i keep <-> inside (Q2Qc (-99 # 100)) (Q2Qc (99 # 100)) (f v)) /\
       (nth_error mask i = Some true <-> inside (Q2Qc (-99 # 100)) (Q2Qc (99 # 100)) (f v))) /\
    good_cloud 1 q /\ Forall in_box (p_points q) /\ p_device q = 0%nat /\
    p_features q = None /\ p_labels q = None /\ p_normals q <> None /\
    build_octree nrm (octree_new (t_cdepth c) (t_cfull c) 1 0) q = Ok (o, idx) /\
    wf_octree o /\ depth o = t_cdepth c /\ full_depth o = t_cfull c /\ batch_size o = 1%nat.
Proof.
  intros nrm c r (C1 & C2 & C3) Hd. pose proof (augment_ok nrm c r C3 Hd) as Hg.
  intros s xyz normals (Sn & Sp & Sm & Sl) f g.
  destruct (dpop_spec s "points" _ Sn Sp) as (s1 & E1 & N1 & L1 & K1).
  assert (Sm1 : dlookup s1 "normals" = Some (VArr normals)) by (rewrite L1; exact Sm).
  destruct (dpop_spec s1 "normals" _ N1 Sm1) as (s2 & E2 & N2 & L2 & K2).
  set (p0 := mkPoints xyz (Some normals) None None None 1 None 0%nat : pcloud Qc).
  assert (Pre : preprocess s = Ok (dset s2 "points" (VPts p0))).
  { unfold preprocess. rewrite E1. cbn [bind]. rewrite E2. cbn [bind]. unfold points_new. cbn [opt_check bind]. rewrite Sl, Nat.eqb_refl. reflexivity. }
  set (p1 := on_rows f g p0) in *.
  assert (Ok1 : cloud_ok p1).
  { unfold cloud_ok, p1, on_rows, set_pnormals, set_points, npt, rows_ok. cbn. rewrite !map_length. auto. }
  destruct (thm_clip (qz (-1)) (qz 1) (Q2Qc (1 # 100)) p1 Ok1) as (mask & q & keep & Ec & Lm & Ca & Hin & Hb & Hdv).
  assert (Tr : transform nrm c r (dset s2 "points" (VPts p0)) = Ok (dset (dset (dset s2 "points" (VPts p0)) "points" (VPts q)) "inbox_mask" (VMask mask))).
  { unfold transform. unfold dget at 1. rewrite dlookup_dset, String.eqb_refl. cbn [bind as_pts].
    pose proof (Hg p0) as G. fold f g in G. fold p1 in G. revert G.
    destruct (if t_distort c then _ else _) as [pts|e]; cbn [bind]; [|discriminate]. intros G. rewrite G. cbn [bind]. rewrite Ec. reflexivity. }
  rewrite dset_twice in Tr.
  set (out2 := dset (dset s2 "points" (VPts q)) "inbox_mask" (VMask mask)) in *.
  assert (G1 : good_cloud 1 p1).
  { constructor; try reflexivity; try lia; unfold p1, on_rows, set_pnormals, set_points; cbn; try congruence.
    - intros n E. injection E as <-. rewrite !map_length. exact Sl. }
  assert (B1 : build_input (octree_new (t_cdepth c) (t_cfull c) 1 0) p1).
  { constructor; try assumption; try (cbn; lia). cbn. rewrite repeat_length. lia. }
  destruct (thm_clip_build nrm _ p1 B1 Ok1) as (mask' & q' & Ec' & Bq & Bx & o & idx & Eb & W).
  rewrite Ec in Ec'. assert (Eq : forall A (x y : A), Ok x = Ok y -> x = y) by congruence. apply Eq in Ec'. injection Ec' as <- <-.
  destruct (thm_build_wf nrm _ q Bq) as (o' & idx' & Eb' & _ & D1 & D2 & D3 & _). rewrite Eb in Eb'. apply Eq in Eb'. injection Eb' as <- <-.
  exists (dset out2 "octree" (VOct o)), q, mask, keep, o, idx.
  split. { unfold transform_call. rewrite Pre. cbn [bind]. rewrite Tr. cbn [bind]. unfold dget. unfold out2 at 1. rewrite !dlookup_dset. cbn [String.eqb Ascii.eqb Bool.eqb bind as_pts].
    rewrite Eb. reflexivity. }
  split. { apply dset_nodup. unfold out2. apply dset_nodup. apply dset_nodup. exact N2. }
  assert (Lk : forall k, dlookup (dset out2 "octree" (VOct o)) k = if String.eqb k "octree" then Some (VOct o) else if String.eqb k "inbox_mask" then Some (VMask mask)
     else if String.eqb k "points" then Some (VPts q) else if String.eqb k "normals" then None else dlookup s k).
  { intros k. unfold out2. rewrite !dlookup_dset, L2, L1. destruct (String.eqb k "octree"), (String.eqb k "inbox_mask"), (String.eqb k "points"), (String.eqb k "normals"); reflexivity. }
  split; [rewrite Lk; reflexivity|]. split; [rewrite Lk; reflexivity|]. split; [rewrite Lk; reflexivity|]. split; [rewrite Lk; reflexivity|].
  split. { intros k Hk. rewrite Lk. cbn [In] in Hk.
    destruct (String.eqb_spec k "octree"), (String.eqb_spec k "inbox_mask"), (String.eqb_spec k "points"), (String.eqb_spec k "normals"); subst; tauto || (exfalso; apply Hk; auto 6). }
  split. { intros k. unfold out2. rewrite !dset_keys, K2, K1. cbn [In].
    assert (Pk : In "points"%string (map fst s)) by (eapply dlookup_in; exact Sp).
    destruct (string_dec k "normals") as [->|Nn]; [split; [intros [[[H|H]|H]|H]; [tauto|discriminate H|discriminate H|discriminate H]|intros [H _]; congruence]|].
    split.
    - intros [[[H|H]|H]|H]; split; try assumption; [left; tauto|left; subst; exact Pk|right; left; auto|right; right; left; auto].
    - intros [_ [H|[H|[H|[]]]]]; auto. destruct (string_dec k "points") as [->|]; [left; left; right; reflexivity|left; left; left; tauto]. }
  assert (Lp : List.length (p_points p1) = List.length xyz) by (unfold p1, on_rows, set_pnormals, set_points; cbn; apply map_length).
  split. { rewrite Lm. exact Lp. }
  split. { destruct Ca as (K & P & Nn & F & L & B). split; [exact K|]. split; [apply rows_at_map; exact P|].
    unfold p1, p0, on_rows, set_pnormals, set_points in Nn, F, L, B. cbn [p_normals p_features p_labels p_batch_id option_map] in *.
    split; [|split; [exact F|split; [exact L|exact B]]]. unfold attr_at in *. destruct (p_normals q); [apply rows_at_map; exact Nn|exact Nn]. }
  split. { intros i v Hv. assert (Hv1 : nth_error (p_points p1) i = Some (f v)) by (change (p_points p1) with (map f xyz); rewrite nth_error_map, Hv; reflexivity).
    assert (El : (qz (-1) + Q2Qc (1 # 100))%Qc = Q2Qc (-99 # 100)) by (apply Qc_is_canon; reflexivity).
    assert (Eh : (qz 1 - Q2Qc (1 # 100))%Qc = Q2Qc (99 # 100)) by (apply Qc_is_canon; reflexivity).
    pose proof (Hin i (f v) Hv1) as HH. rewrite El, Eh in HH. exact HH. }
  split; [exact (bi_cloud _ _ Bq)|]. split; [exact Bx|]. split; [rewrite Hdv; reflexivity|].
  destruct Ca as (_ & _ & Nn & F & L & _). unfold p1, p0, on_rows, set_pnormals, set_points in Nn, F, L. cbn [p_normals p_features p_labels option_map attr_at] in *.
  split; [destruct (p_features q); [destruct F|reflexivity]|]. split; [destruct (p_labels q); [destruct L|reflexivity]|].
  split; [destruct (p_normals q); [discriminate|destruct Nn]|].
  split; [exact Eb|]. split; [exact W|]. split; [exact D1|]. split; [exact D2|exact D3].
Qed.
