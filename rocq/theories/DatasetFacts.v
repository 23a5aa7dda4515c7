(** Proofs about the data pipeline. *)
From Coq Require Import String Ascii List ZArith Bool QArith Qcanon Lia.
From Verif Require Import Res Tensor Key Num Points Octree PointsOps Spec SpecGeo SpecBuild SpecNeigh SpecMerge SpecPoints WF
  ListFacts NumFacts SumFacts BuildThms NeighThms MergeFacts BuildMerge PointsFacts PointsClip Dataset SpecDataset.
Import ListNotations.
Open Scope Z_scope.

(** ** strings and dictionaries *)
Lemma prefix_spec sub : forall s, String.prefix sub s = true <-> exists b, s = (sub ++ b)%string.
Proof.
  induction sub as [|c sub IH]; intros s.
  - split; [intros _; exists s; reflexivity|intros _; destruct s; reflexivity].
  - destruct s as [|c' s]; cbn [String.prefix].
    + split; [discriminate|]. intros (b & H). discriminate H.
    + destruct (ascii_dec c c') as [->|N].
      * rewrite IH. split; intros (b & H); exists b; [rewrite H; reflexivity|injection H as H; exact H].
      * split; [discriminate|]. intros (b & H). injection H as H1 H2. congruence.
Qed.
Lemma contains_spec sub s : contains sub s = true <-> mentions s sub.
Proof.
  unfold mentions. revert sub. induction s as [|c s IH]; intros sub; cbn [contains]; rewrite orb_true_iff, prefix_spec.
  - split.
    + intros [(b & H)|H]; [exists ""%string, b; exact H|discriminate].
    + intros (a & b & H). left. exists b. destruct a; [exact H|discriminate].
  - rewrite IH. split.
    + intros [(b & H)|(a & b & H)]; [exists ""%string, b; exact H|exists (String c a), b; rewrite H; reflexivity].
    + intros (a & b & H). destruct a as [|c' a]; [left; exists b; exact H|right; exists a, b; injection H as _ H; exact H].
Qed.
Lemma contains_no sub s : contains sub s = false <-> ~ mentions s sub.
Proof. rewrite <- contains_spec. destruct (contains sub s); split; congruence. Qed.

Lemma dlookup_dset {A} (d : dict A) k v k' : dlookup (dset d k v) k' = if String.eqb k' k then Some v else dlookup d k'.
Proof.
  induction d as [|[k0 v0] d IH]; cbn [dset dlookup].
  - reflexivity.
  - destruct (String.eqb_spec k k0) as [->|N]; cbn [dlookup].
    + destruct (String.eqb_spec k' k0); reflexivity.
    + rewrite IH. destruct (String.eqb_spec k' k0) as [->|N']; [|reflexivity].
      destruct (String.eqb_spec k0 k); [congruence|reflexivity].
Qed.
Lemma dset_keys_in {A} (d : dict A) k v : In k (map fst d) -> map fst (dset d k v) = map fst d.
Proof.
  induction d as [|[k0 v0] d IH]; [intros []|]. cbn [dset map fst]. intros H.
  destruct (String.eqb_spec k k0) as [->|N]; [reflexivity|]. cbn [map fst]. rewrite IH; [reflexivity|].
  destruct H as [H|H]; [congruence|exact H].
Qed.
Lemma dset_keys_new {A} (d : dict A) k v : ~ In k (map fst d) -> map fst (dset d k v) = map fst d ++ [k].
Proof.
  induction d as [|[k0 v0] d IH]; [reflexivity|]. cbn [dset map fst]. intros H.
  destruct (String.eqb_spec k k0) as [->|N]; [exfalso; apply H; left; reflexivity|]. cbn [map fst app]. rewrite IH; [reflexivity|].
  intros Hin. apply H. right. exact Hin.
Qed.
Lemma dset_twice {A} (d : dict A) k v w : dset (dset d k v) k w = dset d k w.
Proof.
  induction d as [|[k0 v0] d IH]; cbn [dset].
  - rewrite String.eqb_refl. reflexivity.
  - destruct (String.eqb_spec k k0) as [->|N]; cbn [dset].
    + rewrite String.eqb_refl. reflexivity.
    + destruct (String.eqb_spec k k0); [congruence|]. rewrite IH. reflexivity.
Qed.

(** ** CollateBatch *)
Lemma map_as {A B} (f : A -> B) (g : B -> res A) l : (forall a, g (f a) = Ok a) -> mapM g (map f l) = Ok l.
Proof. intros H. induction l as [|a l IH]; [reflexivity|]. cbn [map mapM]. rewrite H. cbn [bind]. rewrite IH. reflexivity. Qed.

Lemma collate_key_ok mp batch outs key vs : mapM (fun b => dget b key) batch = Ok vs -> clean_key key -> collatable mp key vs ->
  exists v, collate_key mp batch outs key = Ok (dset outs key v) /\ collated mp key vs v.
Proof.
  intros Ev [Cop Cl] (H1 & H2 & H3). unfold collate_key. rewrite Ev. cbn [bind]. cbn zeta.
  destruct (contains "octree" key) eqn:Eo.
  - apply contains_spec in Eo. destruct (H1 Eo) as (o0 & os & -> & Hm & Hf).
    assert (Ep : contains "points" key = false) by (apply contains_no; tauto).
    assert (El : contains "label" key = false).
    { apply contains_no. intros H. apply Cl in H. subst key. apply contains_spec in Eo. discriminate. }
    rewrite (map_as VOct as_oct) by reflexivity. cbn [bind].
    destruct (thm_merge o0 os Hm) as (om & Em & W & Ed & Ef & _).
    rewrite Em. cbn [bind].
    destruct (thm_all_neigh om W) as (o' & Eo' & _); [rewrite Ef; exact Hf|]. rewrite Eo'. cbn [bind].
    rewrite Ep, El. cbn [andb bind]. exists (OOne (VOct o')). split; [rewrite dset_twice; reflexivity|].
    apply contains_no in Ep, El. split; [|split; [|split]]; intros; try tauto. exists os, om, o'. auto.
  - cbn [bind]. destruct (contains "points" key && mp) eqn:Ep.
    + apply andb_true_iff in Ep. destruct Ep as [Ep Emp]. apply contains_spec in Ep.
      destruct (H2 Ep Emp) as (ps & -> & Hne & C1 & C2 & C3).
      assert (El : contains "label" key = false).
      { apply contains_no. intros H. apply Cl in H. subst key. apply contains_spec in Ep. discriminate. }
      unfold dget at 1. rewrite dlookup_dset, String.eqb_refl. cbn [bind].
      rewrite (map_as VPts as_pts) by reflexivity. cbn [bind].
      destruct ps as [|p0 ps]; [congruence|].
      destruct (thm_merge_points (p0 :: ps) p0 eq_refl C1 C2 C3) as (p & Emp' & _). rewrite Emp'. cbn [bind].
      rewrite El. exists (OOne (VPts p)). split; [rewrite dset_twice; reflexivity|].
      apply contains_no in Eo, El. split; [|split; [|split]]; intros; try tauto. exists (p0 :: ps), p. auto.
    + cbn [bind]. apply contains_no in Eo. destruct (contains "label" key) eqn:El.
      * apply contains_spec in El. destruct (H3 El) as (zs & ->). pose proof (Cl El) as ->.
        unfold dget. rewrite dlookup_dset, String.eqb_refl. cbn [bind].
        rewrite (map_as VNum as_num) by reflexivity. cbn [bind]. exists (OTensor zs). split; [rewrite dset_twice; reflexivity|].
        split; [|split; [|split]]; intros; try tauto; [|exists zs; auto].
        exfalso. apply contains_spec in H. discriminate.
      * exists (OList vs). split; [reflexivity|]. apply contains_no in El. split; [|split; [|split]]; intros; try tauto; try reflexivity.
        apply andb_false_iff in Ep. destruct Ep as [Ep|Ep]; [apply contains_no in Ep; tauto|congruence].
Qed.

Lemma mapM_lookup batch key : Forall (fun b : dict value => dlookup b key <> None) batch ->
  exists vs, mapM (fun b => dget b key) batch = Ok vs /\ Forall2 (fun b v => dlookup b key = Some v) batch vs.
Proof.
  intros H. induction H as [|b batch Hb H (vs & E & F)]; [exists []; split; [reflexivity|constructor]|].
  destruct (dlookup b key) as [v|] eqn:Eb; [|congruence]. exists (v :: vs). cbn [mapM]. unfold dget at 1. rewrite Eb. cbn [bind]. rewrite E.
  split; [reflexivity|constructor; assumption].
Qed.
Lemma lookup_det (batch : list (dict value)) key : forall vs vs', Forall2 (fun b v => dlookup b key = Some v) batch vs ->
  Forall2 (fun b v => dlookup b key = Some v) batch vs' -> vs' = vs.
Proof.
  intros vs vs' H. revert vs'. induction H as [|b v batch vs Hb H IH]; intros vs' H'; inversion H' as [|b' v' bt vt Hb' Ht]; subst; [reflexivity|].
  rewrite (IH vt Ht). congruence.
Qed.

Lemma collate_fold mp batch : forall ks outs,
  NoDup ks -> (forall k, In k ks -> ~ In k (map fst outs)) ->
  (forall k, In k ks -> clean_key k /\ exists vs, Forall2 (fun b v => dlookup b k = Some v) batch vs /\ collatable mp k vs) ->
  exists out, foldM (collate_key mp batch) outs ks = Ok out /\ map fst out = map fst outs ++ ks /\
    (forall k, ~ In k ks -> dlookup out k = dlookup outs k) /\
    forall k, In k ks -> exists vs v, Forall2 (fun b v => dlookup b k = Some v) batch vs /\ dlookup out k = Some v /\ collated mp k vs v.
Proof.
  induction ks as [|k ks IH]; intros outs Hn Hout Hk.
  - exists outs. cbn [foldM]. rewrite app_nil_r. split; [reflexivity|]. split; [reflexivity|]. split; [reflexivity|]. intros k [].
  - inversion Hn as [|k' ks' Hnk Hnd]; subst.
    destruct (Hk k (or_introl eq_refl)) as (Hc & vs & Hvs & Hcol).
    destruct (mapM_lookup batch k) as (vs' & Em & Hvs').
    { clear - Hvs. induction Hvs; constructor; [congruence|assumption]. }
    rewrite (lookup_det _ _ _ _ Hvs Hvs') in *.
    destruct (collate_key_ok mp batch outs k vs Em Hc Hcol) as (v & E & Hv).
    cbn [foldM]. rewrite E. cbn [bind].
    destruct (IH (dset outs k v)) as (out & Eo & Ek & Hold & Hnew); [exact Hnd| |intros k' Hk'; apply Hk; right; exact Hk'|].
    { intros k' Hk' Hin. rewrite dset_keys_new in Hin by (apply Hout; left; reflexivity). apply in_app_or in Hin. destruct Hin as [Hin|[->|[]]].
      - apply (Hout k'); [right; exact Hk'|exact Hin].
      - contradiction. }
    exists out. split; [exact Eo|]. split.
    { rewrite Ek, dset_keys_new by (apply Hout; left; reflexivity). rewrite <- app_assoc. reflexivity. }
    split.
    + intros k' Hk'. rewrite Hold by (intros H; apply Hk'; right; exact H). rewrite dlookup_dset.
      destruct (String.eqb_spec k' k) as [->|N]; [|reflexivity]. exfalso. apply Hk'. left. reflexivity.
    + intros k' [<-|Hk']; [|apply Hnew; exact Hk'].
      exists vs, v. split; [exact Hvs|]. split; [|exact Hv]. rewrite Hold by exact Hnk. rewrite dlookup_dset, String.eqb_refl. reflexivity.
Qed.

Theorem thm_collate : forall mp b0 rest, NoDup (map fst b0) ->
  (forall k, In k (map fst b0) -> clean_key k /\
     exists vs, Forall2 (fun b v => dlookup b k = Some v) (b0 :: rest) vs /\ collatable mp k vs) ->
  exists out, collate mp (b0 :: rest) = Ok out /\ map fst out = map fst b0 /\
    forall k, In k (map fst b0) -> exists vs v, Forall2 (fun b v => dlookup b k = Some v) (b0 :: rest) vs /\
      dlookup out k = Some v /\ collated mp k vs v.
Proof.
  intros mp b0 rest Hn Hk. unfold collate. destruct (collate_fold mp (b0 :: rest) (map fst b0) [] Hn) as (out & E & Ek & _ & H).
  - intros k _ [].
  - exact Hk.
  - exists out. split; [exact E|]. split; [exact Ek|exact H].
Qed.

(** A key the first sample has and another lacks. *)
Lemma collate_key_missing : forall mp batch outs key b, In b batch -> dlookup b key = None ->
  collate_key mp batch outs key = Err KeyError.
Proof.
  intros mp batch outs key b Hin Hb. unfold collate_key.
  assert (E : mapM (fun b => dget b key) batch = Err KeyError).
  { induction batch as [|a batch IH]; [destruct Hin|]. cbn [mapM]. unfold dget at 1. destruct (dlookup a key) eqn:Ea; [|reflexivity]. cbn [bind].
    destruct Hin as [->|Hin]; [congruence|]. rewrite IH by exact Hin. reflexivity. }
  rewrite E. reflexivity.
Qed.
Lemma collate_missing mp batch k b ks : In k ks -> In b batch -> dlookup b k = None -> forall outs, exists e, foldM (collate_key mp batch) outs ks = Err e.
Proof.
  intros Hk Hb N. induction ks as [|k' ks IH]; intros outs; [destruct Hk|]. cbn [foldM]. destruct Hk as [->|Hk].
  - rewrite (collate_key_missing mp batch outs k b Hb N). exists KeyError. reflexivity.
  - destruct (collate_key mp batch outs k') as [outs'|e]; cbn [bind]; [apply IH; exact Hk|exists e; reflexivity].
Qed.
Theorem thm_collate_missing : forall mp b0 rest ks k ks' b, map fst b0 = ks ++ k :: ks' -> In b rest -> dlookup b k = None ->
  (exists e, collate mp (b0 :: rest) = Err e) /\
  (NoDup (map fst b0) -> (forall k, In k ks -> clean_key k /\ exists vs, Forall2 (fun b v => dlookup b k = Some v) (b0 :: rest) vs /\ collatable mp k vs) ->
   collate mp (b0 :: rest) = Err KeyError).
Proof.
  intros mp b0 rest ks k ks' b E Hb N. unfold collate. rewrite E. split.
  - apply (collate_missing mp (b0 :: rest) k b); [apply in_or_app; right; left; reflexivity|right; exact Hb|exact N].
  - intros D H. apply NoDup_remove_1 in D as D'. destruct (collate_fold mp (b0 :: rest) ks []) as (out & E1 & _).
    + clear -D. induction ks as [|a ks IH]; [constructor|]. inversion D as [|? ? Na Nd]; subst. constructor; [intros X; apply Na; apply in_or_app; left; exact X|apply IH; exact Nd].
    + intros ? _ [].
    + exact H.
    + rewrite foldM_app, E1. cbn [bind foldM]. rewrite (collate_key_missing mp (b0 :: rest) out k b); [reflexivity|right; exact Hb|exact N].
Qed.
