(** Proofs about transforming and collating a batch. *)
From Coq Require Import String Ascii List ZArith Bool QArith Qcanon Lia Sorted Permutation.
From Verif Require Import Res Tensor Key Num Points Octree PointsOps Spec SpecGeo SpecBuild SpecNeigh SpecMerge SpecPoints WF
  ListFacts NumFacts SumFacts BuildFacts BuildThms NeighThms MergeFacts BuildMerge PointsFacts PointsClip Dataset SpecDataset DatasetFacts TransformFacts.
Import ListNotations.
Open Scope Z_scope.

(** ** construct_all_neigh reads only what same_octree compares *)
Lemma same_nth o o' d : same_octree o o' ->
  match nth_error (layers o) d, nth_error (layers o') d with Some l, Some l' => same_layer l l' | None, None => True | _, _ => False end.
Proof.
  intros (_ & _ & _ & _ & F). revert d. induction F as [|l l' t t' H F IH]; intros [|d]; cbn [nth_error]; auto. apply IH.
Qed.
Lemma same_upd o o' d n r : same_octree o o' -> upd_layer o d (fun l => set_neighs l n) = Ok r ->
  exists r', upd_layer o' d (fun l => set_neighs l n) = Ok r' /\ same_octree r r'.
Proof.
  intros H E. pose proof (same_nth o o' d H) as Hd. unfold upd_layer in *.
  destruct (nth_error (layers o) d) as [l|] eqn:El; [|discriminate]. destruct (nth_error (layers o') d) as [l'|] eqn:El'; [|contradiction].
  assert (Eq : forall A (x y : A), Ok x = Ok y -> x = y) by congruence. apply Eq in E. subst r.
  eexists. split; [reflexivity|]. destruct H as (D1 & D2 & D3 & D4 & F). unfold same_octree. cbn [with_layers depth full_depth batch_size device layers].
  split; [exact D1|]. split; [exact D2|]. split; [exact D3|]. split; [exact D4|].
  clear El El'. revert d. induction F as [|a a' t t' Ha F IH]; intros [|d]; cbn [set_nth]; try constructor; try assumption.
  - destruct Hd as (K1 & K2 & K3 & K4 & K5 & K6 & K7 & K8). unfold same_layer, set_neighs. cbn. auto 10.
  - apply IH.
Qed.
Lemma same_construct o o' d r : same_octree o o' -> construct_neigh o d = Ok r ->
  exists r', construct_neigh o' d = Ok r' /\ same_octree r r'.
Proof.
  intros H E. pose proof H as (D1 & D2 & D3 & D4 & F). unfold construct_neigh in *. rewrite D2, D3.
  destruct (Nat.leb d (full_depth o)).
  - destruct (neigh_full (batch_size o) d) as [n|]; [|discriminate]. cbn [bind] in *. eapply same_upd; eassumption.
  - assert (G : forall p, get_layer o (Z.of_nat d - 1) = Ok p -> exists p', get_layer o' (Z.of_nat d - 1) = Ok p' /\ same_layer p p').
    { intros p. unfold get_layer, tget. intros G.
      assert (L : List.length (layers o') = List.length (layers o)) by (clear - F; induction F; cbn; congruence).
      replace (zlen (layers o')) with (zlen (layers o)) by (unfold zlen; congruence). destruct (norm_index (zlen (layers o)) (Z.of_nat d - 1)) as [i|]; [|discriminate].
      pose proof (same_nth o o' i H) as Hi.
      destruct (nth_error (layers o) i) as [l|]; [|discriminate]. destruct (nth_error (layers o') i) as [l'|]; [|contradiction].
      exists l'. split; [reflexivity|]. assert (p = l) by congruence. subst. exact Hi. }
    destruct (get_layer o (Z.of_nat d - 1)) as [p|] eqn:Ep; [|discriminate]. destruct (G p eq_refl) as (p' & Ep' & K1 & K2 & K3 & _).
    rewrite Ep'. cbn [bind] in *. rewrite K2, K3. destruct (need (children p)) as [c|]; [|discriminate]. cbn [bind] in *.
    destruct (need (neighs p)) as [np|]; [|discriminate]. cbn [bind] in *. destruct (neigh_sparse c np) as [n|]; [|discriminate]. cbn [bind] in *.
    eapply same_upd; eassumption.
Qed.
Lemma same_all_neigh o o' r : same_octree o o' -> construct_all_neigh o = Ok r -> exists r', construct_all_neigh o' = Ok r' /\ same_octree r r'.
Proof.
  intros H E. unfold construct_all_neigh in *. pose proof H as (D1 & _). rewrite D1. revert H E. generalize (seq 1 (depth o)). clear D1.
  intros l. revert o o'. induction l as [|d l IH]; intros o o' H E; cbn [foldM] in *.
  - assert (o = r) by congruence. subst. exists o'. split; [reflexivity|exact H].
  - destruct (construct_neigh o d) as [o1|] eqn:E1; [|discriminate]. destruct (same_construct _ _ _ _ H E1) as (o1' & E1' & H1).
    rewrite E1'. cbn [bind] in *. eapply IH; eassumption.
Qed.

(** ** the batch *)
Lemma Forall2_map_r {A B C} (R : A -> C -> Prop) (f : B -> C) l m : Forall2 R l (map f m) <-> Forall2 (fun a b => R a (f b)) l m.
Proof.
  revert m. induction l as [|a l IH]; intros [|b m]; cbn [map]; split; intros H; inversion H; subst; constructor; auto; apply IH; assumption.
Qed.

Definition good_out (c : transform_cfg) (nrm : v3 Qc -> v3 Qc) (out : dict value) (q : pcloud Qc) (o : octree) : Prop :=
  dlookup out "points" = Some (VPts q) /\ dlookup out "octree" = Some (VOct o) /\ (exists m, dlookup out "inbox_mask" = Some (VMask m)) /\
  good_cloud 1 q /\ p_device q = 0%nat /\ p_features q = None /\ p_labels q = None /\ p_normals q <> None /\ Forall in_box (p_points q) /\
  (exists idx, build_octree nrm (octree_new (t_cdepth c) (t_cfull c) 1 0) q = Ok (o, idx)).

Inductive all3 {A B C} (R : A -> B -> C -> Prop) : list A -> list B -> list C -> Prop :=
  | all3_nil : all3 R [] [] []
  | all3_cons a b c la lb lc : R a b c -> all3 R la lb lc -> all3 R (a :: la) (b :: lb) (c :: lc).

Lemma Forall2_weaken {A B} (R S : A -> B -> Prop) l m : (forall a b, R a b -> S a b) -> Forall2 R l m -> Forall2 S l m.
Proof. intros H F. induction F; constructor; auto. Qed.
Lemma carry_lookup (ss outs : list (dict value)) k vs : Forall2 (fun s out => dlookup out k = dlookup s k) ss outs ->
  Forall2 (fun s v => dlookup s k = Some v) ss vs -> Forall2 (fun s v => dlookup s k = Some v) outs vs.
Proof. intros F. revert vs. induction F; intros vs Hv; inversion Hv; subst; constructor; [congruence|auto]. Qed.

Lemma map_inj {A B} (f : A -> B) : (forall a b, f a = f b -> a = b) -> forall l m, map f l = map f m -> l = m.
Proof. intros H l. induction l as [|a l IH]; intros [|b m] E; cbn in E; try discriminate; [reflexivity|]. injection E as E1 E2. f_equal; auto. Qed.

Theorem thm_pipeline : forall nrm c rs ss, cfg_ok c -> (1 <= t_cfull c)%nat -> List.length rs = List.length ss ->
  ss <> [] -> Z.of_nat (List.length ss) <= 32768 ->
  (t_distort c = true -> Forall draw_ok rs) -> Forall (fun s => exists xyz n, sample_ok s xyz n) ss ->
  (forall s0 k, hd_error ss = Some s0 -> In k (map fst s0) -> ~ In k ["points"; "normals"; "inbox_mask"; "octree"]%string ->
     clean_key k /\ exists vs, Forall2 (fun s v => dlookup s k = Some v) ss vs /\ collatable true k vs) ->
  exists outs batch qs p o ob idx ob',
    mapM (fun '(r, s) => transform_call nrm c r s) (combine rs ss) = Ok outs /\
    collate true outs = Ok batch /\
    Forall2 (fun out q => dlookup out "points" = Some (VPts q)) outs qs /\
    merge_points qs true = Ok p /\ Forall in_box (p_points p) /\
    dlookup batch "points" = Some (OOne (VPts p)) /\ dlookup batch "octree" = Some (OOne (VOct o)) /\
    build_octree nrm (octree_new (t_cdepth c) (t_cfull c) (List.length ss) 0) p = Ok (ob, idx) /\
    construct_all_neigh ob = Ok ob' /\ same_octree o ob' /\
    (forall s0 k vs, hd_error ss = Some s0 -> In k (map fst s0) -> ~ In k ["points"; "normals"; "inbox_mask"; "octree"]%string ->
       Forall2 (fun s v => dlookup s k = Some v) ss vs -> exists v, dlookup batch k = Some v /\ collated true k vs v).
Proof.
  intros nrm c rs ss Hc Hfull Hlen Hne Hnum Hdraw Hsamp Hother.
  (* transform *)
  assert (T : exists outs qs os, mapM (fun '(r, s) => transform_call nrm c r s) (combine rs ss) = Ok outs /\
     all3 (good_out c nrm) outs qs os /\
     Forall2 (fun s out => NoDup (map fst out) /\ (forall k, ~ In k ["points"; "normals"; "inbox_mask"; "octree"]%string -> dlookup out k = dlookup s k) /\
        (forall k, In k (map fst out) <-> k <> "normals"%string /\ (In k (map fst s) \/ In k ["inbox_mask"; "octree"]%string))) ss outs).
  { clear Hne Hnum Hother. revert rs Hlen Hdraw. induction Hsamp as [|s ss (xyz & n & Hs) Hsamp IH]; intros [|r rs] Hlen Hdraw; try discriminate.
    - exists [], [], []. split; [reflexivity|]. split; constructor.
    - cbn [combine mapM]. pose proof (thm_transform nrm c r Hc) as Hg.
      assert (Hdr : t_distort c = true -> draw_ok r) by (intros Hd; specialize (Hdraw Hd); inversion Hdraw; assumption).
      destruct (Hg Hdr s xyz n Hs) as (out & q & mask & keep & o & idx & E & N & L1 & L2 & L3 & _ & L5 & L6 & _ & _ & _ & G1 & G2 & G3 & G4 & G5 & G6 & B & _).
      rewrite E. cbn [bind].
      destruct (IH rs) as (outs & qs & os & E' & A & F); [injection Hlen as Hlen; exact Hlen|intros Hd; specialize (Hdraw Hd); inversion Hdraw; assumption|].
      rewrite E'. cbn [bind]. exists (out :: outs), (q :: qs), (o :: os). split; [reflexivity|]. split.
      + constructor; [|exact A]. unfold good_out. split; [exact L1|]. split; [exact L3|]. split; [exists mask; exact L2|].
        repeat (split; [assumption|]). exists idx. exact B.
      + constructor; [auto|exact F]. }
  destruct T as (outs & qs & os & Et & A & F).
  assert (Lq : List.length qs = List.length ss) by (clear - A F; revert ss F; induction A; intros ss F; inversion F; subst; cbn; [reflexivity|f_equal; eauto]).
  assert (Qp : Forall2 (fun out q => dlookup out "points" = Some (VPts q)) outs qs) by (clear - A; induction A as [|? ? ? ? ? ? H]; constructor; [apply H|assumption]).
  assert (Qo : Forall2 (fun out o => dlookup out "octree" = Some (VOct o)) outs os) by (clear - A; induction A as [|? ? ? ? ? ? H]; constructor; [apply H|assumption]).
  assert (Qm : exists ms, Forall2 (fun out m => dlookup out "inbox_mask" = Some (VMask m)) outs ms).
  { clear - A. induction A as [|? ? ? ? ? ? H _ (ms & IH)]; [exists []; constructor|]. destruct H as (_ & _ & (m & Hm) & _). exists (m :: ms). constructor; assumption. }
  assert (Qn : qs <> []) by (intros ->; destruct ss; [congruence|discriminate]).
  assert (CK : clouds_ok 0 qs).
  { split; [exact Qn|]. split; [clear - A; induction A as [|? ? ? ? ? ? H]; constructor; [apply H|assumption]|].
    split; [clear - A; induction A as [|? ? ? ? ? ? H]; constructor; [apply H|assumption]|].
    split; [intros _; clear - A; induction A as [|? ? ? ? ? ? H]; constructor; [apply H|assumption]|].
    split; [|split].
    - intros Hf. clear - A Hf Qn. destruct A as [|? q ? ? ? ? H A]; [congruence|]. cbn [first_has] in Hf. destruct H as (_ & _ & _ & _ & _ & H & _). rewrite H in Hf. discriminate.
    - intros Hf. clear - A Hf Qn. destruct A as [|? q ? ? ? ? H A]; [congruence|]. cbn [first_has] in Hf. destruct H as (_ & _ & _ & _ & _ & _ & H & _). rewrite H in Hf. discriminate.
    - exists O. intros p f Hp Hpf. clear - A Hp Hpf. induction A as [|? q ? ? ? ? H A IH]; [destruct Hp|]. destruct Hp as [->|Hp]; [|apply IH; exact Hp].
      destruct H as (_ & _ & _ & _ & _ & H & _). congruence. }
  destruct Hc as (C1 & C2 & C3).
  destruct (thm_build_merge nrm (t_cdepth c) (t_cfull c) 0 qs C1 C2 ltac:(rewrite Lq; exact Hnum) CK) as (p & ob & idx & os' & om & _ & _ & Ep & Eb & Eos & _ & Em & Sm & _).
  assert (os' = os).
  { clear - A Eos. revert os' Eos. induction A as [|? q o ? ? ? H A IH]; intros os' E; cbn [mapM] in E; [congruence|].
    destruct H as (_ & _ & _ & _ & _ & _ & _ & _ & _ & (i & Hb)). rewrite Hb in E. cbn [bind fst] in E.
    destruct (mapM _ lb) as [t|]; [|discriminate]. cbn [bind] in E. rewrite <- (IH t eq_refl). congruence. }
  subst os'.
  destruct outs as [|out0 outs]; [inversion A; subst; congruence|].
  destruct ss as [|s0 ss]; [congruence|]. destruct os as [|oh os]; [inversion A|]. destruct qs as [|q0 qs]; [congruence|].
  assert (MM : mergeable oh (oh :: os) /\ depth oh = t_cdepth c /\ full_depth oh = t_cfull c /\ device oh = 0%nat).
  { destruct (builds nrm (t_cdepth c) (t_cfull c) 0 q0 qs) as (os2 & E2 & B2); try assumption.
    assert (E3 : os2 = oh :: os) by (unfold o1 in E2; congruence). subst os2.
    destruct (built_mem nrm (t_cdepth c) (t_cfull c) 0 q0 qs ltac:(rewrite Lq; exact Hnum) CK (oh :: os) oh B2 eq_refl) as (M & _ & D1 & D2 & D3). auto. }
  destruct MM as (MM & D1 & D2 & D3).
  destruct (thm_merge_points (q0 :: qs) q0 eq_refl) as (p' & Ep' & PP & _); try apply CK. assert (p' = p) by congruence. subst p'.
  (* collate *)
  pose proof F as F'. inversion F' as [|s' out' st ot (N0 & L0 & K0) Ft]; subst.
  destruct (thm_collate true out0 outs N0) as (batch & Ebatch & Kb & Hb).
  { intros k Hk.
    destruct (string_dec k "octree") as [->|N1].
    { split; [split; [intros [_ H]; apply contains_spec in H; discriminate|intros H; apply contains_spec in H; discriminate]|].
      exists (map VOct (oh :: os)). split; [apply (proj2 (Forall2_map_r _ _ _ _)); exact Qo|].
      split; [intros _; exists oh, (oh :: os); split; [reflexivity|]; split; [exact MM|rewrite D2; exact Hfull]|].
      split; intros H; apply contains_spec in H; discriminate. }
    destruct (string_dec k "points") as [->|N2].
    { split; [split; [intros [H _]; apply contains_spec in H; discriminate|intros H; apply contains_spec in H; discriminate]|].
      exists (map VPts (q0 :: qs)). split; [apply (proj2 (Forall2_map_r _ _ _ _)); exact Qp|].
      split; [intros H; apply contains_spec in H; discriminate|].
      split; [intros _ _; exists (q0 :: qs); split; [reflexivity|]; split; [discriminate|]; split; [apply CK|]; split; apply CK|].
      intros H; apply contains_spec in H; discriminate. }
    destruct (string_dec k "inbox_mask") as [->|N3].
    { split; [split; [intros [H _]; apply contains_spec in H; discriminate|intros H; apply contains_spec in H; discriminate]|].
      destruct Qm as (ms & Qm). exists (map VMask ms). split; [apply (proj2 (Forall2_map_r _ _ _ _)); exact Qm|].
      split; [|split]; intros H; apply contains_spec in H; discriminate. }
    pose proof (proj1 (K0 k) Hk) as (N4 & [Hin|[H|[H|[]]]]); [|congruence|congruence].
    assert (Hno : ~ In k ["points"; "normals"; "inbox_mask"; "octree"]%string) by (intros [H|[H|[H|[H|[]]]]]; congruence).
    destruct (Hother s0 k eq_refl Hin Hno) as (Hck & vs & Hvs & Hcol). split; [exact Hck|]. exists vs. split; [|exact Hcol].
    apply (carry_lookup (s0 :: ss) (out0 :: outs) k vs); [|exact Hvs].
    clear - F Hno. revert F. apply Forall2_weaken. intros a b (_ & L & _). apply L. exact Hno. }
  exists (out0 :: outs), batch, (q0 :: qs), p.
  destruct (Hb "octree"%string) as (vs & v & Hvs & Hv & Hcol). { apply K0. split; [discriminate|]. right. right. left. reflexivity. }
  destruct Hcol as (Hcol & _). destruct Hcol as (osx & omx & o & -> & Emx & Eo & ->); [exists ""%string, ""%string; reflexivity|].
  assert (osx = oh :: os).
  { apply (map_inj VOct); [congruence|]. apply (lookup_det (out0 :: outs) "octree"); [|exact Hvs]. apply (proj2 (Forall2_map_r _ _ _ _)). exact Qo. }
  subst osx. assert (omx = om) by congruence. subst omx.
  destruct (same_all_neigh _ _ _ Sm Eo) as (ob' & Eob' & So).
  exists o, ob, idx, ob'. split; [exact Et|]. split; [exact Ebatch|]. split; [exact Qp|]. split; [exact Ep|].
  split. { rewrite PP. clear - A. induction A as [|? q ? ? ? ? H A IH]; [constructor|]. cbn [map concat]. apply Forall_app. split; [apply H|exact IH]. }
  split.
  { destruct (Hb "points"%string) as (vs & v & Hvp & Hvv & Hcol). { rewrite K0. split; [discriminate|]. left.
      inversion Hsamp as [|? ? (xyz & n & _ & Hp & _) _]; subst. eapply dlookup_in. exact Hp. }
    destruct Hcol as (_ & Hcol & _). destruct Hcol as (psx & px & -> & Epx & ->); [exists ""%string, ""%string; reflexivity|reflexivity|].
    assert (psx = q0 :: qs).
    { apply (map_inj VPts); [congruence|]. apply (lookup_det (out0 :: outs) "points"); [|exact Hvp]. apply (proj2 (Forall2_map_r _ _ _ _)). exact Qp. }
    subst psx. rewrite Hvv. congruence. }
  split; [exact Hv|]. split; [rewrite <- Lq; exact Eb|]. split; [exact Eob'|]. split; [exact So|].
  intros s1 k vs Hs1 Hin Hno Hvs'. injection Hs1 as <-.
  destruct (Hb k) as (vs2 & v2 & Hvs2 & Hv2 & Hcol2).
  { apply K0. split; [intros ->; apply Hno; right; left; reflexivity|]. left. exact Hin. }
  exists v2. split; [exact Hv2|].
  assert (vs2 = vs).
  { apply (lookup_det (out0 :: outs) k vs vs2); [|exact Hvs2]. apply (carry_lookup (s0 :: ss) (out0 :: outs) k vs); [|exact Hvs'].
    clear - F Hno. revert F. apply Forall2_weaken. intros a b (_ & L & _). apply L. exact Hno. }
  subst vs2. exact Hcol2.
Qed.
