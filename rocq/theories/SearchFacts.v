(** search_key, search_xyzb and the decoded coordinates of a layer. *)
From Coq Require Import List ZArith Bool Lia Sorting.Sorted.
From Verif Require Import Res Tensor Key Num Octree Spec WF KeyFacts ListFacts KidsFacts BuildFacts WFFacts.
Import ListNotations.
Open Scope Z_scope.
Ltac Zify.zify_post_hook ::= Z.div_mod_to_equations.

(** the coordinates (x, y, z, b) of a key *)
Definition coords (d : nat) (k : Z) : Z * Z * Z * Z :=
  (unmorton_x d (k mod 2 ^ 48), unmorton_y d (k mod 2 ^ 48), unmorton_z d (k mod 2 ^ 48), k / 2 ^ 48).

Lemma key2xyz_coords B d k : (d <= 16)%nat -> vkey B d k -> key2xyz k d = Ok (coords d k).
Proof.
  intros Hd (b & m & Hb & Hm & ->). pose proof (pow8_lt48 d Hd). unfold coords.
  replace ((b * 2 ^ 48 + m) mod 2 ^ 48) with m by lia. replace ((b * 2 ^ 48 + m) / 2 ^ 48) with b by lia.
  apply key2xyz_spec; assumption.
Qed.

Lemma coords_key_of B d k x y z b : (d <= 16)%nat -> vkey B d k -> coords d k = (x, y, z, b) ->
  k = key_of d b x y z /\ in_cube d x y z /\ 0 <= b < Z.of_nat B.
Proof.
  intros Hd (b' & m & Hb & Hm & ->) E. pose proof (pow8_lt48 d Hd). unfold coords in E.
  replace ((b' * 2 ^ 48 + m) mod 2 ^ 48) with m in E by lia. replace ((b' * 2 ^ 48 + m) / 2 ^ 48) with b' in E by lia.
  assert (Ex : x = unmorton_x d m) by congruence. assert (Ey : y = unmorton_y d m) by congruence.
  assert (Ez : z = unmorton_z d m) by congruence. assert (Eb : b = b') by congruence. subst.
  split; [unfold key_of; rewrite morton_unmorton by assumption; reflexivity|].
  split; [apply unmorton_range|exact Hb].
Qed.

Lemma coords_of_key d b x y z : (d <= 16)%nat -> in_cube d x y z -> coords d (key_of d b x y z) = (x, y, z, b).
Proof.
  intros Hd Hc. unfold coords, key_of. pose proof (morton_lt_48 d x y z Hd).
  replace ((b * 2 ^ 48 + morton d x y z) mod 2 ^ 48) with (morton d x y z) by lia.
  replace ((b * 2 ^ 48 + morton d x y z) / 2 ^ 48) with b by lia.
  destruct (unmorton_morton d x y z Hc) as (-> & -> & ->). reflexivity.
Qed.

Lemma coords_inj B d k k' : (d <= 16)%nat -> vkey B d k -> vkey B d k' -> coords d k = coords d k' -> k = k'.
Proof.
  intros Hd Hk Hk' E. destruct (coords d k') as [[[x y] z] b] eqn:E'.
  destruct (coords_key_of B d k _ _ _ _ Hd Hk E) as [-> _].
  destruct (coords_key_of B d k' _ _ _ _ Hd Hk' E') as [-> _]. reflexivity.
Qed.

Lemma tree_xyzb o L K M d ne : tree_upto o L K M -> (d <= L)%nat ->
  octree_xyzb o d ne = Ok (map (coords d) (sel K M ne d)).
Proof.
  intros T H. unfold octree_xyzb. rewrite (tree_key o L K M T d ne H). cbn [bind].
  apply mapM_Ok. intros k Hk. apply (key2xyz_coords (batch_size o)).
  - pose proof (t_depth _ _ _ _ T). pose proof (t_L _ _ _ _ T). lia.
  - pose proof (sel_vkey o L K M T ne d H) as Hv. rewrite Forall_forall in Hv. apply Hv; exact Hk.
Qed.

Lemma tree_batch_id o L K M d ne : tree_upto o L K M -> (d <= L)%nat ->
  octree_batch_id o (Z.of_nat d) ne = Ok (map (fun k => k / 2 ^ 48) (sel K M ne d)).
Proof.
  intros T H. unfold octree_batch_id. destruct (tree_get o L K M T d H) as (l & -> & _ & Ek & _). cbn [bind].
  rewrite Ek. cbn [need bind].
  assert (E : forall l, map (fun k => Z.shiftr k 48) l = map (fun k => k / 2 ^ 48) l).
  { intros l'. apply map_ext. intros k. rewrite Z.shiftr_div_pow2 by lia. reflexivity. }
  rewrite E. destruct ne; [|reflexivity]. rewrite (tree_mask o L K M T d H). cbn [bind].
  rewrite mask_get_Ok by (rewrite map_length; apply (t_mask _ _ _ _ T); exact H).
  cbn [sel]. rewrite select_map. reflexivity.
Qed.

(** which entry a search returns *)
Definition found (ks : list Z) (q e : Z) : Prop :=
  (0 <= e /\ nth_error ks (Z.to_nat e) = Some q) \/ (e = -1 /\ ~ In q ks).

Lemma search1_found ks q : sorted ks -> exists e, search1 ks q = Ok e /\ found ks q e.
Proof.
  intros Hs. unfold search1. destruct (bucketize_spec ks q Hs) as (r & -> & Hr & Hlo & Hhi).
  unfold zlen. destruct (Z.ltb_spec (Z.of_nat r) (Z.of_nat (length ks))) as [Hlt|Hge].
  - destruct (nth_error ks r) as [a|] eqn:Ea.
    2:{ apply nth_error_None in Ea. lia. }
    rewrite (tget_Ok _ _ _ Ea). cbn [bind]. destruct (Z.eqb_spec a q) as [->|Hne].
    + eexists; split; [reflexivity|]. left. rewrite Nat2Z.id. split; [lia|exact Ea].
    + eexists; split; [reflexivity|]. right. split; [reflexivity|]. intros Hin.
      apply In_nth_error in Hin. destruct Hin as [i Hi].
      destruct (Nat.lt_trichotomy i r) as [H|[->|H]].
      * specialize (Hlo i q H Hi). lia.
      * congruence.
      * specialize (Hhi r a (le_n r) Ea). pose proof (sorted_nth_lt _ Hs r i a q Ea Hi H). lia.
  - eexists; split; [reflexivity|]. right. split; [reflexivity|]. intros Hin.
    apply In_nth_error in Hin. destruct Hin as [i Hi].
    assert (i < length ks)%nat by (apply nth_error_Some; rewrite Hi; discriminate).
    specialize (Hlo i q ltac:(lia) Hi). lia.
Qed.

Lemma found_unique ks q e e' : sorted ks -> found ks q e -> found ks q e' -> e = e'.
Proof.
  intros Hs [[H0 H1]|[-> H1]] [[H0' H1']|[-> H1']].
  - pose proof (sorted_nth_inj _ Hs _ _ _ H1 H1'). lia.
  - exfalso; apply H1'; eapply nth_error_In; exact H1.
  - exfalso; apply H1; eapply nth_error_In; exact H1'.
  - reflexivity.
Qed.

Lemma search_list ks query : sorted ks -> exists r, mapM (search1 ks) query = Ok r /\ Forall2 (found ks) query r.
Proof.
  intros Hs. induction query as [|q query (r & E & Hr)]; [exists []; split; [reflexivity|constructor]|].
  destruct (search1_found ks q Hs) as (e & E1 & He). cbn [mapM]. rewrite E1, E. cbn [bind].
  exists (e :: r). split; [reflexivity|]. constructor; assumption.
Qed.

Lemma tree_search o L K M d ne query : tree_upto o L K M -> (d <= L)%nat ->
  exists r, search_key o query d ne = Ok r /\ Forall2 (found (sel K M ne d)) query r.
Proof.
  intros T H. unfold search_key. rewrite (tree_key o L K M T d ne H). cbn [bind].
  apply search_list. apply (sel_sorted o L K M T); exact H.
Qed.

Lemma Forall2_nth {A B} (R : A -> B -> Prop) l m i a b : Forall2 R l m ->
  nth_error l i = Some a -> nth_error m i = Some b -> R a b.
Proof.
  intros H; revert i; induction H as [|x y l m Hxy H IH]; intros i; destruct i as [|i]; cbn; try discriminate.
  - intros [= <-] [= <-]; exact Hxy.
  - apply IH.
Qed.
Lemma Forall2_len {A B} (R : A -> B -> Prop) l m : Forall2 R l m -> length m = length l.
Proof. induction 1; cbn; congruence. Qed.

Lemma wf_search_key o d ne query : wf_octree o -> (d <= depth o)%nat ->
  exists ks r, octree_key o (Z.of_nat d) ne = Ok ks /\ NoDup ks /\
    search_key o query d ne = Ok r /\ length r = length query /\
    forall i q e, nth_error query i = Some q -> nth_error r i = Some e ->
      (0 <= e /\ nth_error ks (Z.to_nat e) = Some q) \/ (e = -1 /\ ~ In q ks).
Proof.
  intros (K & M & T) H. destruct (tree_search o _ K M d ne query T H) as (r & E & F).
  exists (sel K M ne d), r. split; [apply (tree_key o _ K M T); exact H|].
  split; [apply sorted_NoDup, (sel_sorted o _ K M T); exact H|]. split; [exact E|].
  split; [apply (Forall2_len _ _ _ F)|]. intros i q e Hq He. exact (Forall2_nth _ _ _ _ _ _ F Hq He).
Qed.

Lemma mapM_keys d query : (d <= 16)%nat -> Forall (fun '(x, y, z, b) => -32768 <= b < 32768) query ->
  mapM (fun '(x, y, z, b) => xyz2key x y z (Some b) d) query
  = Ok (map (fun '(x, y, z, b) => key_of d b x y z) query).
Proof.
  intros Hd Hq. apply mapM_Ok. intros [[[x y] z] b] Hin. rewrite Forall_forall in Hq.
  specialize (Hq _ Hin). cbn beta iota in Hq. apply xyz2key_b; [exact Hd|lia].
Qed.

Lemma wf_search_xyzb o d ne query : wf_octree o -> (d <= depth o)%nat ->
  Forall (fun '(x, y, z, b) => in_cube d x y z /\ -32768 <= b < 32768) query ->
  exists cs r, octree_xyzb o d ne = Ok cs /\ NoDup cs /\
    search_xyzb o query d ne = Ok r /\ length r = length query /\
    forall i q e, nth_error query i = Some q -> nth_error r i = Some e ->
      (0 <= e /\ nth_error cs (Z.to_nat e) = Some q) \/ (e = -1 /\ ~ In q cs).
Proof.
  intros (K & M & T) H Hq. pose proof (t_depth _ _ _ _ T) as H16.
  assert (Hd : (d <= 16)%nat) by lia.
  destruct (tree_search o _ K M d ne (map (fun '(x, y, z, b) => key_of d b x y z) query) T H) as (r & E & F).
  exists (map (coords d) (sel K M ne d)), r.
  pose proof (sel_vkey o _ K M T ne d H) as Hv. rewrite Forall_forall in Hv.
  split; [apply (tree_xyzb o (depth o) K M); assumption|]. split.
  { assert (HN : NoDup (sel K M ne d)) by (apply sorted_NoDup, (sel_sorted o _ K M T); exact H).
    clear - HN Hv Hd. induction HN as [|k l Hnin HN IH]; cbn; constructor.
    - intros Hin. apply in_map_iff in Hin. destruct Hin as (k' & E & Hk'). apply Hnin.
      apply (coords_inj (batch_size o)) in E; [subst; exact Hk'|exact Hd|apply Hv; right; exact Hk'|apply Hv; left; reflexivity].
    - apply IH. intros; apply Hv; right; assumption. }
  split.
  { unfold search_xyzb. rewrite mapM_keys; [exact E|exact Hd|].
    rewrite Forall_forall in *. intros [[[x y] z] b] Hin. specialize (Hq _ Hin). cbn beta iota in Hq. tauto. }
  split; [rewrite (Forall2_len _ _ _ F); apply map_length|].
  intros i [[[x y] z] b] e Hi He. rewrite Forall_forall in Hq.
  pose proof (Hq _ (nth_error_In _ _ Hi)) as [Hc Hb].
  assert (Hi' : nth_error (map (fun '(x, y, z, b) => key_of d b x y z) query) i = Some (key_of d b x y z))
    by (rewrite nth_error_map, Hi; reflexivity).
  destruct (Forall2_nth _ _ _ _ _ _ F Hi' He) as [[H0 H1]|[H0 H1]]; [left|right]; (split; [exact H0|]).
  - rewrite nth_error_map, H1. cbn [option_map]. rewrite coords_of_key by assumption. reflexivity.
  - intros Hin. apply H1. apply in_map_iff in Hin. destruct Hin as (k & Ek & Hk).
    apply (coords_key_of (batch_size o)) in Ek; [|exact Hd|apply Hv; exact Hk]. destruct Ek as [<- _]. exact Hk.
Qed.

Lemma search_alias o d ne x y z b : (d <= 16)%nat ->
  search_xyzb o [(x, y, z, b)] d ne
  = search_xyzb o [(x mod 2 ^ Z.of_nat d, y mod 2 ^ Z.of_nat d, z mod 2 ^ Z.of_nat d, b)] d ne.
Proof.
  intros Hd. unfold search_xyzb. cbn [mapM]. rewrite (key_modulo x y z) by exact Hd. reflexivity.
Qed.

(** A query outside the grid finds the wrapped node. *)
Lemma alias_found o d ne x y z b : wf_octree o -> (d <= depth o)%nat -> -32768 <= b < 32768 ->
  exists cs e, octree_xyzb o d ne = Ok cs /\ search_xyzb o [(x, y, z, b)] d ne = Ok [e] /\
    let p := 2 ^ Z.of_nat d in
    (e <> -1 <-> In (x mod p, y mod p, z mod p, b) cs).
Proof.
  intros W Hd Hb. assert (H16 : (d <= 16)%nat) by (destruct W as (K & M & T); pose proof (t_depth _ _ _ _ T); lia).
  assert (Hp : 0 < 2 ^ Z.of_nat d) by (apply Z.pow_pos_nonneg; lia).
  assert (Hq : Forall (fun '(x, y, z, b) => in_cube d x y z /\ -32768 <= b < 32768)
     [(x mod 2 ^ Z.of_nat d, y mod 2 ^ Z.of_nat d, z mod 2 ^ Z.of_nat d, b)]).
  { repeat constructor; try apply Z.mod_pos_bound; lia. }
  destruct (wf_search_xyzb o d ne _ W Hd Hq) as (cs & r & E1 & _ & E2 & El & F).
  destruct r as [|e [|]]; try discriminate. exists cs, e. split; [exact E1|].
  split; [rewrite search_alias by exact H16; exact E2|]. cbn zeta.
  destruct (F 0%nat _ _ eq_refl eq_refl) as [[He Hn]|[-> Hn]].
  - split; [intros _; eapply nth_error_In; exact Hn|intros _; lia].
  - split; [intros H; contradiction|intros H; contradiction].
Qed.
