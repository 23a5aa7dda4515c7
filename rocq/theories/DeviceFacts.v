(** Moving an octree to another device. *)
From Coq Require Import String List ZArith Bool Lia.
From Verif Require Import Res Tensor Key Octree Heap Device SpecHeap SpecDevice WF SpecMerge ListFacts HeapFacts.
Import ListNotations.
Open Scope Z_scope.

(** ** values *)
Lemma thm_to_fields o dev : depth (octree_to o dev) = depth o /\ full_depth (octree_to o dev) = full_depth o /\ batch_size (octree_to o dev) = batch_size o /\
  layers (octree_to o dev) = layers o /\ device (octree_to o dev) = dev.
Proof. unfold octree_to. destruct (Nat.eqb_spec (device o) dev); cbn; auto. Qed.
Lemma to_eq o dev : octree_to o dev = mkOctree (depth o) (full_depth o) (batch_size o) dev (layers o).
Proof. unfold octree_to. destruct (Nat.eqb_spec (device o) dev) as [<-|]; [destruct o; reflexivity|reflexivity]. Qed.
Lemma thm_to_back o dev : octree_to (octree_to o dev) (device o) = o.
Proof. rewrite !to_eq. destruct o; reflexivity. Qed.
Lemma thm_to_to o a b : octree_to (octree_to o a) b = octree_to o b.
Proof. rewrite !to_eq. reflexivity. Qed.
Lemma thm_to_wf o dev : wf_octree o <-> wf_octree (octree_to o dev).
Proof.
  rewrite to_eq. unfold wf_octree. split; intros (K & M & [t1 t2 t3 t4 t5 t6 t7 t8 t9]); exists K, M; constructor; assumption.
Qed.

Definition to_res (r : res octree) (dev : nat) : res octree := match r with Ok o => Ok (octree_to o dev) | Err e => Err e end.
Lemma to_upd o d f dev : upd_layer (octree_to o dev) d f = to_res (upd_layer o d f) dev.
Proof. rewrite to_eq. unfold upd_layer. cbn [layers]. destruct (nth_error (layers o) d); [|reflexivity]. cbn [to_res]. rewrite to_eq. reflexivity. Qed.
Lemma to_get o d dev : get_layer (octree_to o dev) d = get_layer o d.
Proof. rewrite to_eq. reflexivity. Qed.
Lemma to_neigh o d dev : construct_neigh (octree_to o dev) d = to_res (construct_neigh o d) dev.
Proof.
  unfold construct_neigh. destruct (thm_to_fields o dev) as (_ & -> & -> & _). destruct (Nat.leb d (full_depth o)).
  - destruct (neigh_full _ _) as [n|e]; cbn [bind]; [apply to_upd|reflexivity].
  - rewrite !to_get. destruct (get_layer o (Z.of_nat d - 1)) as [p|e]; cbn [bind]; [|reflexivity].
    repeat (match goal with |- bind ?a _ = to_res (bind ?a _) _ => destruct a; cbn [bind]; [|reflexivity] end). apply to_upd.
Qed.
Lemma to_all_neigh o dev : construct_all_neigh (octree_to o dev) = to_res (construct_all_neigh o) dev.
Proof.
  unfold construct_all_neigh. destruct (thm_to_fields o dev) as (-> & _). generalize (seq 1 (depth o)). intros l. revert o. induction l as [|d l IH]; intros o; cbn [foldM]; [reflexivity|].
  rewrite to_neigh. destruct (construct_neigh o d) as [o'|e]; cbn [to_res bind]; [apply IH|reflexivity].
Qed.
Lemma thm_to_neigh o dev o' : construct_all_neigh o = Ok o' -> construct_all_neigh (octree_to o dev) = Ok (octree_to o' dev).
Proof. intros E. rewrite to_all_neigh, E. reflexivity. Qed.
Lemma to_layers os dev d : mapM (fun o => get_layer o (Z.of_nat d)) (map (fun o => octree_to o dev) os) = mapM (fun o => get_layer o (Z.of_nat d)) os.
Proof. induction os as [|o os IH]; [reflexivity|]. cbn [map mapM]. rewrite to_get, IH. reflexivity. Qed.
Lemma thm_to_merge os dev o : merge_octrees os = Ok o -> merge_octrees (map (fun o => octree_to o dev) os) = Ok (octree_to o dev).
Proof.
  destruct os as [|o0 rest]; [discriminate|]. unfold merge_octrees. cbn [map]. intros E.
  match type of E with bind (assert_ ?b) _ = _ => destruct b eqn:Eb; [|discriminate] end. cbn [assert_ bind] in E.
  destruct (thm_to_fields o0 dev) as (D1 & D2 & D3 & D4 & D5). rewrite D1, D2, D5.
  assert (Eb' : forallb (fun o => Nat.eqb (depth o) (depth o0) && Nat.eqb (full_depth o) (full_depth o0) && Nat.eqb (device o) dev) (map (fun o => octree_to o dev) rest) = true).
  { apply forallb_forall. intros x Hx. apply in_map_iff in Hx. destruct Hx as (y & <- & Hy). rewrite forallb_forall in Eb. specialize (Eb y Hy). apply andb_true_iff in Eb. destruct Eb as [Eb _].
    destruct (thm_to_fields y dev) as (-> & -> & _ & _ & ->). rewrite Eb, Nat.eqb_refl. reflexivity. }
  rewrite Eb'. cbn [assert_ bind].
  destruct (mapM (fun d => ld <- mapM (fun o => get_layer o (Z.of_nat d)) (o0 :: rest);; merge_layer ld (Nat.eqb d (depth o0))) (seq 0 (depth o0 + 1))) as [ls|e] eqn:El; [|discriminate].
  cbn [bind] in E. assert (o = mkOctree (depth o0) (full_depth o0) (length (o0 :: rest)) (device o0) ls) by congruence. subst o.
  rewrite (mapM_ext _ (fun d => ld <- mapM (fun o => get_layer o (Z.of_nat d)) (o0 :: rest);; merge_layer ld (Nat.eqb d (depth o0)))).
  - rewrite El. cbn [bind length]. rewrite map_length. f_equal. symmetry. apply to_eq.
  - intros d _. change (octree_to o0 dev :: map (fun o => octree_to o dev) rest) with (map (fun o => octree_to o dev) (o0 :: rest)). rewrite to_layers. reflexivity.
Qed.

(** ** storages *)
Lemma copy1_spec h v l : is1 h v l -> exists v' t, copy1 v h = (Ok v', h ++ t) /\ is1 (h ++ t) v' l /\ (length h <= v_id v')%nat.
Proof.
  intros [Hi Hr]. unfold copy1, read, pbind, alloc. rewrite Hr. do 2 eexists. split; [reflexivity|]. split; [|cbn; lia]. split; [cbn; rewrite app_length; cbn; lia|]. apply rd_at. rewrite app_nth2, Nat.sub_diag by lia. reflexivity.
Qed.
Lemma copy2_spec h v l : is2 h v l -> exists v' t, copy2 v h = (Ok v', h ++ t) /\ is2 (h ++ t) v' l /\ (length h <= w_id v')%nat.
Proof.
  intros [Hi Hr]. unfold copy2, read2, pbind, alloc2. rewrite Hr. do 2 eexists. split; [reflexivity|]. split; [|cbn; lia]. split; [cbn; rewrite app_length; cbn; lia|]. apply rd2_at; [|reflexivity]. rewrite app_nth2, Nat.sub_diag by lia. reflexivity.
Qed.
Lemma opt1_spec h v l : tensor_is rd v_id h v l -> exists v' t, p_opt copy1 v h = (Ok v', h ++ t) /\ tensor_is rd v_id (h ++ t) v' l /\ (forall w, v' = Some w -> (length h <= v_id w)%nat).
Proof.
  intros H. destruct v as [v|], l as [l|]; cbn in H; try contradiction.
  - destruct (copy1_spec h v l H) as (v' & t & E & H1 & H2). exists (Some v'), t. cbn [p_opt]. unfold pbind. rewrite E. split; [reflexivity|]. split; [exact H1|]. intros w Ew. injection Ew as <-. exact H2.
  - exists None, []. rewrite app_nil_r. split; [reflexivity|]. split; [exact I|discriminate].
Qed.
Lemma opt2_spec h v l : tensor_is rd2 w_id h v l -> exists v' t, p_opt copy2 v h = (Ok v', h ++ t) /\ tensor_is rd2 w_id (h ++ t) v' l /\ (forall w, v' = Some w -> (length h <= w_id w)%nat).
Proof.
  intros H. destruct v as [v|], l as [l|]; cbn in H; try contradiction.
  - destruct (copy2_spec h v l H) as (v' & t & E & H1 & H2). exists (Some v'), t. cbn [p_opt]. unfold pbind. rewrite E. split; [reflexivity|]. split; [exact H1|]. intros w Ew. injection Ew as <-. exact H2.
  - exists None, []. rewrite app_nil_r. split; [reflexivity|]. split; [exact I|discriminate].
Qed.
Lemma tensor1_ext h t v l : tensor_is rd v_id h v l -> tensor_is rd v_id (h ++ t) v l.
Proof. destruct v, l; cbn; try contradiction; [apply is1_ext|auto]. Qed.
Lemma tensor2_ext h t v l : tensor_is rd2 w_id h v l -> tensor_is rd2 w_id (h ++ t) v l.
Proof. destruct v, l; cbn; try contradiction; [apply is2_ext|auto]. Qed.
Definition above (n : nat) (l : hlayer) : Prop := (forall v, h_keys l = Some v -> (n <= v_id v)%nat) /\ (forall v, h_children l = Some v -> (n <= v_id v)%nat) /\ (forall w, h_neighs l = Some w -> (n <= w_id w)%nat).
Lemma copy_layer_spec h l k : lrel h l k -> exists l' t, h_copy_layer l h = (Ok l', h ++ t) /\ lrel (h ++ t) l' k /\ above (length h) l'.
Proof.
  intros (H1 & H2 & H3). unfold h_copy_layer. destruct (opt1_spec h _ _ H1) as (a & t1 & E1 & A1 & A2).
  destruct (opt1_spec (h ++ t1) _ _ (tensor1_ext _ t1 _ _ H2)) as (b & t2 & E2 & B1 & B2).
  destruct (opt2_spec ((h ++ t1) ++ t2) _ _ (tensor2_ext _ t2 _ _ (tensor2_ext _ t1 _ _ H3))) as (c & t3 & E3 & C1 & C2).
  exists (mkHlayer a b c), (t1 ++ t2 ++ t3). unfold pbind. rewrite E1, E2, E3. rewrite !app_assoc. split; [reflexivity|]. cbn [h_keys h_children h_neighs]. split; [split; [|split]|split; [|split]].
  - do 2 apply tensor1_ext. exact A1.
  - apply tensor1_ext. exact B1.
  - exact C1.
  - exact A2.
  - intros v Ev. specialize (B2 v Ev). rewrite app_length in B2. lia.
  - intros v Ev. specialize (C2 v Ev). rewrite !app_length in C2. lia.
Qed.
Lemma above_le n m l : (n <= m)%nat -> above m l -> above n l.
Proof. intros H (A & B & C). split; [|split]; intros v E; [specialize (A v E)|specialize (B v E)|specialize (C v E)]; lia. Qed.
Lemma copy_spec ho : forall h ks, Forall2 (lrel h) ho ks -> exists ho' t, h_copy ho h = (Ok ho', h ++ t) /\ Forall2 (lrel (h ++ t)) ho' ks /\ Forall (above (length h)) ho'.
Proof.
  induction ho as [|l ho IH]; intros h ks H; inversion H as [|? k ? ks' Hl Hr]; subst.
  - exists [], []. rewrite app_nil_r. split; [reflexivity|]. split; constructor.
  - destruct (copy_layer_spec h l k Hl) as (l' & t & E & L1 & L2). destruct (IH (h ++ t) ks') as (ho' & t' & E' & R1 & R2).
    { clear - Hr. induction Hr as [|x y xs ys H Hr IH]; constructor; [apply lrel_ext; exact H|exact IH]. }
    exists (l' :: ho'), (t ++ t'). cbn [h_copy]. unfold pbind. rewrite E, E', !app_assoc. split; [reflexivity|]. split; [constructor; [apply lrel_ext; exact L1|exact R1]|].
    constructor; [exact L2|]. eapply Forall_impl; [|exact R2]. intros x. apply above_le. rewrite app_length. lia.
Qed.
Lemma nth_set_other (h : heap) i j v : i <> j -> nth j (set_nth h i v) [] = nth j h [].
Proof. revert i j. induction h as [|a h IH]; intros [|i] [|j] H; cbn; try reflexivity; try congruence. apply IH. lia. Qed.
Lemma len_set (h : heap) i v : length (set_nth h i v) = length h.
Proof. revert i. induction h as [|a h IH]; intros [|i]; cbn; try reflexivity. rewrite IH. reflexivity. Qed.
Lemma thm_write_other h ho o i ps vs : denotes h ho o -> each_storage (fun j => j <> i) ho -> denotes (snd (write i ps vs h)) ho o.
Proof.
  unfold denotes, each_storage, write. cbn [snd]. intros H HE. induction H as [|l k ls ks (H1 & H2 & H3) HF IH]; constructor.
  - inversion HE as [|? ? (E1 & E2 & E3) _]; subst. split; [|split].
    + destruct (h_keys l) as [v|], (keys k); cbn in *; try contradiction; [|exact I]. destruct H1 as [A B]. split; [rewrite len_set; exact A|]. rewrite <- B. unfold rd. apply map_ext. intros p. rewrite nth_set_other; [reflexivity|]. intros Ei. apply (E1 v eq_refl). congruence.
    + destruct (h_children l) as [v|], (children k); cbn in *; try contradiction; [|exact I]. destruct H2 as [A B]. split; [rewrite len_set; exact A|]. rewrite <- B. unfold rd. apply map_ext. intros p. rewrite nth_set_other; [reflexivity|]. intros Ei. apply (E2 v eq_refl). congruence.
    + destruct (h_neighs l) as [v|], (neighs k); cbn in *; try contradiction; [|exact I]. destruct H3 as [A B]. split; [rewrite len_set; exact A|]. rewrite <- B. unfold rd2. apply map_ext. intros ps'. apply map_ext. intros p. rewrite nth_set_other; [reflexivity|]. intros Ei. apply (E3 v eq_refl). congruence.
  - apply IH. inversion HE; assumption.
Qed.
Lemma denotes_below h ho o : denotes h ho o -> each_storage (fun i => (i < length h)%nat) ho.
Proof.
  unfold denotes, each_storage. intros H. induction H as [|l k ls ks (H1 & H2 & H3) HF IH]; constructor; [|exact IH]. split; [|split]; intros v E; rewrite E in *.
  - destruct (keys k); [apply H1|contradiction].
  - destruct (children k); [apply H2|contradiction].
  - destruct (neighs k); [apply H3|contradiction].
Qed.
Theorem thm_to_copy h ho o dev : denotes h ho o -> dev <> device o ->
  exists ho' t, h_to o ho dev h = (Ok ho', h ++ t) /\ denotes (h ++ t) ho' (octree_to o dev) /\ denotes (h ++ t) ho o /\ share_nothing ho ho' /\
    (forall i ps vs, (length h <= i)%nat -> denotes (snd (write i ps vs (h ++ t))) ho o) /\
    (forall i ps vs, (i < length h)%nat -> denotes (snd (write i ps vs (h ++ t))) ho' (octree_to o dev)).
Proof.
  intros H Hd. unfold h_to. destruct (Nat.eqb_spec (device o) dev) as [E|_]; [congruence|]. destruct (copy_spec ho h (layers o) H) as (ho' & t & E & D & F). exists ho', t. split; [exact E|].
  assert (D' : denotes (h ++ t) ho' (octree_to o dev)) by (unfold denotes; rewrite to_eq; exact D).
  split; [exact D'|]. split; [apply denotes_ext; exact H|]. pose proof (denotes_below h ho o H) as HB. split; [exists (length h); split; [exact HB|exact F]|]. split; intros i ps vs Hi.
  - apply thm_write_other; [apply denotes_ext; exact H|]. eapply Forall_impl; [|exact HB]. intros l (A & B & C). split; [|split]; intros v Ev; [specialize (A v Ev)|specialize (B v Ev)|specialize (C v Ev)]; lia.
  - apply thm_write_other; [exact D'|]. eapply Forall_impl; [|exact F]. intros l (A & B & C). split; [|split]; intros v Ev; [specialize (A v Ev)|specialize (B v Ev)|specialize (C v Ev)]; lia.
Qed.
Theorem thm_to_same h ho o : h_to o ho (device o) h = (Ok ho, h) /\ octree_to o (device o) = o.
Proof. unfold h_to. rewrite Nat.eqb_refl. split; [reflexivity|]. unfold octree_to. rewrite Nat.eqb_refl. reflexivity. Qed.
