(** Proofs about shared tensors of Points objects. *)
From Coq Require Import String Ascii List ZArith Bool Reals Lra Lia.
From Verif Require Import Res Tensor Num Points PointsOps PointsGeo PointsHeap SpecPointsHeap.
Import ListNotations.

(** ** the heap *)
Lemma twrite_length : forall h i r, length (twrite h i r) = length h.
Proof. induction h as [|a h IH]; intros [|i] r; cbn; try reflexivity. rewrite IH. reflexivity. Qed.
Lemma twrite_same : forall h i r, (i < length h)%nat -> tread (twrite h i r) i = r.
Proof. induction h as [|a h IH]; intros [|i] r H; cbn in *; try lia; [reflexivity|]. apply IH. lia. Qed.
Lemma twrite_other : forall h i j r, i <> j -> tread (twrite h i r) j = tread h j.
Proof. induction h as [|a h IH]; intros [|i] [|j] r H; cbn; try reflexivity; try lia. apply IH. lia. Qed.
Lemma tread_app h g t : (t < length h)%nat -> tread (h ++ g) t = tread h t.
Proof. intros H. unfold tread. apply app_nth1. exact H. Qed.
Lemma tread_last h r : tread (h ++ [r]) (length h) = r.
Proof. unfold tread. rewrite app_nth2, Nat.sub_diag by lia. reflexivity. Qed.
Lemma tread_last2 h r s : tread (h ++ [r; s]) (length h) = r /\ tread (h ++ [r; s]) (S (length h)) = s.
Proof.
  unfold tread. split; [rewrite app_nth2, Nat.sub_diag by lia; reflexivity|]. rewrite app_nth2 by lia. replace (S (length h) - length h)%nat with 1%nat by lia. reflexivity.
Qed.

(** ** one call at a time: what happens to the tensors *)
Definition grown (h h' : theap) (c : hcloud) : Prop :=
  (length h <= length h')%nat /\ forall t, (t < length h)%nat -> ~ In t (tensors_of c) -> tread h' t = tread h t.
Definition kept (h h' : theap) : Prop := (length h <= length h')%nat /\ forall t, (t < length h)%nat -> tread h' t = tread h t.
Lemma kept_app h g : kept h (h ++ g).
Proof. split; [rewrite app_length; lia|]. intros t Ht. apply tread_app. exact Ht. Qed.
Lemma kept_refl h : kept h h.
Proof. split; [lia|reflexivity]. Qed.
Lemma kept_trans h1 h2 h3 : kept h1 h2 -> kept h2 h3 -> kept h1 h3.
Proof. intros [A1 A2] [B1 B2]. split; [lia|]. intros t Ht. rewrite B2 by lia. apply A2. exact Ht. Qed.
Lemma kept_grown h h' c : kept h h' -> grown h h' c.
Proof. intros [A B]. split; [exact A|]. auto. Qed.

(** References of the object after the call: the old ones or new tensors. *)
Definition refs_from (h : theap) (c c' : hcloud) (h' : theap) : Prop :=
  forall t, In t (tensors_of c') -> In t (tensors_of c) \/ (length h <= t < length h')%nat.

Lemma flip_heap : forall axes h c, length (fst (h_flip axes h c)) = length h /\ forall t, ~ In t (tensors_of c) -> tread (fst (h_flip axes h c)) t = tread h t.
Proof.
  induction axes as [|a axes IH]; intros h c; cbn [h_flip fst]; [auto|]. destruct (axis_of a) as [idx|e]; cbn [fst]; [|auto].
  destruct (IH (match h_nrm c with None => twrite h (h_pts c) (map (negate_at idx) (tread h (h_pts c)))
    | Some n => twrite (twrite h (h_pts c) (map (negate_at idx) (tread h (h_pts c)))) n (map (negate_at idx) (tread (twrite h (h_pts c) (map (negate_at idx) (tread h (h_pts c)))) n)) end) c) as [A B].
  split; [rewrite A; destruct (h_nrm c); rewrite ?twrite_length; reflexivity|]. intros t Ht. rewrite B by exact Ht. unfold tensors_of in Ht. destruct (h_nrm c) as [n|].
  - rewrite !twrite_other; [reflexivity| |]; intros E; apply Ht; rewrite <- E; cbn; auto.
  - apply twrite_other. intros E. apply Ht. rewrite <- E. cbn. auto.
Qed.

Lemma new_cloud_spec h p h' c : new_cloud h p = (h', c) -> kept h h' /\ content h' c = p /\ NoDup (tensors_of c) /\ forall t, In t (tensors_of c) -> (length h <= t < length h')%nat.
Proof.
  unfold new_cloud. destruct p as [pts nrm fe la bi bs np dv]. cbn [p_normals p_points p_features p_labels p_batch_id p_batch_size p_batch_npt p_device]. destruct nrm as [n|]; intros [= <- <-].
  - split; [apply kept_app|]. destruct (tread_last2 h pts n) as [E1 E2]. split; [unfold content; cbn; rewrite E1, E2; reflexivity|]. cbn. rewrite app_length. cbn. split.
    + constructor; [cbn; intros [H|[]]; lia|]. constructor; [easy|constructor].
    + intros t [<-|[<-|[]]]; lia.
  - split; [apply kept_app|]. split; [unfold content; cbn; rewrite tread_last; reflexivity|]. cbn. rewrite app_length. cbn. split; [constructor; [easy|constructor]|]. intros t [<-|[]]. lia.
Qed.

(** the content of an object after a method that reassigns its fields *)
Definition good (h : theap) (c : hcloud) : Prop := NoDup (tensors_of c) /\ Forall (fun t => (t < length h)%nat) (tensors_of c).
Lemma good_pts h c : good h c -> (h_pts c < length h)%nat.
Proof. intros [_ H]. inversion H. assumption. Qed.
Lemma good_nrm h c n : good h c -> h_nrm c = Some n -> (n < length h)%nat /\ n <> h_pts c.
Proof.
  intros [N F] E. unfold tensors_of in *. rewrite E in *. inversion F as [|? ? _ F']; subst. inversion F'; subst. split; [assumption|]. inversion N as [|? ? H _]; subst. cbn in H. intros ->. tauto.
Qed.
Definition reassigned (h : theap) (c : hcloud) (h' : theap) (c' : hcloud) : Prop := kept h h' /\ good h' c' /\ refs_from h c c' h'.

Lemma points_new_spec h c rows : good h c -> let '(h', c') := new_points h c rows in
  reassigned h c h' c' /\ content h' c' = mkPoints rows (p_normals (content h c)) (h_feat c) (h_lab c) (h_bid c) (h_size c) (h_npt c) (h_dev c).
Proof.
  intros G. unfold new_points. split.
  - split; [apply kept_app|]. split.
    + destruct G as [N F]. split; unfold tensors_of in *; cbn [h_pts h_nrm].
      * destruct (h_nrm c) as [n|]; [|constructor; [easy|constructor]]. inversion F as [|? ? _ F']; subst. inversion F'; subst. constructor; [cbn; intros [H|[]]; lia|]. constructor; [easy|constructor].
      * rewrite app_length. cbn [length]. constructor; [lia|]. inversion F as [|? ? _ F']; subst. eapply Forall_impl; [|exact F']. cbv beta. lia.
    + intros t. unfold tensors_of. cbn [h_pts h_nrm]. rewrite app_length. cbn [length In]. intros [<-|H]; [right; lia|left; right; exact H].
  - unfold content. cbn [h_pts h_nrm h_feat h_lab h_bid h_size h_npt h_dev p_normals]. rewrite tread_last. destruct (h_nrm c) as [n|] eqn:En; cbn [option_map]; [|reflexivity]. rewrite tread_app; [reflexivity|]. eapply good_nrm; eassumption.
Qed.
Lemma normals_new_spec h c rows : good h c -> let '(h', c') := new_normals h c rows in
  reassigned h c h' c' /\ content h' c' = mkPoints (p_points (content h c)) (Some rows) (h_feat c) (h_lab c) (h_bid c) (h_size c) (h_npt c) (h_dev c).
Proof.
  intros G. pose proof (good_pts _ _ G) as P. unfold new_normals. split.
  - split; [apply kept_app|]. split.
    + split; unfold tensors_of; cbn [h_pts h_nrm].
      * constructor; [cbn; intros [H|[]]; lia|]. constructor; [easy|constructor].
      * rewrite app_length. cbn [length]. repeat constructor; lia.
    + intros t. unfold tensors_of. cbn [h_pts h_nrm]. rewrite app_length. cbn [length In]. intros [<-|[<-|[]]]; [left; left; reflexivity|right; lia].
  - unfold content. cbn [h_pts h_nrm h_feat h_lab h_bid h_size h_npt h_dev p_points option_map]. rewrite tread_last, tread_app by exact P. reflexivity.
Qed.
Lemma reassigned_trans h c h1 c1 h2 c2 : reassigned h c h1 c1 -> reassigned h1 c1 h2 c2 -> reassigned h c h2 c2.
Proof.
  intros (K1 & G1 & R1) (K2 & G2 & R2). split; [eapply kept_trans; eassumption|]. split; [exact G2|]. intros t Ht. destruct (R2 t Ht) as [H|H].
  - destruct (R1 t H) as [H'|H']; [left; exact H'|right; destruct K2; lia].
  - right. destruct K1. lia.
Qed.
Lemma reassigned_refl h c : good h c -> reassigned h c h c.
Proof. intros G. split; [apply kept_refl|]. split; [exact G|]. intros t Ht. left. exact Ht. Qed.


Lemma flip_value : forall axes h c, good h c -> content (fst (h_flip axes h c)) c = fst (flip_loop axes (content h c)) /\ snd (h_flip axes h c) = snd (flip_loop axes (content h c)).
Proof.
  induction axes as [|a axes IH]; intros h c G; cbn [h_flip flip_loop]; [auto|]. destruct (axis_of a) as [idx|e]; [|auto].
  pose proof (good_pts _ _ G) as P.
  set (h1 := twrite h (h_pts c) (map (negate_at idx) (tread h (h_pts c)))).
  set (h2 := match h_nrm c with None => h1 | Some n => twrite h1 n (map (negate_at idx) (tread h1 n)) end).
  assert (G2 : good h2 c). { destruct G as [N F]. split; [exact N|]. eapply Forall_impl; [|exact F]. cbv beta. intros t Ht. unfold h2, h1. destruct (h_nrm c); rewrite ?twrite_length; exact Ht. }
  assert (E : content h2 c = set_pnormals (set_points (content h c) (negate_at idx)) (negate_at idx)).
  { unfold content, set_pnormals, set_points. cbn [p_points p_normals p_features p_labels p_batch_id p_batch_size p_batch_npt p_device]. f_equal.
    - unfold h2. destruct (h_nrm c) as [n|] eqn:En; [rewrite twrite_other by (eapply good_nrm; eassumption)|]; unfold h1; apply twrite_same; exact P.
    - unfold h2. destruct (h_nrm c) as [n|] eqn:En; cbn [option_map]; [|reflexivity]. destruct (good_nrm _ _ _ G En) as [Hn Hne]. f_equal. unfold h1. rewrite twrite_same by (rewrite twrite_length; exact Hn). rewrite twrite_other by congruence. reflexivity. }
  destruct (IH h2 c G2) as [A B]. rewrite E in A, B. split; [exact A|exact B].
Qed.

(** ** methods that change the object itself *)
Definition method_ok (h : theap) (c : hcloud) (op : pop) (r : theap * hcloud * option exn) : Prop :=
  let '(h', c', e) := r in
  (content h' c', e) = papply (content h c) op /\ (length h <= length h')%nat /\
  (forall t, (t < length h)%nat -> (writes op = false \/ ~ In t (tensors_of c)) -> tread h' t = tread h t) /\ good h' c' /\ refs_from h c c' h'.
Lemma reassigned_ok h c op h' c' e : reassigned h c h' c' -> (content h' c', e) = papply (content h c) op -> method_ok h c op (h', c', e).
Proof.
  intros ((K1 & K2) & G & R) E. split; [exact E|]. split; [exact K1|]. split; [intros t Ht _; apply K2; exact Ht|]. split; assumption.
Qed.
Lemma content_parts h c : p_points (content h c) = tread h (h_pts c) /\ p_normals (content h c) = option_map (tread h) (h_nrm c).
Proof. split; reflexivity. Qed.

Lemma orient_ok h c axis : good h c -> method_ok h c (POrient axis) (h_orient h c axis).
Proof.
  intros G. unfold h_orient. destruct (h_nrm c) as [n|] eqn:En.
  2:{ apply reassigned_ok; [apply reassigned_refl; exact G|]. cbn [papply]. unfold orient_normal. destruct (content_parts h c) as [_ ->]. rewrite En. reflexivity. }
  assert (Hv : forall f, let '(h', c') := new_normals h c (map f (tread h n)) in reassigned h c h' c' /\ content h' c' = set_pnormals (content h c) f).
  { intros f. pose proof (normals_new_spec h c (map f (tread h n)) G) as H. destruct (new_normals h c (map f (tread h n))) as [h' c']. destruct H as [H1 H2]. split; [exact H1|]. rewrite H2. unfold set_pnormals, content. cbn. rewrite En. reflexivity. }
  assert (Hp : p_normals (content h c) = Some (tread h n)) by (destruct (content_parts h c) as [_ ->]; rewrite En; reflexivity).
  destruct (String.eqb axis "x") eqn:E1; [|destruct (String.eqb axis "y") eqn:E2; [|destruct (String.eqb axis "z") eqn:E3; [|destruct (String.eqb axis "xyz") eqn:E4]]].
  - specialize (Hv (orient_row 0)). destruct (new_normals h c (map (orient_row 0) (tread h n))) as [h' c']. destruct Hv as [H1 H2]. apply reassigned_ok; [exact H1|].
    cbn [papply]. unfold orient_normal. rewrite Hp, ?E1, ?E2, ?E3. cbn [settle]. rewrite H2. reflexivity.
  - specialize (Hv (orient_row 1)). destruct (new_normals h c (map (orient_row 1) (tread h n))) as [h' c']. destruct Hv as [H1 H2]. apply reassigned_ok; [exact H1|].
    cbn [papply]. unfold orient_normal. rewrite Hp, ?E1, ?E2, ?E3. cbn [settle]. rewrite H2. reflexivity.
  - specialize (Hv (orient_row 2)). destruct (new_normals h c (map (orient_row 2) (tread h n))) as [h' c']. destruct Hv as [H1 H2]. apply reassigned_ok; [exact H1|].
    cbn [papply]. unfold orient_normal. rewrite Hp, ?E1, ?E2, ?E3. cbn [settle]. rewrite H2. reflexivity.
  - destruct (good_nrm _ _ _ G En) as [Hn Hne]. split; [|split; [rewrite twrite_length; lia|split; [|split]]].
    + cbn [papply]. unfold orient_normal. rewrite Hp, E1, E2, E3, E4. cbn [settle]. unfold content, set_pnormals. cbn. rewrite En. cbn. rewrite twrite_same by exact Hn. rewrite twrite_other by exact Hne. reflexivity.
    + intros t Ht [H|H]; [cbn [writes] in H; congruence|]. apply twrite_other. intros E. apply H. unfold tensors_of. rewrite En. cbn. auto.
    + destruct G as [N F]. split; [exact N|]. eapply Forall_impl; [|exact F]. cbv beta. intros t. rewrite twrite_length. auto.
    + intros t Ht. left. exact Ht.
  - apply reassigned_ok; [apply reassigned_refl; exact G|]. cbn [papply]. unfold orient_normal. rewrite Hp, E1, E2, E3, E4. reflexivity.
Qed.
Lemma map_points_spec h c f : good h c -> let '(h', c') := map_points h c f in reassigned h c h' c' /\ content h' c' = set_points (content h c) f.
Proof.
  intros G. unfold map_points. pose proof (points_new_spec h c (map f (tread h (h_pts c))) G) as H. destruct (new_points _ _ _) as [h' c']. destruct H as [H1 H2]. split; [exact H1|]. rewrite H2. reflexivity.
Qed.
Lemma map_normals_spec h c f : good h c -> let '(h', c') := map_normals (h, c) f in reassigned h c h' c' /\ content h' c' = set_pnormals (content h c) f.
Proof.
  intros G. unfold map_normals. destruct (h_nrm c) as [n|] eqn:En.
  - pose proof (normals_new_spec h c (map f (tread h n)) G) as H. destruct (new_normals _ _ _) as [h' c']. destruct H as [H1 H2]. split; [exact H1|]. rewrite H2. unfold set_pnormals, content. cbn. rewrite En. reflexivity.
  - split; [apply reassigned_refl; exact G|]. unfold set_pnormals, content. cbn. rewrite En. reflexivity.
Qed.
Lemma map_both_spec h c f g : good h c -> let '(h', c') := map_normals (map_points h c f) g in reassigned h c h' c' /\ content h' c' = set_pnormals (set_points (content h c) f) g.
Proof.
  intros G. pose proof (map_points_spec h c f G) as H. destruct (map_points h c f) as [h1 c1]. destruct H as [R1 E1]. destruct R1 as (K1 & G1 & F1).
  pose proof (map_normals_spec h1 c1 g G1) as H. destruct (map_normals (h1, c1) g) as [h2 c2]. destruct H as [R2 E2]. split; [eapply reassigned_trans; [|exact R2]; split; [exact K1|split; assumption]|]. rewrite E2, E1. reflexivity.
Qed.
Lemma scale_ok h c f : good h c -> method_ok h c (PScale f) (h_scale h c f).
Proof.
  intros G. destruct f as [[fx fy] fz]. unfold h_scale. cbn [papply]. 
  set (nz := negb (Reqb fx 0) && negb (Reqb fy 0) && negb (Reqb fz 0)). set (ao := Reqb fx 1 && Reqb fy 1 && Reqb fz 1). set (nu := negb (Reqb fx fx) || negb (Reqb fy fx) || negb (Reqb fz fx)).
  assert (V : papply (content h c) (PScale (fx, fy, fz)) = if negb nz then (content h c, Some AssertionError) else if ao then (content h c, None) else
    let p := set_points (content h c) (fun v => v3zip Rmult v (fx, fy, fz)) in ((if nu then set_pnormals p (scale_normal (1 / fx, 1 / fy, 1 / fz)%R) else p), None)).
  { cbn [papply]. unfold points_scale. fold nz ao nu. destruct nz; cbn [assert_ bind negb settle]; [|reflexivity]. destruct ao; [reflexivity|]. destruct nu; reflexivity. }
  destruct nz; cbn [negb] in *; [|apply reassigned_ok; [apply reassigned_refl; exact G|]; rewrite V; reflexivity].
  destruct ao; [apply reassigned_ok; [apply reassigned_refl; exact G|]; rewrite V; reflexivity|].
  destruct nu.
  - pose proof (map_both_spec h c (fun v => v3zip Rmult v (fx, fy, fz)) (scale_normal (1 / fx, 1 / fy, 1 / fz)%R) G) as H. destruct (map_normals _ _) as [h' c']. destruct H as [H1 H2]. apply reassigned_ok; [exact H1|]. rewrite V, H2. reflexivity.
  - pose proof (map_points_spec h c (fun v => v3zip Rmult v (fx, fy, fz)) G) as H. destruct (map_points _ _ _) as [h' c']. destruct H as [H1 H2]. apply reassigned_ok; [exact H1|]. rewrite V, H2. reflexivity.
Qed.
Lemma rotate_ok h c a : good h c -> method_ok h c (PRotate a) (h_rotate h c a, None).
Proof.
  intros G. unfold h_rotate. pose proof (map_both_spec h c (fun v => vecmat v (rot_matrix a)) (fun v => vecmat v (rot_matrix a)) G) as H. destruct (map_normals _ _) as [h' c']. destruct H as [H1 H2]. apply reassigned_ok; [exact H1|]. rewrite H2. reflexivity.
Qed.
Lemma translate_ok h c d : good h c -> method_ok h c (PTranslate d) (map_points h c (fun v => v3zip Rplus v d), None).
Proof.
  intros G. pose proof (map_points_spec h c (fun v => v3zip Rplus v d) G) as H. destruct (map_points _ _ _) as [h' c']. destruct H as [H1 H2]. apply reassigned_ok; [exact H1|]. rewrite H2. reflexivity.
Qed.
Lemma normalize_ok h c a b s : good h c -> method_ok h c (PNormalize a b s) (new_points h c (p_points (normalize a b s (content h c))), None).
Proof.
  intros G. pose proof (points_new_spec h c (p_points (normalize a b s (content h c))) G) as H. destruct (new_points _ _ _) as [h' c']. destruct H as [H1 H2]. apply reassigned_ok; [exact H1|]. rewrite H2. cbn [papply]. unfold normalize.
  destruct (v3zip Rminus b a) as [[sx sy] sz]. reflexivity.
Qed.
Lemma flip_ok h c axis : good h c -> method_ok h c (PFlip axis) (let '(h', e) := h_flip (list_ascii_of_string axis) h c in (h', c, e)).
Proof.
  intros G. destruct (flip_value (list_ascii_of_string axis) h c G) as [A B]. destruct (flip_heap (list_ascii_of_string axis) h c) as [L F]. destruct (h_flip _ h c) as [h' e]. cbn [fst snd] in *.
  split; [cbn [papply]; unfold flip; rewrite A, B; destruct (flip_loop _ _); reflexivity|]. split; [lia|]. split; [intros t Ht [H|H]; [discriminate|apply F; exact H]|]. split.
  - destruct G as [N Fo]. split; [exact N|]. eapply Forall_impl; [|exact Fo]. cbv beta. rewrite L. auto.
  - intros t Ht. left. exact Ht.
Qed.
Lemma new_cloud_ok h c op q : papply (content h c) op = (q, None) -> method_ok h c op (new_cloud h q, None).
Proof.
  intros E. destruct (new_cloud h q) as [h' c'] eqn:En. destruct (new_cloud_spec _ _ _ _ En) as (K & C & N & F). apply reassigned_ok; [|rewrite C, E; reflexivity].
  split; [exact K|]. split; [split; [exact N|apply Forall_forall; intros t Ht; apply F in Ht; lia]|]. intros t Ht. right. apply F. exact Ht.
Qed.

(** ** the whole program *)
Lemma nd_app {A} (a b : list A) : NoDup (a ++ b) <-> NoDup a /\ NoDup b /\ forall x, In x a -> ~ In x b.
Proof.
  induction a as [|x a IH]; cbn [app].
  - split; [intros H; repeat split; [constructor|exact H|intros ? []]|tauto].
  - split.
    + intros H. inversion H as [|? ? N H']; subst. apply IH in H'. destruct H' as (H1 & H2 & H3). split; [constructor; [intros I; apply N, in_or_app; auto|exact H1]|]. split; [exact H2|].
      intros y [<-|Hy] I; [apply N, in_or_app; auto|exact (H3 y Hy I)].
    + intros (H1 & H2 & H3). inversion H1 as [|? ? N H1']; subst. constructor.
      * intros I. apply in_app_or in I. destruct I as [I|I]; [exact (N I)|exact (H3 x (or_introl eq_refl) I)].
      * apply IH. split; [exact H1'|]. split; [exact H2|]. intros y Hy. apply H3. right. exact Hy.
Qed.
Lemma replace_split {A} : forall (l : list A) i c a, nth_error l i = Some c -> exists l1 l2, l = l1 ++ c :: l2 /\ length l1 = i /\ replace l i a = l1 ++ a :: l2.
Proof.
  induction l as [|x l IH]; intros [|i] c a H; cbn in H; try discriminate.
  - injection H as <-. exists [], l. auto.
  - destruct (IH i c a H) as (l1 & l2 & -> & <- & E). exists (x :: l1), l2. cbn. rewrite E. auto.
Qed.
Lemma replace_at {A} (l1 : list A) c l2 a : replace (l1 ++ c :: l2) (length l1) a = l1 ++ a :: l2.
Proof. induction l1 as [|x l1 IH]; [reflexivity|]. cbn. rewrite IH. reflexivity. Qed.
Lemma unshared_good w i c : unshared w -> nth_error (w_objs w) i = Some c -> good (w_heap w) c.
Proof.
  intros [N F] E. destruct (replace_split _ _ _ c E) as (l1 & l2 & Eo & _ & _). rewrite Eo in *. rewrite flat_map_app in *. cbn [flat_map] in *.
  apply nd_app in N. destruct N as (_ & N & _). apply nd_app in N. destruct N as (N & _ & _). apply Forall_app in F. destruct F as [_ F]. apply Forall_app in F. destruct F as [F _]. split; assumption.
Qed.
Lemma content_ext h h' c : (forall t, In t (tensors_of c) -> tread h' t = tread h t) -> content h' c = content h c.
Proof.
  intros H. unfold content, tensors_of in *. f_equal; [apply H; left; reflexivity|]. destruct (h_nrm c) as [n|]; [|reflexivity]. cbn [option_map]. f_equal. apply H. right. left. reflexivity.
Qed.
Lemma map_content_ext h h' cs : (forall t, In t (flat_map tensors_of cs) -> tread h' t = tread h t) -> map (content h') cs = map (content h) cs.
Proof.
  intros H. apply map_ext_in. intros c Hc. apply content_ext. intros t Ht. apply H. apply in_flat_map. exists c. auto.
Qed.

Lemma in_place_step w i c op r : unshared w -> nth_error (w_objs w) i = Some c -> method_ok (w_heap w) c op r ->
  let '(w', e) := in_place w i r in let '(q, e') := papply (content (w_heap w) c) op in
  seen w' = replace (seen w) i q /\ e = e' /\ unshared w'.
Proof.
  intros [N F] E. destruct r as [[h' c'] e]. intros (V & L & Fr & (N' & F') & R). unfold in_place. destruct (papply (content (w_heap w) c) op) as [q e']. injection V as Eq Ee.
  destruct (replace_split _ _ _ c' E) as (l1 & l2 & Eo & Li & Er). rewrite Eo in N, F. rewrite flat_map_app in *. cbn [flat_map] in *.
  pose proof (proj1 (nd_app _ _) N) as (NA & NB & D1). pose proof (proj1 (nd_app _ _) NB) as (NC & ND & D2). apply Forall_app in F. destruct F as [FA F]. apply Forall_app in F. destruct F as [FC FB].
  rewrite Forall_forall in FA, FB, FC.
  assert (X1 : forall t, In t (flat_map tensors_of l1) -> tread h' t = tread (w_heap w) t).
  { intros t Ht. apply Fr; [apply FA; exact Ht|]. right. intros I. apply (D1 t Ht). apply in_or_app. auto. }
  assert (X2 : forall t, In t (flat_map tensors_of l2) -> tread h' t = tread (w_heap w) t).
  { intros t Ht. apply Fr; [apply FB; exact Ht|]. right. intros I. exact (D2 t I Ht). }
  split; [|split; [exact Ee|split]].
  - unfold seen. cbn [w_heap w_objs]. rewrite Er, Eo. subst i. rewrite !map_app. cbn [map]. rewrite (map_content_ext _ _ _ X1), (map_content_ext _ _ _ X2), Eq.
    rewrite <- (map_length (content (w_heap w)) l1). rewrite replace_at. reflexivity.
  - cbn [w_objs]. rewrite Er, flat_map_app. cbn [flat_map]. apply nd_app. split; [exact NA|]. split.
    + apply nd_app. split; [exact N'|]. split; [exact ND|]. intros t Ht I. destruct (R t Ht) as [H|H]; [exact (D2 t H I)|specialize (FB t I); lia].
    + intros t Ht I. apply in_app_or in I. destruct I as [I|I]; [|exact (D1 t Ht (in_or_app _ _ _ (or_intror I)))].
      destruct (R t I) as [H|H]; [exact (D1 t Ht (in_or_app _ _ _ (or_introl H)))|specialize (FA t Ht); lia].
  - cbn [w_objs w_heap]. rewrite Er, flat_map_app. cbn [flat_map]. apply Forall_app. split; [apply Forall_forall; intros t Ht; specialize (FA t Ht); lia|]. apply Forall_app. split; [exact F'|].
    apply Forall_forall. intros t Ht. specialize (FB t Ht). lia.
Qed.
Lemma appended_step w q : unshared w -> let '(w', e) := appended w (Ok q) in seen w' = seen w ++ [q] /\ e = None /\ unshared w'.
Proof.
  intros [N F]. unfold appended. destruct (new_cloud (w_heap w) q) as [h' c'] eqn:En. destruct (new_cloud_spec _ _ _ _ En) as ((L & K) & C & N' & F'). rewrite Forall_forall in F.
  split; [|split; [reflexivity|split]].
  - unfold seen. cbn [w_heap w_objs]. rewrite map_app. cbn [map]. rewrite C. f_equal. apply map_content_ext. intros t Ht. apply K. apply F. exact Ht.
  - cbn [w_objs]. rewrite flat_map_app. cbn [flat_map]. rewrite app_nil_r. apply nd_app. split; [exact N|]. split; [exact N'|]. intros t Ht I. apply F' in I. specialize (F t Ht). lia.
  - cbn [w_objs w_heap]. rewrite flat_map_app. cbn [flat_map]. rewrite app_nil_r. apply Forall_app. split; apply Forall_forall; intros t Ht; [specialize (F t Ht); lia|apply F' in Ht; lia].
Qed.
Lemma replace_same {A} : forall (l : list A) i a, nth_error l i = Some a -> replace l i a = l.
Proof. induction l as [|x l IH]; intros [|i] a H; cbn in *; try discriminate; [congruence|]. rewrite IH by exact H. reflexivity. Qed.

Lemma seen_nth w i : nth_error (seen w) i = option_map (content (w_heap w)) (nth_error (w_objs w) i).
Proof. unfold seen. apply nth_error_map. Qed.
Lemma collect_same w : forall is, match mapM (fun i => match nth_error (w_objs w) i with Some c => Ok c | None => Err IndexError end) is with
  | Ok cs => mapM (fun i => match nth_error (seen w) i with Some p => Ok p | None => Err IndexError end) is = Ok (map (content (w_heap w)) cs)
  | Err e => mapM (fun i => match nth_error (seen w) i with Some p => Ok p | None => Err IndexError end) is = Err e end.
Proof.
  induction is as [|i is IH]; [reflexivity|]. cbn [mapM]. rewrite seen_nth. destruct (nth_error (w_objs w) i) as [c|]; cbn [option_map bind]; [|reflexivity].
  destruct (mapM _ is) as [cs|e]; rewrite IH; reflexivity.
Qed.

Theorem call_refines w k : unshared w -> let '(w', e) := do_call w k in let '(ps, e') := value_call (seen w) k in seen w' = ps /\ e = e' /\ unshared w'.
Proof.
  intros U. destruct k as [i op|is update]; cbn [do_call value_call].
  - rewrite seen_nth. destruct (nth_error (w_objs w) i) as [c|] eqn:E; cbn [option_map]; [|auto]. pose proof (unshared_good _ _ _ U E) as G. destruct op; cbn [do_method].
    + pose proof (in_place_step w i c _ _ U E (orient_ok _ _ axis G)) as H. destruct (in_place _ _ _) as [w' e]. destruct (papply _ _) as [q e']. exact H.
    + pose proof (in_place_step w i c _ _ U E (scale_ok _ _ factor G)) as H. destruct (in_place _ _ _) as [w' e]. destruct (papply _ _) as [q e']. exact H.
    + pose proof (in_place_step w i c _ _ U E (rotate_ok _ _ angle G)) as H. destruct (in_place _ _ _) as [w' e]. destruct (papply _ _) as [q e']. exact H.
    + pose proof (in_place_step w i c _ _ U E (translate_ok _ _ dis G)) as H. destruct (in_place _ _ _) as [w' e]. destruct (papply _ _) as [q e']. exact H.
    + pose proof (in_place_step w i c _ _ U E (flip_ok _ _ axis G)) as H. destruct (h_flip _ _ _) as [h' e0]. destruct (in_place _ _ _) as [w' e]. destruct (papply _ _) as [q e']. exact H.
    + destruct (clip Rltb Rplus Rminus mn mx esp (content (w_heap w) c)) as [[m q]|e] eqn:Ec.
      * assert (V : papply (content (w_heap w) c) (PClip mn mx esp) = (q, None)) by (cbn [papply]; rewrite Ec; reflexivity).
        pose proof (in_place_step w i c _ _ U E (new_cloud_ok _ _ _ _ V)) as H. destruct (in_place _ _ _) as [w' e]. rewrite V in *. exact H.
      * cbn [papply]. rewrite Ec. cbn [bind settle]. split; [|auto]. symmetry. apply replace_same. rewrite seen_nth, E. reflexivity.
    + cbn [papply]. destruct (points_getitem (content (w_heap w) c) mask) as [q|e]; cbn [settle]; [|cbn [appended]; auto]. pose proof (appended_step w q U) as H. destruct (appended w (Ok q)) as [w' e]. exact H.
    + pose proof (in_place_step w i c _ _ U E (normalize_ok _ _ bbmin bbmax scale G)) as H. destruct (in_place _ _ _) as [w' e]. destruct (papply _ _) as [q e']. exact H.
    + cbn [papply content p_device]. destruct (Nat.eqb (h_dev c) dev); [auto|]. pose proof (appended_step w (points_to (content (w_heap w) c) dev) U) as H. destruct (appended w _) as [w' e]. exact H.
  - pose proof (collect_same w is) as C. destruct (mapM _ is) as [cs|e]; rewrite C; [|auto]. destruct (merge_points _ update) as [q|e]; [|cbn [appended]; auto]. pose proof (appended_step w q U) as H. destruct (appended w (Ok q)) as [w' e]. exact H.
Qed.
Theorem thm_refines : forall ks w, unshared w -> let '(w', es) := run_calls w ks in
  value_run (seen w) ks = (seen w', es) /\ unshared w'.
Proof.
  induction ks as [|k ks IH]; intros w U; cbn [run_calls value_run]; [auto|]. pose proof (call_refines w k U) as H. destruct (do_call w k) as [w1 e]. destruct (value_call (seen w) k) as [ps e']. destruct H as (<- & <- & U1).
  specialize (IH w1 U1). destruct (run_calls w1 ks) as [w2 es]. destruct IH as [-> U2]. auto.
Qed.

(** ** shared or not: what a call can write *)
Definition method_frame (h : theap) (c : hcloud) (op : pop) (r : theap * hcloud * option exn) : Prop :=
  let '(h', c', e) := r in
  (length h <= length h')%nat /\ (forall t, (t < length h)%nat -> (writes op = false \/ ~ In t (tensors_of c)) -> tread h' t = tread h t) /\
  (forall t, In t (tensors_of c') -> In t (tensors_of c) \/ (length h <= t)%nat) /\
  (renews op = true -> e = None -> forall t, In t (tensors_of c') -> (length h <= t)%nat).
Lemma frame_kept h c op h' c' e : kept h h' -> (forall t, In t (tensors_of c') -> In t (tensors_of c) \/ (length h <= t)%nat) -> (renews op = true -> e = None -> forall t, In t (tensors_of c') -> (length h <= t)%nat) ->
  method_frame h c op (h', c', e).
Proof. intros [K1 K2] R N. split; [exact K1|]. split; [intros t Ht _; apply K2; exact Ht|]. split; assumption. Qed.
Lemma frame_points h c f : let '(h', c') := map_points h c f in kept h h' /\ h_pts c' = length h /\ h_nrm c' = h_nrm c /\ length h' = S (length h).
Proof. unfold map_points, new_points. split; [apply kept_app|]. cbn. rewrite app_length. cbn. repeat split; lia. Qed.
Lemma frame_normals h c f : let '(h', c') := map_normals (h, c) f in kept h h' /\ h_pts c' = h_pts c /\ (h_nrm c' = None /\ h_nrm c = None \/ h_nrm c' = Some (length h)).
Proof. unfold map_normals. destruct (h_nrm c) as [n|] eqn:En; [|split; [apply kept_refl|auto]]. unfold new_normals. split; [apply kept_app|]. cbn. auto. Qed.
Lemma frame_both h c f g op e : writes op = false -> method_frame h c op (map_normals (map_points h c f) g, e).
Proof.
  intros Hw. pose proof (frame_points h c f) as H. destruct (map_points h c f) as [h1 c1]. destruct H as (K1 & P1 & N1 & L1).
  pose proof (frame_normals h1 c1 g) as H. destruct (map_normals (h1, c1) g) as [h2 c2]. destruct H as (K2 & P2 & N2). apply frame_kept.
  - eapply kept_trans; eassumption.
  - intros t. unfold tensors_of. rewrite P2, P1. intros [<-|H]; [right; lia|]. destruct N2 as [[N2 _]|N2]; rewrite N2 in H; [destruct H|]. destruct H as [<-|[]]. right. lia.
  - intros _ _ t. unfold tensors_of. rewrite P2, P1. intros [<-|H]; [lia|]. destruct N2 as [[N2 _]|N2]; rewrite N2 in H; [destruct H|]. destruct H as [<-|[]]. lia.
Qed.
Lemma frame_one h c f op e : renews op = false -> method_frame h c op (map_points h c f, e).
Proof.
  intros Hr. pose proof (frame_points h c f) as H. destruct (map_points h c f) as [h1 c1]. destruct H as (K1 & P1 & N1 & L1). apply frame_kept; [exact K1| |congruence].
  intros t. unfold tensors_of. rewrite P1, N1. intros [<-|H]; [right; lia|left; right; exact H].
Qed.
Lemma frame_none h c op e : (renews op = true -> e <> None) -> method_frame h c op (h, c, e).
Proof. intros H. apply frame_kept; [apply kept_refl|auto|]. intros H1 H2. exfalso. apply H; assumption. Qed.
Lemma frame_new h c op q : method_frame h c op (new_cloud h q, None).
Proof.
  destruct (new_cloud h q) as [h' c'] eqn:En. destruct (new_cloud_spec _ _ _ _ En) as (K & _ & _ & F). apply frame_kept; [exact K| |]; intros; [right|]; match goal with H : In _ _ |- _ => apply F in H; lia end.
Qed.
Lemma frame_orient h c axis : method_frame h c (POrient axis) (h_orient h c axis).
Proof.
  unfold h_orient. destruct (h_nrm c) as [n|] eqn:En; [|apply frame_none; discriminate].
  assert (Hn : forall rows, method_frame h c (POrient axis) (new_normals h c rows, None)).
  { intros rows. unfold new_normals. apply frame_kept; [apply kept_app| |discriminate]. intros t. unfold tensors_of. cbn [h_pts h_nrm]. intros [<-|[<-|[]]]; [left; left; reflexivity|right; lia]. }
  destruct (String.eqb axis "x"); [apply Hn|]. destruct (String.eqb axis "y"); [apply Hn|]. destruct (String.eqb axis "z"); [apply Hn|].
  destruct (String.eqb axis "xyz") eqn:E; [|apply frame_none; discriminate]. split; [rewrite twrite_length; lia|]. split; [|split; [auto|discriminate]].
  intros t Ht [H|H]; [cbn [writes] in H; congruence|]. apply twrite_other. intros Et. apply H. unfold tensors_of. rewrite En, Et. cbn. auto.
Qed.
Lemma frame_scale h c f : method_frame h c (PScale f) (h_scale h c f).
Proof.
  destruct f as [[fx fy] fz]. unfold h_scale. destruct (negb _); [apply frame_none; discriminate|]. destruct (_ && _ && _); [apply frame_none; discriminate|].
  destruct (_ || _ || _); [apply frame_both; reflexivity|apply frame_one; reflexivity].
Qed.
Lemma frame_flip h c axis : method_frame h c (PFlip axis) (let '(h', e) := h_flip (list_ascii_of_string axis) h c in (h', c, e)).
Proof.
  destruct (flip_heap (list_ascii_of_string axis) h c) as [L F]. destruct (h_flip _ h c) as [h' e]. cbn [fst] in *. split; [lia|]. split; [|split; [auto|discriminate]]. intros t Ht [H|H]; [discriminate|apply F; exact H].
Qed.
Lemma frame_appended w r : (length (w_heap w) <= length (w_heap (fst (appended w r))))%nat /\ (forall t, (t < length (w_heap w))%nat -> tread (w_heap (fst (appended w r))) t = tread (w_heap w) t) /\
  (forall i c, nth_error (w_objs w) i = Some c -> nth_error (w_objs (fst (appended w r))) i = Some c).
Proof.
  unfold appended. destruct r as [q|e]; [|cbn; auto]. destruct (new_cloud (w_heap w) q) as [h' c'] eqn:En. destruct (new_cloud_spec _ _ _ _ En) as ([K1 K2] & _). cbn [fst w_heap w_objs]. split; [exact K1|]. split; [exact K2|].
  intros i c E. rewrite nth_error_app1; [exact E|]. apply nth_error_Some. rewrite E. discriminate.
Qed.
Lemma replace_nth {A} : forall (l : list A) i a b, nth_error l i = Some a -> nth_error (replace l i b) i = Some b.
Proof. induction l as [|x l IH]; intros [|i] a b H; cbn in *; try discriminate; [reflexivity|]. eapply IH. exact H. Qed.

(** One method, whatever is shared. *)
Lemma method_facts w i c op : nth_error (w_objs w) i = Some c -> let '(w', e) := do_method w i c op in
  (length (w_heap w) <= length (w_heap w'))%nat /\
  (forall t, (t < length (w_heap w))%nat -> (writes op = false \/ ~ In t (tensors_of c)) -> tread (w_heap w') t = tread (w_heap w) t) /\
  exists c', nth_error (w_objs w') i = Some c' /\ (forall t, In t (tensors_of c') -> In t (tensors_of c) \/ (length (w_heap w) <= t)%nat) /\
    (renews op = true -> e = None -> forall t, In t (tensors_of c') -> (length (w_heap w) <= t)%nat).
Proof.
  intros E.
  assert (IP : forall r, method_frame (w_heap w) c op r -> let '(w', e) := in_place w i r in (length (w_heap w) <= length (w_heap w'))%nat /\
    (forall t, (t < length (w_heap w))%nat -> (writes op = false \/ ~ In t (tensors_of c)) -> tread (w_heap w') t = tread (w_heap w) t) /\
    exists c', nth_error (w_objs w') i = Some c' /\ (forall t, In t (tensors_of c') -> In t (tensors_of c) \/ (length (w_heap w) <= t)%nat) /\
    (renews op = true -> e = None -> forall t, In t (tensors_of c') -> (length (w_heap w) <= t)%nat)).
  { intros [[h' c'] e] (A & B & C & D). unfold in_place. cbn [w_heap w_objs]. split; [exact A|]. split; [exact B|]. exists c'. split; [eapply replace_nth; exact E|]. split; assumption. }
  assert (AP : forall r, renews op = false -> let '(w', e) := appended w r in (length (w_heap w) <= length (w_heap w'))%nat /\
    (forall t, (t < length (w_heap w))%nat -> (writes op = false \/ ~ In t (tensors_of c)) -> tread (w_heap w') t = tread (w_heap w) t) /\
    exists c', nth_error (w_objs w') i = Some c' /\ (forall t, In t (tensors_of c') -> In t (tensors_of c) \/ (length (w_heap w) <= t)%nat) /\
    (renews op = true -> e = None -> forall t, In t (tensors_of c') -> (length (w_heap w) <= t)%nat)).
  { intros r Hr. destruct (frame_appended w r) as (A & B & C). destruct (appended w r) as [w' e]. cbn [fst] in *. split; [exact A|]. split; [auto|]. exists c. split; [apply C; exact E|]. split; [auto|congruence]. }
  destruct op; cbn [do_method]; cbv zeta.
  - apply IP, frame_orient.
  - apply IP, frame_scale.
  - apply IP. apply frame_both. reflexivity.
  - apply IP. apply frame_one. reflexivity.
  - pose proof (frame_flip (w_heap w) c axis) as H. destruct (h_flip _ _ _) as [h' e]. apply IP. exact H.
  - destruct (clip _ _ _ _ _ _ _) as [[m q]|e]; [apply IP, frame_new|]. split; [lia|]. split; [auto|]. exists c. split; [exact E|]. split; [auto|discriminate].
  - apply AP. reflexivity.
  - apply IP. apply frame_kept; [apply kept_app| |discriminate]. intros t. unfold tensors_of. cbn [new_points snd h_pts h_nrm]. intros [<-|H]; [right; lia|left; right; exact H].
  - destruct (Nat.eqb (h_dev c) dev); [|apply AP; reflexivity]. split; [lia|]. split; [auto|]. exists c. split; [exact E|]. split; [auto|discriminate].
Qed.

(** A call writes into existing tensors only if it is flip or orient_normal('xyz'), and
    then only into the tensors of its own object. *)
Theorem thm_frame : forall w k t, (t < length (w_heap w))%nat ->
  (forall i op c, k = CDo i op -> nth_error (w_objs w) i = Some c -> writes op = true -> ~ In t (tensors_of c)) ->
  tread (w_heap (fst (do_call w k))) t = tread (w_heap w) t.
Proof.
  intros w k t Ht H. destruct k as [i op|is update]; cbn [do_call].
  - destruct (nth_error (w_objs w) i) as [c|] eqn:E; [|reflexivity]. pose proof (method_facts w i c op E) as M. destruct (do_method w i c op) as [w' e]. cbn [fst]. destruct M as (_ & F & _). apply F; [exact Ht|].
    destruct (writes op) eqn:W; [right; eapply H; eauto|left; reflexivity].
  - destruct (mapM _ is) as [cs|e]; [|reflexivity]. apply frame_appended. exact Ht.
Qed.
Lemma call_grows w k : (length (w_heap w) <= length (w_heap (fst (do_call w k))))%nat.
Proof.
  destruct k as [i op|is update]; cbn [do_call].
  - destruct (nth_error (w_objs w) i) as [c|] eqn:E; [|cbn; lia]. pose proof (method_facts w i c op E) as M. destruct (do_method w i c op) as [w' e]. apply M.
  - destruct (mapM _ is) as [cs|e]; [|cbn; lia]. apply frame_appended.
Qed.
Theorem thm_frame_run : forall ks w t, (t < length (w_heap w))%nat -> (forall i op, In (CDo i op) ks -> writes op = false) ->
  tread (w_heap (fst (run_calls w ks))) t = tread (w_heap w) t.
Proof.
  induction ks as [|k ks IH]; intros w t Ht H; cbn [run_calls fst]; [reflexivity|].
  pose proof (thm_frame w k t Ht) as F. pose proof (call_grows w k) as L. destruct (do_call w k) as [w1 e]. cbn [fst] in *. specialize (IH w1 t ltac:(lia)). destruct (run_calls w1 ks) as [w2 es]. cbn [fst] in *. rewrite IH.
  - apply F. intros i op c -> _ W. specialize (H i op (or_introl eq_refl)). congruence.
  - intros i op I. eapply H. right. exact I.
Qed.

(** After rotate or clip the object is independent of everything that existed. *)
Lemma own_run : forall ks w n i c, (n <= length (w_heap w))%nat -> nth_error (w_objs w) i = Some c -> (forall t, In t (tensors_of c) -> (n <= t)%nat) ->
  Forall (fun k => exists op, k = CDo i op) ks -> forall t, (t < n)%nat -> tread (w_heap (fst (run_calls w ks))) t = tread (w_heap w) t.
Proof.
  induction ks as [|k ks IH]; intros w n i c L E R F t Ht; cbn [run_calls fst]; [reflexivity|]. inversion F as [|? ? [op ->] F']; subst.
  pose proof (method_facts w i c op E) as M. cbn [do_call]. rewrite E. destruct (do_method w i c op) as [w1 e]. destruct M as (L1 & Fr & c' & E' & R' & _).
  specialize (IH w1 n i c' ltac:(lia) E'). destruct (run_calls w1 ks) as [w2 es]. cbn [fst] in *. rewrite IH; [|intros u Hu; destruct (R' u Hu) as [H|H]; [apply R; exact H|lia]|exact F'|exact Ht].
  apply Fr; [lia|]. right. intros I. specialize (R t I). lia.
Qed.
Theorem thm_renewed : forall w i c op w' ks t, nth_error (w_objs w) i = Some c -> renews op = true -> do_call w (CDo i op) = (w', None) ->
  Forall (fun k => exists op, k = CDo i op) ks -> (t < length (w_heap w))%nat ->
  tread (w_heap (fst (run_calls w' ks))) t = tread (w_heap w) t.
Proof.
  intros w i c op w' ks t E Hr Ed F Ht. pose proof (method_facts w i c op E) as M. cbn [do_call] in Ed. rewrite E in Ed. rewrite Ed in M. destruct M as (L & Fr & c' & E' & _ & N).
  rewrite (own_run ks w' (length (w_heap w)) i c'); try assumption; [|auto]. apply Fr; [exact Ht|]. left. destruct op; try discriminate; reflexivity.
Qed.

(** The other objects. *)
Lemma replace_other {A} : forall (l : list A) i j b, j <> i -> nth_error (replace l i b) j = nth_error l j.
Proof. induction l as [|x l IH]; intros [|i] [|j] b H; cbn; try reflexivity; try lia. apply IH. lia. Qed.
Lemma method_others w i c op j d : j <> i -> nth_error (w_objs w) j = Some d -> nth_error (w_objs (fst (do_method w i c op))) j = Some d.
Proof.
  intros Hj E.
  assert (IP : forall r, nth_error (w_objs (fst (in_place w i r))) j = Some d) by (intros [[h' c'] e]; cbn [in_place fst w_objs]; rewrite replace_other by exact Hj; exact E).
  assert (AP : forall r, nth_error (w_objs (fst (appended w r))) j = Some d) by (intros r; destruct (frame_appended w r) as (_ & _ & C); apply C; exact E).
  destruct op; cbn [do_method]; cbv zeta; try apply IP; try apply AP.
  - destruct (h_flip _ _ _) as [h' e]. apply IP.
  - destruct (clip _ _ _ _ _ _ _) as [[m q]|e]; [apply IP|exact E].
  - destruct (Nat.eqb _ _); [exact E|apply AP].
Qed.
Lemma run_others : forall ks w i j d, j <> i -> nth_error (w_objs w) j = Some d -> Forall (fun k => exists op, k = CDo i op) ks -> nth_error (w_objs (fst (run_calls w ks))) j = Some d.
Proof.
  induction ks as [|k ks IH]; intros w i j d Hj E F; cbn [run_calls fst]; [exact E|]. inversion F as [|? ? [op ->] F']; subst. cbn [do_call].
  destruct (nth_error (w_objs w) i) as [c|].
  - pose proof (method_others w i c op j d Hj E) as E1. destruct (do_method w i c op) as [w1 e]. cbn [fst] in E1. specialize (IH w1 i j d Hj E1 F'). destruct (run_calls w1 ks) as [w2 es]. exact IH.
  - specialize (IH w i j d Hj E F'). destruct (run_calls w ks) as [w2 es]. exact IH.
Qed.
Theorem thm_renewed_objects : forall w i c op w' ks, nth_error (w_objs w) i = Some c -> renews op = true -> do_call w (CDo i op) = (w', None) ->
  Forall (fun k => exists op, k = CDo i op) ks ->
  forall j d, j <> i -> nth_error (w_objs w) j = Some d -> Forall (fun t => (t < length (w_heap w))%nat) (tensors_of d) ->
  nth_error (seen (fst (run_calls w' ks))) j = nth_error (seen w) j.
Proof.
  intros w i c op w' ks E Hr Ed F j d Hj Ej HT. unfold seen. erewrite !map_nth_error; [| exact Ej|].
  2: { apply run_others with (i := i); [exact Hj| |exact F]. pose proof (method_others w i c op j d Hj Ej) as H. cbn [do_call] in Ed. rewrite E in Ed. rewrite Ed in H. exact H. }
  rewrite Forall_forall in HT. f_equal. unfold content. unfold tensors_of in HT.
  rewrite (thm_renewed w i c op w' ks (h_pts d) E Hr Ed F (HT _ (or_introl eq_refl))). f_equal. destruct (h_nrm d) as [n|]; [|reflexivity]. cbn [option_map]. f_equal.
  apply (thm_renewed w i c op w' ks n E Hr Ed F). apply HT. right. left. reflexivity.
Qed.

(** ** shared tensors *)
Definition one_row : theap := [[(1, 0, 0)%R]].
Definition plain (n : option nat) : hcloud := mkH 0 n None None None 1 None 0.
Lemma flip_row : negate_at 0 (1, 0, 0)%R <> (1, 0, 0)%R.
Proof. cbn. intros E. apply (f_equal (fun t => fst (fst t))) in E. cbn in E. lra. Qed.
Theorem thm_shared :
  (exists w, length (w_objs w) = 2%nat /\ Forall (fun t => (t < length (w_heap w))%nat) (flat_map tensors_of (w_objs w)) /\
     nth_error (seen (fst (run_calls w [CDo 0 (PScale (1, 1, 1)%R); CDo 0 (PFlip "x")]))) 1 <> nth_error (seen w) 1) /\
  (exists w p, seen w = [p] /\ p_normals p = Some (p_points p) /\ seen (fst (do_call w (CDo 0 (PFlip "x")))) = [p] /\
     fst (value_call [p] (CDo 0 (PFlip "x"))) <> [p]).
Proof.
  split.
  - exists (mkW one_row [plain None; plain None]). split; [reflexivity|]. split; [repeat constructor|].
    assert (E : h_scale one_row (plain None) (1, 1, 1)%R = (one_row, plain None, None)).
    { unfold h_scale. assert (E0 : Reqb 1 0 = false) by (apply Reqb_ne; lra). assert (E1 : Reqb 1 1 = true) by (apply Reqb_spec; reflexivity). rewrite E0, E1. reflexivity. }
    cbn [run_calls do_call w_objs nth_error do_method w_heap]. rewrite E. cbn. intros H. assert (Eq : forall A (x y : A), Some x = Some y -> x = y) by congruence. apply Eq in H. apply (f_equal (fun p => nth 0 (p_points p) (0, 0, 0)%R)) in H. cbn in H. apply (f_equal (fun t => fst (fst t))) in H. cbn in H. lra.
  - exists (mkW one_row [plain (Some 0%nat)]), (content one_row (plain (Some 0%nat))). split; [reflexivity|]. split; [reflexivity|]. split.
    + cbn. replace (1 * -1 * -1)%R with 1%R by lra. reflexivity.
    + cbn. intros H. assert (Eq : forall A (x y : A), [x] = [y] -> x = y) by congruence. apply Eq in H. apply (f_equal (fun p => nth 0 (p_points p) (0, 0, 0)%R)) in H. cbn in H. apply (f_equal (fun t => fst (fst t))) in H. cbn in H. lra.
Qed.
