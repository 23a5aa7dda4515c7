(** Proofs about the transformations of point clouds. *)
From Coq Require Import String Ascii List ZArith Bool Sorted Lia QArith Qcanon Reals Lra.
From Verif Require Import Res Tensor Num Points Octree PointsOps ListFacts SpecPoints.
Import ListNotations.
Open Scope R_scope.

(** ** alignment of the rows *)
Lemma rows_map {A B} (f : A -> B) l : rows_at (seq 0 (List.length l)) f l (map f l).
Proof.
  assert (H : forall pre m, l = pre ++ m -> Forall2 (fun i b => option_map f (nth_error l i) = Some b) (seq (List.length pre) (List.length m)) (map f m)).
  { intros pre m; revert pre; induction m as [|a m IH]; intros pre E; cbn [List.length seq map]; constructor.
    - rewrite E, nth_error_app2, Nat.sub_diag by lia. reflexivity.
    - specialize (IH (pre ++ [a])). rewrite app_length in IH. cbn [List.length] in IH. rewrite Nat.add_1_r in IH. apply IH.
      rewrite E, <- app_assoc. reflexivity. }
  apply (H [] l eq_refl).
Qed.
Lemma rows_select {A} (m : list bool) (l : list A) : List.length m = List.length l ->
  rows_at (select m (seq 0 (List.length m))) (fun x => x) l (select m l).
Proof.
  intros Hl.
  assert (H : forall m' l' pre, l = pre ++ l' -> List.length m' = List.length l' ->
    Forall2 (fun i b => option_map (fun x => x) (nth_error l i) = Some b) (select m' (seq (List.length pre) (List.length m'))) (select m' l')).
  { induction m' as [|b m' IH]; intros [|a l'] pre E Hl'; try discriminate; [constructor|]. cbn [List.length seq].
    assert (Hr : Forall2 (fun i b => option_map (fun x => x) (nth_error l i) = Some b) (select m' (seq (S (List.length pre)) (List.length m'))) (select m' l')).
    { specialize (IH l' (pre ++ [a])). rewrite app_length in IH. cbn [List.length] in IH. rewrite Nat.add_1_r in IH.
      apply IH; [rewrite E, <- app_assoc; reflexivity|cbn in Hl'; lia]. }
    destruct b; cbn [select]; [|exact Hr]. constructor; [|exact Hr].
    rewrite E, nth_error_app2, Nat.sub_diag by lia. reflexivity. }
  apply (H m l [] eq_refl Hl).
Qed.
Lemma rows_length {A B} keep (f : A -> B) l l' : rows_at keep f l l' -> List.length l' = List.length keep.
Proof. intros H. induction H; cbn; congruence. Qed.
Lemma rows_trans {A B C} k1 k2 (f : A -> B) (g : B -> C) l1 l2 l3 : rows_at k1 f l1 l2 -> rows_at k2 g l2 l3 ->
  rows_at (map (fun i => nth i k1 O) k2) (fun x => g (f x)) l1 l3.
Proof.
  intros H1 H2. unfold rows_at in *. induction H2 as [|i c k2 l3 Hi H2 IH]; [constructor|]. cbn [map]. constructor; [|exact IH].
  destruct (nth_error l2 i) as [b|] eqn:Hb; [|discriminate]. cbn in Hi. injection Hi as <-.
  clear - H1 Hb. revert i Hb. induction H1 as [|j b' k1 l2 Hj H1 IH]; intros i Hb; [destruct i; discriminate|].
  destruct i as [|i]; cbn [nth nth_error] in *.
  - injection Hb as ->. destruct (nth_error l1 j); [|discriminate]. cbn in *. injection Hj as <-. reflexivity.
  - apply IH. exact Hb.
Qed.
Lemma attr_trans {A B C} k1 k2 (f : A -> B) (g : B -> C) o1 o2 o3 : attr_at k1 f o1 o2 -> attr_at k2 g o2 o3 ->
  attr_at (map (fun i => nth i k1 O) k2) (fun x => g (f x)) o1 o3.
Proof. destruct o1, o2, o3; cbn; try contradiction; [apply rows_trans|auto]. Qed.
Lemma sorted_pick k1 k2 : StronglySorted lt k1 -> StronglySorted lt k2 -> Forall (fun i => (i < List.length k1)%nat) k2 ->
  StronglySorted lt (map (fun i => nth i k1 O) k2).
Proof.
  intros H1 H2 Hr. induction H2 as [|i k2 H2 IH Hi]; [constructor|]. inversion Hr; subst. cbn [map]. constructor; [apply IH; assumption|].
  rewrite Forall_forall in *. intros x Hx. apply in_map_iff in Hx as (j & <- & Hj). specialize (Hi j Hj).
  assert (Hjl : (j < List.length k1)%nat) by (apply H4; exact Hj). clear - H1 Hi Hjl.
  revert i j Hi Hjl. induction H1 as [|a k1 H1 IH Ha]; intros i j Hi Hj; [cbn in Hj; lia|].
  destruct j as [|j]; [lia|]. cbn [List.length] in Hj. destruct i as [|i]; cbn [nth].
  - rewrite Forall_forall in Ha. apply Ha, nth_In. lia.
  - apply IH; lia.
Qed.
Lemma rows_range {A B} keep (f : A -> B) l l' : rows_at keep f l l' -> Forall (fun i => (i < List.length l)%nat) keep.
Proof.
  intros H. induction H as [|i b k l' Hi H IH]; constructor; [|exact IH].
  apply nth_error_Some. intros E. rewrite E in Hi. discriminate.
Qed.
Lemma carried_trans {T} k1 k2 (f1 g1 f2 g2 : v3 T -> v3 T) p q r : carried k1 f1 g1 p q -> carried k2 f2 g2 q r ->
  carried (map (fun i => nth i k1 O) k2) (fun v => f2 (f1 v)) (fun v => g2 (g1 v)) p r.
Proof.
  intros (S1 & P1 & N1 & F1 & L1 & B1) (S2 & P2 & N2 & F2 & L2 & B2). split.
  - apply sorted_pick; try assumption. pose proof (rows_range _ _ _ _ P2) as H. rewrite (rows_length _ _ _ _ P1) in H. exact H.
  - split; [eapply rows_trans; eassumption|]. split; [eapply attr_trans; eassumption|].
    split; [eapply attr_trans in F2; [exact F2|exact F1]|]. split; [eapply attr_trans in L2; [exact L2|exact L1]|eapply attr_trans in B2; [exact B2|exact B1]].
Qed.
Lemma carried_ok {T} k (f g : v3 T -> v3 T) p q : carried k f g p q -> cloud_ok q.
Proof.
  intros (_ & P & N & F & L & B). unfold cloud_ok, npt. rewrite (rows_length _ _ _ _ P).
  assert (Ha : forall A B (f : A -> B) o o', attr_at k f o o' -> rows_ok (List.length k) o')
    by (intros A0 B0 f0 [l|] [l'|]; cbn; try contradiction; auto; apply rows_length).
  repeat split; eapply Ha; eassumption.
Qed.
Lemma seq_sorted n : forall s, StronglySorted lt (seq s n).
Proof. induction n as [|n IH]; intros s; cbn [seq]; constructor; [apply IH|]. apply Forall_forall. intros x Hx. apply in_seq in Hx. lia. Qed.
Lemma sorted_sel m : forall l, StronglySorted lt l -> StronglySorted lt (select m l).
Proof.
  induction m as [|b m IH]; intros l H; [constructor|]. destruct l as [|a l]; [destruct b; constructor|].
  inversion H as [|? ? H1 H2]; subst. destruct b; cbn [select]; [|apply IH; exact H1]. constructor; [apply IH; exact H1|].
  rewrite Forall_forall in *. intros x Hx. apply H2. clear - Hx. revert l Hx. induction m as [|b m IH]; intros [|a l] Hx; try destruct b; cbn in *; try contradiction; firstorder.
Qed.
Lemma attr_map {A B} (f : A -> B) n o : rows_ok n o -> attr_at (seq 0 n) f o (option_map (map f) o).
Proof. destruct o; cbn; [intros <-; apply rows_map|auto]. Qed.
Lemma attr_id {A} n (o : option (list A)) : rows_ok n o -> attr_at (seq 0 n) (fun x => x) o o.
Proof. intros H. pose proof (attr_map (fun x : A => x) n o H) as H'. destruct o; cbn in *; [rewrite map_id in H'|]; exact H'. Qed.
Lemma carried_moved {T} (f g : v3 T -> v3 T) p q : cloud_ok p ->
  p_points q = map f (p_points p) -> p_normals q = option_map (map g) (p_normals p) -> p_features q = p_features p ->
  p_labels q = p_labels p -> p_batch_id q = p_batch_id p -> carried (seq 0 (npt p)) f g p q.
Proof.
  intros (H1 & H2 & H3 & H4) Ep En Ef El Eb. split; [apply seq_sorted|]. rewrite Ep, En, Ef, El, Eb.
  split; [apply rows_map|]. split; [apply attr_map; exact H1|]. repeat split; apply attr_id; assumption.
Qed.
Lemma opt_mask {A} (o : option (list A)) n m : rows_ok n o -> List.length m = n ->
  opt_check (fun r => mask_get r m) o = Ok (option_map (select m) o) /\
  attr_at (select m (seq 0 (List.length m))) (fun x => x) o (option_map (select m) o).
Proof.
  destruct o as [l|]; cbn; [|auto]. intros H Hm. rewrite mask_get_Ok by congruence. split; [reflexivity|].
  apply rows_select. congruence.
Qed.
Lemma getitem_spec {T} (p : pcloud T) m : cloud_ok p -> List.length m = npt p ->
  points_getitem p m = Ok (mkPoints (select m (p_points p)) (option_map (select m) (p_normals p)) (option_map (select m) (p_features p))
     (option_map (select m) (p_labels p)) (option_map (select m) (p_batch_id p)) (p_batch_size p) None (p_device p)) /\
  forall q, points_getitem p m = Ok q -> carried (select m (seq 0 (List.length m))) (fun v => v) (fun v => v) p q.
Proof.
  intros (H1 & H2 & H3 & H4) Hm.
  assert (Hq : points_getitem p m = Ok (mkPoints (select m (p_points p)) (option_map (select m) (p_normals p)) (option_map (select m) (p_features p))
     (option_map (select m) (p_labels p)) (option_map (select m) (p_batch_id p)) (p_batch_size p) None (p_device p))).
  { unfold points_getitem. rewrite mask_get_Ok by exact Hm. cbn [bind].
    rewrite (proj1 (opt_mask _ _ m H1 Hm)), (proj1 (opt_mask _ _ m H2 Hm)), (proj1 (opt_mask _ _ m H3 Hm)), (proj1 (opt_mask _ _ m H4 Hm)).
    reflexivity. }
  split; [exact Hq|]. intros q E. rewrite Hq in E. assert (Eq : forall A (x y : A), Ok x = Ok y -> x = y) by congruence.
  apply Eq in E. subst q. split; [apply sorted_sel, seq_sorted|]. cbn [p_points p_normals p_features p_labels p_batch_id].
  split; [apply rows_select; exact Hm|].
  split; [apply (proj2 (opt_mask _ _ m H1 Hm))|]. split; [apply (proj2 (opt_mask _ _ m H2 Hm))|].
  split; [apply (proj2 (opt_mask _ _ m H3 Hm))|apply (proj2 (opt_mask _ _ m H4 Hm))].
Qed.
Lemma getitem_err {T} (p : pcloud T) m q : points_getitem p m = Ok q -> List.length m = npt p.
Proof.
  unfold points_getitem, mask_get at 1. destruct (Nat.eqb (List.length m) (List.length (p_points p))) eqn:E; [|discriminate].
  intros _. apply Nat.eqb_eq. exact E.
Qed.
Lemma carried_refl {T} (p : pcloud T) : cloud_ok p -> carried (seq 0 (npt p)) (fun v => v) (fun v => v) p p.
Proof. intros H. apply carried_moved; [exact H| |destruct (p_normals p); cbn|..]; rewrite ?map_id; reflexivity. Qed.

(** [f] and [g] describe the operation for every cloud. *)
Definition uniform (step : pcloud R -> pcloud R) : Prop :=
  exists f g, forall p, cloud_ok p -> exists keep, carried keep f g p (step p).
Lemma uniform_moved step f g : (forall p, cloud_ok p ->
  p_points (step p) = map f (p_points p) /\ p_normals (step p) = option_map (map g) (p_normals p) /\
  p_features (step p) = p_features p /\ p_labels (step p) = p_labels p /\ p_batch_id (step p) = p_batch_id p) -> uniform step.
Proof. intros H. exists f, g. intros p Hp. destruct (H p Hp) as (E1 & E2 & E3 & E4 & E5). eexists. apply carried_moved; eassumption. Qed.
Lemma uniform_seq s1 s2 : uniform s1 -> uniform s2 -> uniform (fun p => s2 (s1 p)).
Proof.
  intros (f1 & g1 & H1) (f2 & g2 & H2). exists (fun v => f2 (f1 v)), (fun v => g2 (g1 v)). intros p Hp.
  destruct (H1 p Hp) as (k1 & C1). destruct (H2 (s1 p) (carried_ok _ _ _ _ _ C1)) as (k2 & C2).
  eexists. eapply carried_trans; eassumption.
Qed.
Lemma omap_id {A} (o : option (list A)) : option_map (map (fun x => x)) o = o.
Proof. destruct o; cbn; rewrite ?map_id; reflexivity. Qed.
Ltac triv := cbn [p_points p_normals p_features p_labels p_batch_id set_points set_pnormals]; rewrite ?map_id, ?omap_id; auto.
Lemma uniform_id : uniform (fun p => p).
Proof. apply (uniform_moved _ (fun v => v) (fun v => v)). intros p _. triv. Qed.
Lemma uniform_getitem (mask : pcloud R -> list bool) : uniform (fun p => fst (settle p (points_getitem p (mask p)))).
Proof.
  exists (fun v => v), (fun v => v). intros p Hp. destruct (points_getitem p (mask p)) as [q|e] eqn:E; cbn [settle fst].
  - eexists. eapply (proj2 (getitem_spec p (mask p) Hp (getitem_err _ _ _ E))). exact E.
  - eexists. apply carried_refl. exact Hp.
Qed.
Lemma uniform_flip axes : uniform (fun p => fst (flip_loop axes p)).
Proof.
  induction axes as [|a axes IH]; [apply uniform_id|]. cbn [flip_loop]. destruct (axis_of a) as [i|e]; [|apply uniform_id].
  apply (uniform_seq (fun p => set_pnormals (PointsOps.set_points p (negate_at i)) (negate_at i)) (fun p => fst (flip_loop axes p))); [|exact IH].
  apply (uniform_moved _ (negate_at i) (negate_at i)). intros p _. triv.
Qed.
Lemma uniform_step op : uniform (fun p => fst (papply p op)).
Proof.
  destruct op; cbn [papply].
  - unfold orient_normal.
    set (g := if String.eqb axis "x" then orient_row 0 else if String.eqb axis "y" then orient_row 1 else if String.eqb axis "z" then orient_row 2
              else if String.eqb axis "xyz" then v3map Rabs else fun v => v).
    apply (uniform_moved _ (fun v => v) g). intros p _. unfold g.
    destruct (p_normals p) eqn:E; [|cbn [settle fst]; rewrite E, map_id; auto].
    repeat match goal with |- context [String.eqb axis ?s] => destruct (String.eqb axis s) end; cbn [settle fst]; triv; rewrite E; triv.
  - destruct factor as [[fx fy] fz]. unfold points_scale. cbn zeta.
    destruct (assert_ _) as [u|e]; [|apply uniform_id]. cbn [bind].
    destruct (Reqb fx 1 && Reqb fy 1 && Reqb fz 1); [apply uniform_id|].
    destruct (negb (Reqb fx fx) || negb (Reqb fy fx) || negb (Reqb fz fx)); cbn [settle fst].
    + apply (uniform_moved _ (fun v => v3zip Rmult v (fx, fy, fz)) (scale_normal (1 / fx, 1 / fy, 1 / fz))). intros p _. triv.
    + apply (uniform_moved _ (fun v => v3zip Rmult v (fx, fy, fz)) (fun v => v)). intros p _. triv.
  - apply (uniform_moved _ (fun v => vecmat v (rot_matrix angle)) (fun v => vecmat v (rot_matrix angle))). intros p _. triv.
  - apply (uniform_moved _ (fun v => v3zip Rplus v dis) (fun v => v)). intros p _. unfold translate. triv.
  - apply uniform_flip.
  - unfold clip. cbn zeta.
    set (m := inbox_mask Rltb (mn + esp, mn + esp, mn + esp) (mx - esp, mx - esp, mx - esp)).
    destruct (uniform_getitem m) as (f & g & H). exists f, g. intros p Hp. destruct (H p Hp) as (k & C). exists k.
    destruct (points_getitem p (m p)); exact C.
  - apply (uniform_getitem (fun _ => mask)).
  - destruct (v3zip Rminus bbmax bbmin) as [[sx sy] sz] eqn:E. unfold normalize. rewrite E.
    apply (uniform_moved _ (fun v => v3map (fun c => c * (2 * scale / (Rmax (Rmax sx sy) sz + 1 / 10 ^ 6))) (v3zip Rminus v (v3map (fun c => c * / 2) (v3zip Rplus bbmin bbmax)))) (fun v => v)).
    intros p _. triv.
  - apply (uniform_moved _ (fun v => v) (fun v => v)). intros p _. unfold points_to. cbn [fst]. destruct (Nat.eqb (p_device p) dev); triv.
Qed.
Theorem thm_aligned ops : exists f g, forall p, cloud_ok p ->
  cloud_ok (papply_all p ops) /\ exists keep, carried keep f g p (papply_all p ops).
Proof.
  assert (H : uniform (fun p => papply_all p ops)).
  { induction ops as [|op ops IH]; [apply uniform_id|]. exact (uniform_seq _ _ (uniform_step op) IH). }
  destruct H as (f & g & H). exists f, g. intros p Hp. destruct (H p Hp) as (k & C). split; [eapply carried_ok; exact C|]. exists k. exact C.
Qed.
