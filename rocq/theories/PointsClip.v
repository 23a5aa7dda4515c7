(** Clipping, device moves, batch ids and to_points. *)
From Coq Require Import String List ZArith Bool Sorted Lia QArith Qcanon Reals Lqa.
From Verif Require Import Res Tensor Num NumFacts Points Octree PointsOps ListFacts SpecGeo SpecBuild SpecPoints PointsFacts PoolFacts
  WF BuildThms.
Import ListNotations.
Open Scope Z_scope.

Lemma in_select_seq m i : forall s, In i (select m (seq s (List.length m))) <-> (s <= i)%nat /\ nth_error m (i - s) = Some true.
Proof.
  induction m as [|b m IH]; intros s; cbn [List.length seq].
  - split; [intros []|]. intros [_ H]. destruct (i - s)%nat; discriminate.
  - assert (Hr : (S s <= i)%nat /\ nth_error m (i - S s) = Some true <-> (S s <= i)%nat /\ nth_error (b :: m) (i - s) = Some true).
    { split; intros [H1 H2]; split; try assumption; replace (i - s)%nat with (S (i - S s)) in * by lia; exact H2. }
    destruct b; cbn [select In]; rewrite IH, Hr; (destruct (Nat.eq_dec s i) as [->|Hn];
      [rewrite Nat.sub_diag; cbn; split; intros; auto; try (destruct H; [auto|lia])|]).
    + split; [intros [H|[H1 H2]]; [lia|split; [lia|exact H2]]|]. intros [H1 H2]. right. split; [lia|exact H2].
    + destruct H. lia.
    + destruct H as [_ H]. discriminate H.
    + split; intros [H1 H2]; (split; [lia|exact H2]).
Qed.
Lemma thm_inbox (x0 y0 z0 x1 y1 z1 : Qc) (p : pcloud Qc) :
  length (inbox_mask qltb (x0, y0, z0) (x1, y1, z1) p) = npt p /\
  forall i x y z, nth_error (p_points p) i = Some (x, y, z) ->
    (nth_error (inbox_mask qltb (x0, y0, z0) (x1, y1, z1) p) i = Some true <->
     ((x0 < x /\ x < x1) /\ (y0 < y /\ y < y1) /\ (z0 < z /\ z < z1))%Qc).
Proof.
  split; [apply map_length|]. intros i x y z Hi. unfold inbox_mask. rewrite (map_nth_error _ _ _ Hi). rewrite <- !qltb_lt. split.
  - intros H. injection H as H. apply andb_prop in H. destruct H as [H1 H2]. apply andb_prop in H1, H2. destruct H1 as [H1 H3], H2 as [H2 H4]. apply andb_prop in H1, H2. tauto.
  - intros ((-> & ->) & (-> & ->) & (-> & ->)). reflexivity.
Qed.
Theorem thm_clip mn mx esp (p : pcloud Qc) : cloud_ok p ->
  exists mask q keep, clip qltb Qcplus Qcminus mn mx esp p = Ok (mask, q) /\ List.length mask = npt p /\
    carried keep (fun v => v) (fun v => v) p q /\
    (forall i v, nth_error (p_points p) i = Some v ->
       (In i keep <-> inside (mn + esp) (mx - esp) v) /\ (nth_error mask i = Some true <-> inside (mn + esp) (mx - esp) v)) /\
    p_batch_size q = p_batch_size p /\ p_device q = p_device p.
Proof.
  intros Hp. unfold clip. cbn zeta. set (lo := (mn + esp)%Qc). set (hi := (mx - esp)%Qc).
  set (m := inbox_mask qltb (lo, lo, lo) (hi, hi, hi) p).
  assert (Hm : List.length m = npt p) by (unfold m, inbox_mask; apply map_length).
  destruct (getitem_spec p m Hp Hm) as [E C]. rewrite E. cbn [bind].
  eexists m, _, (select m (seq 0 (List.length m))). split; [reflexivity|]. split; [exact Hm|].
  split; [apply C; exact E|]. split; [|split; reflexivity].
  intros i v Hv.
  assert (Hi : nth_error m i = Some true <-> inside lo hi v).
  { unfold m, inbox_mask. rewrite (map_nth_error _ _ _ Hv). destruct v as [[x y] z]. unfold inside.
    split.
    - intros H. assert (H' : (qltb lo x && qltb lo y && qltb lo z) && (qltb x hi && qltb y hi && qltb z hi) = true) by congruence.
      rewrite !andb_true_iff, !qltb_lt in H'. tauto.
    - intros H. f_equal. rewrite !andb_true_iff, !qltb_lt. tauto. }
  split; [|exact Hi]. rewrite <- Hi, in_select_seq, Nat.sub_0_r. split; [intros [_ H]; exact H|intros H; split; [lia|exact H]].
Qed.
Lemma rows_in {A} keep (l l' : list A) b : SpecPoints.rows_at keep (fun x => x) l l' -> In b l' -> In b l.
Proof.
  intros H. induction H as [|i x k l' Hi H IH]; [intros []|]. intros [<-|Hb]; [|apply IH; exact Hb].
  destruct (nth_error l i) eqn:E; [|discriminate]. cbn in Hi. injection Hi as <-. eapply nth_error_In. exact E.
Qed.
Lemma carried_good keep B (p q : pcloud Qc) : carried keep (fun v => v) (fun v => v) p q -> p_batch_size q = p_batch_size p -> good_cloud B p -> good_cloud B q.
Proof.
  intros (S & P & N & F & L & Bt) Hb G. pose proof (rows_length _ _ _ _ P) as Hl. constructor.
  - rewrite Hb. apply G.
  - intros HB. destruct (gc_batch B p G HB) as (ids & E & _ & Hr). rewrite E in Bt. destruct (p_batch_id q) as [ids'|]; [|contradiction].
    exists ids'. split; [reflexivity|]. cbn in Bt. split; [rewrite (rows_length _ _ _ _ Bt); congruence|].
    rewrite Forall_forall in *. intros b Hin. apply Hr. eapply rows_in; eassumption.
  - apply G.
  - intros n En. rewrite En in N. destruct (p_normals p); [|contradiction]. cbn in N. rewrite (rows_length _ _ _ _ N). congruence.
  - intros f Ef. rewrite Ef in F. destruct (p_features p) as [f0|] eqn:E0; [|contradiction]. cbn in F. split; [rewrite (rows_length _ _ _ _ F); congruence|].
    destruct (gc_features B p G f0 E0) as (_ & c & Hc). exists c. rewrite Forall_forall in *. intros r Hr. apply Hc. eapply rows_in; eassumption.
Qed.
Theorem thm_clip_build normalize o (pc : pcloud Qc) : build_input o pc -> cloud_ok pc ->
  exists mask q, clip qltb Qcplus Qcminus (qz (-1)) (qz 1) (Q2Qc (1 # 100)) pc = Ok (mask, q) /\
    build_input o q /\ Forall in_box (p_points q) /\
    exists o' idx, build_octree normalize o q = Ok (o', idx) /\ wf_octree o'.
Proof.
  intros Hi Hp. destruct (thm_clip (qz (-1)) (qz 1) (Q2Qc (1 # 100)) pc Hp) as (m & q & keep & E & _ & C & Hin & Hb & _).
  exists m, q. split; [exact E|].
  assert (Hq : build_input o q).
  { destruct Hi. constructor; try assumption. eapply carried_good; eassumption. }
  split; [exact Hq|]. split.
  - apply Forall_forall. intros v Hv. destruct C as (S & P & _). unfold SpecPoints.rows_at in P.
    assert (Hk : exists i, In i keep /\ nth_error (p_points pc) i = Some v).
    { clear - P Hv. induction P as [|i b k l Hi P IH]; [destruct Hv|]. destruct Hv as [<-|Hv].
      - exists i. split; [left; reflexivity|]. destruct (nth_error (p_points pc) i); [|discriminate]. exact Hi.
      - destruct (IH Hv) as (j & H1 & H2). exists j. split; [right; exact H1|exact H2]. }
    destruct Hk as (i & Hk & Hv'). apply (proj1 (Hin i v Hv')) in Hk. destruct v as [[x y] z]. unfold inside in Hk.
    assert (Hc : forall c, (qz (-1) + Q2Qc (1 # 100) < c < qz 1 - Q2Qc (1 # 100))%Qc -> in_unit c).
    { intros c [H1 H2]. assert (A1 : (qz (-1) < qz (-1) + Q2Qc (1 # 100))%Qc) by reflexivity. assert (A2 : (qz 1 - Q2Qc (1 # 100) < qz 1)%Qc) by reflexivity.
      split; [apply Qclt_le_weak; eapply Qclt_trans; eassumption|eapply Qclt_trans; eassumption]. }
    unfold in_box. destruct Hk as (H1 & H2 & H3). repeat split; apply Hc; assumption.
  - destruct (thm_build_wf normalize o q Hq) as (o' & idx & E' & W & _). exists o', idx. split; assumption.
Qed.

(** ** device moves and slices *)
Theorem thm_to {T} (p : pcloud T) dev :
  p_points (points_to p dev) = p_points p /\ p_normals (points_to p dev) = p_normals p /\ p_features (points_to p dev) = p_features p /\
  p_labels (points_to p dev) = p_labels p /\ p_batch_id (points_to p dev) = p_batch_id p /\ p_batch_npt (points_to p dev) = p_batch_npt p /\
  p_device (points_to p dev) = dev /\
  (p_batch_size (points_to p dev) = p_batch_size p <-> dev = p_device p \/ p_batch_size p = 1%nat).
Proof.
  unfold points_to. destruct (Nat.eqb_spec (p_device p) dev) as [E|E]; cbn; do 7 (split; [first [reflexivity|exact E]|]).
  - split; intros; auto.
  - split; [intros H; right; symmetry; exact H|intros [H|H]; [congruence|symmetry; exact H]].
Qed.
Theorem thm_slice {T} (p q : pcloud T) m : points_getitem p m = Ok q ->
  p_batch_size q = p_batch_size p /\ p_device q = p_device p /\ p_batch_npt q = None.
Proof.
  unfold points_getitem. destruct (mask_get (p_points p) m); [|discriminate]. cbn [bind].
  repeat (match goal with |- context [bind ?r _] => destruct r; [|discriminate] end; cbn [bind]).
  assert (Eq : forall A (x y : A), Ok x = Ok y -> x = y) by congruence. intros H. apply Eq in H. subst q. auto.
Qed.

(** ** batch ids *)
Theorem thm_bid1 {T} dev (pts : list (v3 T)) n f l b bs pc : points_new dev pts n f l (Some (Bid1 b)) bs <> Ok pc.
Proof.
  unfold points_new. intros H.
  destruct (opt_check _ n); [|discriminate]. cbn [bind] in H. destruct (opt_check _ f); [|discriminate]. cbn [bind] in H.
  destruct (opt_check _ l); [|discriminate]. cbn [bind opt_check check_batch_id] in H.
  destruct (assert_ _) in H; discriminate.
Qed.
Theorem thm_bid1_index {T} dev (pts : list (v3 T)) n f b bs :
  rows_ok (List.length pts) n -> rows_ok (List.length pts) f -> List.length b = List.length pts ->
  points_new dev pts n f None (Some (Bid1 b)) bs = Err IndexError /\
  exists pc, points_new dev pts n f None (Some (Bid2 (map (fun i => [i]) b))) bs = Ok pc /\
    pc = mkPoints pts n f None (Some b) bs None dev.
Proof.
  intros Hn Hf Hb. unfold points_new.
  assert (Hc : forall A (o : option (list A)), rows_ok (List.length pts) o ->
            opt_check (fun r => _ <- assert_ (Nat.eqb (List.length r) (List.length pts)) ;; Ok r) o = Ok o).
  { intros A [l|]; cbn; [|reflexivity]. intros ->. rewrite Nat.eqb_refl. reflexivity. }
  rewrite (Hc _ n Hn), (Hc _ f Hf). cbn [bind opt_check check_batch_id]. split.
  - rewrite Hb, Nat.eqb_refl. reflexivity.
  - rewrite map_length, Hb, Nat.eqb_refl. cbn [assert_ bind].
    assert (Hm : mapM (fun r : list Z => match r with [i] => Ok i | _ => Err AssertionError end) (map (fun i => [i]) b) = Ok b)
      by (clear; induction b as [|a b IH]; [reflexivity|]; cbn [map mapM bind]; rewrite IH; reflexivity).
    rewrite Hm. cbn [bind]. eexists. split; reflexivity.
Qed.
Theorem thm_to_points o r pc : to_points o r <> Ok pc.
Proof.
  unfold to_points. cbn zeta. intros H.
  destruct (get_layer o _) as [l|]; [|discriminate]. cbn [bind] in H.
  destruct (octree_batch_id o _ true) as [b|]; [|discriminate]. cbn [bind] in H.
  destruct (match l_points l with Some _ => _ | None => _ end) as [[xyz b']|]; [|discriminate]. cbn [bind] in H.
  eapply thm_bid1. exact H.
Qed.

(** ** constructor *)
Lemma mapM_single (b : list (list Z)) l : mapM (fun r => match r with [i] => Ok i | _ => Err AssertionError end) b = Ok l <-> b = map (fun i => [i]) l.
Proof.
  revert l. induction b as [|r b IH]; intros l; cbn [mapM].
  - split; [intros H; injection H as <-; reflexivity|destruct l; [reflexivity|discriminate]].
  - destruct r as [|i [|j r]]; cbn [bind]; try (split; [discriminate|destruct l; discriminate]).
    destruct (mapM _ b) as [t|e]; cbn [bind].
    + split; [intros H; injection H as <-; cbn [map]; f_equal; apply IH; reflexivity|]. destruct l as [|k l]; [discriminate|]. cbn [map]. intros H. injection H as -> H. apply IH in H. congruence.
    + split; [discriminate|]. destruct l as [|k l]; [discriminate|]. cbn [map]. intros H. injection H as -> H. apply IH in H. discriminate.
Qed.
Theorem thm_points_new {T} dev (pts : list (v3 T)) nm ft lb bid bs : 
  match points_new dev pts nm ft lb bid bs with
  | Ok p => cloud_ok p /\ p_points p = pts /\ p_normals p = nm /\ p_features p = ft /\
      p_labels p = option_map (fun a => match a with Lab1 l => map (fun x => [x]) l | Lab2 l => l end) lb /\
      bid = option_map (fun l => Bid2 (map (fun i => [i]) l)) (p_batch_id p) /\ p_batch_size p = bs /\ p_device p = dev
  | Err e => ~ rows_ok (List.length pts) nm \/ ~ rows_ok (List.length pts) ft \/
      (exists a, lb = Some a /\ match a with Lab1 l => List.length l | Lab2 l => List.length l end <> List.length pts) \/
      (exists b, bid = Some b /\ ~ exists l, List.length l = List.length pts /\ b = Bid2 (map (fun i => [i]) l))
  end.
Proof.
  unfold points_new. set (n := List.length pts).
  assert (A : forall A (o : option (list A)), opt_check (fun r => _ <- assert_ (Nat.eqb (List.length r) n) ;; Ok r) o = Ok o /\ rows_ok n o \/
     opt_check (fun r => _ <- assert_ (Nat.eqb (List.length r) n) ;; Ok r) o = Err AssertionError /\ ~ rows_ok n o).
  { intros A [l|]; cbn [opt_check rows_ok]; [|left; auto]. destruct (Nat.eqb_spec (List.length l) n); cbn [assert_ bind]; [left|right]; auto. }
  destruct (A _ nm) as [[-> H1]|[-> H1]]; cbn [bind]; [|left; exact H1]. destruct (A _ ft) as [[-> H2]|[-> H2]]; cbn [bind]; [|right; left; exact H2].
  assert (B : opt_check (check_labels n) lb = Ok (option_map (fun a => match a with Lab1 l => map (fun x => [x]) l | Lab2 l => l end) lb) /\
       rows_ok n (option_map (fun a => match a with Lab1 l => map (fun x => [x]) l | Lab2 l => l end) lb) \/
     opt_check (check_labels n) lb = Err AssertionError /\ exists a, lb = Some a /\ match a with Lab1 l => List.length l | Lab2 l => List.length l end <> n).
  { destruct lb as [[l|l]|]; cbn [opt_check check_labels option_map rows_ok]; [| |left; auto];
    (destruct (Nat.eqb_spec (List.length l) n); cbn [assert_ bind]; [left; rewrite ?map_length; auto|right; split; [reflexivity|eexists; split; [reflexivity|assumption]]]). }
  destruct B as [[-> H3]|[-> H3]]; cbn [bind]; [|right; right; left; exact H3].
  destruct bid as [[b|b]|]; cbn [opt_check check_batch_id].
  - assert (~ exists l, List.length l = n /\ Bid1 b = Bid2 (map (fun i => [i]) l)) by (intros (l & _ & E); discriminate).
    destruct (Nat.eqb (List.length b) n); cbn [assert_ bind]; right; right; right; exists (Bid1 b); auto.
  - destruct (Nat.eqb_spec (List.length b) n) as [L|L]; cbn [assert_ bind].
    + destruct (mapM _ b) as [l|e] eqn:E; cbn [bind].
      * apply mapM_single in E. split; [|cbn; rewrite <- E; auto 8]. subst b. rewrite map_length in L. split; [exact H1|]. split; [exact H2|]. split; [exact H3|exact L].
      * right. right. right. exists (Bid2 b). split; [reflexivity|]. intros (l & _ & Eb). injection Eb as ->. rewrite (proj2 (mapM_single _ l) eq_refl) in E. discriminate.
    + right. right. right. exists (Bid2 b). split; [reflexivity|]. intros (l & Ll & Eb). injection Eb as ->. apply L. rewrite map_length. exact Ll.
  - cbn [bind]. split; [|cbn; auto 8]. split; [exact H1|]. split; [exact H2|]. split; [exact H3|exact I].
Qed.
