(** Proofs about the transforms of the datasets. *)
From Coq Require Import String Ascii List ZArith Bool QArith Qcanon Lia Lqa Sorted.
From Verif Require Import Res Tensor Key Num Points Octree PointsOps Spec SpecGeo SpecBuild SpecNeigh SpecMerge SpecPoints WF
  ListFacts NumFacts SumFacts PoolFacts BuildThms MergeFacts BuildMerge PointsFacts PointsClip NnBasic Dataset SpecDataset DatasetFacts TransformFacts
  Project SpecNN SpecProject MetricFacts EvalFacts CropFacts LabelFacts Prep SpecPrep.
Import ListNotations.
Open Scope Z_scope.

Lemma box_eq : (qz (-1) + Q2Qc (1 # 100))%Qc = Q2Qc (-99 # 100) /\ (qz 1 - Q2Qc (1 # 100))%Qc = Q2Qc (99 # 100).
Proof. split; apply Qc_is_canon; reflexivity. Qed.

(** transform of a dictionary that holds a cloud *)
Lemma transform_cloud nrm c r s p : cfg_ok c -> (t_distort c = true -> draw_ok r) -> cloud_ok p -> good_cloud 1 p -> dlookup s "points" = Some (VPts p) ->
  exists q out, transform nrm c r s = Ok out /\ cut_sample nrm c r p q out /\ good_cloud 1 q /\ dlookup out "points" = Some (VPts q) /\ p_device q = p_device p.
Proof.
  intros (C1 & C2 & C3) Hd Hp Gp Hl. pose proof (augment_ok nrm c r C3 Hd p) as G.
  set (f := if t_distort c then augmented r else (fun v => v)) in *. set (g := fun n => oriented (t_orient c) (if t_distort c then turned nrm r n else n)) in *.
  set (p1 := on_rows f g p) in *.
  assert (Ok1 : cloud_ok p1).
  { destruct Hp as (H1 & H2 & H3 & H4). unfold cloud_ok, p1, on_rows, set_pnormals, set_points, npt, SpecPoints.rows_ok in *. destruct p as [pts [n|] fe lb b bs bn d]; cbn [p_points p_normals p_features p_labels p_batch_id option_map] in *; rewrite ?map_length; auto. }
  assert (G1 : good_cloud 1 p1).
  { destruct Gp as [g1 g2 g3 g4 g5]. unfold p1, on_rows, set_pnormals, set_points. constructor; cbn [p_batch_size p_batch_id p_points p_normals p_features]; try assumption; rewrite ?map_length; try assumption.
    intros n. destruct (p_normals p) as [n0|]; [|discriminate]. cbn [option_map]. intros [= <-]. rewrite map_length. apply g4. reflexivity. }
  destruct (thm_clip (qz (-1)) (qz 1) (Q2Qc (1 # 100)) p1 Ok1) as (mask & q & keep & Ec & Lm & Ca & Hin & Hb & Hdv).
  assert (Gq : good_cloud 1 q) by (eapply carried_good; eassumption).
  exists q, (dset (dset s "points" (VPts q)) "inbox_mask" (VMask mask)).
  assert (Tr : transform nrm c r s = Ok (dset (dset s "points" (VPts q)) "inbox_mask" (VMask mask))).
  { unfold transform. unfold dget at 1. rewrite Hl. cbn [bind as_pts]. revert G. destruct (if t_distort c then _ else _) as [pts|e]; cbn [bind]; [|discriminate]. intros G. rewrite G. cbn [bind]. rewrite Ec. reflexivity. }
  split; [exact Tr|]. split.
  - exists mask, keep. rewrite !dlookup_dset. cbn [String.eqb Ascii.eqb Bool.eqb]. split; [reflexivity|]. split; [reflexivity|].
    assert (Lp : npt p1 = npt p) by (unfold npt, p1, on_rows, set_pnormals, set_points; cbn; apply map_length).
    split; [congruence|]. split.
    + destruct Ca as (K & P & Nn & F & L & B). split; [exact K|]. split; [apply rows_at_map; exact P|].
      unfold p1, on_rows, set_pnormals, set_points in Nn, F, L, B. cbn [p_normals p_features p_labels p_batch_id option_map] in *.
      split; [|split; [exact F|split; [exact L|exact B]]]. unfold attr_at in *. destruct (p_normals p); cbn [option_map] in Nn; destruct (p_normals q); try exact Nn. apply rows_at_map. exact Nn.
    + intros i v Hv. assert (Hv1 : nth_error (p_points p1) i = Some (f v)) by (change (p_points p1) with (map f (p_points p)); rewrite nth_error_map, Hv; reflexivity).
      pose proof (Hin i (f v) Hv1) as HH. rewrite (proj1 box_eq), (proj2 box_eq) in HH. exact HH.
  - split; [exact Gq|]. split; [rewrite !dlookup_dset; reflexivity|]. rewrite Hdv. reflexivity.
Qed.
Lemma call_cloud nrm c r s p : cfg_ok c -> (t_distort c = true -> draw_ok r) -> cloud_ok p -> good_cloud 1 p -> dlookup s "points" = Some (VPts p) ->
  exists q out, call_after nrm c r s = Ok out /\ cut_sample nrm c r p q out /\ with_octree nrm c q out.
Proof.
  intros C Hd Hp Gp Hl. destruct (transform_cloud nrm c r s p C Hd Hp Gp Hl) as (q & out & Et & Cu & Gq & Lq & Dq).
  destruct C as (C1 & C2 & C3).
  assert (B : build_input (octree_new (t_cdepth c) (t_cfull c) 1 0) q) by (constructor; try assumption; cbn; try lia; rewrite repeat_length; lia).
  destruct (thm_build_wf nrm _ q B) as (o & idx & Eb & W & D1 & D2 & D3 & _).
  exists q, (dset out "octree" (VOct o)). split; [|split].
  - unfold call_after. rewrite Et. cbn [bind]. unfold dget. rewrite Lq. cbn [bind as_pts]. rewrite Eb. reflexivity.
  - destruct Cu as (mask & keep & H1 & H2 & H3). exists mask, keep. rewrite !dlookup_dset. cbn [String.eqb Ascii.eqb Bool.eqb]. auto.
  - exists o, idx. rewrite dlookup_dset. split; [reflexivity|]. auto.
Qed.

(** Points inside the box are all kept. *)
Lemma sorted_all n : forall keep k, StronglySorted lt keep -> (forall i, In i keep <-> (k <= i < k + n)%nat) -> keep = seq k n.
Proof.
  induction n as [|n IH]; intros keep k Hs Hi.
  - destruct keep as [|a keep]; [reflexivity|]. specialize (proj1 (Hi a) (or_introl eq_refl)). lia.
  - destruct keep as [|a keep]; [specialize (proj2 (Hi k) ltac:(lia)); intros []|]. inversion Hs as [|? ? Hs' Ha]; subst. rewrite Forall_forall in Ha.
    assert (Ea : a = k). { pose proof (proj1 (Hi a) (or_introl eq_refl)) as L. destruct (proj2 (Hi k) ltac:(lia)) as [E|E]; [congruence|]. specialize (Ha k E). lia. }
    subst a. cbn [seq]. f_equal. apply IH; [exact Hs'|]. intros i. split.
    + intros H. pose proof (proj1 (Hi i) (or_intror H)). specialize (Ha i H). lia.
    + intros H. destruct (proj2 (Hi i) ltac:(lia)) as [E|E]; [lia|exact E].
Qed.
Lemma rows_all {A} : forall (l l' : list A) pre, SpecPoints.rows_at (seq (List.length pre) (List.length l)) (fun x => x) (pre ++ l) l' -> l' = l.
Proof.
  unfold SpecPoints.rows_at. induction l as [|a l IH]; intros l' pre H; cbn [List.length seq] in H; inversion H as [|? b ? t Hb Ht]; subst; [reflexivity|].
  rewrite nth_error_app2, Nat.sub_diag in Hb by lia. cbn in Hb. injection Hb as ->. f_equal. apply (IH t (pre ++ [b])). rewrite <- app_assoc. cbn [app]. rewrite app_length. cbn [List.length]. rewrite Nat.add_1_r. exact Ht.
Qed.
Lemma attr_all {A} (o o' : option (list A)) n : SpecPoints.rows_ok n o -> attr_at (seq 0 n) (fun x => x) o o' -> o' = o.
Proof.
  destruct o as [l|], o' as [l'|]; cbn; intros Hl H; try contradiction; [|reflexivity]. f_equal. subst n. apply (rows_all l l' []). exact H.
Qed.
Lemma all_kept nrm c r p q out : cut_sample nrm c r p q out -> t_distort c = false -> cloud_ok p -> Forall (SpecPoints.inside (Q2Qc (-99 # 100)) (Q2Qc (99 # 100))) (p_points p) -> nothing_lost p q.
Proof.
  intros (mask & keep & _ & _ & _ & Ca & Hin) Hd (_ & O2 & O3 & _) Hf. rewrite Hd in Ca, Hin. destruct Ca as (K & P & _ & F & L & _).
  assert (Ek : keep = seq 0 (npt p)).
  { apply sorted_all; [exact K|]. intros i. split.
    - intros H. split; [lia|]. destruct (Nat.lt_ge_cases i (npt p)) as [C|C]; [lia|exfalso].
      unfold SpecPoints.rows_at in P. clear - P H C. induction P as [|j b k t Hj P IH]; [destruct H|]. destruct H as [<-|H]; [|apply IH; exact H]. apply nth_error_None in C. rewrite C in Hj. discriminate.
    - intros [_ H]. destruct (nth_error (p_points p) i) as [v|] eqn:E; [|apply nth_error_None in E; unfold npt in H; lia]. apply (Hin i v E). rewrite Forall_forall in Hf. apply Hf. eapply nth_error_In. exact E. }
  rewrite Ek in *. split; [apply (rows_all _ _ []); exact P|]. split; [eapply attr_all; [exact O2|exact F]|eapply attr_all; [exact O3|exact L]].
Qed.

(** Bounding boxes. *)
Lemma fold_box v vs : bounding_box (fold_left (v3zip qmin) vs v) (fold_left (v3zip qmax) vs v) (v :: vs).
Proof.
  destruct (fold_min vs v) as [A1 A2]. destruct (fold_max vs v) as [B1 B2]. split.
  - constructor; [split; assumption|]. rewrite Forall_forall in *. auto.
  - intros lo' hi' H. rewrite Forall_forall in H.
    pose proof (fold_att qmin (fun a b => proj2 (proj2 (qmin_spec a b))) vs v) as M. pose proof (fold_att qmax (fun a b => proj2 (proj2 (qmax_spec a b))) vs v) as N.
    destruct (fold_left (v3zip qmin) vs v) as [[x y] z]. destruct (fold_left (v3zip qmax) vs v) as [[x' y'] z']. destruct lo' as [[a b] c], hi' as [[a' b'] c'].
    destruct M as ((m1 & I1 & E1) & (m2 & I2 & E2) & (m3 & I3 & E3)). destruct N as ((n1 & J1 & F1) & (n2 & J2 & F2) & (n3 & J3 & F3)). subst.
    pose proof (H m1 I1) as [h1 _]. pose proof (H m2 I2) as [h2 _]. pose proof (H m3 I3) as [h3 _]. pose proof (H n1 J1) as [_ k1]. pose proof (H n2 J2) as [_ k2]. pose proof (H n3 J3) as [_ k3].
    destruct m1 as [[? ?] ?], m2 as [[? ?] ?], m3 as [[? ?] ?], n1 as [[? ?] ?], n2 as [[? ?] ?], n3 as [[? ?] ?]. cbn in *. tauto.
Qed.
Lemma rows_fold_box vs : vs <> [] -> exists lo hi, rows_fold qmin vs = Ok lo /\ rows_fold qmax vs = Ok hi /\ bounding_box lo hi vs.
Proof. destruct vs as [|v vs]; [congruence|]. intros _. eexists _, _. split; [reflexivity|]. split; [reflexivity|]. apply fold_box. Qed.

Lemma cloud1 xyz normals feats labs w : (forall n, normals = Some n -> List.length n = List.length xyz) -> (forall f, feats = Some f -> List.length f = List.length xyz /\ Forall (fun r => List.length r = w) f) ->
  (forall l, labs = Some l -> List.length l = List.length xyz) -> let p := mkPoints xyz normals feats labs None 1 None 0%nat : pcloud Qc in cloud_ok p /\ good_cloud 1 p.
Proof.
  intros Hn Hf Hl p. split.
  - unfold cloud_ok, SpecPoints.rows_ok, npt, p. cbn. split; [destruct normals; auto|]. split; [destruct feats as [f|]; auto; apply (Hf f eq_refl)|]. split; [destruct labs; auto|exact I].
  - constructor; try reflexivity; try lia; unfold p; cbn; try congruence; [exact Hn|]. intros f E. split; [apply Hf; exact E|]. exists w. apply Hf. exact E.
Qed.
Lemma new_ok xyz normals feats (labs : option (list (list Qc))) : (forall n, normals = Some n -> List.length n = List.length xyz) -> (forall f, feats = Some f -> List.length f = List.length xyz) ->
  (forall l, labs = Some l -> List.length l = List.length xyz) -> points_new 0 xyz normals feats (option_map Lab2 labs) None 1 = Ok (mkPoints xyz normals feats labs None 1 None 0%nat : pcloud Qc).
Proof.
  intros Hn Hf Hl. unfold points_new. cbv zeta.
  assert (A : forall B (r : option (list B)), (forall n, r = Some n -> List.length n = List.length xyz) -> opt_check (fun r => bind (assert_ (Nat.eqb (List.length r) (List.length xyz))) (fun _ => Ok r)) r = Ok r).
  { intros B [n|] H; [|reflexivity]. cbn [opt_check]. rewrite (H n eq_refl), Nat.eqb_refl. reflexivity. }
  rewrite A by exact Hn. cbn [bind]. rewrite A by exact Hf. cbn [bind]. destruct labs as [l|]; [|reflexivity]. cbn [option_map opt_check check_labels]. rewrite (Hl l eq_refl), Nat.eqb_refl. reflexivity.
Qed.
Lemma lookup1 p : dlookup [("points"%string, VPts p)] "points" = Some (VPts p).
Proof. reflexivity. Qed.

Lemma half_in a x c k e b : (0 <= k)%Qc -> (a <= c <= x)%Qc -> (x - a <= e)%Qc -> (k * e < qz 2 * b)%Qc -> (- b < (c - (a + x) / qz 2) * k < b)%Qc.
Proof.
  intros Hk [H1 H2] He Hb.
  assert (E2 : (qz 2 = 1 + 1)%Qc) by (apply Qc_is_canon; reflexivity).
  assert (N2 : (qz 2 <> 0)%Qc) by (intros E; apply (f_equal this) in E; discriminate E).
  assert (P2 : (0 < qz 2)%Qc) by reflexivity.
  assert (A : (((c - (a + x) / qz 2) * k) * qz 2 = ((c - a) - (x - c)) * k)%Qc) by (rewrite E2 in *; field; exact N2).
  assert (B1 : ((c - a) * k <= e * k)%Qc) by (apply Qcmult_le_compat_r; [qclra|exact Hk]).
  assert (B2 : ((x - c) * k <= e * k)%Qc) by (apply Qcmult_le_compat_r; [qclra|exact Hk]).
  assert (B3 : (0 * k <= (c - a) * k)%Qc) by (apply Qcmult_le_compat_r; [qclra|exact Hk]).
  assert (B4 : (0 * k <= (x - c) * k)%Qc) by (apply Qcmult_le_compat_r; [qclra|exact Hk]).
  rewrite Qcmult_0_l in B3, B4.
  set (t := ((c - (a + x) / qz 2) * k)%Qc) in *. clearbody t.
  assert (A' : (t * qz 2 = (c - a) * k - (x - c) * k)%Qc) by (rewrite A; ring). set (u := ((c - a) * k)%Qc) in *. set (w := ((x - c) * k)%Qc) in *. clearbody u w. rewrite (Qcmult_comm k e) in Hb. set (m := (e * k)%Qc) in *. clearbody m.
  rewrite E2 in *. assert (A1 : (t + t = u - w)%Qc) by (rewrite <- A'; ring). assert (A2 : (t + t <= u - w)%Qc) by (rewrite A1; apply Qcle_refl). assert (A3 : (u - w <= t + t)%Qc) by (rewrite A1; apply Qcle_refl). assert (Hb' : (m < b + b)%Qc) by (replace (b + b)%Qc with ((1 + 1) * b)%Qc by ring; exact Hb).
  clear - A2 A3 B1 B2 B3 B4 Hb'. split; qclra.
Qed.
Lemma box_in lo hi vs k e b : bounding_box lo hi vs -> (0 <= k)%Qc -> (let '(a, c, d) := lo in let '(x, y, z) := hi in (x - a <= e)%Qc /\ (y - c <= e)%Qc /\ (z - d <= e)%Qc) ->
  (k * e < qz 2 * b)%Qc -> Forall (SpecPoints.inside (- b) b) (map (rescale (middle lo hi) k) vs).
Proof.
  intros [Hb _] Hk He Hl. apply Forall_forall. intros v' Hv. apply in_map_iff in Hv. destruct Hv as (v & <- & Hv). rewrite Forall_forall in Hb. specialize (Hb v Hv).
  destruct lo as [[a c] d], hi as [[x y] z], v as [[p q] r]. cbn in *. destruct Hb as ((h1 & h2 & h3) & (h4 & h5 & h6)). destruct He as (e1 & e2 & e3).
  repeat split; eapply half_in; eauto.
Qed.
Lemma inside_wide a b v : (a <= Q2Qc (99 # 100))%Qc -> b = a -> SpecPoints.inside (- b) b v -> SpecPoints.inside (Q2Qc (-99 # 100)) (Q2Qc (99 # 100)) v.
Proof.
  intros Ha -> H. assert (E : (Q2Qc (-99 # 100) = - Q2Qc (99 # 100))%Qc) by (apply Qc_is_canon; reflexivity). rewrite E. destruct v as [[x y] z]. cbn in *. set (m := Q2Qc (99 # 100)) in *. clearbody m. destruct H as ((? & ?) & (? & ?) & ? & ?). repeat split; qclra.
Qed.

Theorem thm_kitti_sample : forall nrm c r xyz density labels w, cfg_ok c -> (t_distort c = true -> draw_ok r) -> xyz <> [] ->
  List.length density = List.length xyz -> Forall (fun d => List.length d = w) density -> List.length labels = List.length xyz -> Forall (fun l => Z.land l 65535 < 260) labels ->
  exists lo hi q out, bounding_box lo hi xyz /\ kitti_call nrm c r xyz density labels = Ok out /\
    let p := mkPoints (map (rescale (middle lo hi) (Q2Qc (1 # 100))) xyz) None (Some density) (label_column (map (fun l => kitti_class (l mod 65536)) labels)) None 1 None 0%nat in
    cut_sample nrm c r p q out /\ with_octree nrm c q out /\
    (t_distort c = false -> small_box lo hi (qz 198) -> nothing_lost p q).
Proof.
  intros nrm c r xyz density labels w C Hd Hne Hden Hrect Hlab Hl. destruct (rows_fold_box xyz Hne) as (lo & hi & E1 & E2 & Hb).
  set (p := mkPoints (map (rescale (middle lo hi) (Q2Qc (1 # 100))) xyz) None (Some density) (label_column (map (fun l => kitti_class (l mod 65536)) labels)) None 1 None 0%nat : pcloud Qc).
  assert (P : cloud_ok p /\ good_cloud 1 p).
  { apply (cloud1 _ None (Some density) _ w); rewrite map_length; [discriminate|intros f [= <-]; auto|intros l [= <-]; rewrite !map_length; exact Hlab]. }
  destruct (call_cloud nrm c r [("points"%string, VPts p)] p C Hd (proj1 P) (proj2 P) (lookup1 p)) as (q & out & Ec & Cu & Wo).
  exists lo, hi, q, out. split; [exact Hb|]. split; [|cbv zeta; fold p; split; [exact Cu|split; [exact Wo|]]].
  - unfold kitti_call, kitti_preprocess, kitti_normalize. rewrite E1, E2. cbn [bind]. destruct (thm_kitti labels Hl) as [El _]. rewrite El. cbn [bind].
    match goal with |- context [points_new 0 ?a _ _ _ _ _] => replace a with (map (rescale (middle lo hi) (Q2Qc (1 # 100))) xyz) end.
    + unfold column. change (Some (Lab2 ?l)) with (option_map (@Lab2 Qc) (Some l)). rewrite new_ok; [exact Ec|discriminate|intros f [= <-]; rewrite map_length; exact Hden|intros l [= <-]; rewrite !map_length; exact Hlab].
    + apply map_ext. intros [[x y] z]. destruct lo as [[a b] d], hi as [[a' b'] d']. cbn. assert (E : (Q2Qc (1 # 100) = / qz 100)%Qc) by (apply Qc_is_canon; reflexivity). rewrite E. reflexivity.
  - intros Hnd Hs. eapply all_kept; [exact Cu|exact Hnd|apply P|]. cbn [p p_points].
    eapply Forall_impl; [intros v Hv; eapply inside_wide; [apply Qcle_refl|reflexivity|exact Hv]|].
    destruct lo as [[a b] d], hi as [[a' b'] d']. cbn in Hs. destruct Hs as (s1 & s2 & s3).
    assert (M : exists e, (e < qz 198)%Qc /\ (a' - a <= e)%Qc /\ (b' - b <= e)%Qc /\ (d' - d <= e)%Qc).
    { exists (qmax (qmax (a' - a) (b' - b)) (d' - d))%Qc. set (u := (a' - a)%Qc) in *. set (v := (b' - b)%Qc) in *. set (t := (d' - d)%Qc) in *. destruct (qmax_spec (qmax u v) t) as (m1 & m2 & m3). destruct (qmax_spec u v) as (n1 & n2 & n3).
      split; [destruct m3 as [-> | ->]; [destruct n3 as [-> | ->]|]; assumption|]. split; [eapply Qcle_trans; eassumption|]. split; [eapply Qcle_trans; eassumption|exact m2]. }
    destruct M as (e & He & e1 & e2 & e3). apply (box_in _ _ _ _ e); [exact Hb|discriminate|auto|].
    replace (qz 2 * Q2Qc (99 # 100))%Qc with (Q2Qc (1 # 100) * qz 198)%Qc by (apply Qc_is_canon; reflexivity). rewrite !(Qcmult_comm (Q2Qc (1 # 100))). apply Qcmult_lt_compat_r; [reflexivity|exact He].
Qed.

Lemma longest_fold a b c x y z : longest (a, b, c) (x, y, z) (qmax (qmax (x - a) (y - b)) (z - c))%Qc.
Proof.
  cbn. set (u := (x - a)%Qc). set (v := (y - b)%Qc). set (t := (z - c)%Qc). destruct (qmax_spec (qmax u v) t) as (m1 & m2 & m3). destruct (qmax_spec u v) as (n1 & n2 & n3).
  split; [eapply Qcle_trans; eassumption|]. split; [eapply Qcle_trans; eassumption|]. split; [exact m2|]. destruct m3 as [-> | ->]; [destruct n3 as [-> | ->]|]; auto.
Qed.
Lemma longest_nonneg lo hi v vs e : bounding_box lo hi (v :: vs) -> longest lo hi e -> (0 <= e)%Qc.
Proof.
  intros [H _] L. inversion H as [|? ? [H1 H2] _]; subst. destruct lo as [[a b] c], hi as [[x y] z], v as [[p q] r]. cbn in *. destruct H1 as (h1 & _), H2 as (h2 & _), L as (l1 & _).
  eapply Qcle_trans; [|exact l1]. qclra.
Qed.
Lemma le_div a b s : (0 < s)%Qc -> (b * s <= a)%Qc -> (b <= a / s)%Qc.
Proof. intros Hs H. apply (Qcmult_le_r _ _ s Hs). replace (a / s * s)%Qc with a by (field; intros ->; discriminate Hs). exact H. Qed.
Lemma div_le a b s : (0 < s)%Qc -> (a <= b * s)%Qc -> (a / s <= b)%Qc.
Proof. intros Hs H. apply (Qcmult_le_r _ _ s Hs). replace (a / s * s)%Qc with a by (field; intros ->; discriminate Hs). exact H. Qed.
Lemma div_lt a b s : (0 < s)%Qc -> (a < b * s)%Qc -> (a / s < b)%Qc.
Proof. intros Hs H. apply (Qcmult_lt_r _ _ s Hs). replace (a / s * s)%Qc with a by (field; intros ->; discriminate Hs). exact H. Qed.
Lemma lt_div a b s : (0 < s)%Qc -> (b * s < a)%Qc -> (b < a / s)%Qc.
Proof. intros Hs H. apply (Qcmult_lt_r _ _ s Hs). replace (a / s * s)%Qc with a by (field; intros ->; discriminate Hs). exact H. Qed.
Lemma unit_bound e s : (0 <= e)%Qc -> (0 < s)%Qc -> (0 <= qz 2 * s / (e + Q2Qc (1 # 1000000)))%Qc /\ (qz 2 * s / (e + Q2Qc (1 # 1000000)) * e < qz 2 * s)%Qc.
Proof.
  intros He Hs. set (m := Q2Qc (1 # 1000000)). assert (Hm : (0 < m)%Qc) by reflexivity. assert (Hp : (0 < e + m)%Qc) by qclra.
  assert (H2 : (0 < qz 2 * s)%Qc) by (replace 0%Qc with (0 * s)%Qc by ring; apply Qcmult_lt_compat_r; [exact Hs|reflexivity]).
  split.
  - apply le_div; [exact Hp|]. rewrite Qcmult_0_l. apply Qclt_le_weak. exact H2.
  - assert (N : (e + m <> 0)%Qc) by (intros E; rewrite E in Hp; discriminate Hp).
    replace (qz 2 * s / (e + m) * e)%Qc with (qz 2 * s * e / (e + m))%Qc by (field; exact N).
    apply div_lt; [exact Hp|]. rewrite Qcmult_plus_distr_r.
    assert (Hx : (0 < qz 2 * s * m)%Qc) by (replace 0%Qc with (0 * m)%Qc by ring; apply Qcmult_lt_compat_r; assumption).
    set (u := (qz 2 * s * m)%Qc) in *. set (w := (qz 2 * s * e)%Qc) in *. clearbody u w. qclra.
Qed.

Theorem thm_segshape_sample : forall nrm c r xyz normals labels, cfg_ok c -> (t_distort c = true -> draw_ok r) -> xyz <> [] ->
  List.length normals = List.length xyz -> List.length labels = List.length xyz ->
  exists lo hi e q out, bounding_box lo hi xyz /\ longest lo hi e /\ segshape_call nrm c r xyz normals labels = Ok out /\
    let p := mkPoints (map (rescale (middle lo hi) (qz 2 * Q2Qc (8 # 10) / (e + Q2Qc (1 # 1000000)))%Qc) xyz) (Some normals) None (label_column labels) None 1 None 0%nat in
    Forall (SpecPoints.inside (- Q2Qc (8 # 10))%Qc (Q2Qc (8 # 10))) (p_points p) /\
    cut_sample nrm c r p q out /\ with_octree nrm c q out /\ (t_distort c = false -> nothing_lost p q).
Proof.
  intros nrm c r xyz normals labels C Hd Hne Hn Hlab. destruct xyz as [|v0 vs]; [congruence|]. clear Hne.
  set (xyz := v0 :: vs) in *. pose proof (fold_box v0 vs) as Hb. fold xyz in Hb.
  remember (fold_left (v3zip qmin) vs v0) as lo eqn:E1. remember (fold_left (v3zip qmax) vs v0) as hi eqn:E2.
  destruct lo as [[a b] d], hi as [[x y] z]. set (e := qmax (qmax (x - a) (y - b)) (z - d)%Qc).
  pose proof (longest_fold a b d x y z) as Hl. fold e in Hl.
  destruct (unit_bound e (Q2Qc (8 # 10)) (longest_nonneg _ _ _ _ _ Hb Hl) eq_refl) as [K1 K2].
  set (k := (qz 2 * Q2Qc (8 # 10) / (e + Q2Qc (1 # 1000000)))%Qc) in *.
  set (p := mkPoints (map (rescale (middle (a, b, d) (x, y, z)) k) xyz) (Some normals) None (label_column labels) None 1 None 0%nat : pcloud Qc).
  assert (P : cloud_ok p /\ good_cloud 1 p).
  { apply (cloud1 _ (Some normals) None _ 0%nat); rewrite map_length; [intros n [= <-]; exact Hn|discriminate|intros l [= <-]; rewrite !map_length; exact Hlab]. }
  assert (F : Forall (SpecPoints.inside (- Q2Qc (8 # 10))%Qc (Q2Qc (8 # 10))) (p_points p)).
  { cbn [p p_points]. apply (box_in _ _ _ _ e); [exact Hb|exact K1| |exact K2]. cbn in Hl. tauto. }
  destruct (call_cloud nrm c r [("points"%string, VPts p)] p C Hd (proj1 P) (proj2 P) (lookup1 p)) as (q & out & Ec & Cu & Wo).
  exists (a, b, d), (x, y, z), e, q, out. split; [exact Hb|]. split; [exact Hl|]. split; [|cbv zeta; fold k p; split; [exact F|split; [exact Cu|split; [exact Wo|]]]].
  - unfold segshape_call, segshape_preprocess. unfold column. change (Some (Lab2 ?l)) with (option_map (@Lab2 Qc) (Some l)). rewrite new_ok; [|intros n [= <-]; exact Hn|discriminate|intros l [= <-]; rewrite !map_length; exact Hlab].
    cbn [bind]. unfold qbbox. cbn [p_points]. unfold xyz at 1. rewrite <- E1, <- E2. cbn [bind].
    match goal with |- call_after _ _ _ [(_, VPts ?a)] = _ => replace a with p; [exact Ec|] end.
    unfold p, qnormalize. cbn [v3zip v3map]. fold e. unfold set_points. cbn. fold e k. f_equal. f_equal.
    + destruct v0 as [[? ?] ?]. cbn. assert (Eh : (Q2Qc (1 # 2) = / qz 2)%Qc) by (apply Qc_is_canon; reflexivity). rewrite Eh. reflexivity.
    + apply map_ext. intros [[? ?] ?]. cbn. assert (Eh : (Q2Qc (1 # 2) = / qz 2)%Qc) by (apply Qc_is_canon; reflexivity). rewrite Eh. reflexivity.
  - intros Hnd. eapply all_kept; [exact Cu|exact Hnd|apply P|]. eapply Forall_impl; [|exact F]. intros v Hv. eapply inside_wide; [|reflexivity|exact Hv]. discriminate.
Qed.

Theorem thm_aeshape_sample : forall nrm c r scale xyz normals, cfg_ok c -> (t_distort c = true -> draw_ok r) -> (0 < scale)%Qc ->
  List.length normals = List.length xyz ->
  exists q out, aeshape_call nrm c r scale xyz normals = Ok out /\
    let p := mkPoints (map (rescale (0, 0, 0)%Qc (1 / scale)%Qc) xyz) (Some normals) None None None 1 None 0%nat in
    cut_sample nrm c r p q out /\ with_octree nrm c q out /\
    (t_distort c = false -> Forall (SpecPoints.inside (- (Q2Qc (99 # 100) * scale))%Qc (Q2Qc (99 # 100) * scale)%Qc) xyz -> nothing_lost p q).
Proof.
  intros nrm c r scale xyz normals C Hd Hs Hn.
  set (p := mkPoints (map (rescale (0, 0, 0)%Qc (1 / scale)%Qc) xyz) (Some normals) None None None 1 None 0%nat : pcloud Qc).
  assert (P : cloud_ok p /\ good_cloud 1 p).
  { apply (cloud1 _ (Some normals) None None 0%nat); rewrite map_length; [intros n [= <-]; exact Hn|discriminate|discriminate]. }
  destruct (call_cloud nrm c r [("points"%string, VPts p)] p C Hd (proj1 P) (proj2 P) (lookup1 p)) as (q & out & Ec & Cu & Wo).
  assert (N : (scale <> 0)%Qc) by (intros E; rewrite E in Hs; discriminate Hs).
  exists q, out. split; [|cbv zeta; fold p; split; [exact Cu|split; [exact Wo|]]].
  - unfold aeshape_call. match goal with |- context [points_new 0 ?a _ _ _ _ _] => replace a with (map (rescale (0, 0, 0)%Qc (1 / scale)%Qc) xyz) end.
    + change (@None (lab_arg Qc)) with (option_map (@Lab2 Qc) None). rewrite new_ok; [exact Ec|intros n [= <-]; rewrite map_length; exact Hn|discriminate|discriminate].
    + apply map_ext. intros [[x y] z]. cbn. apply (f_equal2 pair); [apply (f_equal2 pair)|]; field; exact N.
  - intros Hnd Hb. eapply all_kept; [exact Cu|exact Hnd|apply P|]. cbn [p p_points]. apply Forall_forall. intros v' Hv. apply in_map_iff in Hv. destruct Hv as (v & <- & Hv). rewrite Forall_forall in Hb. specialize (Hb v Hv).
    assert (One : forall t, (- (Q2Qc (99 # 100) * scale) < t < Q2Qc (99 # 100) * scale)%Qc -> (Q2Qc (-99 # 100) < (t - 0) * (1 / scale) < Q2Qc (99 # 100))%Qc).
    { intros t [H1 H2]. replace ((t - 0) * (1 / scale))%Qc with (t / scale)%Qc by (field; exact N).
      assert (E : Q2Qc (-99 # 100) = (- Q2Qc (99 # 100))%Qc) by (apply Qc_is_canon; reflexivity). rewrite E.
      split; [apply lt_div|apply div_lt]; try exact Hs; [|exact H2]. replace (- Q2Qc (99 # 100) * scale)%Qc with (- (Q2Qc (99 # 100) * scale))%Qc by (generalize (Q2Qc (99 # 100)); intros; ring). exact H1. }
    destruct v as [[x y] z]. cbn in *. destruct Hb as (h1 & h2 & h3). auto.
Qed.

Lemma octree_cloud nrm dep full (p : pcloud Qc) : (full <= dep)%nat -> (dep <= 16)%nat -> good_cloud 1 p ->
  exists o idx, build_octree nrm (octree_new dep full 1 0) p = Ok (o, idx) /\ octree_of nrm dep full p o.
Proof.
  intros H1 H2 G. assert (B : build_input (octree_new dep full 1 0) p) by (constructor; try assumption; cbn; try lia; rewrite repeat_length; lia).
  destruct (thm_build_wf nrm _ p B) as (o & idx & Eb & W & D1 & D2 & D3 & _). exists o, idx. split; [exact Eb|]. exists idx. auto.
Qed.
Lemma zip_nth {A B C} (f : A -> B -> C) : forall l m i a b, nth_error l i = Some a -> nth_error m i = Some b -> nth_error (zip_with f l m) i = Some (f a b).
Proof.
  unfold zip_with. induction l as [|x l IH]; intros m [|i] a b Ha Hb; try discriminate; destruct m as [|y m]; try discriminate; cbn in *; [congruence|]. eapply IH; eassumption.
Qed.

Theorem thm_completion_sample : forall nrm dep full points normals noise idx, (full <= dep)%nat -> (dep <= 16)%nat -> points <> [] ->
  List.length normals = List.length points -> Forall (fun i => (i < List.length points)%nat) idx -> List.length noise = List.length idx ->
  exists lo hi e octree_in points_in octree_gt points_gt, bounding_box lo hi points /\ longest lo hi e /\
    completion_call nrm dep full points normals noise (map Z.of_nat idx) = Ok (octree_in, points_in, octree_gt, points_gt) /\
    p_points points_gt = map (rescale (middle lo hi) (qz 2 * Q2Qc (95 # 100) / (e + Q2Qc (1 # 1000000)))%Qc) points /\
    p_normals points_gt = Some normals /\
    Forall (SpecPoints.inside (- Q2Qc (95 # 100))%Qc (Q2Qc (95 # 100))) (p_points points_gt) /\
    octree_of nrm dep full points_gt octree_gt /\
    (exists pts, noisy (Q2Qc (95 # 10000)) (p_points points_gt) idx noise pts /\ cut_to (Q2Qc (-99 # 100)) (Q2Qc (99 # 100)) pts (p_points points_in)) /\
    octree_of nrm dep full points_in octree_in.
Proof.
  intros nrm dep full points normals noise idx D1 D2 Hne Hn Hi Hz. destruct points as [|v0 vs]; [congruence|]. clear Hne.
  set (points := v0 :: vs) in *. pose proof (fold_box v0 vs) as Hb. fold points in Hb.
  unfold completion_call. change (rows_fold qmin points) with (Ok (fold_left (v3zip qmin) vs v0)). change (rows_fold qmax points) with (Ok (fold_left (v3zip qmax) vs v0)). cbn [bind].
  remember (fold_left (v3zip qmin) vs v0) as lo eqn:E1. remember (fold_left (v3zip qmax) vs v0) as hi eqn:E2.
  destruct lo as [[a b] d], hi as [[x y] z]. set (e := qmax (qmax (x - a) (y - b)) (z - d)%Qc).
  pose proof (longest_fold a b d x y z) as Hl. fold e in Hl.
  destruct (unit_bound e (Q2Qc (95 # 100)) (longest_nonneg _ _ _ _ _ Hb Hl) eq_refl) as [K1 K2].
  set (k := (qz 2 * Q2Qc (95 # 100) / (e + Q2Qc (1 # 1000000)))%Qc) in *.
  cbn [v3zip]. cbv zeta. fold e.
  match goal with |- context [gather ?l _] => replace l with (map (rescale (middle (a, b, d) (x, y, z)) k) points) end.
  2: { apply map_ext. intros [[p q] r]. cbn. unfold k, Qcdiv. apply (f_equal2 pair); [apply (f_equal2 pair)|]; ring. }
  set (pts := map (rescale (middle (a, b, d) (x, y, z)) k) points).
  assert (Lp : List.length pts = List.length points) by apply map_length.
  assert (F : Forall (SpecPoints.inside (- Q2Qc (95 # 100))%Qc (Q2Qc (95 # 100))) pts).
  { apply (box_in _ _ _ _ e); [exact Hb|exact K1| |exact K2]. cbn in Hl. tauto. }
  assert (G : exists chosen, gather pts (map Z.of_nat idx) = Ok chosen /\ Forall2 (fun i c => nth_error pts i = Some c) idx chosen).
  { rewrite <- Lp in Hi. clear - Hi. unfold gather. induction Hi as [|i l Hi _ (ch & IH1 & IH2)]; [exists []; split; [reflexivity|constructor]|].
    destruct (nth_error pts i) as [c|] eqn:E; [|apply nth_error_None in E; lia]. exists (c :: ch). cbn [map mapM]. rewrite (KeyFacts.tget_nth pts (Z.of_nat i) c) by (rewrite ?Nat2Z.id; try assumption; lia). cbn [bind]. rewrite IH1. split; [reflexivity|constructor; assumption]. }
  destruct G as (chosen & Eg & Fg). rewrite Eg. cbn [bind].
  set (ns := map (v3map (fun a => (Q2Qc (1 # 100) * Q2Qc (95 # 100) * a)%Qc)) noise).
  set (pn := zip_with (v3zip Qcplus) chosen ns).
  set (gt := mkPoints pts (Some normals) None None None 1 None 0%nat : pcloud Qc).
  assert (P : cloud_ok gt /\ good_cloud 1 gt).
  { apply (cloud1 _ (Some normals) None None 0%nat); rewrite ?Lp; [intros n [= <-]; exact Hn|discriminate|discriminate]. }
  assert (Eg1 : points_new 0 pts (Some normals) None None None 1 = Ok gt).
  { change (@None (lab_arg Qc)) with (option_map (@Lab2 Qc) None). apply new_ok; [intros n [= <-]; rewrite Lp; exact Hn|discriminate|discriminate]. }
  rewrite Eg1. cbn [bind].
  destruct (thm_clip (qz (-1)) (qz 1) (Q2Qc (1 # 100)) gt (proj1 P)) as (m1 & q & k1 & Ec1 & Lm & Ca & Hin & Hbs & Hdv). rewrite Ec1. cbn [bind].
  assert (Gq : good_cloud 1 q) by (eapply carried_good; [exact Ca|exact Hbs|apply P]).
  assert (Ek : k1 = seq 0 (npt gt)).
  { destruct Ca as (K & Pp & _). apply sorted_all; [exact K|]. intros i. split.
    - intros H. split; [lia|]. destruct (Nat.lt_ge_cases i (npt gt)) as [C|C]; [lia|exfalso].
      unfold SpecPoints.rows_at in Pp. clear - Pp H C. induction Pp as [|j b' k' t Hj P' IH]; [destruct H|]. destruct H as [<-|H]; [|apply IH; exact H]. apply nth_error_None in C. rewrite C in Hj. discriminate.
    - intros [_ H]. destruct (nth_error (p_points gt) i) as [v|] eqn:E; [|apply nth_error_None in E; unfold npt in H; lia]. apply (Hin i v E). rewrite (proj1 box_eq), (proj2 box_eq). rewrite Forall_forall in F.
      eapply inside_wide; [|reflexivity|apply (F v); eapply nth_error_In; exact E]. discriminate. }
  rewrite Ek in Ca. destruct Ca as (_ & Cp & Cn & _).
  assert (Q1 : p_points q = pts) by (apply (rows_all _ _ []); exact Cp).
  assert (Q2 : p_normals q = Some normals) by (eapply attr_all; [|exact Cn]; apply (proj1 P)).
  destruct (octree_cloud nrm dep full q D1 D2 Gq) as (ogt & ix & Eo & Oo). rewrite Eo. cbn [bind].
  set (inn := mkPoints pn None None None None 1 None 0%nat : pcloud Qc).
  assert (P' : cloud_ok inn /\ good_cloud 1 inn) by (apply (cloud1 _ None None None 0%nat); discriminate).
  assert (Eg2 : points_new 0 pn None None None None 1 = Ok inn) by reflexivity.
  rewrite Eg2. cbn [bind].
  destruct (thm_clip (qz (-1)) (qz 1) (Q2Qc (1 # 100)) inn (proj1 P')) as (m2 & q' & k2 & Ec2 & _ & Ca2 & Hin2 & Hbs2 & _). rewrite Ec2. cbn [bind].
  assert (Gq' : good_cloud 1 q') by (eapply carried_good; [exact Ca2|exact Hbs2|apply P']).
  destruct (octree_cloud nrm dep full q' D1 D2 Gq') as (oin & ix' & Eo' & Oo'). rewrite Eo'. cbn [bind].
  exists (a, b, d), (x, y, z), e, oin, q', ogt, q. rewrite Q1. split; [exact Hb|]. split; [exact Hl|]. split; [reflexivity|]. split; [reflexivity|]. split; [exact Q2|]. split; [exact F|]. split; [exact Oo|]. split; [|exact Oo'].
  exists pn. split.
  - assert (Lc : List.length chosen = List.length idx) by (clear - Fg; induction Fg; cbn; congruence).
    split; [unfold pn, zip_with; rewrite map_length, combine_length; unfold ns; rewrite map_length; lia|].
    intros j i x0 y0 z0 a0 b0 c0 Hj Hv Hno.
    assert (Hc : nth_error chosen j = Some (x0, y0, z0)).
    { clear - Fg Hj Hv. revert j Hj. induction Fg as [|i' c l ch H Fg IH]; intros [|j] Hj; try discriminate; cbn in *; [congruence|auto]. }
    unfold pn. rewrite (zip_nth _ _ _ _ _ (v3map (fun a => (Q2Qc (1 # 100) * Q2Qc (95 # 100) * a)%Qc) (a0, b0, c0)) Hc) by (unfold ns; rewrite nth_error_map, Hno; reflexivity).
    cbn. replace (Q2Qc (1 # 100) * Q2Qc (95 # 100))%Qc with (Q2Qc (95 # 10000)) by (apply Qc_is_canon; reflexivity). reflexivity.
  - destruct Ca2 as (K & Pp & _). exists k2. split; [exact K|]. split.
    + change (p_points inn) with pn in Pp. unfold SpecPoints.rows_at in Pp. clear - Pp. induction Pp as [|i w l t H Pp IH]; constructor; [|exact IH]. destruct (nth_error pn i); [exact H|discriminate].
    + intros i v Hv. pose proof (proj1 (Hin2 i v Hv)) as HH. rewrite (proj1 box_eq), (proj2 box_eq) in HH. exact HH.
Qed.

Lemma all_some rows : all_numbers (map (v3map Some) rows) = Some (map row3 rows).
Proof. induction rows as [|[[a b] c] rows IH]; [reflexivity|]. cbn [map all_numbers fold_right]. unfold all_numbers in IH. rewrite IH. reflexivity. Qed.

Theorem thm_scannet_sample : forall nrm c r g edo enoise xyz normals colors labels, cfg_ok c -> t_distort c = false -> xyz <> [] ->
  List.length normals = List.length xyz -> List.length colors = List.length xyz -> List.length labels = List.length xyz ->
  exists lo hi q out, bounding_box lo hi xyz /\ scannet_call nrm c r g edo enoise xyz normals colors labels = Ok (Some out) /\
    let p := mkPoints (map (rescale (floor_middle lo hi) (Q2Qc (100 # 1024))) xyz) (Some normals) (Some (map (fun v => row3 (rescale (0, 0, 0)%Qc (Q2Qc (1 # 255)) v)) colors)) (label_column labels) None 1 None 0%nat in
    cut_sample nrm c r p q out /\ dlookup out "octree" = None /\
    (small_box lo hi (Q2Qc (202752 # 10000)) -> Forall (fun v => (Q2Qc (-96376 # 10000) < snd v < Q2Qc (106376 # 10000))%Qc) xyz -> nothing_lost p q).
Proof.
  intros nrm c r g edo enoise xyz normals colors labels C Hnd Hne Hn Hcol Hlab. destruct (rows_fold_box xyz Hne) as (lo & hi & E1 & E2 & Hb).
  set (fs := map (fun v => row3 (rescale (0, 0, 0)%Qc (Q2Qc (1 # 255)) v)) colors).
  set (p := mkPoints (map (rescale (floor_middle lo hi) (Q2Qc (100 # 1024))) xyz) (Some normals) (Some fs) (label_column labels) None 1 None 0%nat : pcloud Qc).
  assert (P : cloud_ok p /\ good_cloud 1 p).
  { apply (cloud1 _ (Some normals) (Some fs) _ 3%nat); rewrite map_length; [intros n [= <-]; exact Hn|intros f [= <-]; unfold fs; rewrite map_length; split; [exact Hcol|]|intros l [= <-]; rewrite !map_length; exact Hlab].
    apply Forall_forall. intros f Hf. apply in_map_iff in Hf. destruct Hf as ([[? ?] ?] & <- & _). reflexivity. }
  destruct (transform_cloud nrm c r [("points"%string, VPts p)] p C ltac:(congruence) (proj1 P) (proj2 P) (lookup1 p)) as (q & out & Et & Cu & Gq & Lq & Dq).
  exists lo, hi, q, out. split; [exact Hb|]. split; [|cbv zeta; fold fs p; split; [exact Cu|split]].
  - unfold scannet_call, scannet_normalize. rewrite E1, E2. cbn [bind]. rewrite Hnd.
    assert (Ec : map (v3map (fun a => (a / qz 255)%Qc)) colors = map (rescale (0, 0, 0)%Qc (Q2Qc (1 # 255))) colors).
    { apply map_ext. intros [[u v] w]. cbn. assert (E : (Q2Qc (1 # 255) = / qz 255)%Qc) by (apply Qc_is_canon; reflexivity). rewrite E. unfold Qcdiv. apply (f_equal2 pair); [apply (f_equal2 pair)|]; ring. }
    rewrite Ec. destruct lo as [[a b] d], hi as [[a' b'] d']. cbn [v3zip bind]. rewrite all_some, map_map. fold fs.
    match goal with |- context [points_new 0 ?l _ _ _ _ _] => replace l with (map (rescale (floor_middle (a, b, d) (a', b', d')) (Q2Qc (100 # 1024))) xyz) end.
    + unfold column. change (Some (Lab2 ?l)) with (option_map (@Lab2 Qc) (Some l)). rewrite new_ok.
      * cbn [bind]. change (mkPoints _ _ _ _ _ _ _ _) with p. rewrite Et. reflexivity.
      * intros n [= <-]. rewrite map_length. exact Hn.
      * intros f [= <-]. unfold fs. rewrite !map_length. exact Hcol.
      * intros l [= <-]. rewrite !map_length. exact Hlab.
    + apply map_ext. intros [[u v] w]. cbn. assert (E : (Q2Qc (100 # 1024) = / Q2Qc (1024 # 100))%Qc) by (apply Qc_is_canon; reflexivity). rewrite E. reflexivity.
  - assert (H : forall s o, transform nrm c r s = Ok o -> dlookup s "octree" = None -> dlookup o "octree" = None).
    { clear. intros s o H Hs. unfold transform in H. destruct (dget s "points") as [v|]; [|discriminate]. cbn [bind] in H. destruct (as_pts v) as [p|]; [|discriminate]. cbn [bind] in H.
      do 2 (match type of H with bind ?m _ = _ => destruct m as [?|]; [|discriminate] end; cbn [bind] in H).
      match type of H with bind ?m _ = _ => destruct m as [[m' p']|]; [|discriminate] end. cbn [bind] in H.
      injection H as <-. rewrite !dlookup_dset. exact Hs. }
    eapply H; [exact Et|reflexivity].
  - intros Hs Hz. eapply all_kept; [exact Cu|exact Hnd|apply P|]. cbn [p p_points].
    apply Forall_forall. intros v' Hv. apply in_map_iff in Hv. destruct Hv as ([[u v] w] & <- & Hv). destruct Hb as [Hb _]. rewrite Forall_forall in Hb, Hz. specialize (Hb _ Hv). specialize (Hz _ Hv).
    destruct lo as [[a b] d], hi as [[a' b'] d']. cbn in Hs, Hb, Hz |- *. destruct Hs as (s1 & s2 & _). destruct Hb as ((b1 & b2 & _) & (b3 & b4 & _)).
    assert (Ek : forall t, (t < Q2Qc (202752 # 10000))%Qc -> (Q2Qc (100 # 1024) * t < qz 2 * Q2Qc (99 # 100))%Qc).
    { intros t Ht. replace (qz 2 * Q2Qc (99 # 100))%Qc with (Q2Qc (202752 # 10000) * Q2Qc (100 # 1024))%Qc by (apply Qc_is_canon; reflexivity). rewrite Qcmult_comm. apply Qcmult_lt_compat_r; [reflexivity|exact Ht]. }
    assert (Em : Q2Qc (-99 # 100) = (- Q2Qc (99 # 100))%Qc) by (apply Qc_is_canon; reflexivity). rewrite Em.
    split; [|split].
    + eapply (half_in a a' u (Q2Qc (100 # 1024)) (a' - a)%Qc); [discriminate|auto|apply Qcle_refl|apply Ek; exact s1].
    + eapply (half_in b b' v (Q2Qc (100 # 1024)) (b' - b)%Qc); [discriminate|auto|apply Qcle_refl|apply Ek; exact s2].
    + assert (Hk : (0 < Q2Qc (100 # 1024))%Qc) by reflexivity. destruct Hz as [z1 z2]. split.
      * replace (- Q2Qc (99 # 100))%Qc with ((Q2Qc (-96376 # 10000) - Q2Qc (1 # 2)) * Q2Qc (100 # 1024))%Qc by (apply Qc_is_canon; reflexivity). apply Qcmult_lt_compat_r; [exact Hk|]. generalize dependent (Q2Qc (-96376 # 10000)). generalize (Q2Qc (1 # 2)). intros. qclra.
      * replace (Q2Qc (99 # 100))%Qc with ((Q2Qc (106376 # 10000) - Q2Qc (1 # 2)) * Q2Qc (100 # 1024))%Qc by (apply Qc_is_canon; reflexivity). apply Qcmult_lt_compat_r; [exact Hk|]. generalize dependent (Q2Qc (106376 # 10000)). generalize (Q2Qc (1 # 2)). intros. qclra.
Qed.
