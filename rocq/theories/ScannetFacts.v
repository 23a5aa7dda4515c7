(** Labels of the points of a scene, and normals of its mesh. *)
From Coq Require Import String List ZArith Bool QArith Qcanon Lia Reals Lra Permutation.
From Verif Require Import Res Tensor Num Octree NnBasic Project PointsOps Scannet ListFacts SpecPoints SpecProject SpecScannet MetricFacts LabelFacts ProjectThms.
Import ListNotations.
Open Scope Z_scope.

(** ** Labels *)
Lemma isin_In cls l : isin cls l = true <-> In l cls.
Proof. unfold isin. rewrite existsb_exists. split; [intros (x & Hx & E); apply Z.eqb_eq in E; now subst | intros H; exists l; split; auto; apply Z.eqb_refl]. Qed.
Lemma group_label_spec table name : class_of class_ids200 table name (group_label table name).
Proof.
  unfold class_of, group_label. induction table as [|[n id] t IH]; cbn [find fst snd map]; [right; split; auto|].
  destruct (String.eqb_spec n name) as [->|Hne].
  - left. exists [], id, t. split; [reflexivity|]. split; [intros []|]. cbn [snd]. destruct (isin class_ids200 id) eqn:E; [left | right].
    + split; auto. now apply isin_In.
    + split; auto. intros Hi. apply isin_In in Hi. congruence.
  - destruct IH as [(a & i & b & -> & Hn & Hc)|[Hn Hc]].
    + left. exists ((n, id) :: a), i, b. split; [reflexivity|]. split; [cbn [map fst In]; intuition | exact Hc].
    + right. split; [cbn [In]; intuition | exact Hc].
Qed.
Definition last_group (table : list (string * Z)) (groups : list seg_group) (s : Z) : Z :=
  fold_left (fun l g => if isin (g_segments g) s then group_label table (g_label g) else l) groups 0.
Lemma labels_map table segs groups : point_labels200 table segs groups = map (last_group table groups) segs.
Proof.
  unfold point_labels200. induction groups as [|g groups IH] using rev_ind.
  - cbn [fold_left]. unfold last_group. cbn [fold_left]. induction segs as [|s segs IHs]; cbn; congruence.
  - rewrite fold_left_app. cbn [fold_left]. rewrite IH. clear IH. unfold last_group.
    induction segs as [|s segs IH]; [reflexivity|]. cbn [map]. rewrite zip_cons, IH, fold_left_app. reflexivity.
Qed.
Lemma last_group_spec table groups s :
  (exists a g b, groups = a ++ g :: b /\ In s (g_segments g) /\ (forall h, In h b -> ~ In s (g_segments h)) /\ class_of class_ids200 table (g_label g) (last_group table groups s)) \/
  ((forall g, In g groups -> ~ In s (g_segments g)) /\ last_group table groups s = 0).
Proof.
  induction groups as [|g groups IH] using rev_ind; [right; split; auto; intros g []|].
  unfold last_group. rewrite fold_left_app. cbn [fold_left]. fold (last_group table groups s).
  destruct (isin (g_segments g) s) eqn:E.
  - left. exists groups, g, []. split; [reflexivity|]. split; [now apply isin_In|]. split; [intros h []|]. apply group_label_spec.
  - assert (~ In s (g_segments g)) as Hn by (intros Hi; apply isin_In in Hi; congruence).
    destruct IH as [(a & h & b & -> & Hs & Hb & Hc)|[Hg Hz]].
    + left. exists a, h, (b ++ [g]). split; [now rewrite <- app_assoc|]. split; auto. split; auto.
      intros x Hx. apply in_app_or in Hx. destruct Hx as [Hx|[<-|[]]]; auto.
    + right. split; auto. intros x Hx. apply in_app_or in Hx. destruct Hx as [Hx|[<-|[]]]; auto.
Qed.
Lemma class_of_in table name c : class_of class_ids200 table name c -> In c class_ids200.
Proof.
  assert (In 0 class_ids200) as H0 by (now left).
  intros [(a & id & b & _ & _ & [[Hi ->]|[_ ->]])|[_ ->]]; auto.
Qed.
Lemma last_group_in table groups s : In (last_group table groups s) class_ids200.
Proof.
  destruct (last_group_spec table groups s) as [(a & g & b & _ & _ & _ & Hc)|[_ ->]]; [eapply class_of_in; eauto | now left].
Qed.
Lemma classes_same : forallb (fun c => isin (scannet_classes true) c && (0 <=? c) && (c <? 2048)) class_ids200 = true /\ forallb (isin class_ids200) (scannet_classes true) = true.
Proof. split; vm_compute; reflexivity. Qed.
Lemma class_same c : In c class_ids200 <-> In c (scannet_classes true).
Proof.
  destruct classes_same as [H1 H2]. rewrite forallb_forall in H1, H2. split; intros H.
  - apply H1 in H. apply andb_true_iff in H. destruct H as [H _]. apply andb_true_iff in H. apply isin_In, H.
  - apply isin_In. auto.
Qed.
Lemma class_of_same table name c : class_of class_ids200 table name c <-> class_of (scannet_classes true) table name c.
Proof.
  unfold class_of. split; (intros [(a & id & b & H)|H]; [left; exists a, id, b | right; exact H]); pose proof (class_same id); tauto.
Qed.
Lemma thm_labels200 table segs groups : exists new,
  List.length (point_labels200 table segs groups) = List.length segs /\
  (forall i s, nth_error segs i = Some s -> exists c, nth_error (point_labels200 table segs groups) i = Some c /\ In c (scannet_classes true) /\
     ((exists a g b, groups = a ++ g :: b /\ In s (g_segments g) /\ (forall h, In h b -> ~ In s (g_segments h)) /\
         class_of (scannet_classes true) table (g_label g) c) \/
      ((forall g, In g groups -> ~ In s (g_segments g)) /\ c = 0))) /\
  new_labels true (point_labels200 table segs groups) = Ok new /\
  Forall2 (fun c v => nth_error (scannet_classes true) (Z.to_nat v) = Some c /\ 0 <= v <= 200) (point_labels200 table segs groups) new.
Proof.
  rewrite labels_map.
  assert (Forall (fun c => 0 <= c < 2048) (map (last_group table groups) segs)) as Hr.
  { apply Forall_forall. intros c Hc. apply in_map_iff in Hc. destruct Hc as (s & <- & _). pose proof (last_group_in table groups s) as Hi.
    destruct classes_same as [H1 _]. rewrite forallb_forall in H1. apply H1 in Hi. apply andb_true_iff in Hi. destruct Hi as [Hi ?]. apply andb_true_iff in Hi. lia. }
  destruct (thm_scannet_spec true _ Hr) as (new & E & H2 & _). exists new.
  split; [apply map_length|]. split; [|split; [exact E|]].
  - intros i s Hs. exists (last_group table groups s). rewrite nth_error_map, Hs. split; [reflexivity|]. split; [apply class_same, last_group_in|].
    destruct (last_group_spec table groups s) as [(a & g & b & H)|H]; [left; exists a, g, b | right; exact H].
    pose proof (class_of_same table (g_label g) (last_group table groups s)). tauto.
  - assert (forall c, In c (map (last_group table groups) segs) -> In c (scannet_classes true)) as Hin.
    { intros c Hc. apply in_map_iff in Hc. destruct Hc as (s & <- & _). apply class_same, last_group_in. }
    assert (zlen (scannet_classes true) = 201) as Hz by (vm_compute; reflexivity). rewrite Hz in H2. clear -H2 Hin.
    induction H2 as [|c v l m (Hv & Hc & _) _ IH]; constructor.
    + split; [apply Hc, Hin; now left | lia].
    + apply IH. intros x Hx. apply Hin. now right.
Qed.

(** ** Normals *)
Open Scope R_scope.
Notation zero3 := ((0, 0, 0) : v3 R).
Lemma length_pos u : 0 < length_of u.
Proof. destruct u as [[a b] c]. unfold length_of. pose proof (sqrt_pos (a * a + b * b + c * c)). lra. Qed.
Lemma length_norm u : length_of u = norm u + / 100000000.
Proof. destruct u as [[a b] c]. reflexivity. Qed.
Lemma vertex_at_ok vs i : (i < List.length vs)%nat -> vertex_at vs i = Ok (nth i vs zero3).
Proof. intros H. unfold vertex_at. rewrite (nth_error_nth' vs zero3 H). reflexivity. Qed.
Lemma vertex_at_bad vs i : ~ (i < List.length vs)%nat -> vertex_at vs i = Err IndexError.
Proof. intros H. unfold vertex_at. rewrite (proj2 (nth_error_None vs i)) by lia. reflexivity. Qed.
Definition corners_ok (vs : list (v3 R)) (f : nat * nat * nat) : Prop :=
  let '(i, j, k) := f in (i < List.length vs /\ j < List.length vs /\ k < List.length vs)%nat.
Lemma weighted (v : v3 R) : vmulc (length_of v * (1 / 2)) (vdiv v (length_of v)) = vtimes (1 / 2) v.
Proof.
  pose proof (length_pos v) as H. revert H. generalize (length_of v) as l. destruct v as [[a b] c]. intros l H. unfold vmulc, vdiv, v3map, vtimes.
  f_equal; [f_equal|]; field; lra.
Qed.
Lemma face_normal_ok vs f : corners_ok vs f -> exists n a, face_normal vs f = Ok (n, a) /\ vmulc a n = vtimes (1 / 2) (face_vec vs f).
Proof.
  destruct f as [[i j] k]. intros (Hi & Hj & Hk). unfold face_normal. rewrite !vertex_at_ok by assumption. cbn [bind].
  eexists _, _. split; [reflexivity|]. rewrite weighted. apply f_equal. unfold face_vec.
  destruct (nth i vs zero3) as [[? ?] ?], (nth j vs zero3) as [[? ?] ?], (nth k vs zero3) as [[? ?] ?]. reflexivity.
Qed.
Lemma face_normal_bad vs f : ~ corners_ok vs f -> face_normal vs f = Err IndexError.
Proof.
  destruct f as [[i j] k]. cbn [corners_ok]. intros H. unfold face_normal.
  destruct (Nat.lt_ge_cases j (List.length vs)) as [Hj|Hj]; [rewrite (vertex_at_ok vs j Hj) | now rewrite vertex_at_bad by lia]. cbn [bind].
  destruct (Nat.lt_ge_cases i (List.length vs)) as [Hi|Hi]; [rewrite (vertex_at_ok vs i Hi) | now rewrite vertex_at_bad by lia]. cbn [bind].
  rewrite vertex_at_bad by lia. reflexivity.
Qed.
Lemma faces_ok vs fs : mesh_ok vs fs -> exists l, mapM (face_normal vs) fs = Ok l /\
  map (fun na => vmulc (snd na) (fst na)) l = map (fun f => vtimes (1 / 2) (face_vec vs f)) fs.
Proof.
  induction fs as [|f fs IH]; intros H; [now exists []|]. inversion_clear H as [|? ? Hf Hfs]. destruct (IH Hfs) as (l & El & Ml).
  destruct (face_normal_ok vs f Hf) as (n & a & En & Ea). exists ((n, a) :: l). cbn [mapM map]. rewrite En. cbn [bind]. rewrite El. cbn [bind fst snd].
  split; [reflexivity|]. now rewrite Ea, Ml.
Qed.
Lemma faces_bad vs fs : ~ mesh_ok vs fs -> mapM (face_normal vs) fs = Err IndexError.
Proof.
  induction fs as [|f fs IH]; intros H; [exfalso; apply H; constructor|]. cbn [mapM].
  assert (corners_ok vs f \/ ~ corners_ok vs f) as [Hf|Hf].
  { destruct f as [[i j] k]. unfold corners_ok. lia. }
  - destruct (face_normal_ok vs f Hf) as (n & a & En & _). rewrite En. cbn [bind]. rewrite IH; [reflexivity|]. intros Hfs. apply H. constructor; auto.
  - now rewrite face_normal_bad.
Qed.
(** what the accumulation leaves at a vertex *)
Lemma add_face_length nv fn : List.length (add_face nv fn) = List.length nv.
Proof. unfold add_face. rewrite map_length, combine_length, seq_length. lia. Qed.
Lemma nth_error_index {A} (l : list A) : forall k i, nth_error (combine (seq k (List.length l)) l) i = option_map (fun x => ((k + i)%nat, x)) (nth_error l i).
Proof.
  induction l as [|x l IH]; intros k [|i]; cbn [List.length seq combine nth_error option_map]; auto.
  - now rewrite Nat.add_0_r.
  - rewrite IH. now rewrite Nat.add_succ_comm.
Qed.
Lemma add_face_nth nv fn i : nth_error (add_face nv fn) i = option_map (fun u => if in_face i (fst fn) then v3zip Rplus u (snd fn) else u) (nth_error nv i).
Proof. unfold add_face. rewrite nth_error_map, nth_error_index. now destruct (nth_error nv i). Qed.
Lemma fold_length l : forall nv, List.length (fold_left add_face l nv) = List.length nv.
Proof. induction l as [|x l IH]; intros nv; cbn [fold_left]; [reflexivity|]. now rewrite IH, add_face_length. Qed.
Lemma vplus_zip u v : v3zip Rplus u v = vplus u v.
Proof. destruct u as [[? ?] ?], v as [[? ?] ?]. reflexivity. Qed.
Lemma vplus_assoc u v w : vplus (vplus u v) w = vplus u (vplus v w).
Proof. destruct u as [[? ?] ?], v as [[? ?] ?], w as [[? ?] ?]. cbn. f_equal; [f_equal|]; ring. Qed.
Lemma vplus_comm u v : vplus u v = vplus v u.
Proof. destruct u as [[? ?] ?], v as [[? ?] ?]. cbn. f_equal; [f_equal|]; ring. Qed.
Lemma vplus_0 u : vplus zero3 u = u.
Proof. destruct u as [[? ?] ?]. cbn. f_equal; [f_equal|]; ring. Qed.
Lemma vplus_0r u : vplus u zero3 = u.
Proof. rewrite vplus_comm. apply vplus_0. Qed.
Lemma fold_nth (w : nat * nat * nat -> v3 R) fs i : forall nv,
  nth_error (fold_left add_face (combine fs (map w fs)) nv) i =
  option_map (fun u => vplus u (fold_right vplus zero3 (map w (filter (is_corner i) fs)))) (nth_error nv i).
Proof.
  induction fs as [|f fs IH]; intros nv; cbn [map combine fold_left filter fold_right].
  - destruct (nth_error nv i); cbn [option_map]; [now rewrite vplus_0r | reflexivity].
  - rewrite IH, add_face_nth. destruct (nth_error nv i) as [u|]; cbn [option_map fst snd]; [|reflexivity]. f_equal.
    change (is_corner i f) with (in_face i f). destruct (in_face i f); cbn [map fold_right]; [|reflexivity].
    now rewrite (vplus_zip u (w f)), vplus_assoc.
Qed.
Definition unit_of (u : v3 R) : v3 R := vtimes (/ (norm u + / 100000000)) u.
Lemma vdiv_unit u : vdiv u (length_of u) = unit_of u.
Proof. unfold unit_of. rewrite length_norm. destruct u as [[a b] c]. unfold vdiv, v3map, vtimes, Rdiv. f_equal; [f_equal|]; ring. Qed.
Lemma nth_error_ext {A} (l m : list A) : (forall i, nth_error l i = nth_error m i) -> l = m.
Proof.
  revert m. induction l as [|x l IH]; intros [|y m] H; auto; try (specialize (H 0%nat); discriminate).
  f_equal; [specialize (H 0%nat); cbn in H; congruence | apply IH; intros i; apply (H (S i))].
Qed.
Lemma normals_ok vs fs : mesh_ok vs fs -> vertex_normal vs fs = Ok (map (fun i => unit_of (around vs fs i)) (seq 0 (List.length vs))).
Proof.
  intros H. unfold vertex_normal. destruct (faces_ok vs fs H) as (l & El & Ml). rewrite El. cbn [bind]. rewrite Ml. f_equal.
  apply nth_error_ext. intros i. rewrite !nth_error_map, fold_nth.
  destruct (Nat.lt_ge_cases i (List.length vs)) as [Hi|Hi].
  - rewrite nth_error_repeat by exact Hi. rewrite (nth_error_nth' (seq 0 (List.length vs)) 0%nat) by (rewrite seq_length; exact Hi).
    rewrite seq_nth by exact Hi. cbn [option_map Nat.add]. rewrite vplus_0, vdiv_unit. reflexivity.
  - rewrite (proj2 (nth_error_None (repeat _ _) i)) by (rewrite repeat_length; exact Hi).
    rewrite (proj2 (nth_error_None (seq _ _) i)) by (rewrite seq_length; exact Hi). reflexivity.
Qed.
Lemma dot_nonneg u : 0 <= dot u u.
Proof. destruct u as [[a b] c]. cbn [dot]. nra. Qed.
Lemma norm_times c u : 0 <= c -> norm (vtimes c u) = c * norm u.
Proof.
  intros H. unfold norm. replace (dot (vtimes c u) (vtimes c u)) with ((c * c) * dot u u) by (destruct u as [[x y] z]; cbn [dot vtimes]; ring).
  rewrite sqrt_mult by (try apply dot_nonneg; nra). f_equal. now apply sqrt_square.
Qed.
Lemma norm_nonneg u : 0 <= norm u. Proof. apply sqrt_pos. Qed.
Lemma unit_norm u : norm (unit_of u) < 1.
Proof.
  unfold unit_of. pose proof (norm_nonneg u) as H. rewrite norm_times by (left; apply Rinv_0_lt_compat; lra).
  apply Rmult_lt_reg_l with (norm u + / 100000000); [lra|]. rewrite <- Rmult_assoc, Rinv_r by lra. lra.
Qed.
Lemma thm_normals vs fs : mesh_ok vs fs -> exists ns, vertex_normal vs fs = Ok ns /\ List.length ns = List.length vs /\
  forall i n, nth_error ns i = Some n -> n = vtimes (/ (norm (around vs fs i) + / 100000000)) (around vs fs i) /\ norm n < 1.
Proof.
  intros H. rewrite (normals_ok vs fs H). eexists. split; [reflexivity|]. split; [now rewrite map_length, seq_length|].
  intros i n E. rewrite nth_error_map in E. destruct (nth_error (seq 0 (List.length vs)) i) as [j|] eqn:Ej; [|discriminate]. cbn [option_map] in E. injection E as <-.
  assert (j = i) as ->.
  { assert (i < List.length (seq 0 (List.length vs)))%nat as Hi by (apply nth_error_Some; congruence). rewrite seq_length in Hi.
    rewrite (nth_error_nth' _ 0%nat) in Ej by (rewrite seq_length; exact Hi). rewrite seq_nth in Ej by exact Hi. injection Ej as <-. reflexivity. }
  split; [reflexivity | apply unit_norm].
Qed.
Lemma thm_normals_bad vs fs : ~ mesh_ok vs fs -> vertex_normal vs fs = Err IndexError.
Proof. intros H. unfold vertex_normal. now rewrite faces_bad. Qed.

(** *** Rotations *)
Lemma turn_rotated m v : turn_by m v = rotated m v.
Proof. destruct m as [[[[? ?] ?] [[? ?] ?]] [[? ?] ?]], v as [[? ?] ?]. cbn. f_equal; [f_equal|]; ring. Qed.
(** every row is the vector product of the two others *)
Lemma rotation_rows a b c d e f g h i : is_rotation ((a, b, c), (d, e, f), (g, h, i)) ->
  (a = e * i - f * h /\ b = f * g - d * i /\ c = d * h - e * g) /\
  (d = h * c - i * b /\ e = i * a - g * c /\ f = g * b - h * a) /\
  (g = b * f - c * e /\ h = c * d - a * f /\ i = a * e - b * d).
Proof.
  cbn [is_rotation dot volume]. intros (Hr & Hs & Ht & Hrs & Hrt & Hst & Hv).
  (* with columns p = (a, d, g) etc. of the inverse: cof = cof * (M M^T) = det * M *)
  assert (forall x y z X : R, X = (x * (a * a + b * b + c * c) + y * (a * d + b * e + c * f) + z * (a * g + b * h + c * i)) ->
     X = x) as Ra by (intros x y z X ->; rewrite Hr, Hrs, Hrt; ring).
  assert (forall x y z X : R, X = (x * (a * d + b * e + c * f) + y * (d * d + e * e + f * f) + z * (d * g + e * h + f * i)) ->
     X = y) as Rb by (intros x y z X ->; rewrite Hrs, Hs, Hst; ring).
  assert (forall x y z X : R, X = (x * (a * g + b * h + c * i) + y * (d * g + e * h + f * i) + z * (g * g + h * h + i * i)) ->
     X = z) as Rc by (intros x y z X ->; rewrite Hrt, Hst, Ht; ring).
  set (D := a * (e * i - f * h) - b * (d * i - f * g) + c * (d * h - e * g)) in *.
  assert (forall x, x = x * D) as HD by (intros x; rewrite Hv; ring).
  repeat split.
  - rewrite (HD a). apply (Ra _ (h * c - i * b) (b * f - c * e)). unfold D. ring.
  - rewrite (HD b). apply (Ra _ (i * a - g * c) (c * d - a * f)). unfold D. ring.
  - rewrite (HD c). apply (Ra _ (g * b - h * a) (a * e - b * d)). unfold D. ring.
  - rewrite (HD d). apply (Rb (e * i - f * h) _ (b * f - c * e)). unfold D. ring.
  - rewrite (HD e). apply (Rb (f * g - d * i) _ (c * d - a * f)). unfold D. ring.
  - rewrite (HD f). apply (Rb (d * h - e * g) _ (a * e - b * d)). unfold D. ring.
  - rewrite (HD g). apply (Rc (e * i - f * h) (h * c - i * b)). unfold D. ring.
  - rewrite (HD h). apply (Rc (f * g - d * i) (i * a - g * c)). unfold D. ring.
  - rewrite (HD i). apply (Rc (d * h - e * g) (g * b - h * a)). unfold D. ring.
Qed.
Definition crossv (u v : v3 R) : v3 R := let '(a, b, c) := u in let '(d, e, f) := v in (b * f - c * e, c * d - a * f, a * e - b * d).
Lemma cross_rotated m u v : is_rotation m -> crossv (rotated m u) (rotated m v) = rotated m (crossv u v).
Proof.
  destruct m as [[[[a b] c] [[d e] f]] [[g h] i]]. intros H. destruct (rotation_rows a b c d e f g h i H) as ((A1 & A2 & A3) & (B1 & B2 & B3) & (C1 & C2 & C3)).
  destruct u as [[x y] z], v as [[x' y'] z']. unfold rotated, crossv, dot.
  set (X := y * z' - z * y'). set (Y := z * x' - x * z'). set (W := x * y' - y * x').
  apply f_equal2; [apply f_equal2|].
  - transitivity ((e * i - f * h) * X + (f * g - d * i) * Y + (d * h - e * g) * W); [unfold X, Y, W; ring | now rewrite <- A1, <- A2, <- A3].
  - transitivity ((h * c - i * b) * X + (i * a - g * c) * Y + (g * b - h * a) * W); [unfold X, Y, W; ring | now rewrite <- B1, <- B2, <- B3].
  - transitivity ((b * f - c * e) * X + (c * d - a * f) * Y + (a * e - b * d) * W); [unfold X, Y, W; ring | now rewrite <- C1, <- C2, <- C3].
Qed.
Lemma face_vec_cross vs i j k : face_vec vs (i, j, k) = crossv (vsub (nth j vs zero3) (nth i vs zero3)) (vsub (nth k vs zero3) (nth i vs zero3)).
Proof. reflexivity. Qed.
Lemma aligned_nth m t vs i : (i < List.length vs)%nat -> nth i (align_to_axis m t vs) zero3 = vplus (rotated m (nth i vs zero3)) t.
Proof.
  intros H. unfold align_to_axis. rewrite (nth_indep _ zero3 (v3zip Rplus (turn_by m zero3) t)) by (rewrite map_length; exact H).
  rewrite (map_nth (fun v => v3zip Rplus (turn_by m v) t)). now rewrite vplus_zip, turn_rotated.
Qed.
Lemma rotated_sub m t u v : vsub (vplus (rotated m u) t) (vplus (rotated m v) t) = rotated m (vsub u v).
Proof. destruct m as [[[[? ?] ?] [[? ?] ?]] [[? ?] ?]], u as [[? ?] ?], v as [[? ?] ?], t as [[? ?] ?]. cbn. f_equal; [f_equal|]; ring. Qed.
Lemma rotated_plus m u v : rotated m (vplus u v) = vplus (rotated m u) (rotated m v).
Proof. destruct m as [[[[? ?] ?] [[? ?] ?]] [[? ?] ?]], u as [[? ?] ?], v as [[? ?] ?]. cbn. f_equal; [f_equal|]; ring. Qed.
Lemma rotated_times m c u : rotated m (vtimes c u) = vtimes c (rotated m u).
Proof. destruct m as [[[[? ?] ?] [[? ?] ?]] [[? ?] ?]], u as [[? ?] ?]. cbn. f_equal; [f_equal|]; ring. Qed.
Lemma rotated_zero m : rotated m zero3 = zero3.
Proof. destruct m as [[[[? ?] ?] [[? ?] ?]] [[? ?] ?]]. cbn. f_equal; [f_equal|]; ring. Qed.
(** the columns are orthonormal, too *)
Lemma rotated_dot m u : is_rotation m -> dot (rotated m u) (rotated m u) = dot u u.
Proof.
  destruct m as [[[[a b] c] [[d e] f]] [[g h] i]]. intros H. destruct (rotation_rows a b c d e f g h i H) as ((A1 & A2 & A3) & (B1 & B2 & B3) & (C1 & C2 & C3)).
  cbn [is_rotation dot volume] in H. destruct H as (_ & _ & _ & _ & _ & _ & Hv).
  assert (a * a + d * d + g * g = 1) as P1.
  { transitivity (a * (e * i - f * h) + d * (h * c - i * b) + g * (b * f - c * e)); [now rewrite <- A1, <- B1, <- C1 | rewrite <- Hv; ring]. }
  assert (b * b + e * e + h * h = 1) as P2.
  { transitivity (b * (f * g - d * i) + e * (i * a - g * c) + h * (c * d - a * f)); [now rewrite <- A2, <- B2, <- C2 | rewrite <- Hv; ring]. }
  assert (c * c + f * f + i * i = 1) as P3.
  { transitivity (c * (d * h - e * g) + f * (g * b - h * a) + i * (a * e - b * d)); [now rewrite <- A3, <- B3, <- C3 | rewrite <- Hv; ring]. }
  assert (a * b + d * e + g * h = 0) as P4.
  { transitivity (a * (f * g - d * i) + d * (i * a - g * c) + g * (c * d - a * f)); [now rewrite <- A2, <- B2, <- C2 | ring]. }
  assert (a * c + d * f + g * i = 0) as P5.
  { transitivity (a * (d * h - e * g) + d * (g * b - h * a) + g * (a * e - b * d)); [now rewrite <- A3, <- B3, <- C3 | ring]. }
  assert (b * c + e * f + h * i = 0) as P6.
  { transitivity (b * (d * h - e * g) + e * (g * b - h * a) + h * (a * e - b * d)); [now rewrite <- A3, <- B3, <- C3 | ring]. }
  destruct u as [[x y] z]. cbn [rotated dot].
  transitivity ((a * a + d * d + g * g) * (x * x) + (b * b + e * e + h * h) * (y * y) + (c * c + f * f + i * i) * (z * z) +
    2 * (a * b + d * e + g * h) * (x * y) + 2 * (a * c + d * f + g * i) * (x * z) + 2 * (b * c + e * f + h * i) * (y * z)); [ring|].
  rewrite P1, P2, P3, P4, P5, P6. ring.
Qed.
Lemma around_rotated m t vs fs v : is_rotation m -> mesh_ok vs fs -> around (align_to_axis m t vs) fs v = rotated m (around vs fs v).
Proof.
  intros Hm H. unfold around. induction fs as [|f fs IH]; cbn [filter map fold_right]; [now rewrite rotated_zero|]. inversion_clear H as [|? ? Hf Hfs].
  destruct (is_corner v f); [|auto]. cbn [map fold_right]. rewrite (IH Hfs), rotated_plus, rotated_times. apply f_equal2; [|reflexivity]. apply f_equal.
  destruct f as [[i j] k]. destruct Hf as (Hi & Hj & Hk). rewrite !face_vec_cross, !aligned_nth by assumption. now rewrite !rotated_sub, cross_rotated.
Qed.
Lemma aligned_ok m t vs fs : mesh_ok vs fs -> mesh_ok (align_to_axis m t vs) fs.
Proof. unfold mesh_ok, align_to_axis. now rewrite map_length. Qed.
Lemma thm_align_normals m t vs fs ns : is_rotation m -> mesh_ok vs fs -> vertex_normal vs fs = Ok ns ->
  vertex_normal (align_to_axis m t vs) fs = Ok (map (rotated m) ns) /\
  (forall i v, nth_error vs i = Some v -> nth_error (align_to_axis m t vs) i = Some (vplus (rotated m v) t)) /\
  (forall u v, dist (vplus (rotated m u) t) (vplus (rotated m v) t) = dist u v).
Proof.
  intros Hm H E. rewrite (normals_ok vs fs H) in E. injection E as <-. split; [|split].
  - rewrite (normals_ok _ _ (aligned_ok m t vs fs H)). f_equal. rewrite map_map. unfold align_to_axis at 2. rewrite map_length. apply map_ext. intros v.
    rewrite (around_rotated m t vs fs v Hm H). unfold unit_of. rewrite rotated_times. unfold norm. now rewrite rotated_dot.
  - intros i v Hv. unfold align_to_axis. rewrite nth_error_map, Hv. cbn [option_map]. now rewrite vplus_zip, turn_rotated.
  - intros u v. unfold dist, norm. now rewrite rotated_sub, rotated_dot.
Qed.
(** *** Order of the faces and of their corners *)
Lemma around_perm vs fs gs v : Permutation fs gs -> around vs fs v = around vs gs v.
Proof.
  unfold around. induction 1 as [|f fs gs _ IH|f g fs|fs gs hs _ IH1 _ IH2]; cbn [filter].
  - reflexivity.
  - destruct (is_corner v f); cbn [map fold_right]; now rewrite IH.
  - destruct (is_corner v f), (is_corner v g); cbn [map fold_right]; auto. rewrite <- !vplus_assoc. f_equal. apply vplus_comm.
  - congruence.
Qed.
Lemma mesh_perm vs fs gs : Permutation fs gs -> mesh_ok vs fs -> mesh_ok vs gs.
Proof. intros Hp H. unfold mesh_ok in *. rewrite Forall_forall in *. intros f Hf. apply H. eapply Permutation_in; [symmetry; exact Hp | exact Hf]. Qed.
Lemma thm_face_order vs fs gs : mesh_ok vs fs -> Permutation fs gs -> vertex_normal vs gs = vertex_normal vs fs.
Proof.
  intros H Hp. rewrite (normals_ok vs fs H), (normals_ok vs gs (mesh_perm vs fs gs Hp H)). f_equal. apply map_ext. intros v. now rewrite (around_perm vs fs gs v Hp).
Qed.
Lemma turned_same vs f g v : turned f g -> is_corner v g = is_corner v f /\ face_vec vs g = face_vec vs f /\ (corners_ok vs f -> corners_ok vs g).
Proof.
  destruct f as [[i j] k]. intros [-> |[-> | ->]]; (split; [|split]).
  1, 4, 7: cbn [is_corner]; destruct (Nat.eqb v i), (Nat.eqb v j), (Nat.eqb v k); reflexivity.
  1, 3, 5: rewrite !face_vec_cross; destruct (nth i vs zero3) as [[? ?] ?], (nth j vs zero3) as [[? ?] ?], (nth k vs zero3) as [[? ?] ?]; cbn; apply f_equal2; [apply f_equal2|]; ring.
  all: cbn [corners_ok]; lia.
Qed.
Lemma thm_face_turned vs fs gs : mesh_ok vs fs -> Forall2 turned fs gs -> vertex_normal vs gs = vertex_normal vs fs.
Proof.
  intros H Ht. assert (mesh_ok vs gs /\ forall v, around vs gs v = around vs fs v) as [Hg Ha].
  { induction Ht as [|f g fs gs Hfg _ IH]; [split; [constructor | reflexivity]|]. inversion_clear H as [|? ? Hf Hfs]. destruct (IH Hfs) as [Hg Ha]. split.
    - constructor; auto. exact (proj2 (proj2 (turned_same vs f g 0 Hfg)) Hf).
    - intros v. specialize (Ha v). unfold around in *. cbn [filter]. destruct (turned_same vs f g v Hfg) as (-> & E & _). destruct (is_corner v f); cbn [map fold_right]; [now rewrite E, Ha | auto]. }
  rewrite (normals_ok vs fs H), (normals_ok vs gs Hg). f_equal. apply map_ext. intros v. now rewrite Ha.
Qed.
Lemma thm_face_flipped vs fs gs ns : mesh_ok vs fs -> Forall2 flipped fs gs -> vertex_normal vs fs = Ok ns -> vertex_normal vs gs = Ok (map (vtimes (-1)) ns).
Proof.
  intros H Ht E. assert (mesh_ok vs gs /\ forall v, around vs gs v = vtimes (-1) (around vs fs v)) as [Hg Ha].
  { clear E. induction Ht as [|f g fs gs Hfg _ IH].
    - split; [constructor|]. intros v. cbn. f_equal; [f_equal|]; ring.
    - inversion_clear H as [|? ? Hf Hfs]. destruct (IH Hfs) as [Hg Ha]. destruct f as [[i j] k]. cbn [flipped] in Hfg. subst g. split.
      + constructor; auto. cbn in Hf |- *. lia.
      + intros v. specialize (Ha v). unfold around in *. cbn [filter].
        assert (is_corner v (i, k, j) = is_corner v (i, j, k)) as -> by (cbn [is_corner]; destruct (Nat.eqb v i), (Nat.eqb v j), (Nat.eqb v k); reflexivity).
        destruct (is_corner v (i, j, k)); cbn [map fold_right]; [|auto]. rewrite Ha. rewrite !face_vec_cross.
        generalize (fold_right vplus zero3 (map (fun f => vtimes (1 / 2) (face_vec vs f)) (filter (is_corner v) fs))).
        intros [[? ?] ?]. destruct (nth i vs zero3) as [[? ?] ?], (nth j vs zero3) as [[? ?] ?], (nth k vs zero3) as [[? ?] ?]. cbn. f_equal; [f_equal|]; field. }
  rewrite (normals_ok vs fs H) in E. injection E as <-. rewrite (normals_ok vs gs Hg), map_map. f_equal. apply map_ext. intros v. rewrite Ha. unfold unit_of.
  assert (norm (vtimes (-1) (around vs fs v)) = norm (around vs fs v)) as ->.
  { unfold norm. f_equal. destruct (around vs fs v) as [[x y] z]. cbn [dot vtimes]. ring. }
  destruct (around vs fs v) as [[x y] z]. cbn [vtimes]. f_equal; [f_equal|]; ring.
Qed.
