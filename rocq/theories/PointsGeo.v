(** Geometry of the point transformations over the reals. *)
From Coq Require Import String Ascii List ZArith Bool Sorted Lia QArith Qcanon Reals Lra.
From Verif Require Import Res Tensor Num Points Octree PointsOps ListFacts SpecPoints PointsFacts.
Import ListNotations.
Open Scope R_scope.

(** ** rotation and translation *)
Definition turn (a : v3 R) (v : v3 R) : v3 R := let '(ax, ay, az) := a in turn_z az (turn_y ay (turn_x ax v)).
Lemma sc t : sin t * sin t + cos t * cos t = 1.
Proof. pose proof (sin2_cos2 t) as H. unfold Rsqr in H. exact H. Qed.
Lemma rot_turn a v : vecmat v (rot_matrix a) = turn a v.
Proof.
  destruct a as [[ax ay] az], v as [[x y] z]. unfold rot_matrix, turn, matmul, v3map, vecmat, turn_x, turn_y, turn_z. cbn.
  f_equal; [f_equal|]; ring.
Qed.
Lemma moved_intro f g f' g' (p : pcloud R) : (forall v, f v = f' v) -> (forall v, g v = g' v) ->
  moved f' g' p (set_pnormals (PointsOps.set_points p f) g).
Proof.
  intros Hf Hg. unfold moved, set_pnormals, PointsOps.set_points. cbn. rewrite (map_ext _ _ Hf).
  destruct (p_normals p); cbn; rewrite ?(map_ext _ _ Hg); reflexivity.
Qed.
Lemma moved_pts f f' (p : pcloud R) : (forall v, f v = f' v) -> moved f' (fun v => v) p (PointsOps.set_points p f).
Proof. intros H. unfold moved, PointsOps.set_points. rewrite omap_id, (map_ext _ _ H). reflexivity. Qed.
Lemma moved_nrm g g' (p : pcloud R) : (forall v, g v = g' v) -> moved (fun v => v) g' p (set_pnormals p g).
Proof. intros H. unfold moved, set_pnormals. rewrite map_id. destruct (p_normals p); cbn; rewrite ?(map_ext _ _ H); reflexivity. Qed.
Lemma dot_x t u v : dot (turn_x t u) (turn_x t v) = dot u v.
Proof. destruct u as [[a b] c], v as [[d e] f]. cbn. pose proof (sc t) as H. replace (a * d + b * e + c * f) with (a * d + (b * e + c * f) * 1) by ring. rewrite <- H. ring. Qed.
Lemma dot_y t u v : dot (turn_y t u) (turn_y t v) = dot u v.
Proof. destruct u as [[a b] c], v as [[d e] f]. cbn. pose proof (sc t) as H. replace (a * d + b * e + c * f) with (b * e + (a * d + c * f) * 1) by ring. rewrite <- H. ring. Qed.
Lemma dot_z t u v : dot (turn_z t u) (turn_z t v) = dot u v.
Proof. destruct u as [[a b] c], v as [[d e] f]. cbn. pose proof (sc t) as H. replace (a * d + b * e + c * f) with (c * f + (a * d + b * e) * 1) by ring. rewrite <- H. ring. Qed.
Lemma vol_x t u v w : volume (turn_x t u) (turn_x t v) (turn_x t w) = volume u v w.
Proof. destruct u as [[a b] c], v as [[d e] f], w as [[g h] i]. pose proof (sc t) as H.
  transitivity (volume (a, b, c) (d, e, f) (g, h, i) * (sin t * sin t + cos t * cos t)); [cbn; ring|rewrite H; ring]. Qed.
Lemma vol_y t u v w : volume (turn_y t u) (turn_y t v) (turn_y t w) = volume u v w.
Proof. destruct u as [[a b] c], v as [[d e] f], w as [[g h] i]. pose proof (sc t) as H.
  transitivity (volume (a, b, c) (d, e, f) (g, h, i) * (sin t * sin t + cos t * cos t)); [cbn; ring|rewrite H; ring]. Qed.
Lemma vol_z t u v w : volume (turn_z t u) (turn_z t v) (turn_z t w) = volume u v w.
Proof. destruct u as [[a b] c], v as [[d e] f], w as [[g h] i]. pose proof (sc t) as H.
  transitivity (volume (a, b, c) (d, e, f) (g, h, i) * (sin t * sin t + cos t * cos t)); [cbn; ring|rewrite H; ring]. Qed.
Lemma dot_turn a u v : dot (turn a u) (turn a v) = dot u v.
Proof. destruct a as [[ax ay] az]. unfold turn. rewrite dot_z, dot_y, dot_x. reflexivity. Qed.
Lemma turn_sub a u v : vsub (turn a u) (turn a v) = turn a (vsub u v).
Proof. destruct a as [[ax ay] az], u as [[x y] z], v as [[d e] f]. cbn. f_equal; [f_equal|]; ring. Qed.
Theorem thm_rotate a p :
  let f := fun v => let '(ax, ay, az) := a in turn_z az (turn_y ay (turn_x ax v)) in
  moved f f p (rotate a p) /\
  (forall u v, dist (f u) (f v) = dist u v) /\ (forall u, norm (f u) = norm u) /\ (forall u v, dot (f u) (f v) = dot u v) /\
  (forall u v w, volume (f u) (f v) (f w) = volume u v w).
Proof.
  cbn zeta. change (fun v => let '(ax, ay, az) := a in turn_z az (turn_y ay (turn_x ax v))) with (turn a).
  split; [apply moved_intro; apply rot_turn|]. split; [|split; [|split]].
  - intros u v. unfold dist, norm. rewrite turn_sub, dot_turn. reflexivity.
  - intros u. unfold norm. rewrite dot_turn. reflexivity.
  - apply dot_turn.
  - intros u v w. destruct a as [[ax ay] az]. unfold turn. rewrite vol_z, vol_y, vol_x. reflexivity.
Qed.
Theorem thm_translate dis p :
  let f := fun v => let '(x, y, z) := v in let '(a, b, c) := dis in (x + a, y + b, z + c) in
  moved f (fun n => n) p (translate dis p) /\ (forall u v, vsub (f u) (f v) = vsub u v) /\ (forall u v, dist (f u) (f v) = dist u v).
Proof.
  cbn zeta. destruct dis as [[a b] c].
  assert (Hs : forall u v, vsub (let '(x, y, z) := u in (x + a, y + b, z + c)) (let '(x, y, z) := v in (x + a, y + b, z + c)) = vsub u v)
    by (intros [[x y] z] [[d e] f]; cbn; f_equal; [f_equal|]; ring).
  split; [|split; [exact Hs|]].
  - unfold translate. apply moved_pts. intros [[x y] z]. reflexivity.
  - intros u v. unfold dist. rewrite <- (Hs u v). reflexivity.
Qed.

(** ** flip *)
Definition known (a : ascii) : Prop := axis_no a <> None.
Lemma axis_of_no a : axis_of a = match axis_no a with Some i => Ok i | None => Err KeyError end.
Proof. unfold axis_of, axis_no. repeat destruct (Ascii.eqb a _); reflexivity. Qed.
Lemma flip_sign_S n x : flip_sign (S n) x = flip_sign n (- x).
Proof. unfold flip_sign. rewrite Nat.even_succ, <- Nat.negb_even. destruct (Nat.even n); cbn [negb]; lra. Qed.
Lemma named_cons i a axes : named i (a :: axes) = ((match axis_no a with Some j => if Nat.eqb i j then 1 else 0 | None => 0 end) + named i axes)%nat.
Proof. unfold named. cbn [filter]. destruct (axis_no a); [destruct (Nat.eqb i n)|]; reflexivity. Qed.
Lemma mirror_cons a axes i v : axis_no a = Some i -> mirror axes (negate_at i v) = mirror (a :: axes) v.
Proof.
  intros H. destruct v as [[x y] z]. unfold mirror, negate_at. rewrite !named_cons, H.
  assert (Hi : i = 0%nat \/ i = 1%nat \/ i = 2%nat) by (unfold axis_no in H; repeat destruct (Ascii.eqb a _); inversion H; auto).
  destruct Hi as [ -> |[ -> | -> ]]; cbn [Nat.eqb Nat.add]; rewrite flip_sign_S; repeat f_equal; ring.
Qed.
Lemma moved_refl p : moved (mirror []) (mirror []) p p.
Proof.
  unfold moved. assert (H : forall v, mirror [] v = v) by (intros [[x y] z]; reflexivity).
  rewrite (map_ext _ _ H), map_id. destruct p as [pts [n|] ft lb bi bs bn dv]; cbn; rewrite ?(map_ext _ _ H), ?map_id; reflexivity.
Qed.
Lemma flip_known axes rest : forall p, Forall known axes -> exists q, moved (mirror axes) (mirror axes) p q /\
  flip_loop (axes ++ rest) p = flip_loop rest q.
Proof.
  induction axes as [|a axes IH]; intros p H; [exists p; split; [apply moved_refl|reflexivity]|].
  inversion H as [|? ? Ha Hr]; subst. cbn [app flip_loop]. rewrite axis_of_no. unfold known in Ha.
  destruct (axis_no a) as [i|] eqn:Ei; [|congruence].
  destruct (IH (set_pnormals (PointsOps.set_points p (negate_at i)) (negate_at i)) Hr) as (q & Hm & Hf).
  exists q. split; [|exact Hf]. rewrite Hm. unfold moved, set_pnormals, PointsOps.set_points. cbn. rewrite map_map.
  assert (Hc : forall v, mirror axes (negate_at i v) = mirror (a :: axes) v) by (intros v; apply mirror_cons; exact Ei).
  rewrite (map_ext _ _ Hc). destruct (p_normals p) as [n|]; cbn; [rewrite map_map, (map_ext _ _ Hc)|]; reflexivity.
Qed.
Lemma mirror_twice axes v : mirror axes (mirror axes v) = v.
Proof. destruct v as [[x y] z]. unfold mirror, flip_sign. destruct (Nat.even (named 0 axes)), (Nat.even (named 1 axes)), (Nat.even (named 2 axes)); repeat f_equal; ring. Qed.
Theorem thm_flip axis p : Forall (fun a => axis_no a <> None) (list_ascii_of_string axis) ->
  exists q, flip axis p = (q, None) /\ moved (mirror (list_ascii_of_string axis)) (mirror (list_ascii_of_string axis)) p q /\
    flip axis q = (p, None).
Proof.
  intros H. unfold flip. set (axes := list_ascii_of_string axis) in *.
  destruct (flip_known axes [] p H) as (q & Hm & Hf). rewrite app_nil_r in Hf. exists q. split; [exact Hf|]. split; [exact Hm|].
  destruct (flip_known axes [] q H) as (r & Hm' & Hf'). rewrite app_nil_r in Hf'. rewrite Hf'. cbn [flip_loop]. f_equal.
  rewrite Hm', Hm. cbn. rewrite map_map, (map_ext _ _ (mirror_twice axes)), map_id.
  destruct p as [pts [n|] ft lb bi bs bn dv]; cbn; rewrite ?map_map, ?(map_ext _ _ (mirror_twice axes)), ?map_id; reflexivity.
Qed.
Theorem thm_flip_unknown axis p pre a rest : list_ascii_of_string axis = pre ++ a :: rest ->
  Forall (fun a => axis_no a <> None) pre -> axis_no a = None ->
  exists q, flip axis p = (q, Some KeyError) /\ moved (mirror pre) (mirror pre) p q.
Proof.
  intros E H Ha. unfold flip. rewrite E. destruct (flip_known pre (a :: rest) p H) as (q & Hm & Hf).
  exists q. split; [|exact Hm]. rewrite Hf. cbn [flip_loop]. rewrite axis_of_no, Ha. reflexivity.
Qed.

(** ** scale *)
Lemma Reqb_spec a b : Reqb a b = true <-> a = b.
Proof. unfold Reqb. destruct (Req_EM_T a b); split; congruence. Qed.
Lemma Reqb_ne a b : Reqb a b = false <-> a <> b.
Proof. unfold Reqb. destruct (Req_EM_T a b); split; congruence. Qed.
Lemma clamp_pos x : 0 < Rmax x (1 / 10 ^ 12).
Proof. apply Rlt_le_trans with (1 / 10 ^ 12); [lra|apply Rmax_r]. Qed.
Theorem thm_scale_zero fx fy fz p : fx = 0 \/ fy = 0 \/ fz = 0 -> points_scale (fx, fy, fz) p = Err AssertionError.
Proof.
  intros H. unfold points_scale. cbn zeta.
  replace (negb (Reqb fx 0) && negb (Reqb fy 0) && negb (Reqb fz 0)) with false; [reflexivity|].
  destruct H as [H|[H|H]]; apply Reqb_spec in H; rewrite H; cbn; rewrite ?andb_false_r; reflexivity.
Qed.
Lemma v3_one (v : v3 R) : v3zip Rmult v (1, 1, 1) = v.
Proof. destruct v as [[x y] z]. cbn. f_equal; [f_equal|]; ring. Qed.
Theorem thm_scale fx fy fz p : fx <> 0 -> fy <> 0 -> fz <> 0 ->
  let f := fun v => let '(x, y, z) := v in (x * fx, y * fy, z * fz) in
  exists q g, points_scale (fx, fy, fz) p = Ok q /\ moved f g p q /\
    (forall n t, dot n t = 0 -> dot (g n) (f t) = 0) /\
    (fy = fx -> fz = fx -> forall n, g n = n) /\
    (~ (fy = fx /\ fz = fx) -> forall n, let '(x, y, z) := n in 1 / 10 ^ 12 <= norm (x / fx, y / fy, z / fz) -> norm (g n) = 1).
Proof.
  intros Hx Hy Hz. cbn zeta. unfold points_scale. cbn zeta.
  replace (negb (Reqb fx 0) && negb (Reqb fy 0) && negb (Reqb fz 0)) with true
    by (rewrite (proj2 (Reqb_ne _ _) Hx), (proj2 (Reqb_ne _ _) Hy), (proj2 (Reqb_ne _ _) Hz); reflexivity).
  cbn [assert_ bind].
  assert (Hperp : fy = fx -> fz = fx -> forall n t, dot n t = 0 -> dot n (let '(x, y, z) := t in (x * fx, y * fy, z * fz)) = 0).
  { intros -> -> [[a b] c] [[d e] f] H. cbn in *. replace (a * (d * fx) + b * (e * fx) + c * (f * fx)) with ((a * d + b * e + c * f) * fx) by ring.
    rewrite H. ring. }
  destruct (Reqb fx 1 && Reqb fy 1 && Reqb fz 1) eqn:E1.
  - apply andb_prop in E1 as [E1 E3]. apply andb_prop in E1 as [E1 E2].
    apply (proj1 (Reqb_spec _ _)) in E1. apply (proj1 (Reqb_spec _ _)) in E2. apply (proj1 (Reqb_spec _ _)) in E3. subst.
    exists p, (fun n => n). split; [reflexivity|]. split; [|split; [apply Hperp; reflexivity|split; [reflexivity|intros H; exfalso; apply H; auto]]].
    unfold moved. rewrite omap_id. rewrite (map_ext _ (fun v => v)), map_id by (intros [[x y] z]; repeat f_equal; ring).
    destruct p; reflexivity.
  - assert (Hr : Reqb fx fx = true) by (apply Reqb_spec; reflexivity). rewrite Hr. cbn [negb orb].
    destruct (negb (Reqb fy fx) || negb (Reqb fz fx)) eqn:E2.
    + eexists _, (scale_normal (1 / fx, 1 / fy, 1 / fz)). split; [reflexivity|].
      split; [apply moved_intro; [intros [[x y] z]; reflexivity|reflexivity]|]. split; [|split].
      * intros [[a b] c] [[d e] f] H. unfold scale_normal, v3zip. cbn in *. set (m := Rmax _ _).
        assert (Hm : 0 < m) by apply clamp_pos.
        replace (a * (1 / fx) / m * (d * fx) + b * (1 / fy) / m * (e * fy) + c * (1 / fz) / m * (f * fz)) with ((a * d + b * e + c * f) / m) by (field; repeat split; lra).
        rewrite H. unfold Rdiv. ring.
      * intros E E'. exfalso. apply orb_prop in E2 as [E2|E2]; apply negb_true_iff in E2; apply (proj1 (Reqb_ne _ _)) in E2; congruence.
      * intros _ [[x y] z] Hn. unfold scale_normal, v3zip.
        assert (En : sqrt (x * (1 / fx) * (x * (1 / fx)) + y * (1 / fy) * (y * (1 / fy)) + z * (1 / fz) * (z * (1 / fz))) = norm (x / fx, y / fy, z / fz))
          by (unfold norm, dot; f_equal; field; auto).
        rewrite En. rewrite Rmax_left by exact Hn. set (m := norm (x / fx, y / fy, z / fz)) in *.
        assert (Hm : 0 < m) by lra.
        assert (Hmm : m * m = x / fx * (x / fx) + y / fy * (y / fy) + z / fz * (z / fz)).
        { unfold m, norm, dot. apply sqrt_sqrt. pose proof (Rle_0_sqr (x / fx)) as Q1. pose proof (Rle_0_sqr (y / fy)) as Q2. pose proof (Rle_0_sqr (z / fz)) as Q3.
          unfold Rsqr in *. lra. }
        unfold norm, dot. transitivity (sqrt 1); [f_equal|apply sqrt_1].
        replace (x * (1 / fx) / m * (x * (1 / fx) / m) + y * (1 / fy) / m * (y * (1 / fy) / m) + z * (1 / fz) / m * (z * (1 / fz) / m))
          with ((x / fx * (x / fx) + y / fy * (y / fy) + z / fz * (z / fz)) / (m * m)) by (field; repeat split; lra).
        rewrite <- Hmm. field. lra.
    + apply orb_false_iff in E2 as [E2 E3]. apply negb_false_iff in E2, E3. apply (proj1 (Reqb_spec _ _)) in E2. apply (proj1 (Reqb_spec _ _)) in E3.
      eexists _, (fun n => n). split; [reflexivity|]. split; [apply moved_pts; intros [[x y] z]; reflexivity|].
      split; [apply Hperp; assumption|]. split; [reflexivity|]. intros H. exfalso. apply H. auto.
Qed.

(** ** orient_normal *)
Lemma orient_cases i n : orient_row i n = n \/ orient_row i n = vsub (0, 0, 0) n.
Proof.
  destruct n as [[x y] z]. unfold orient_row. destruct (Rltb 0 _); [left|right]; cbn; (f_equal; [f_equal|]; ring).
Qed.
Lemma orient_sign i n : 0 <= coord i (orient_row i n).
Proof.
  destruct n as [[x y] z]. unfold orient_row, coord. set (c := match i with 0%nat => x | 1%nat => y | _ => z end).
  assert (H : 0 <= c * ((if Rltb 0 c then 1 else 0) * 2 - 1)) by (unfold Rltb; destruct (Rlt_dec 0 c); lra).
  unfold c in *. destruct i as [|[|i]]; exact H.
Qed.
Theorem thm_orient axis i p : axis_no axis = Some i ->
  exists g, (exists q, orient_normal (String axis EmptyString) p = Ok q /\ moved (fun v => v) g p q) /\
    forall n, 0 <= coord i (g n) /\ (g n = n \/ g n = vsub (0, 0, 0) n) /\ norm (g n) = norm n.
Proof.
  intros H. exists (orient_row i). split.
  - unfold orient_normal. destruct (p_normals p) as [n|] eqn:En.
    + assert (Hi : orient_normal (String axis EmptyString) p = Ok (set_pnormals p (orient_row i)) -> exists q, orient_normal (String axis EmptyString) p = Ok q /\ moved (fun v => v) (orient_row i) p q)
        by (intros E; eexists; split; [exact E|]; apply moved_nrm; reflexivity).
      unfold orient_normal in Hi. rewrite En in Hi. apply Hi.
      unfold axis_no in H. cbn [String.eqb].
      destruct (Ascii.eqb axis "x") eqn:Ex; [injection H as <-; reflexivity|].
      destruct (Ascii.eqb axis "y") eqn:Ey; [injection H as <-; reflexivity|].
      destruct (Ascii.eqb axis "z") eqn:Ez; [injection H as <-; reflexivity|discriminate].
    + exists p. split; [reflexivity|]. unfold moved. rewrite En, map_id. cbn. rewrite <- En. destruct p; reflexivity.
  - intros n. split; [apply orient_sign|]. split; [apply orient_cases|]. unfold norm.
    destruct (orient_cases i n) as [-> | ->]; [reflexivity|]. f_equal. destruct n as [[x y] z]. cbn. ring.
Qed.
Theorem thm_orient_xyz p : exists q, orient_normal "xyz" p = Ok q /\
  moved (fun v => v) (fun n => let '(x, y, z) := n in (Rabs x, Rabs y, Rabs z)) p q.
Proof.
  unfold orient_normal. destruct (p_normals p) as [n|] eqn:En.
  - eexists. split; [reflexivity|]. apply moved_nrm. intros [[x y] z]. reflexivity.
  - exists p. split; [reflexivity|]. unfold moved. rewrite En, map_id. cbn. rewrite <- En. destruct p; reflexivity.
Qed.
Theorem thm_orient_unknown axis p : p_normals p <> None -> ~ In axis ["x"; "y"; "z"; "xyz"]%string -> orient_normal axis p = Err KeyError.
Proof.
  intros Hn Ha. unfold orient_normal. destruct (p_normals p); [|congruence].
  repeat match goal with |- context [String.eqb axis ?s] => destruct (String.eqb_spec axis s) as [->|]; [exfalso; apply Ha; cbn; tauto|] end.
  reflexivity.
Qed.
Theorem thm_orient_none axis p : p_normals p = None -> orient_normal axis p = Ok p.
Proof. intros H. unfold orient_normal. rewrite H. reflexivity. Qed.

(** ** normalize and bbox *)
Theorem thm_normalize a b s p : 0 < s -> (forall i, (i < 3)%nat -> coord i a <= coord i b) ->
  exists f k, moved f (fun n => n) p (normalize a b s p) /\ 0 < k /\
    (forall u v, vsub (f u) (f v) = (k * coord 0 (vsub u v), k * coord 1 (vsub u v), k * coord 2 (vsub u v))) /\
    (forall v, between a b v -> forall i, (i < 3)%nat -> - s < coord i (f v) < s).
Proof.
  intros Hs Hab. unfold normalize. destruct a as [[ax ay] az], b as [[bx by_] bz]. cbn [v3zip].
  set (m := Rmax (Rmax (bx - ax) (by_ - ay)) (bz - az)).
  assert (H0 : bx - ax <= m) by (unfold m; eapply Rle_trans; [|apply Rmax_l]; apply Rmax_l).
  assert (H1 : by_ - ay <= m) by (unfold m; eapply Rle_trans; [|apply Rmax_l]; apply Rmax_r).
  assert (H2 : bz - az <= m) by (unfold m; apply Rmax_r).
  pose proof (Hab 0%nat ltac:(lia)) as A0. pose proof (Hab 1%nat ltac:(lia)) as A1. pose proof (Hab 2%nat ltac:(lia)) as A2. cbn in A0, A1, A2.
  set (B := m + 1 / 10 ^ 6). assert (HB : m < B) by (unfold B; lra). assert (Hm : 0 <= m) by lra.
  set (k := 2 * s / B). assert (Hk : 0 < k) by (unfold k; apply Rmult_lt_0_compat; [lra|apply Rinv_0_lt_compat; lra]).
  assert (HkB : k * B = 2 * s) by (unfold k; field; lra).
  eexists _, k. split; [apply moved_pts; reflexivity|]. split; [exact Hk|]. split.
  - intros [[x y] z] [[d e] f]. cbn. f_equal; [f_equal|]; ring.
  - intros [[x y] z] Hb. pose proof (Hb 0%nat ltac:(lia)) as B0. pose proof (Hb 1%nat ltac:(lia)) as B1. pose proof (Hb 2%nat ltac:(lia)) as B2. cbn in B0, B1, B2.
    assert (Hc : forall lo hi c, lo <= c <= hi -> hi - lo <= m -> - s < (c - (lo + hi) * / 2) * k < s).
    { intros lo hi c Hc Hl. assert (Hd : - B < 2 * (c - (lo + hi) * / 2) < B) by lra.
      assert (Hp : 2 * (c - (lo + hi) * / 2) * k < B * k) by (apply Rmult_lt_compat_r; lra).
      assert (Hp' : - B * k < 2 * (c - (lo + hi) * / 2) * k) by (apply Rmult_lt_compat_r; lra).
      lra. }
    intros i Hi. destruct i as [|[|[|i]]]; [| | |lia]; cbn; apply Hc; assumption.
Qed.
Lemma fold_min vs : forall v i, (i < 3)%nat -> coord i (fold_left (v3zip Rmin) vs v) <= coord i v /\ forall u, In u vs -> coord i (fold_left (v3zip Rmin) vs v) <= coord i u.
Proof.
  induction vs as [|w vs IH]; intros v i Hi; cbn [fold_left]; [split; [lra|intros u []]|].
  destruct (IH (v3zip Rmin v w) i Hi) as [H1 H2].
  assert (Hm : coord i (v3zip Rmin v w) <= coord i v /\ coord i (v3zip Rmin v w) <= coord i w).
  { destruct v as [[x y] z], w as [[d e] f], i as [|[|[|i]]]; cbn; try lia; split; first [apply Rmin_l|apply Rmin_r]. }
  split; [lra|]. intros u [->|Hu]; [lra|]. apply H2. exact Hu.
Qed.
Lemma fold_max vs : forall v i, (i < 3)%nat -> coord i v <= coord i (fold_left (v3zip Rmax) vs v) /\ forall u, In u vs -> coord i u <= coord i (fold_left (v3zip Rmax) vs v).
Proof.
  induction vs as [|w vs IH]; intros v i Hi; cbn [fold_left]; [split; [lra|intros u []]|].
  destruct (IH (v3zip Rmax v w) i Hi) as [H1 H2].
  assert (Hm : coord i v <= coord i (v3zip Rmax v w) /\ coord i w <= coord i (v3zip Rmax v w)).
  { destruct v as [[x y] z], w as [[d e] f], i as [|[|[|i]]]; cbn; try lia; split; first [apply Rmax_l|apply Rmax_r]. }
  split; [lra|]. intros u [->|Hu]; [lra|]. apply H2. exact Hu.
Qed.
Lemma fold_min_att vs : forall v i, (i < 3)%nat -> exists u, In u (v :: vs) /\ coord i (fold_left (v3zip Rmin) vs v) = coord i u.
Proof.
  induction vs as [|w vs IH]; intros v i Hi; cbn [fold_left]; [exists v; split; [left|]; reflexivity|].
  destruct (IH (v3zip Rmin v w) i Hi) as (u & [<-|Hu] & E).
  - assert (Hm : coord i (v3zip Rmin v w) = coord i v \/ coord i (v3zip Rmin v w) = coord i w).
    { destruct v as [[x y] z], w as [[d e] f], i as [|[|[|i]]]; cbn; try lia; apply Rmin_case; auto. }
    destruct Hm as [Hm|Hm]; [exists v|exists w]; (split; [cbn; auto|congruence]).
  - exists u. split; [cbn; auto|exact E].
Qed.
Lemma fold_max_att vs : forall v i, (i < 3)%nat -> exists u, In u (v :: vs) /\ coord i (fold_left (v3zip Rmax) vs v) = coord i u.
Proof.
  induction vs as [|w vs IH]; intros v i Hi; cbn [fold_left]; [exists v; split; [left|]; reflexivity|].
  destruct (IH (v3zip Rmax v w) i Hi) as (u & [<-|Hu] & E).
  - assert (Hm : coord i (v3zip Rmax v w) = coord i v \/ coord i (v3zip Rmax v w) = coord i w).
    { destruct v as [[x y] z], w as [[d e] f], i as [|[|[|i]]]; cbn; try lia; apply Rmax_case; auto. }
    destruct Hm as [Hm|Hm]; [exists v|exists w]; (split; [cbn; auto|congruence]).
  - exists u. split; [cbn; auto|exact E].
Qed.
Theorem thm_bbox p : p_points p <> [] -> exists a b, bbox p = Ok (a, b) /\ Forall (between a b) (p_points p) /\
  forall i, (i < 3)%nat -> (exists v, In v (p_points p) /\ coord i a = coord i v) /\ (exists v, In v (p_points p) /\ coord i b = coord i v).
Proof.
  intros H. unfold bbox. destruct (p_points p) as [|v vs]; [congruence|]. eexists _, _. split; [reflexivity|]. split.
  - apply Forall_forall. intros u Hu i Hi. destruct (fold_min vs v i Hi) as [L1 L2], (fold_max vs v i Hi) as [G1 G2].
    destruct Hu as [<-|Hu]; [lra|]. split; [apply L2|apply G2]; exact Hu.
  - intros i Hi. split; [apply fold_min_att|apply fold_max_att]; exact Hi.
Qed.
Theorem thm_bbox_normalize p s : 0 < s -> p_points p <> [] ->
  exists a b, bbox p = Ok (a, b) /\ npt (normalize a b s p) = npt p /\
    Forall (fun v => forall i, (i < 3)%nat -> - s < coord i v < s) (p_points (normalize a b s p)).
Proof.
  intros Hs Hp. destruct (thm_bbox p Hp) as (a & b & E & Hb & _). exists a, b. split; [exact E|].
  destruct (thm_normalize a b s p Hs) as (f & k & Hm & _ & _ & Hin).
  - intros i Hi. destruct (p_points p) as [|v vs]; [congruence|]. inversion Hb as [|? ? Hv ?]; subst. specialize (Hv i Hi). lra.
  - rewrite Hm. unfold npt. cbn. rewrite map_length. split; [reflexivity|].
    apply Forall_forall. intros v Hv. apply in_map_iff in Hv as (u & <- & Hu). apply Hin. rewrite Forall_forall in Hb. apply Hb. exact Hu.
Qed.
