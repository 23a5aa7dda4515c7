(** Proofs about flip in single precision. *)
From Coq Require Import Ascii String List ZArith Bool Reals Lra Lia QArith Qcanon.
From Flocq Require Import Core.Core IEEE754.BinarySingleNaN.
From Verif Require Import Res Num Points PointsOps Float32 FloatMean FloatFacts FloatMeanFacts FlipFloat SpecFlip32.
Import ListNotations.
Open Scope R_scope.

Lemma fmul_mone x : fmul x fmone = Bopp x.
Proof.
  destruct (is_finite x) eqn:F.
  - assert (E1 : B2R fmone = -1) by (unfold fmone, B2R, F2R; cbn; lra).
    pose proof (@Bmult_correct 24 128 f32_prec f32_emax mode_NE x fmone) as H.
    assert (R : round radix2 (SpecFloat.fexp 24 128) (round_mode mode_NE) (B2R x * B2R fmone) = - B2R x).
    { rewrite E1. replace (B2R x * -1) with (- B2R x) by ring. apply round_generic; [apply valid_rnd_N|]. apply generic_format_opp, generic_format_B2R. }
    rewrite R in H. rewrite Rlt_bool_true in H by (rewrite Rabs_Ropp; apply abs_B2R_lt_emax).
    destruct H as (HB & HF & HS). unfold fmul. rewrite F in HF. cbn [andb is_finite fmone] in HF.
    apply B2R_Bsign_inj.
    + exact HF.
    + rewrite is_finite_Bopp. exact F.
    + rewrite HB, B2R_Bopp. reflexivity.
    + rewrite HS by (destruct (Bmult mode_NE x fmone); try reflexivity; discriminate HF).
      rewrite Bsign_Bopp by (destruct x; try reflexivity; discriminate F). cbn [Bsign fmone]. apply xorb_true_r.
  - destruct x as [s|s| |s m e p]; try discriminate F; [|reflexivity]. destruct s; reflexivity.
Qed.
Lemma mirror1_nil a c : mirror1 [] a c = c.
Proof. reflexivity. Qed.
Lemma mirror1_cons b l a c : mirror1 l a (if ascii_dec b a then Bopp c else c) = mirror1 (b :: l) a c.
Proof.
  unfold mirror1. cbn [count_occ]. destruct (ascii_dec b a); [|reflexivity]. rewrite Nat.odd_succ, <- Nat.negb_odd.
  destruct (Nat.odd (count_occ ascii_dec l a)); [apply Bopp_involutive|reflexivity].
Qed.
Lemma negate_mirror a idx v : axis_of a = Ok idx -> fnegate_at idx v = mirror32 [a] v.
Proof.
  unfold axis_of. destruct v as [[x y] z]. cbn [mirror32]. unfold mirror1. cbn [count_occ].
  destruct (Ascii.eqb_spec a "x") as [->|]; [intros [= <-]; cbn; rewrite fmul_mone; reflexivity|].
  destruct (Ascii.eqb_spec a "y") as [->|]; [intros [= <-]; cbn; rewrite fmul_mone; reflexivity|].
  destruct (Ascii.eqb_spec a "z") as [->|]; [intros [= <-]; cbn; rewrite fmul_mone; reflexivity|]. discriminate.
Qed.
Lemma mirror32_cons a l v : mirror32 l (mirror32 [a] v) = mirror32 (a :: l) v.
Proof.
  destruct v as [[x y] z]. cbn [mirror32]. rewrite <- !(mirror1_cons a l). unfold mirror1 at 2 4 6. cbn [count_occ].
  destruct (ascii_dec a "x"), (ascii_dec a "y"), (ascii_dec a "z"); reflexivity.
Qed.
Lemma mirrored_cons a l p : mirrored l (mirrored [a] p) = mirrored (a :: l) p.
Proof.
  unfold mirrored. cbn [p_points p_normals p_features p_labels p_batch_id p_batch_size p_batch_npt p_device]. f_equal.
  - rewrite map_map. apply map_ext. intros v. apply mirror32_cons.
  - destruct (p_normals p); [|reflexivity]. cbn [option_map]. f_equal. rewrite map_map. apply map_ext. intros v. apply mirror32_cons.
Qed.
Lemma mirrored_nil p : mirrored [] p = p.
Proof.
  destruct p as [pts n f l b bs np dv]. unfold mirrored. cbn [p_points p_normals p_features p_labels p_batch_id p_batch_size p_batch_npt p_device].
  assert (E : forall l, map (mirror32 []) l = l) by (intros q; rewrite <- (map_id q) at 2; apply map_ext; intros [[x y] z]; reflexivity).
  rewrite E. f_equal. destruct n; [|reflexivity]. cbn [option_map]. rewrite E. reflexivity.
Qed.
Lemma step_mirror a idx p : axis_of a = Ok idx -> set_pnormals (set_points p (fnegate_at idx)) (fnegate_at idx) = mirrored [a] p.
Proof.
  intros H. unfold set_pnormals, set_points, mirrored. cbn [p_points p_normals p_features p_labels p_batch_id p_batch_size p_batch_npt p_device]. f_equal.
  - apply map_ext. intros v. apply negate_mirror; exact H.
  - destruct (p_normals p); [|reflexivity]. cbn [option_map]. f_equal. apply map_ext. intros v. apply negate_mirror; exact H.
Qed.
Lemma axis_known a : In a ["x"; "y"; "z"]%char -> exists i, axis_of a = Ok i.
Proof. intros [<-|[<-|[<-|[]]]]; eexists; reflexivity. Qed.
Lemma axis_unknown a : ~ In a ["x"; "y"; "z"]%char -> axis_of a = Err KeyError.
Proof.
  intros H. unfold axis_of. destruct (Ascii.eqb_spec a "x") as [->|]; [destruct H; cbn; tauto|]. destruct (Ascii.eqb_spec a "y") as [->|]; [destruct H; cbn; tauto|].
  destruct (Ascii.eqb_spec a "z") as [->|]; [destruct H; cbn; tauto|reflexivity].
Qed.
Lemma loop_mirror axes : forall p, Forall (fun a => In a ["x"; "y"; "z"]%char) axes -> flip_loop32 axes p = (mirrored axes p, None).
Proof.
  induction axes as [|a l IH]; intros p H; cbn [flip_loop32]; [rewrite mirrored_nil; reflexivity|]. inversion H; subst.
  destruct (axis_known a H2) as [i E]. rewrite E, (step_mirror a i p E), IH, mirrored_cons by assumption. reflexivity.
Qed.
Lemma loop_unknown pre a rest : forall p, Forall (fun a => In a ["x"; "y"; "z"]%char) pre -> ~ In a ["x"; "y"; "z"]%char ->
  flip_loop32 (pre ++ a :: rest) p = (mirrored pre p, Some KeyError).
Proof.
  induction pre as [|b l IH]; intros p H Ha; cbn [flip_loop32 app].
  - rewrite (axis_unknown a Ha), mirrored_nil. reflexivity.
  - inversion H; subst. destruct (axis_known b H2) as [i E]. rewrite E, (step_mirror b i p E), IH, mirrored_cons by assumption. reflexivity.
Qed.
Lemma mirror1_twice l a c : mirror1 l a (mirror1 l a c) = c.
Proof. unfold mirror1. destruct (Nat.odd _); [apply Bopp_involutive|reflexivity]. Qed.
Lemma mirrored_twice l p : mirrored l (mirrored l p) = p.
Proof.
  assert (E : forall q, map (mirror32 l) (map (mirror32 l) q) = q).
  { intros q. rewrite map_map. rewrite <- (map_id q) at 2. apply map_ext. intros [[x y] z]. cbn [mirror32]. rewrite !mirror1_twice. reflexivity. }
  destruct p as [pts n f lb b bs np dv]. unfold mirrored. cbn [p_points p_normals p_features p_labels p_batch_id p_batch_size p_batch_npt p_device].
  rewrite E. f_equal. destruct n; [|reflexivity]. cbn [option_map]. rewrite E. reflexivity.
Qed.
Lemma thm_flip32 : forall axis p, Forall (fun a => In a ["x"; "y"; "z"]%char) (list_ascii_of_string axis) ->
  flip32 axis p = (mirrored (list_ascii_of_string axis) p, None) /\ flip32 axis (fst (flip32 axis p)) = (p, None).
Proof.
  intros axis p H. unfold flip32. rewrite !loop_mirror by exact H. split; [reflexivity|]. cbn [fst]. rewrite mirrored_twice. reflexivity.
Qed.
Lemma thm_flip32_unknown : forall axis p pre a rest, list_ascii_of_string axis = pre ++ a :: rest ->
  Forall (fun a => In a ["x"; "y"; "z"]%char) pre -> ~ In a ["x"; "y"; "z"]%char -> flip32 axis p = (mirrored pre p, Some KeyError).
Proof. intros axis p pre a rest E Hp Ha. unfold flip32. rewrite E. apply loop_unknown; assumption. Qed.
