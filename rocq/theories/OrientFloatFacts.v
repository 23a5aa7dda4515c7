(** Proofs about orient_normal in single precision. *)
From Coq Require Import Ascii String List ZArith Bool Reals Lra Lia QArith Qcanon.
From Flocq Require Import Core.Core IEEE754.BinarySingleNaN.
From Verif Require Import Res Num Points PointsOps Float32 FloatMean FloatFacts FloatMeanFacts FlipFloat FlipFloatFacts OrientFloat SpecOrient32.
Import ListNotations.
Open Scope R_scope.

Lemma fmul_one x : fmul x fone = x.
Proof.
  destruct (is_finite x) eqn:F.
  - pose proof (@Bmult_correct 24 128 f32_prec f32_emax mode_NE x fone) as H.
    assert (R : round radix2 (SpecFloat.fexp 24 128) (round_mode mode_NE) (B2R x * B2R fone) = B2R x).
    { rewrite fone_val, Rmult_1_r. apply round_generic; [apply valid_rnd_N|]. apply generic_format_B2R. }
    rewrite R in H. rewrite Rlt_bool_true in H by apply abs_B2R_lt_emax.
    destruct H as (HB & HF & HS). unfold fmul. rewrite F, fone_fin in HF. cbn [andb] in HF. apply B2R_Bsign_inj; try assumption.
    rewrite HS by (destruct (Bmult mode_NE x fone); try reflexivity; discriminate HF). change (Bsign fone) with false. apply xorb_false_r.
  - destruct x as [s|s| |s m e p]; try discriminate F; [|reflexivity]. destruct s; reflexivity.
Qed.
Lemma flag_one : fsub (fmul fone ftwo) fone = fone.
Proof. apply B2R_Bsign_inj; vm_compute; reflexivity. Qed.
Lemma flag_mone : fsub (fmul fzero ftwo) fone = fmone.
Proof. apply B2R_Bsign_inj; vm_compute; reflexivity. Qed.
Lemma orient_row_val i n : (i < 3)%nat -> orient_row32 i n = turned i n.
Proof.
  intros Hi. destruct n as [[x y] z]. unfold orient_row32, turned, positive32, part.
  destruct i as [|[|[|i]]]; [| | |lia]; cbn [nth]; change (B754_zero false) with fzero; destruct (Bltb fzero _); (rewrite flag_one, !fmul_one || rewrite flag_mone, !fmul_mone); reflexivity.
Qed.
Lemma set_with p f g : (forall n, f n = g n) -> set_pnormals p f = with_normals g p.
Proof. intros E. unfold set_pnormals, with_normals. f_equal. destruct (p_normals p); [|reflexivity]. cbn [option_map]. f_equal. apply map_ext, E. Qed.
Lemma with_none p f : p_normals p = None -> p = with_normals f p.
Proof. intros E. destruct p. cbn in E. subst. reflexivity. Qed.
Lemma positive_opp c : positive32 (Bopp c) = negative32 c.
Proof. destruct c as [s|s| |s m e b]; try destruct s; reflexivity. Qed.
Lemma negative_opp c : negative32 (Bopp c) = positive32 c.
Proof. destruct c as [s|s| |s m e b]; try destruct s; reflexivity. Qed.
Lemma positive_not_negative c : positive32 c = true -> negative32 c = false.
Proof. destruct c as [s|s| |s m e b]; try destruct s; cbn; congruence. Qed.
Lemma part_opposite i n : (i < 3)%nat -> part i (opposite n) = Bopp (part i n).
Proof. intros Hi. destruct n as [[x y] z]. destruct i as [|[|[|i]]]; [reflexivity..|lia]. Qed.
Lemma opposite_twice n : opposite (opposite n) = n.
Proof. destruct n as [[x y] z]. cbn [opposite]. rewrite !Bopp_involutive. reflexivity. Qed.
Lemma axis_index_lt a i : In (a, i) axis_index -> (i < 3)%nat.
Proof. intros [E|[E|[E|[]]]]; inversion E; lia. Qed.

Lemma thm_orient32 : forall axis i p, In (axis, i) axis_index ->
  orient_normal32 axis p = Ok (with_normals (turned i) p) /\ forall n, negative32 (part i (turned i n)) = false.
Proof.
  intros a i p H. pose proof (axis_index_lt a i H) as Hi. split.
  - unfold orient_normal32. destruct (p_normals p) eqn:E; [|f_equal; apply with_none; exact E].
    destruct H as [H|[H|[H|[]]]]; inversion H; subst; cbn [String.eqb Ascii.eqb Bool.eqb]; f_equal; apply set_with; intros n; apply orient_row_val; lia.
  - intros n. unfold turned. destruct (positive32 (part i n)) eqn:E; [apply positive_not_negative; exact E|]. rewrite part_opposite, negative_opp by exact Hi. exact E.
Qed.
Lemma with_turned_twice i p : (i < 3)%nat -> with_normals (turned i) (with_normals (turned i) p) =
  with_normals (fun n => if positive32 (part i n) || negative32 (part i n) then turned i n else n) p.
Proof.
  intros Hi. unfold with_normals. cbn [p_points p_normals p_features p_labels p_batch_id p_batch_size p_batch_npt p_device]. f_equal.
  destruct (p_normals p); [|reflexivity]. cbn [option_map]. f_equal. rewrite map_map. apply map_ext. intros n. unfold turned. destruct (positive32 (part i n)) eqn:E; [rewrite E; reflexivity|].
  rewrite part_opposite, positive_opp by exact Hi. cbn [orb]. destruct (negative32 _); [reflexivity|apply opposite_twice].
Qed.
Lemma thm_orient32_again : forall axis i p, In (axis, i) axis_index -> exists q, orient_normal32 axis p = Ok q /\
  orient_normal32 axis q = Ok (with_normals (fun n => if positive32 (part i n) || negative32 (part i n) then turned i n else n) p).
Proof.
  intros a i p H. eexists. split; [apply (thm_orient32 a i p H)|]. rewrite (proj1 (thm_orient32 a i _ H)). f_equal. apply with_turned_twice, (axis_index_lt a); exact H.
Qed.
Lemma thm_orient32_other : forall axis p,
  (axis = "xyz"%string -> orient_normal32 axis p = Ok (with_normals (fun n => let '(x, y, z) := n in (Babs x, Babs y, Babs z)) p)) /\
  (p_normals p = None -> orient_normal32 axis p = Ok p) /\
  (p_normals p <> None -> ~ In axis ["x"; "y"; "z"; "xyz"]%string -> orient_normal32 axis p = Err KeyError).
Proof.
  intros a p. unfold orient_normal32. split; [|split].
  - intros ->. destruct (p_normals p) eqn:E; [|f_equal; apply with_none; exact E]. cbn [String.eqb Ascii.eqb Bool.eqb]. reflexivity.
  - intros ->. reflexivity.
  - intros Hn H. destruct (p_normals p); [|congruence].
    repeat match goal with |- context [String.eqb a ?s] => destruct (String.eqb_spec a s) as [->|_]; [destruct H; cbn; tauto|] end. reflexivity.
Qed.
