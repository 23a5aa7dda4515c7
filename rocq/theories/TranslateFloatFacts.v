(** Proofs about translate in single precision. *)
From Coq Require Import List ZArith Bool Reals Lra Lia QArith Qcanon.
From Flocq Require Import Core.Core IEEE754.BinarySingleNaN.
From Verif Require Import Num Points PointsOps Float32 FloatFacts FloatMean FloatMeanFacts SpecNorm32 TranslateFloat SpecTranslate32.
Import ListNotations.
Open Scope R_scope.

#[local] Instance fex_ok : Valid_exp fex.
Proof. apply FLT_exp_valid. reflexivity. Qed.
Lemma sum_small (c d : f32) : within (powerRZ 2 60) c -> within (powerRZ 2 60) d -> Rabs (B2R c + B2R d) <= bpow radix2 100.
Proof.
  intros [_ H] [_ G]. assert (P : powerRZ 2 60 = bpow radix2 60) by (rewrite bpow_powerRZ; reflexivity). rewrite P in *. pose proof (Rabs_triang (B2R c) (B2R d)).
  assert (bpow radix2 60 + bpow radix2 60 <= bpow radix2 100) by (cbn; lra). lra.
Qed.
Lemma fadd_nearest (c d : f32) : within (powerRZ 2 60) c -> within (powerRZ 2 60) d -> nearest32 (B2R c + B2R d) (fadd c d).
Proof.
  intros H G. destruct (fadd_val c d (proj1 H) (proj1 G) (sum_small c d H G)) as [E F]. split; [exact F|]. intros f. rewrite E.
  destruct (round_N_pt radix2 fex (fun x => negb (Z.even x)) (B2R c + B2R d)) as [_ N]. apply N. apply generic_format_B2R.
Qed.
Lemma fadd_order (a c d : f32) : within (powerRZ 2 60) a -> within (powerRZ 2 60) c -> within (powerRZ 2 60) d -> B2R a <= B2R c -> B2R (fadd a d) <= B2R (fadd c d).
Proof.
  intros H G K L. rewrite (proj1 (fadd_val a d (proj1 H) (proj1 K) (sum_small a d H K))), (proj1 (fadd_val c d (proj1 G) (proj1 K) (sum_small c d G K))). apply rne_le. lra.
Qed.
Lemma thm_translate32 : forall d p, point_within (powerRZ 2 60) d -> bounded_cloud 60 (p_points p) ->
  exists f, translate32 d p = mkPoints (map f (p_points p)) (p_normals p) (p_features p) (p_labels p) (p_batch_id p) (p_batch_size p) (p_batch_npt p) (p_device p) /\
    Forall (fun v => moved_by d v (f v)) (p_points p) /\
    (forall v w, In v (p_points p) -> In w (p_points p) -> implied (below v w) (below (f v) (f w))).
Proof.
  intros [[a b] c] p (Ha & Hb & Hc) HP. exists (fun v => v3zip fadd v (a, b, c)). split; [reflexivity|]. unfold bounded_cloud in HP. split.
  - revert HP. apply Forall_impl. intros [[x y] z] (Hx & Hy & Hz). cbn [v3zip moved_by]. split; [|split]; apply fadd_nearest; assumption.
  - rewrite Forall_forall in HP. intros [[x y] z] [[u v] w] I J. destruct (HP _ I) as (Hx & Hy & Hz). destruct (HP _ J) as (Hu & Hv & Hw).
    cbn [v3zip below implied]. split; [|split]; apply fadd_order; assumption.
Qed.
Lemma within_one (c : f32) : is_finite c = true -> 0 <= B2R c <= 1 -> within (powerRZ 2 60) c.
Proof.
  intros F B. split; [exact F|]. assert (P : powerRZ 2 60 = bpow radix2 60) by (rewrite bpow_powerRZ; reflexivity). rewrite P.
  pose proof (bpow_le radix2 0 60 ltac:(lia)) as Hb. change (bpow radix2 0) with 1 in Hb. rewrite Rabs_pos_eq; lra.
Qed.
Definition fsmall : f32 := @B754_finite 24 128 false 8388608 (-53) eq_refl.
Lemma back_zero : fadd (fadd fsmall fone) (Bopp fone) = B754_zero false.
Proof. apply B2R_Bsign_inj; vm_compute; reflexivity. Qed.
Lemma thm_translate_back : exists d p, point_within (powerRZ 2 60) d /\ bounded_cloud 60 (p_points p) /\
  p_points (translate32 (let '(x, y, z) := d in (Bopp x, Bopp y, Bopp z)) (translate32 d p)) <> p_points p.
Proof.
  assert (S : within (powerRZ 2 60) fsmall).
  { apply within_one; [reflexivity|]. unfold fsmall, B2R, F2R; cbn; lra. }
  assert (O : within (powerRZ 2 60) fone).
  { apply within_one; [reflexivity|]. rewrite fone_val; lra. }
  exists (fone, fone, fone), (bare [(fsmall, fsmall, fsmall)]). split; [repeat split; try apply O|]. split.
  - apply Forall_cons; [|apply Forall_nil]. repeat split; apply S.
  - unfold translate32, set_points, bare. cbn [p_points map v3zip]. rewrite back_zero. intros H. injection H as H _ _. discriminate H.
Qed.
