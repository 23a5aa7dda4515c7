(** C89: random augmentation. *)
From Coq Require Import String Ascii List ZArith Bool QArith Qcanon Lia.
From Verif Require Import Res Num Points Dataset SpecDataset Random SpecRandom NumFacts RandomFacts.
Import ListNotations.
Open Scope Z_scope.

(** C89: whatever the generators return, the parameters are within the flags: angles are
    multiples of the interval up to the maximal angle, scales and jitters at most the
    flag away from 1 and 0, one scale for all axes if uniform, axes flipped at most once,
    never with probability 0 and always with probability 1; and each such combination
    can be drawn. *)
Theorem C89_parameters : forall c angle scale jitter flip, rnd_ok c ->
  ((exists g, gen_ok g /\ rnd_parameters c g = Ok (angle, scale, jitter, flip)) <-> admissible c angle scale jitter flip).
Proof. exact thm_rnd. Qed.
Print Assumptions C89_parameters.

(** C89: with a scale below one the transformation accepts every draw (what it then
    computes is C77). *)
Theorem C89_transform : forall nrm rot c rc g, cfg_ok c -> rnd_ok rc -> gen_ok g -> (r_scale rc < 1)%Qc ->
  forall s xyz normals, sample_ok s xyz normals ->
  exists angle scale jitter flip out, rnd_parameters rc g = Ok (angle, scale, jitter, flip) /\ admissible rc angle scale jitter flip /\
    transform_random nrm rot c rc g s = Ok out /\
    transform_call nrm c (if t_distort c then mkDraw flip (rot angle) jitter scale else mkDraw "" (rot (0, 0, 0)%Qc) (0, 0, 0)%Qc (1, 1, 1)%Qc) s = Ok out /\
    draw_ok (mkDraw flip (rot angle) jitter scale).
Proof. exact thm_transform_random. Qed.
Print Assumptions C89_transform.

(** C89: with all flags zero nothing is changed. *)
Theorem C89_neutral : forall rot c g r v, rnd_ok c -> gen_ok g ->
  r_angle c = (0, 0, 0) -> r_scale c = 0%Qc -> r_jitter c = 0%Qc -> r_flip c = (0, 0, 0)%Qc ->
  rot (0, 0, 0)%Qc = ((1, 0, 0), (0, 1, 0), (0, 0, 1))%Qc -> drawn rot c g = Ok r -> augmented r v = v.
Proof. exact thm_rnd_neutral. Qed.
Print Assumptions C89_neutral.

(** C89: drawing raises exactly if an interval is zero or an angle and its interval have
    opposite signs, whatever the generators return. *)
Theorem C89_raises : forall c g a0 a1 a2 i0 i1 i2, r_angle c = (a0, a1, a2) -> r_interval c = (i0, i1, i2) ->
  ((exists e, rnd_parameters c g = Err e) <-> Exists (fun '(a, i) => i = 0 \/ a * i < 0) [(a0, i0); (a1, i1); (a2, i2)]).
Proof. exact thm_rnd_raises. Qed.
Print Assumptions C89_raises.

(** C89: the bound on the scale is needed: with scale 1 the factor 0 can be drawn, which raises. *)
Theorem C89_scale_one : exists nrm rot c rc g s xyz normals, cfg_ok c /\ rnd_ok rc /\ gen_ok g /\ r_scale rc = 1%Qc /\ sample_ok s xyz normals /\
  transform_random nrm rot c rc g s = Err AssertionError.
Proof. exact thm_scale_one. Qed.
Print Assumptions C89_scale_one.

Example C89_case : rnd_ok ex_rcfg4 /\ gen_ok ex_gen /\ (r_scale ex_rcfg4 < 1)%Qc /\
  match rnd_parameters ex_rcfg4 ex_gen with
  | Ok ((_, y, _), (sx, _, sz), (_, j, _), f) =>
      this y = (-62831853 # 20000000)%Q /\ this sx = (3 # 4)%Q /\ this sz = (3 # 4)%Q /\ this j = (1 # 16)%Q /\ f = "y"%string
  | Err _ => False end.
Proof. split; [apply ex_rcfg_ok|]. split; [exact ex_gen_ok|]. split; [reflexivity|]. vm_compute. auto 10. Qed.
