(** Model of /repo/ocnn/dataset.py: Transform.rnd_parameters. *)
From Coq Require Import String Ascii List ZArith Bool QArith Qcanon.
From Verif Require Import Res Tensor Num Points Octree PointsOps Dataset.
Import ListNotations.
Open Scope Z_scope.

(** dataset.py:45-52: the flags of the data augmentation.  Angles and intervals are
    integers (torch.randint rejects the floats that // of floats returns). *)
Record rnd_cfg : Type := mkRnd { r_angle : v3 Z; r_interval : v3 Z; r_scale : Qc; r_uniform : bool; r_jitter : Qc; r_flip : v3 Qc }.
(** The random numbers of one call: what the k-th torch.randint(low, high) and the k-th
    number of torch.rand return. *)
Record gen : Type := mkGen { g_int : nat -> Z -> Z -> Z; g_rand : nat -> Qc }.

(** torch.randint(low, high): an empty range raises *)
Definition randint (g : gen) (k : nat) (low high : Z) : res Z :=
  if low <? high then Ok (g_int g k low high) else Err RuntimeError.
(** dataset.py:113: 3.14159265 / 180.0 *)
Definition deg2rad : Qc := (qz 314159265 / qz 18000000000)%Qc.
(** dataset.py:110-113, the body of the loop; // is Python's floor division *)
Definition rnd_angle (g : gen) (k : nat) (angle interval : Z) : res Qc :=
  if interval =? 0 then Err ZeroDivisionError else
  let rot_num := angle / interval in
  rnd <- randint g k (- rot_num) (rot_num + 1) ;;
  Ok (qz rnd * qz interval * deg2rad)%Qc.

(** dataset.py:105-129, rnd_parameters: angles, scale, jitter and flip axes *)
Definition rnd_parameters (c : rnd_cfg) (g : gen) : res (v3 Qc * v3 Qc * v3 Qc * string) :=
  let '(a0, a1, a2) := r_angle c in
  let '(i0, i1, i2) := r_interval c in
  x <- rnd_angle g 0 a0 i0 ;;
  y <- rnd_angle g 1 a1 i1 ;;
  z <- rnd_angle g 2 a2 i2 ;;
  let sc k := (g_rand g k * (qz 2 * r_scale c) - r_scale c + 1)%Qc in
  let s0 := sc 0%nat in
  let rnd_scale := if r_uniform c then (s0, s0, s0) else (s0, sc 1%nat, sc 2%nat) in
  let '(f0, f1, f2) := r_flip c in
  let add s k (f : Qc) ch := if qltb (g_rand g k) f then (s ++ ch)%string else s in
  let rnd_flip := add (add (add ""%string 3%nat f0 "x"%string) 4%nat f1 "y"%string) 5%nat f2 "z"%string in
  let ji k := (g_rand g k * (qz 2 * r_jitter c) - r_jitter c)%Qc in
  Ok ((x, y, z), rnd_scale, (ji 6%nat, ji 7%nat, ji 8%nat), rnd_flip).

(** dataset.py:78-89: the parameters as Transform uses them; [rot] is the rotation
    matrix of three angles (cos and sin are arbitrary here). *)
Definition drawn (rot : v3 Qc -> v3 (v3 Qc)) (c : rnd_cfg) (g : gen) : res draw :=
  '(angle, scale, jitter, flip) <- rnd_parameters c g ;;
  Ok (mkDraw flip (rot angle) jitter scale).
(** dataset.py:60-66 with the parameters drawn by the call itself, after preprocess *)
Definition transform_random (nrm : v3 Qc -> v3 Qc) (rot : v3 Qc -> v3 (v3 Qc)) (c : transform_cfg) (rc : rnd_cfg) (g : gen) (sample : dict value)
  : res (dict value) :=
  _ <- preprocess sample ;;
  r <- (if t_distort c then drawn rot rc g else Ok (mkDraw "" (rot (0, 0, 0)%Qc) (0, 0, 0)%Qc (1, 1, 1)%Qc)) ;;
  transform_call nrm c r sample.
