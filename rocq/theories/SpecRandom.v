(** Specification vocabulary for the random augmentation. *)
From Coq Require Import String Ascii List ZArith Bool QArith Qcanon.
From Verif Require Import Res Num Points Random.
Import ListNotations.
Open Scope Z_scope.

(** The random number generators return numbers of the ranges they promise. *)
Definition gen_ok (g : gen) : Prop :=
  (forall k low high, low < high -> low <= g_int g k low high < high) /\ (forall k, (0 <= g_rand g k)%Qc /\ (g_rand g k < 1)%Qc).
(** Flags that make sense: angles and amplitudes not negative, positive intervals. *)
Definition rnd_ok (c : rnd_cfg) : Prop :=
  let '(a0, a1, a2) := r_angle c in let '(i0, i1, i2) := r_interval c in
  (0 <= a0 /\ 0 <= a1 /\ 0 <= a2) /\ (0 < i0 /\ 0 < i1 /\ 0 < i2) /\ (0 <= r_scale c)%Qc /\ (0 <= r_jitter c)%Qc.

(** An angle (in radians) that is a multiple of [i] degrees and at most [a] degrees. *)
Definition rotation_of (a i : Z) (x : Qc) : Prop :=
  exists k, x = (qz (k * i) * (qz 314159265 / qz 18000000000))%Qc /\ Z.abs (k * i) <= a.
(** A number at most [e] away from [c]; the upper end is not reached unless e = 0. *)
Definition near (c e x : Qc) : Prop := (e = 0 /\ x = c)%Qc \/ ((c - e <= x)%Qc /\ (x < c + e)%Qc).
(** An axis flipped with probability [f]. *)
Definition may_flip (f : Qc) (flipped : bool) : Prop := if flipped then (0 < f)%Qc else (f < 1)%Qc.

(** The augmentations that the flags allow. *)
Definition admissible (c : rnd_cfg) (angle scale jitter : v3 Qc) (flip : string) : Prop :=
  (let '(a0, a1, a2) := r_angle c in let '(i0, i1, i2) := r_interval c in let '(x, y, z) := angle in
   rotation_of a0 i0 x /\ rotation_of a1 i1 y /\ rotation_of a2 i2 z) /\
  (let '(x, y, z) := scale in
   near 1 (r_scale c) x /\ near 1 (r_scale c) y /\ near 1 (r_scale c) z /\ (r_uniform c = true -> x = y /\ y = z)) /\
  (let '(x, y, z) := jitter in near 0 (r_jitter c) x /\ near 0 (r_jitter c) y /\ near 0 (r_jitter c) z) /\
  (let '(f0, f1, f2) := r_flip c in exists b0 b1 b2 : bool, may_flip f0 b0 /\ may_flip f1 b1 /\ may_flip f2 b2 /\
   flip = ((if b0 then "x" else "") ++ (if b1 then "y" else "") ++ (if b2 then "z" else ""))%string).
