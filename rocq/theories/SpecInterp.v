(** Specification vocabulary for interpolation at points given in units of cells of
    the 2^d grid: the cell (x, y, z) is [x,x+1) * [y,y+1) * [z,z+1). *)
From Coq Require Import List ZArith Bool QArith Qcanon.
From Verif Require Import Num.
Import ListNotations.
Open Scope Z_scope.

(** Points of the cube [0, 2^d)^3 and the cell that contains them. *)
Definition in_range (d : nat) (p : v3 Qc) : Prop :=
  let '(x, y, z) := p in
  let ok c := (0 <= c)%Qc /\ (c < qz (2 ^ Z.of_nat d))%Qc in ok x /\ ok y /\ ok z.
Definition cell_at (p : v3 Qc) (b : Z) : Z * Z * Z * Z :=
  let '(x, y, z) := p in (qfloor x, qfloor y, qfloor z, b).

(** The ancestor of a cell [k] levels up. *)
Definition ancestor (k : nat) (q : Z * Z * Z * Z) : Z * Z * Z * Z :=
  let '(x, y, z, b) := q in
  (x / 2 ^ Z.of_nat k, y / 2 ^ Z.of_nat k, z / 2 ^ Z.of_nat k, b).
(** The centre of a cell, in units of cells [k] levels up. *)
Definition centre (k : nat) (q : Z * Z * Z * Z) : v3 Qc * Z :=
  let '(x, y, z, b) := q in
  let c i := ((qz i + Q2Qc (1 # 2)) / qz (2 ^ Z.of_nat k))%Qc in ((c x, c y, c z), b).

(** The hat function around the centre X + 1/2 of the interval [X, X+1). *)
Definition hat (x : Qc) (X : Z) : Qc :=
  let t := (x - (qz X + Q2Qc (1 # 2)))%Qc in
  let a := if Qclt_le_dec t 0 then (- t)%Qc else t in
  if Qclt_le_dec a 1 then (1 - a)%Qc else 0%Qc.
(** The trilinear weight of a cell for a point of batch element [b]. *)
Definition trilinear (p : v3 Qc) (b : Z) (q : Z * Z * Z * Z) : Qc :=
  let '(x, y, z) := p in let '(X, Y, Z_, b') := q in
  if b' =? b then (hat x X * hat y Y * hat z Z_)%Qc else 0%Qc.

(** Sum of the trilinear weights of the cells [cs], and the weighted sum of channel
    [c] of their features. *)
From Verif Require Import SpecNN.
Definition weight_sum (cs : list (Z * Z * Z * Z)) (p : v3 Qc) (b : Z) : Qc :=
  sum_n (length cs) (fun j => trilinear p b (nth j cs (0, 0, 0, 0))).
Definition weighted_sum (cs : list (Z * Z * Z * Z)) (x : list (list Qc)) (c : nat) (p : v3 Qc) (b : Z) : Qc :=
  sum_n (length cs) (fun j => trilinear p b (nth j cs (0, 0, 0, 0)%Z) * at2 x j c)%Qc.
(** The guard of the division. *)
Definition tiny : Qc := (/ qz 1000000000000)%Qc.

(** Points at least half a cell away from the border of the cube. *)
Definition interior (d : nat) (p : v3 Qc) : Prop :=
  let '(x, y, z) := p in
  let ok c := (Q2Qc (1 # 2) <= c)%Qc /\ (c <= qz (2 ^ Z.of_nat d) - Q2Qc (1 # 2))%Qc in ok x /\ ok y /\ ok z.
