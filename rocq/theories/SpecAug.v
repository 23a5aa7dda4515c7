(** Specification vocabulary for the augmentations of ScanNet. *)
From Coq Require Import List ZArith Bool QArith Qcanon.
From Verif Require Import Num.
Import ListNotations.
Open Scope Z_scope.

(** One of the three values of a row. *)
Definition channel {A} (k : nat) (v : v3 A) : A := let '(x, y, z) := v in match k with O => x | S O => y | _ => z end.
(** A value between 0 and 1. *)
Definition clamped (v w : Qc) : Prop :=
  (v < 0 -> w = 0)%Qc /\ (1 < v -> w = 1)%Qc /\ (0 <= v <= 1 -> w = v)%Qc.
(** [w] is [v] moved by [s] and kept between 0 and 1, or [v] when the step is not taken. *)
Definition stepped (taken : Prop) (s v w : Qc) : Prop := (taken -> clamped (v + s)%Qc w) /\ (~ taken -> w = v).
(** [c] blended with its position between the smallest and the largest value. *)
Definition blended (b lo hi c : Qc) : Qc := ((1 - b) * c + b * ((c - lo) / (hi - lo)))%Qc.

(** A value on the way from [a] to [b]. *)
Definition lerp (t a b : Qc) : Qc := ((1 - t) * a + t * b)%Qc.
Definition in_grid (dim i : v3 Z) : Prop := forall k, 0 <= channel k i < channel k dim.
(** The node before or after [i] on an axis. *)
Definition next_to (axis : nat) (s : Z) (i j : v3 Z) : Prop := forall k, (k < 3)%nat -> channel k j = channel k i + (if Nat.eqb k axis then s else 0).
(** The value at a node, zero outside of the grid. *)
Definition padded (dim : v3 Z) (n : v3 Z -> v3 Qc) (ch : nat) (i : v3 Z) (v : Qc) : Prop :=
  (in_grid dim i -> v = channel ch (n i)) /\ (~ in_grid dim i -> v = 0%Qc).
(** [m] is the moving average of [n] over three nodes along an axis. *)
Definition moving_average (dim : v3 Z) (axis : nat) (n m : v3 Z -> v3 Qc) : Prop :=
  forall i ch j k a b, in_grid dim i -> next_to axis (-1) i j -> next_to axis 1 i k -> padded dim n ch j a -> padded dim n ch k b ->
    channel ch (m i) = ((a + channel ch (n i) + b) * Q2Qc (1 # 3))%Qc.
(** Averaged along x, y and z, twice. *)
Definition smoothed (dim : v3 Z) (n m : v3 Z -> v3 Qc) : Prop :=
  exists a b c d e, moving_average dim 0 n a /\ moving_average dim 1 a b /\ moving_average dim 2 b c /\
    moving_average dim 0 c d /\ moving_average dim 1 d e /\ moving_average dim 2 e m.
(** The coordinate [x] lies in cell number [i] of an axis that starts one cell before
    [lo], at the fraction [f]. *)
Definition in_cell (g lo x : Qc) (size i : Z) (f : Qc) : Prop :=
  0 <= i /\ i + 1 < size /\ (0 <= f <= 1)%Qc /\ (x = lo + g * (qz i - 1 + f))%Qc.
(** [d] is the value of the field [n] at [v], linear in each of the three directions inside
    the cell of [v]. *)
Definition field_at (g : Qc) (lo : v3 Qc) (dim : v3 Z) (n : v3 Z -> v3 Qc) (v d : v3 Qc) : Prop :=
  exists i j k fx fy fz, in_cell g (channel 0 lo) (channel 0 v) (channel 0 dim) i fx /\
    in_cell g (channel 1 lo) (channel 1 v) (channel 1 dim) j fy /\ in_cell g (channel 2 lo) (channel 2 v) (channel 2 dim) k fz /\
    forall ch, let at_ a b c := channel ch (n (a, b, c)) in
      channel ch d = lerp fx (lerp fy (lerp fz (at_ i j k) (at_ i j (k + 1))) (lerp fz (at_ i (j + 1) k) (at_ i (j + 1) (k + 1))))
                             (lerp fy (lerp fz (at_ (i + 1) j k) (at_ (i + 1) j (k + 1))) (lerp fz (at_ (i + 1) (j + 1) k) (at_ (i + 1) (j + 1) (k + 1)))).
(** The number of nodes of an axis: the cells that the extent fills, and three more. *)
Definition grid_size (g extent : Qc) (size : Z) : Prop := (qz (size - 3) * g <= extent)%Qc /\ (extent < qz (size - 2) * g)%Qc.
Definition bounded (b : Qc) (v : v3 Qc) : Prop := forall ch, (- b <= channel ch v <= b)%Qc.
Definition total (l : list Qc) : Qc := fold_right Qcplus 0%Qc l.
