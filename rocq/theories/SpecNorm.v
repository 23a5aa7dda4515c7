(** Specification of group normalisation. *)
From Coq Require Import List ZArith Reals.
Import ListNotations.

Definition sumR (l : list R) : R := fold_right Rplus 0%R l.
(** The values of group G (channels G*k .. G*k+k-1) in some rows. *)
Definition group_values (k G : nat) (rows : list (list R)) : list R :=
  flat_map (fun row => map (fun j => nth (G * k + j) row 0%R) (seq 0 k)) rows.
(** Mean and variance over n values, with n + eps in place of n. *)
Definition mean_eps (eps : R) (vs : list R) : R := (sumR vs / (INR (length vs) + eps))%R.
Definition var_eps (eps : R) (vs : list R) : R :=
  (sumR (map (fun v => (v - mean_eps eps vs) ^ 2) vs) / (INR (length vs) + eps))%R.
(** The normalised value of [v], a member of the group [vs]. *)
Definition normed (eps : R) (vs : list R) (v : R) : R :=
  ((v - mean_eps eps vs) / sqrt (var_eps eps vs + eps))%R.
(** Group normalisation of the rows of one sample, [k] channels per group, with the
    affine map [w], [b] per channel. *)
Definition norm_rows (eps : R) (C k : nat) (w b : list R) (rows : list (list R)) : list (list R) :=
  map (fun row => map (fun c =>
    (normed eps (group_values k (c / k) rows) (nth c row 0) * nth c w 0 + nth c b 0)%R) (seq 0 C)) rows.
