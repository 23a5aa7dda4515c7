(** Statistics of normalised groups. *)
From Coq Require Import String List ZArith Bool Reals Lia Lra.
From Verif Require Import Res Tensor Num Points Octree NnNorm Spec SpecGeo SpecNN SpecNorm WF ListFacts ScatterFacts SumFacts NormFacts.
Import ListNotations.
Open Scope R_scope.

Lemma sumR_scale {A} (f : A -> R) c l : sumR (map (fun a => f a * c) l) = sumR (map f l) * c.
Proof. exact (rsum_scale f c l). Qed.
Lemma sumR_minus m l : sumR (map (fun v => v - m) l) = sumR l - INR (length l) * m.
Proof. unfold sumR. induction l as [|a l IH]; cbn [map fold_right length]; [cbn; ring|]. rewrite IH, S_INR. ring. Qed.
Lemma sumR_nonneg {A} (f : A -> R) l : (forall a, 0 <= f a) -> 0 <= sumR (map f l).
Proof. intros H. unfold sumR. induction l as [|a l IH]; cbn [map fold_right]; [lra|]. specialize (H a). lra. Qed.

Section Stats.
  Variables (eps : R) (vs : list R).
  Hypothesis Heps : 0 < eps.
  Notation N := (INR (length vs)).
  Lemma npos : 0 < N + eps. Proof. pose proof (pos_INR (length vs)). lra. Qed.
  Lemma var_nonneg : 0 <= var_eps eps vs.
  Proof.
    unfold var_eps. pose proof npos as H. apply Rmult_le_pos; [apply sumR_nonneg; intros; apply pow2_ge_0|]. left. apply Rinv_0_lt_compat. exact H.
  Qed.
  Lemma stat_mean : sumR (map (normed eps vs) vs) = eps * mean_eps eps vs / sqrt (var_eps eps vs + eps).
  Proof.
    unfold normed. unfold Rdiv at 1. rewrite (sumR_scale (fun v => v - mean_eps eps vs) (/ sqrt (var_eps eps vs + eps))). rewrite sumR_minus. unfold Rdiv. f_equal.
    assert (H : sumR vs = mean_eps eps vs * (N + eps)) by (unfold mean_eps; field; pose proof npos; lra). rewrite H. ring.
  Qed.
  Lemma stat_mean_bound : Rabs (sumR (map (normed eps vs) vs)) <= sqrt eps * Rabs (mean_eps eps vs).
  Proof.
    rewrite stat_mean. pose proof var_nonneg as Hv. assert (Hs : 0 < sqrt (var_eps eps vs + eps)) by (apply sqrt_lt_R0; lra).
    assert (Hs2 : sqrt eps <= sqrt (var_eps eps vs + eps)) by (apply sqrt_le_1_alt; lra). assert (Hs3 : 0 < sqrt eps) by (apply sqrt_lt_R0; exact Heps).
    unfold Rdiv. rewrite !Rabs_mult. rewrite (Rabs_right eps) by lra. rewrite (Rabs_right (/ _)) by (left; apply Rinv_0_lt_compat; exact Hs).
    replace (eps * Rabs (mean_eps eps vs) * / sqrt (var_eps eps vs + eps)) with ((eps * / sqrt (var_eps eps vs + eps)) * Rabs (mean_eps eps vs)) by ring.
    apply Rmult_le_compat_r; [apply Rabs_pos|]. apply (Rmult_le_reg_r (sqrt (var_eps eps vs + eps))); [exact Hs|].
    rewrite Rmult_assoc, Rinv_l, Rmult_1_r by lra. rewrite <- (sqrt_sqrt eps) at 1 by lra. apply Rmult_le_compat_l; lra.
  Qed.
  Lemma stat_var : sumR (map (fun v => v ^ 2) (map (normed eps vs) vs)) = (N + eps) * (var_eps eps vs / (var_eps eps vs + eps)).
  Proof.
    rewrite map_map. pose proof var_nonneg as Hv. pose proof npos as Hn.
    assert (E : map (fun x => normed eps vs x ^ 2) vs = map (fun v => (v - mean_eps eps vs) ^ 2 * / (var_eps eps vs + eps)) vs).
    { apply map_ext. intros v. unfold normed, Rdiv. rewrite Rpow_mult_distr. f_equal. rewrite pow_inv. f_equal. apply pow2_sqrt. lra. }
    rewrite E, sumR_scale. unfold Rdiv at 1. rewrite <- Rmult_assoc. f_equal. unfold var_eps. field. lra.
  Qed.
End Stats.

Lemma group_norm_rows eps C g k rows G : C = (g * k)%nat -> (G < g)%nat -> Forall (fun r => length r = C) rows ->
  group_values k G (norm_rows eps C k (repeat 1 C) (repeat 0 C) rows) = map (normed eps (group_values k G rows)) (group_values k G rows).
Proof.
  intros HC HG Hr. unfold norm_rows.
  assert (E : forall ref, group_values k G (map (fun row => map (fun c => normed eps (group_values k (c / k) ref) (nth c row 0) * nth c (repeat 1 C) 0 + nth c (repeat 0 C) 0) (seq 0 C)) rows)
    = map (normed eps (group_values k G ref)) (group_values k G rows)); [|apply E].
  intros ref. induction Hr as [|r rows Hr Hrs IH]; [reflexivity|]. unfold group_values in IH |- *. cbn [map flat_map]. rewrite map_app, <- IH. f_equal. rewrite map_map.
  apply map_ext_in. intros j Hj. apply in_seq in Hj. assert (Hc : (G * k + j < C)%nat) by (rewrite HC; nia).
  rewrite nth_map_seq by exact Hc. rewrite !nth_repeat_lt by exact Hc.
  replace ((G * k + j) / k)%nat with G. { ring. }
  rewrite Nat.div_add_l by lia. rewrite Nat.div_small by lia. lia.
Qed.

Lemma thm_norm_stats o d ne C g k x : wf_octree o -> (d <= depth o)%nat -> C = (g * k)%nat -> (0 < g)%nat ->
  shape (node_count o d ne) C x ->
  exists cs y, octree_xyzb o d ne = Ok cs /\ group_norm C g (repeat 1 C) (repeat 0 C) x o d ne = Ok y /\
    forall b G, (G < g)%nat ->
      let before := group_values k G (rows_at (samples cs) b x) in
      let after := group_values k G (rows_at (samples cs) b y) in
      length after = length before /\
      Rabs (sumR after) <= sqrt (/ 100000) * Rabs (mean_eps (/ 100000) before) /\
      0 <= var_eps (/ 100000) before /\
      sumR (map (fun v => v ^ 2) after) = (INR (length before) + / 100000) * (var_eps (/ 100000) before / (var_eps (/ 100000) before + / 100000)) /\
      sumR (map (fun v => v ^ 2) after) <= INR (length before) + / 100000.
Proof.
  intros Ho Hd HC Hg Hx. destruct (thm_group_norm o d ne C g k (repeat 1 C) (repeat 0 C) x Ho Hd HC Hg Hx (repeat_length _ _) (repeat_length _ _)) as (cs & y & E1 & E2 & _ & H).
  exists cs, y. split; [exact E1|]. split; [exact E2|]. intros b G HG. cbn zeta. rewrite H.
  assert (Hr : Forall (fun r => length r = C) (rows_at (samples cs) b x)).
  { destruct Hx as [_ Hx]. rewrite Forall_forall in *. intros r Hr. apply Hx. eapply rows_at_in. exact Hr. }
  rewrite (group_norm_rows _ C g k _ G HC HG Hr). set (vs := group_values k G (rows_at (samples cs) b x)).
  assert (He : 0 < / 100000) by lra. pose proof (var_nonneg _ vs He) as Hv. pose proof (npos _ vs He) as Hn.
  split; [apply map_length|]. split; [apply stat_mean_bound; exact He|]. split; [exact Hv|]. split; [apply stat_var; exact He|].
  rewrite stat_var by exact He. rewrite <- (Rmult_1_r (INR (length vs) + / 100000)) at 2. apply Rmult_le_compat_l; [lra|].
  apply (Rmult_le_reg_r (var_eps (/ 100000) vs + / 100000)); [lra|]. unfold Rdiv. rewrite Rmult_assoc, Rinv_l by lra. lra.
Qed.

(** Rows of a sample only see the rows of that sample. *)
Lemma thm_norm_local o d ne C g w bias x x' y y' cs b : wf_octree o -> (d <= depth o)%nat -> (C mod g = 0)%nat -> (0 < g)%nat ->
  shape (node_count o d ne) C x -> shape (node_count o d ne) C x' -> length w = C -> length bias = C ->
  octree_xyzb o d ne = Ok cs -> rows_at (samples cs) b x = rows_at (samples cs) b x' ->
  group_norm C g w bias x o d ne = Ok y -> group_norm C g w bias x' o d ne = Ok y' ->
  rows_at (samples cs) b y = rows_at (samples cs) b y'.
Proof.
  intros Ho Hd HC Hg Hx Hx' Hw Hb Ec Eb Ey Ey'. assert (HC' : C = (g * (C / g))%nat) by (apply Nat.div_exact; [lia|exact HC]).
  destruct (thm_group_norm o d ne C g _ w bias x Ho Hd HC' Hg Hx Hw Hb) as (c1 & y1 & F1 & F2 & _ & F3).
  destruct (thm_group_norm o d ne C g _ w bias x' Ho Hd HC' Hg Hx' Hw Hb) as (c2 & y2 & G1 & G2 & _ & G3).
  rewrite Ec in F1, G1. rewrite Ey in F2. rewrite Ey' in G2. assert (X : forall A (a b : A), Ok a = Ok b -> a = b) by (intros A a b' X; congruence). apply X in F1, F2, G1, G2. subst. rewrite F3, G3, Eb. reflexivity.
Qed.
Lemma thm_instance_norm o d ne C w bias x : wf_octree o -> (d <= depth o)%nat -> (0 < C)%nat ->
  shape (node_count o d ne) C x -> length w = C -> length bias = C ->
  exists cs y, octree_xyzb o d ne = Ok cs /\ instance_norm C w bias x o d ne = Ok y /\ length y = length x /\
    forall b, rows_at (samples cs) b y = norm_rows (/ 100000) C 1 w bias (rows_at (samples cs) b x).
Proof. intros Ho Hd HC Hx Hw Hb. apply (thm_group_norm o d ne C C 1 w bias x); try assumption. lia. Qed.
