(** Facts about children, parents and complete grids. *)
From Coq Require Import List ZArith Bool Lia Sorting.Sorted.
From Verif Require Import Res Tensor Key Spec KeyFacts ListFacts.
Import ListNotations.
Open Scope Z_scope.

Ltac Zify.zify_post_hook ::= Z.div_mod_to_equations.

(** ** numeric form of valid keys *)

Definition vkey (B d : nat) (k : Z) : Prop :=
  exists b m, 0 <= b < Z.of_nat B /\ 0 <= m < 8 ^ Z.of_nat d /\ k = b * 2 ^ 48 + m.

Lemma vkey_valid B d k : vkey B d k <-> valid_key B d k.
Proof.
  split.
  - intros (b & m & Hb & Hm & ->).
    exists b, (unmorton_x d m), (unmorton_y d m), (unmorton_z d m).
    split; [exact Hb|]. split; [apply unmorton_range|].
    unfold key_of. rewrite morton_unmorton by exact Hm. reflexivity.
  - intros (b & x & y & z & Hb & Hc & ->).
    exists b, (morton d x y z). split; [exact Hb|]. split; [apply morton_range|reflexivity].
Qed.

Lemma pow8_le d e : (d <= e)%nat -> 8 ^ Z.of_nat d <= 8 ^ Z.of_nat e.
Proof. intros H. apply Z.pow_le_mono_r; lia. Qed.

Lemma pow8_pos d : 0 < 8 ^ Z.of_nat d.
Proof. apply Z.pow_pos_nonneg; lia. Qed.

Lemma pow8_S d : 8 ^ Z.of_nat (S d) = 8 * 8 ^ Z.of_nat d.
Proof. rewrite Nat2Z.inj_succ, Z.pow_succ_r by lia. reflexivity. Qed.

Lemma pow8_16 : 8 ^ Z.of_nat 16 = 2 ^ 48.
Proof. reflexivity. Qed.

Lemma pow8_nat d : Z.of_nat (8 ^ d)%nat = 8 ^ Z.of_nat d.
Proof. rewrite Nat2Z.inj_pow. reflexivity. Qed.

Lemma pow8_lt48 d : (d <= 16)%nat -> 8 ^ Z.of_nat d <= 2 ^ 48.
Proof. intros H. rewrite <- pow8_16. apply pow8_le; exact H. Qed.

Lemma pow8_lt45 d : (d < 16)%nat -> 8 ^ Z.of_nat d <= 2 ^ 45.
Proof. intros H. change (2 ^ 45) with (8 ^ Z.of_nat 15). apply pow8_le; lia. Qed.

Lemma vkey_parts B d k : (d <= 16)%nat -> vkey B d k ->
  0 <= k / 2 ^ 48 < Z.of_nat B /\ 0 <= k mod 2 ^ 48 < 8 ^ Z.of_nat d.
Proof.
  intros Hd (b & m & Hb & Hm & ->). pose proof (pow8_lt48 d Hd).
  replace ((b * 2 ^ 48 + m) / 2 ^ 48) with b by lia.
  replace ((b * 2 ^ 48 + m) mod 2 ^ 48) with m by lia. auto.
Qed.

Lemma vkey_nonneg B d k : vkey B d k -> 0 <= k.
Proof. intros (b & m & Hb & Hm & ->). lia. Qed.

(** ** kids and parents *)

Lemma kids_bm b m : 0 <= m < 2 ^ 48 ->
  kids (b * 2 ^ 48 + m) = map (fun j => b * 2 ^ 48 + 8 * m + j) [0;1;2;3;4;5;6;7].
Proof.
  intros Hm. unfold kids.
  replace ((b * 2 ^ 48 + m) / 2 ^ 48) with b by lia.
  replace ((b * 2 ^ 48 + m) mod 2 ^ 48) with m by lia. reflexivity.
Qed.

Lemma parent_bm b m : 0 <= m < 2 ^ 48 -> parent (b * 2 ^ 48 + m) = b * 2 ^ 48 + m / 8.
Proof.
  intros Hm. unfold parent.
  replace ((b * 2 ^ 48 + m) / 2 ^ 48) with b by lia.
  replace ((b * 2 ^ 48 + m) mod 2 ^ 48) with m by lia. reflexivity.
Qed.

Lemma in_digits j : In j [0;1;2;3;4;5;6;7] <-> 0 <= j < 8.
Proof. cbn [In]. lia. Qed.

Lemma kids_length k : length (kids k) = 8%nat.
Proof. reflexivity. Qed.

Lemma kids_arange k : kids k = map (fun j => (k / 2^48) * 2^48 + 8 * (k mod 2^48) + j) (arange 8).
Proof. reflexivity. Qed.

Lemma kids_nth k j : (j < 8)%nat ->
  nth_error (kids k) j = Some ((k / 2^48) * 2^48 + 8 * (k mod 2^48) + Z.of_nat j).
Proof. intros H. rewrite kids_arange, nth_error_map_Z by exact H. reflexivity. Qed.

Lemma in_kids_raw k c : In c (kids k) <-> exists j, 0 <= j < 8 /\ c = (k / 2^48) * 2^48 + 8 * (k mod 2^48) + j.
Proof.
  unfold kids. rewrite in_map_iff. split.
  - intros (j & <- & Hj). exists j. apply in_digits in Hj. auto.
  - intros (j & Hj & ->). exists j. split; [reflexivity|]. apply in_digits; exact Hj.
Qed.

Lemma kids_vkey B d k c : (d < 16)%nat -> vkey B d k -> In c (kids k) -> vkey B (S d) c /\ parent c = k.
Proof.
  intros Hd Hk Hc. pose proof (pow8_lt45 d Hd).
  apply in_kids_raw in Hc. destruct Hc as (j & Hj & ->).
  destruct Hk as (b & m & Hb & Hm & ->).
  replace ((b * 2 ^ 48 + m) / 2 ^ 48) with b by lia.
  replace ((b * 2 ^ 48 + m) mod 2 ^ 48) with m by lia.
  split.
  - exists b, (8 * m + j). rewrite pow8_S. lia.
  - replace (b * 2 ^ 48 + 8 * m + j) with (b * 2 ^ 48 + (8 * m + j)) by lia.
    rewrite parent_bm by lia. lia.
Qed.

Lemma parent_vkey B d c : (d < 16)%nat -> vkey B (S d) c -> vkey B d (parent c) /\ In c (kids (parent c)).
Proof.
  intros Hd (b & m & Hb & Hm & ->). pose proof (pow8_lt45 d Hd). rewrite pow8_S in Hm.
  rewrite parent_bm by lia. split.
  - exists b, (m / 8). lia.
  - rewrite kids_bm by lia. apply in_map_iff. exists (m mod 8). split; [lia|]. apply in_digits. lia.
Qed.

Lemma in_kids_iff B d k c : (d < 16)%nat -> vkey B d k ->
  (In c (kids k) <-> vkey B (S d) c /\ parent c = k).
Proof.
  intros Hd Hk. split.
  - apply kids_vkey; assumption.
  - intros [Hc <-]. apply (parent_vkey B d c Hd Hc).
Qed.

Lemma kids_sorted k : sorted (kids k).
Proof.
  unfold kids. apply sorted_map.
  - repeat (constructor; [|repeat constructor]). constructor.
  - intros a b _ _ H. lia.
Qed.

Lemma kids_lt B d k k' c c' : (d < 16)%nat -> vkey B d k -> vkey B d k' -> k < k' ->
  In c (kids k) -> In c' (kids k') -> c < c'.
Proof.
  intros Hd (b & m & Hb & Hm & ->) (b' & m' & Hb' & Hm' & ->) Hlt.
  pose proof (pow8_lt45 d Hd).
  rewrite !kids_bm by lia. rewrite !in_map_iff.
  intros (j & <- & Hj) (j' & <- & Hj'). apply in_digits in Hj, Hj'.
  assert (b < b' \/ (b = b' /\ m < m')) by lia. lia.
Qed.

Lemma flat_kids_sorted B d ks : (d < 16)%nat -> sorted ks -> Forall (vkey B d) ks -> sorted (flat_map kids ks).
Proof.
  intros Hd Hs Hv. rewrite Forall_forall in Hv.
  apply (sorted_flat_map kids ks Z.lt Hs).
  - intros a _. apply kids_sorted.
  - intros a b x y Ha Hb Hlt. apply (kids_lt B d); auto.
Qed.

Lemma flat_kids_vkey B d ks : (d < 16)%nat -> Forall (vkey B d) ks -> Forall (vkey B (S d)) (flat_map kids ks).
Proof.
  intros Hd Hv. rewrite Forall_forall in *. intros c Hc. apply in_flat_map in Hc.
  destruct Hc as (k & Hk & Hc). apply (kids_vkey B d k c Hd (Hv _ Hk) Hc).
Qed.

Lemma in_flat_kids B d ks c : (d < 16)%nat -> Forall (vkey B d) ks ->
  (In c (flat_map kids ks) <-> vkey B (S d) c /\ In (parent c) ks).
Proof.
  intros Hd Hv. rewrite in_flat_map. rewrite Forall_forall in Hv. split.
  - intros (k & Hk & Hc). destruct (kids_vkey B d k c Hd (Hv _ Hk) Hc) as [H <-]. auto.
  - intros [Hc Hp]. exists (parent c). split; [exact Hp|]. apply (parent_vkey B d c Hd Hc).
Qed.

Lemma flat_kids_length ks : length (flat_map kids ks) = (8 * length ks)%nat.
Proof.
  induction ks as [|k ks IH]; [reflexivity|]. cbn [flat_map]. rewrite app_length, kids_length, IH. cbn [length]. lia.
Qed.

(** Geometric reading of [kids]: the eight cells (2x+i, 2y+j, 2z+l). *)
Lemma kids_key_of d b x y z : (d < 16)%nat ->
  kids (key_of d b x y z)
  = map (fun '(i, j, l) => key_of (S d) b (2 * x + i) (2 * y + j) (2 * z + l))
        [(0,0,0); (0,0,1); (0,1,0); (0,1,1); (1,0,0); (1,0,1); (1,1,0); (1,1,1)].
Proof.
  intros Hd. unfold key_of. rewrite kids_bm by (apply morton_lt_48; lia).
  assert (H : forall i j l, 0 <= i < 2 -> 0 <= j < 2 -> 0 <= l < 2 ->
    morton (S d) (2 * x + i) (2 * y + j) (2 * z + l) = 8 * morton d x y z + (4 * i + 2 * j + l)).
  { intros i j l Hi Hj Hl. rewrite morton_S.
    replace ((2 * x + i) / 2) with x by lia. replace ((2 * y + j) / 2) with y by lia.
    replace ((2 * z + l) / 2) with z by lia.
    replace ((2 * x + i) mod 2) with i by lia. replace ((2 * y + j) mod 2) with j by lia.
    replace ((2 * z + l) mod 2) with l by lia. reflexivity. }
  cbn [map]. rewrite !H by lia. repeat (apply f_equal2; [lia|]). reflexivity.
Qed.

Lemma parent_key_of d b x y z : (d < 16)%nat ->
  parent (key_of (S d) b x y z) = key_of d b (x / 2) (y / 2) (z / 2).
Proof.
  intros Hd. unfold key_of. rewrite parent_bm by (apply morton_lt_48; lia).
  rewrite morton_S. pose proof (digit_bound x y z). lia.
Qed.

(** ** flat_map with blocks of constant length *)

Lemma nth_error_flat_map {A B} (f : A -> list B) n (l : list A) : 
  (forall a, In a l -> length (f a) = n) -> forall i j a, nth_error l i = Some a -> (j < n)%nat ->
  nth_error (flat_map f l) (n * i + j) = nth_error (f a) j.
Proof.
  induction l as [|b l IH]; intros Hn i j a Hi Hj; [destruct i; discriminate|].
  cbn [flat_map]. destruct i as [|i]; cbn [nth_error] in Hi.
  - injection Hi as ->. rewrite Nat.mul_0_r. cbn [Nat.add].
    apply nth_error_app1. rewrite Hn by (left; reflexivity). exact Hj.
  - rewrite nth_error_app2 by (rewrite Hn by (left; reflexivity); lia).
    rewrite Hn by (left; reflexivity).
    replace (n * S i + j - n)%nat with (n * i + j)%nat by lia.
    apply IH; [intros; apply Hn; right; assumption|exact Hi|exact Hj].
Qed.

Lemma flat_map_length_const {A B} (f : A -> list B) n (l : list A) :
  (forall a, In a l -> length (f a) = n) -> length (flat_map f l) = (n * length l)%nat.
Proof.
  induction l as [|b l IH]; intros Hn; cbn [flat_map length]; [lia|].
  rewrite app_length, IH by (intros; apply Hn; right; assumption).
  rewrite Hn by (left; reflexivity). lia.
Qed.

(** ** the complete grid *)

Lemma seq_nth_error n i : (i < n)%nat -> nth_error (seq 0 n) i = Some i.
Proof. intros H. rewrite (nth_error_nth' _ O) by (rewrite seq_length; exact H). rewrite seq_nth by exact H. reflexivity. Qed.

Lemma full_grid_length B d : length (full_grid B d) = (8 ^ d * B)%nat.
Proof.
  unfold full_grid. rewrite (flat_map_length_const _ (8 ^ d)%nat), seq_length; [reflexivity|].
  intros a _. rewrite map_length, seq_length. reflexivity.
Qed.

Lemma full_grid_nth B d b m : (b < B)%nat -> (m < 8 ^ d)%nat ->
  nth_error (full_grid B d) (8 ^ d * b + m) = Some (Z.of_nat b * 2 ^ 48 + Z.of_nat m).
Proof.
  intros Hb Hm. unfold full_grid. rewrite (nth_error_flat_map _ (8 ^ d)%nat _) with (a := b).
  - rewrite nth_error_map, seq_nth_error by exact Hm. reflexivity.
  - intros a _. rewrite map_length, seq_length. reflexivity.
  - apply seq_nth_error; exact Hb.
  - exact Hm.
Qed.

Lemma in_full_grid B d k : In k (full_grid B d) <-> vkey B d k.
Proof.
  unfold full_grid, vkey. rewrite in_flat_map. split.
  - intros (b & Hb & Hk). apply in_map_iff in Hk. destruct Hk as (m & <- & Hm).
    apply in_seq in Hb, Hm. exists (Z.of_nat b), (Z.of_nat m). rewrite <- pow8_nat. lia.
  - intros (b & m & Hb & Hm & ->). rewrite <- pow8_nat in Hm. exists (Z.to_nat b).
    split; [apply in_seq; lia|]. apply in_map_iff. exists (Z.to_nat m).
    split; [rewrite !Z2Nat.id by lia; reflexivity|]. apply in_seq; lia.
Qed.

Lemma seq_sorted a n : StronglySorted lt (seq a n).
Proof.
  revert a; induction n as [|n IH]; intros a; cbn; constructor; [apply IH|].
  apply Forall_forall. intros x Hx. apply in_seq in Hx. lia.
Qed.

Lemma full_grid_sorted B d : (d <= 16)%nat -> sorted (full_grid B d).
Proof.
  intros Hd. unfold full_grid. pose proof (pow8_lt48 d Hd) as H48. rewrite <- pow8_nat in H48.
  apply (sorted_flat_map _ _ lt (seq_sorted 0 B)).
  - intros b _.
    assert (Hs : forall a n, sorted (map (fun m => Z.of_nat b * 2 ^ 48 + Z.of_nat m) (seq a n))).
    { intros a n; revert a; induction n as [|n IH]; intros a; cbn [seq map]; constructor; [apply IH|].
      apply Forall_forall. intros x Hx. apply in_map_iff in Hx. destruct Hx as (m & <- & Hm).
      apply in_seq in Hm. lia. }
    apply Hs.
  - intros b c x y _ _ Hbc Hx Hy. apply in_map_iff in Hx, Hy.
    destruct Hx as (m & <- & Hm), Hy as (m' & <- & Hm'). apply in_seq in Hm, Hm'. lia.
Qed.

Lemma full_grid_kids B d : (d < 16)%nat -> flat_map kids (full_grid B d) = full_grid B (S d).
Proof.
  intros Hd. apply sorted_unique.
  - apply (flat_kids_sorted B d); [exact Hd|apply full_grid_sorted; lia|].
    apply Forall_forall. intros k. apply in_full_grid.
  - apply full_grid_sorted; lia.
  - intros c. rewrite (in_flat_kids B d) by (exact Hd || (apply Forall_forall; intros k; apply in_full_grid)).
    rewrite !in_full_grid. split; [tauto|]. intros H. split; [exact H|]. apply (parent_vkey B d c Hd H).
Qed.

(** ** sorted distinct parents *)

Definition parents (ks : list Z) : list Z := sort_uniq (map parent ks).

Lemma in_parents ks p : In p (parents ks) <-> exists k, In k ks /\ parent k = p.
Proof.
  unfold parents. rewrite sort_uniq_In, in_map_iff. split.
  - intros (k & E & H). exists k; auto.
  - intros (k & H & E). exists k; auto.
Qed.

Lemma parents_sorted ks : sorted (parents ks).
Proof. apply sort_uniq_sorted. Qed.

Lemma parents_vkey B d ks : (d < 16)%nat -> Forall (vkey B (S d)) ks -> Forall (vkey B d) (parents ks).
Proof.
  intros Hd Hv. rewrite Forall_forall in *. intros p Hp. apply in_parents in Hp.
  destruct Hp as (k & Hk & <-). apply (parent_vkey B d k Hd (Hv _ Hk)).
Qed.

Lemma in_kids_parents B d ks k : (d < 16)%nat -> Forall (vkey B (S d)) ks -> In k ks ->
  In k (flat_map kids (parents ks)).
Proof.
  intros Hd Hv Hk. apply (in_flat_kids B d); [exact Hd|apply parents_vkey; assumption|].
  rewrite Forall_forall in Hv. split; [apply Hv; exact Hk|]. apply in_parents. exists k; auto.
Qed.
