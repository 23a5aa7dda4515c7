(** Facts about the Morton numbering and the model of shuffled_key.py. *)
From Coq Require Import List ZArith Bool Lia.
From Verif Require Import Res Tensor Key Spec.
Import ListNotations.
Open Scope Z_scope.

Ltac Zify.zify_post_hook ::= Z.div_mod_to_equations.

(** ** bits of the Morton number *)

Lemma testbit_hi a b i : 0 <= b < 8 -> 3 <= i -> Z.testbit (8 * a + b) i = Z.testbit a (i - 3).
Proof.
  intros Hb Hi.
  replace i with ((i - 3) + 3) at 1 by lia.
  rewrite <- Z.shiftr_spec by lia.
  rewrite Z.shiftr_div_pow2 by lia. change (2^3) with 8.
  replace ((8 * a + b) / 8) with a by lia. reflexivity.
Qed.

Lemma testbit_lo a b i : 0 <= b < 8 -> 0 <= i < 3 -> Z.testbit (8 * a + b) i = Z.testbit b i.
Proof.
  intros Hb Hi.
  rewrite <- (Z.mod_pow2_bits_low (8 * a + b) 3 i) by lia.
  change (2^3) with 8. replace ((8 * a + b) mod 8) with b by lia. reflexivity.
Qed.

(** The coordinate that owns bit [i] of a key. *)
Definition owner (x y z : Z) (i : Z) : Z :=
  if i mod 3 =? 2 then x else if i mod 3 =? 1 then y else z.

Lemma owner_shift x y z i : owner x y z (i - 3) = owner x y z i.
Proof. unfold owner. replace ((i - 3) mod 3) with (i mod 3) by lia. reflexivity. Qed.

Lemma owner_half x y z i : owner (x / 2) (y / 2) (z / 2) i = owner x y z i / 2.
Proof. unfold owner. destruct (i mod 3 =? 2); [reflexivity|]. destruct (i mod 3 =? 1); reflexivity. Qed.

Lemma digit_bound x y z : 0 <= 4 * (x mod 2) + 2 * (y mod 2) + z mod 2 < 8.
Proof. lia. Qed.

Lemma testbit_mod2 x : Z.b2z (Z.testbit x 0) = x mod 2.
Proof. rewrite Z.bit0_odd, Zmod_odd. destruct (Z.odd x); reflexivity. Qed.

Lemma digit_bits x y z i : 0 <= i < 3 ->
  Z.testbit (4 * (x mod 2) + 2 * (y mod 2) + z mod 2) i = Z.testbit (owner x y z i) 0.
Proof.
  intros Hi.
  rewrite <- !testbit_mod2.
  assert (Hc : i = 0 \/ i = 1 \/ i = 2) by lia.
  destruct Hc as [-> | [-> | ->]]; unfold owner; cbn [Z.eqb Z.modulo];
    change (0 mod 3) with 0; change (1 mod 3) with 1; change (2 mod 3) with 2;
    cbn [Z.eqb Pos.eqb];
    destruct (Z.testbit x 0), (Z.testbit y 0), (Z.testbit z 0); reflexivity.
Qed.

Lemma morton_bits d : forall x y z i, 0 <= i ->
  Z.testbit (morton d x y z) i
  = (i <? 3 * Z.of_nat d) && Z.testbit (owner x y z i) (i / 3).
Proof.
  induction d as [|d IH]; intros x y z i Hi.
  - cbn [morton]. rewrite Z.testbit_0_l. symmetry. apply andb_false_intro1.
    apply Z.ltb_ge. lia.
  - cbn [morton]. destruct (Z.ltb_spec i 3) as [Hlt|Hge].
    + rewrite testbit_lo by (auto using digit_bound || lia).
      rewrite digit_bits by lia.
      replace (i / 3) with 0 by lia.
      replace (i <? 3 * Z.of_nat (S d)) with true by (symmetry; apply Z.ltb_lt; lia).
      reflexivity.
    + rewrite testbit_hi by (auto using digit_bound || lia).
      rewrite IH by lia. rewrite owner_shift, owner_half.
      f_equal.
      * apply Bool.eq_true_iff_eq. rewrite !Z.ltb_lt. lia.
      * rewrite Z.div2_bits by lia. f_equal. lia.
Qed.

Lemma morton_range d : forall x y z, 0 <= morton d x y z < 8 ^ Z.of_nat d.
Proof.
  induction d as [|d IH]; intros x y z; cbn [morton].
  - change (8 ^ Z.of_nat 0) with 1. lia.
  - specialize (IH (x / 2) (y / 2) (z / 2)).
    rewrite Nat2Z.inj_succ, Z.pow_succ_r by lia.
    pose proof (digit_bound x y z). lia.
Qed.

Lemma pow8_pow2 n : 8 ^ Z.of_nat n = 2 ^ (3 * Z.of_nat n).
Proof. rewrite Z.pow_mul_r by lia. reflexivity. Qed.

Lemma morton_lt_48 d x y z : (d <= 16)%nat -> 0 <= morton d x y z < 2 ^ 48.
Proof.
  intros Hd. pose proof (morton_range d x y z) as H. rewrite pow8_pow2 in H.
  assert (2 ^ (3 * Z.of_nat d) <= 2 ^ 48) by (apply Z.pow_le_mono_r; lia). lia.
Qed.

(** Only the low [d] bits of the coordinates matter. *)
Lemma morton_mod d x y z k : Z.of_nat d <= k ->
  morton d (x mod 2 ^ k) (y mod 2 ^ k) (z mod 2 ^ k) = morton d x y z.
Proof.
  intros Hk. apply Z.bits_inj'; intros i Hi.
  rewrite !morton_bits by lia.
  destruct (Z.ltb_spec i (3 * Z.of_nat d)) as [H|H]; [|reflexivity].
  unfold owner.
  destruct (i mod 3 =? 2); [|destruct (i mod 3 =? 1)];
    rewrite Z.mod_pow2_bits_low by lia; reflexivity.
Qed.

Lemma morton_mod_trunc d e x y z : (d <= e)%nat ->
  morton e (x mod 2 ^ Z.of_nat d) (y mod 2 ^ Z.of_nat d) (z mod 2 ^ Z.of_nat d)
  = morton d x y z.
Proof.
  intros Hk. apply Z.bits_inj'; intros i Hi.
  rewrite !morton_bits by lia.
  destruct (Z.ltb_spec i (3 * Z.of_nat d)) as [H|H].
  - replace (i <? 3 * Z.of_nat e) with true by (symmetry; apply Z.ltb_lt; lia).
    cbn [andb]. unfold owner.
    destruct (i mod 3 =? 2); [|destruct (i mod 3 =? 1)];
      rewrite Z.mod_pow2_bits_low by lia; reflexivity.
  - cbn [andb]. apply andb_false_intro2. unfold owner.
    destruct (i mod 3 =? 2); [|destruct (i mod 3 =? 1)];
      rewrite Z.mod_pow2_bits_high by lia; reflexivity.
Qed.

Lemma morton_split d x y z :
  Z.lor (Z.lor (morton d x 0 0) (morton d 0 y 0)) (morton d 0 0 z) = morton d x y z.
Proof.
  apply Z.bits_inj'; intros i Hi.
  rewrite !Z.lor_spec, !morton_bits by lia. unfold owner.
  destruct (i <? 3 * Z.of_nat d); [|reflexivity]. cbn [andb].
  destruct (i mod 3 =? 2); [|destruct (i mod 3 =? 1)];
    rewrite !Z.testbit_0_l; rewrite ?orb_false_r, ?orb_false_l; reflexivity.
Qed.

(** ** 64-bit arithmetic is exact where nothing overflows *)

Lemma wrap64_id z : - 2 ^ 63 <= z < 2 ^ 63 -> wrap64 z = z.
Proof. intros H. unfold wrap64. rewrite Z.mod_small by lia. lia. Qed.

Lemma shl64_range x n : 0 <= n -> - 2 ^ 63 <= x * 2 ^ n < 2 ^ 63 -> shl64 x n = x * 2 ^ n.
Proof.
  intros Hn H. unfold shl64. rewrite Z.shiftl_mul_pow2 by lia.
  apply wrap64_id. exact H.
Qed.

Lemma shl64_exact x n : 0 <= n -> 0 <= x -> x * 2 ^ n < 2 ^ 63 -> shl64 x n = x * 2 ^ n.
Proof.
  intros Hn Hx H. apply shl64_range; [lia|].
  assert (0 < 2 ^ n) by (apply Z.pow_pos_nonneg; lia). nia.
Qed.

(** ** list access *)

Lemma nth_error_map_Z {A} (f : Z -> A) n i :
  (i < n)%nat -> nth_error (map f (arange n)) i = Some (f (Z.of_nat i)).
Proof.
  intros H. unfold arange. rewrite map_map.
  rewrite nth_error_map.
  rewrite (nth_error_nth' _ 0%nat) by (rewrite seq_length; exact H).
  rewrite seq_nth by exact H. reflexivity.
Qed.

Lemma arange_length n : length (arange n) = n.
Proof. unfold arange. rewrite map_length, seq_length. reflexivity. Qed.

Lemma tget_nth {A} (l : list A) (i : Z) (a : A) :
  0 <= i -> nth_error l (Z.to_nat i) = Some a -> tget l i = Ok a.
Proof.
  intros Hi H. unfold tget, norm_index, zlen.
  assert (Z.to_nat i < length l)%nat by (apply nth_error_Some; rewrite H; discriminate).
  replace (0 <=? i) with true by (symmetry; apply Z.leb_le; lia).
  replace (i <? Z.of_nat (length l)) with true by (symmetry; apply Z.ltb_lt; lia).
  cbn [andb]. rewrite H. reflexivity.
Qed.

Lemma tget_map_arange {A} (f : Z -> A) n i :
  0 <= i < Z.of_nat n -> tget (map f (arange n)) i = Ok (f i).
Proof.
  intros H. apply tget_nth; [lia|].
  rewrite nth_error_map_Z by lia. rewrite Z2Nat.id by lia. reflexivity.
Qed.

(** ** the tables *)

Lemma forallb_arange (P : Z -> bool) n :
  forallb P (arange n) = true -> forall i, 0 <= i < Z.of_nat n -> P i = true.
Proof.
  intros H i Hi. rewrite forallb_forall in H. apply H.
  unfold arange. apply in_map_iff. exists (Z.to_nat i).
  split; [lia|]. apply in_seq. lia.
Qed.

Lemma EX_get v : 0 <= v < 256 -> tget EX v = Ok (morton 8 v 0 0).
Proof.
  intros H. unfold EX. rewrite tget_map_arange by (cbn; lia). f_equal.
  apply Z.eqb_eq.
  refine (forallb_arange (fun v => loop_xyz2key v 0 0 8 =? morton 8 v 0 0) 256 _ v _).
  - vm_compute; reflexivity.
  - cbn; lia.
Qed.

Lemma EY_get v : 0 <= v < 256 -> tget EY v = Ok (morton 8 0 v 0).
Proof.
  intros H. unfold EY. rewrite tget_map_arange by (cbn; lia). f_equal.
  apply Z.eqb_eq.
  refine (forallb_arange (fun v => loop_xyz2key 0 v 0 8 =? morton 8 0 v 0) 256 _ v _).
  - vm_compute; reflexivity.
  - cbn; lia.
Qed.

Lemma EZ_get v : 0 <= v < 256 -> tget EZ v = Ok (morton 8 0 0 v).
Proof.
  intros H. unfold EZ. rewrite tget_map_arange by (cbn; lia). f_equal.
  apply Z.eqb_eq.
  refine (forallb_arange (fun v => loop_xyz2key 0 0 v 8 =? morton 8 0 0 v) 256 _ v _).
  - vm_compute; reflexivity.
  - cbn; lia.
Qed.

Lemma lut3_get i j k :
  0 <= i < 256 -> 0 <= j < 256 -> 0 <= k < 256 -> lut3 i j k = Ok (morton 8 i j k).
Proof.
  intros Hi Hj Hk. unfold lut3.
  rewrite EX_get, EY_get, EZ_get by assumption. cbn [bind].
  rewrite morton_split. reflexivity.
Qed.

Lemma land_mask_mod x n : 0 <= n -> Z.land x (Z.shiftl 1 n - 1) = x mod 2 ^ n.
Proof.
  intros H. rewrite Z.shiftl_1_l.
  replace (2 ^ n - 1) with (Z.ones n) by (rewrite Z.ones_equiv; lia).
  apply Z.land_ones; lia.
Qed.

Lemma land_255 x : Z.land x 255 = x mod 2 ^ 8.
Proof. change 255 with (Z.ones 8). apply Z.land_ones; lia. Qed.

Lemma mod_pow_range x n : 0 <= n <= 8 -> 0 <= x mod 2 ^ n < 256.
Proof.
  intros H. pose proof (Z.mod_pos_bound x (2 ^ n)) as P.
  assert (0 < 2 ^ n) by (apply Z.pow_pos_nonneg; lia).
  assert (2 ^ n <= 2 ^ 8) by (apply Z.pow_le_mono_r; lia).
  change (2 ^ 8) with 256 in *. lia.
Qed.

Lemma morton_bits_le d x y z i : 0 <= i -> 3 * Z.of_nat d <= i -> Z.testbit (morton d x y z) i = false.
Proof.
  intros Hi H. rewrite morton_bits by lia.
  replace (i <? 3 * Z.of_nat d) with false by (symmetry; apply Z.ltb_ge; lia). reflexivity.
Qed.

(** Low 8 bits and high bits of each coordinate encode separately. *)
Lemma morton_16 d x y z : (8 <= d)%nat ->
  Z.lor (Z.shiftl (morton (d - 8) (x / 256) (y / 256) (z / 256)) 24) (morton 8 x y z)
  = morton d x y z.
Proof.
  intros Hd. apply Z.bits_inj'; intros i Hi.
  rewrite Z.lor_spec, !morton_bits by lia.
  destruct (Z.ltb_spec i 24) as [H|H].
  - rewrite Z.shiftl_spec_low by lia.
    replace (i <? 3 * Z.of_nat 8) with true by (symmetry; apply Z.ltb_lt; lia).
    replace (i <? 3 * Z.of_nat d) with true by (symmetry; apply Z.ltb_lt; lia).
    reflexivity.
  - rewrite Z.shiftl_spec by lia.
    replace (i <? 3 * Z.of_nat 8) with false by (symmetry; apply Z.ltb_ge; lia).
    cbn [andb]. rewrite orb_false_r.
    rewrite morton_bits by lia.
    f_equal.
    + apply Bool.eq_true_iff_eq. rewrite !Z.ltb_lt. lia.
    + unfold owner. replace ((i - 24) mod 3) with (i mod 3) by lia.
      replace ((i - 24) / 3) with (i / 3 - 8) by lia.
      assert (Hs : forall v, Z.testbit (v / 256) (i / 3 - 8) = Z.testbit v (i / 3)).
      { intros v. change 256 with (2 ^ 8). rewrite <- Z.shiftr_div_pow2 by lia.
        rewrite Z.shiftr_spec by lia. f_equal. lia. }
      destruct (i mod 3 =? 2); [|destruct (i mod 3 =? 1)]; apply Hs.
Qed.

(** ** the encoder *)

Lemma xyz2key_morton x y z d : (d <= 16)%nat -> xyz2key x y z None d = Ok (morton d x y z).
Proof.
  intros Hd. unfold xyz2key.
  destruct (Nat.ltb_spec 8 d) as [Hgt|Hle].
  - rewrite !land_255, !Z.shiftr_div_pow2 by lia.
    rewrite !land_mask_mod by lia.
    rewrite lut3_get by (apply mod_pow_range; lia). cbn [bind].
    rewrite lut3_get by (apply mod_pow_range; lia). cbn [bind].
    f_equal.
    rewrite (morton_mod 8 x y z 8) by lia.
    replace (Z.of_nat d - 8) with (Z.of_nat (d - 8)) by lia.
    rewrite morton_mod_trunc by lia.
    rewrite <- (morton_16 d x y z) by lia. f_equal.
    change (2 ^ 8) with 256.
    pose proof (morton_range (d - 8) (x / 256) (y / 256) (z / 256)) as R.
    rewrite pow8_pow2 in R.
    assert (2 ^ (3 * Z.of_nat (d - 8)) <= 2 ^ 24) by (apply Z.pow_le_mono_r; lia).
    rewrite shl64_exact by lia.
    rewrite Z.shiftl_mul_pow2 by lia. reflexivity.
  - rewrite !land_mask_mod by lia.
    rewrite lut3_get by (apply mod_pow_range; lia). cbn [bind].
    rewrite morton_mod_trunc by lia. reflexivity.
Qed.

Lemma lor_shift_add b m : 0 <= m < 2 ^ 48 -> Z.lor (b * 2 ^ 48) m = b * 2 ^ 48 + m.
Proof.
  intros Hm.
  apply Z.bits_inj'; intros i Hi.
  rewrite Z.lor_spec.
  destruct (Z.ltb_spec i 48) as [H|H].
  - rewrite Z.mul_pow2_bits_low by lia. cbn [orb].
    rewrite <- (Z.mod_pow2_bits_low (b * 2 ^ 48 + m) 48 i) by lia.
    rewrite Z.add_comm, Z_mod_plus_full, Z.mod_small by lia. reflexivity.
  - rewrite Z.mul_pow2_bits by lia.
    assert (Hm0 : Z.testbit m i = false).
    { rewrite <- (Z.mod_small m (2 ^ 48)) by lia. apply Z.mod_pow2_bits_high; lia. }
    rewrite Hm0, orb_false_r.
    replace i with ((i - 48) + 48) at 2 by lia.
    rewrite <- Z.shiftr_spec by lia. rewrite Z.shiftr_div_pow2 by lia.
    rewrite Z.add_comm, Z_div_plus_full by lia.
    rewrite Z.div_small by lia. reflexivity.
Qed.

Lemma xyz2key_some x y z b d :
  xyz2key x y z (Some b) d
  = (k <- xyz2key x y z None d ;; Ok (Z.lor (shl64 b 48) k)).
Proof.
  unfold xyz2key. cbv zeta.
  destruct (lut3 _ _ _) as [k0|e]; cbn [bind]; [|reflexivity].
  destruct (Nat.ltb 8 d); [|reflexivity].
  destruct (lut3 _ _ _) as [k1|e]; reflexivity.
Qed.

Lemma xyz2key_b x y z b d : (d <= 16)%nat -> - 2 ^ 15 <= b < 2 ^ 15 ->
  xyz2key x y z (Some b) d = Ok (key_of d b x y z).
Proof.
  intros Hd Hb. rewrite xyz2key_some, xyz2key_morton by exact Hd. cbn [bind].
  rewrite shl64_range by lia. rewrite lor_shift_add by (apply morton_lt_48; exact Hd).
  reflexivity.
Qed.

(** ** unmorton *)

Lemma unmorton_morton d : forall x y z, in_cube d x y z ->
  unmorton_x d (morton d x y z) = x /\ unmorton_y d (morton d x y z) = y
  /\ unmorton_z d (morton d x y z) = z.
Proof.
  induction d as [|d IH]; intros x y z (Hx & Hy & Hz); unfold in_grid in *.
  - change (2 ^ Z.of_nat 0) with 1 in *. cbn. lia.
  - rewrite Nat2Z.inj_succ, Z.pow_succ_r in * by lia.
    cbn [morton unmorton_x unmorton_y unmorton_z].
    set (M := morton d (x / 2) (y / 2) (z / 2)).
    pose proof (digit_bound x y z) as Hb.
    replace ((8 * M + (4 * (x mod 2) + 2 * (y mod 2) + z mod 2)) / 8) with M by lia.
    specialize (IH (x / 2) (y / 2) (z / 2)).
    destruct IH as (I1 & I2 & I3); [unfold in_cube, in_grid; lia|].
    fold M in I1, I2, I3. rewrite I1, I2, I3.
    clearbody M. lia.
Qed.

Lemma unmorton_range d : forall m,
  in_cube d (unmorton_x d m) (unmorton_y d m) (unmorton_z d m).
Proof.
  induction d as [|d IH]; intros m; unfold in_cube, in_grid in *.
  - cbn; lia.
  - specialize (IH (m / 8)).
    rewrite Nat2Z.inj_succ, Z.pow_succ_r by lia. cbn [unmorton_x unmorton_y unmorton_z].
    lia.
Qed.

Lemma morton_unmorton d : forall m, 0 <= m < 8 ^ Z.of_nat d ->
  morton d (unmorton_x d m) (unmorton_y d m) (unmorton_z d m) = m.
Proof.
  induction d as [|d IH]; intros m Hm.
  - change (8 ^ Z.of_nat 0) with 1 in Hm. cbn. lia.
  - rewrite Nat2Z.inj_succ, Z.pow_succ_r in Hm by lia.
    cbn [morton unmorton_x unmorton_y unmorton_z].
    replace ((2 * unmorton_x d (m / 8) + (m / 4) mod 2) / 2) with (unmorton_x d (m / 8)) by lia.
    replace ((2 * unmorton_y d (m / 8) + (m / 2) mod 2) / 2) with (unmorton_y d (m / 8)) by lia.
    replace ((2 * unmorton_z d (m / 8) + m mod 2) / 2) with (unmorton_z d (m / 8)) by lia.
    rewrite IH by lia. lia.
Qed.

Lemma morton_inj d x y z x' y' z' : in_cube d x y z -> in_cube d x' y' z' ->
  morton d x y z = morton d x' y' z' -> x = x' /\ y = y' /\ z = z'.
Proof.
  intros H H' E.
  destruct (unmorton_morton d _ _ _ H) as (A & B & C).
  destruct (unmorton_morton d _ _ _ H') as (A' & B' & C').
  rewrite E in A, B, C. lia.
Qed.

Lemma key_of_inj d b x y z b' x' y' z' : (d <= 16)%nat ->
  in_cube d x y z -> in_cube d x' y' z' ->
  key_of d b x y z = key_of d b' x' y' z' -> b = b' /\ x = x' /\ y = y' /\ z = z'.
Proof.
  intros Hd H H' E. unfold key_of in E.
  pose proof (morton_lt_48 d x y z Hd). pose proof (morton_lt_48 d x' y' z' Hd).
  assert (b = b') by lia. subst b'.
  split; [reflexivity|]. apply (morton_inj d); auto. lia.
Qed.

(** ** the decoder *)

Definition un3 (d : nat) (m : Z) : Z * Z * Z := (unmorton_x d m, unmorton_y d m, unmorton_z d m).

Lemma D_get k : 0 <= k < 512 ->
  tget DX k = Ok (unmorton_x 3 k) /\ tget DY k = Ok (unmorton_y 3 k) /\ tget DZ k = Ok (unmorton_z 3 k).
Proof.
  intros H. unfold DX, DY, DZ. rewrite !tget_map_arange by (cbn; lia).
  assert (E : loop_key2xyz k 9 = un3 3 k).
  { pose (P := fun k => let '(x, y, z) := loop_key2xyz k 9 in
             (x =? unmorton_x 3 k) && (y =? unmorton_y 3 k) && (z =? unmorton_z 3 k)).
    assert (HP : P k = true).
    { refine (forallb_arange P 512 _ k _); [vm_compute; reflexivity | cbn; lia]. }
    unfold P in HP. destruct (loop_key2xyz k 9) as [[x y] z].
    rewrite !andb_true_iff, !Z.eqb_eq in HP. unfold un3. destruct HP as [[-> ->] ->].
    reflexivity. }
  rewrite E. unfold un3. auto.
Qed.

Lemma unmorton_bits d : forall m i, 0 <= i ->
  Z.testbit (unmorton_x d m) i = (i <? Z.of_nat d) && Z.testbit m (3 * i + 2) /\
  Z.testbit (unmorton_y d m) i = (i <? Z.of_nat d) && Z.testbit m (3 * i + 1) /\
  Z.testbit (unmorton_z d m) i = (i <? Z.of_nat d) && Z.testbit m (3 * i).
Proof.
  induction d as [|d IH]; intros m i Hi.
  - cbn [unmorton_x unmorton_y unmorton_z]. rewrite !Z.testbit_0_l.
    replace (i <? Z.of_nat 0) with false by (symmetry; apply Z.ltb_ge; lia). auto.
  - cbn [unmorton_x unmorton_y unmorton_z].
    assert (Hs : forall v w j, 0 <= j -> Z.testbit (2 * v + w mod 2) j
               = if j =? 0 then Z.testbit w 0 else Z.testbit v (j - 1)).
    { intros v w j Hj. destruct (Z.eqb_spec j 0) as [->|Hj0].
      - rewrite Z.add_comm, !Z.bit0_odd, Z.odd_add_mul_2, !Zodd_mod.
        rewrite Z.mod_mod by lia. reflexivity.
      - replace j with (Z.succ (j - 1)) at 1 by lia.
        rewrite <- testbit_mod2.
        rewrite Z.testbit_succ_r by lia. reflexivity. }
    assert (H8 : forall j, 0 <= j -> Z.testbit (m / 8) j = Z.testbit m (j + 3)).
    { intros j Hj. change 8 with (2 ^ 3). rewrite <- Z.shiftr_div_pow2 by lia.
      apply Z.shiftr_spec; lia. }
    assert (H4 : Z.testbit (m / 4) 0 = Z.testbit m 2).
    { change 4 with (2 ^ 2). rewrite <- Z.shiftr_div_pow2 by lia.
      rewrite Z.shiftr_spec by lia. reflexivity. }
    assert (H2 : Z.testbit (m / 2) 0 = Z.testbit m 1).
    { change 2 with (2 ^ 1). rewrite <- Z.shiftr_div_pow2 by lia.
      rewrite Z.shiftr_spec by lia. reflexivity. }
    rewrite !Hs by lia.
    destruct (Z.eqb_spec i 0) as [->|Hi0].
    + replace (0 <? Z.of_nat (S d)) with true by (symmetry; apply Z.ltb_lt; lia).
      rewrite H4, H2. auto.
    + destruct (IH (m / 8) (i - 1)) as (A & B & C); [lia|].
      rewrite A, B, C, !H8 by lia.
      replace (i - 1 <? Z.of_nat d) with (i <? Z.of_nat (S d))
        by (apply Bool.eq_true_iff_eq; rewrite !Z.ltb_lt; lia).
      replace (3 * (i - 1) + 2 + 3) with (3 * i + 2) by lia.
      replace (3 * (i - 1) + 1 + 3) with (3 * i + 1) by lia.
      replace (3 * (i - 1) + 3) with (3 * i) by lia. auto.
Qed.

Lemma land_511 x : Z.land x 511 = x mod 2 ^ 9.
Proof. change 511 with (Z.ones 9). apply Z.land_ones; lia. Qed.

(** One step of the decoding loop: three more bits of a coordinate. *)
Lemma group_bits (c : Z) (un : nat -> Z -> Z) :
  (0 <= c <= 2) ->
  (forall d m i, 0 <= i -> Z.testbit (un d m) i = (i <? Z.of_nat d) && Z.testbit m (3 * i + c)) ->
  forall n key, 
  Z.lor (un (3 * n)%nat key)
        (Z.shiftl (un 3%nat (Z.shiftr key (Z.of_nat n * 9) mod 2 ^ 9)) (Z.of_nat n * 3))
  = un (3 * S n)%nat key.
Proof.
  intros Hc Hun n key. apply Z.bits_inj'; intros i Hi.
  rewrite Z.lor_spec, !Hun by lia.
  destruct (Z.ltb_spec i (Z.of_nat n * 3)) as [H|H].
  - rewrite Z.shiftl_spec_low by lia. rewrite orb_false_r.
    replace (i <? Z.of_nat (3 * n)) with true by (symmetry; apply Z.ltb_lt; lia).
    replace (i <? Z.of_nat (3 * S n)) with true by (symmetry; apply Z.ltb_lt; lia).
    reflexivity.
  - rewrite Z.shiftl_spec by lia. rewrite Hun by lia.
    replace (i <? Z.of_nat (3 * n)) with false by (symmetry; apply Z.ltb_ge; lia).
    cbn [andb orb].
    replace (i - Z.of_nat n * 3 <? Z.of_nat 3) with (i <? Z.of_nat (3 * S n))
      by (apply Bool.eq_true_iff_eq; rewrite !Z.ltb_lt; lia).
    destruct (Z.ltb_spec i (Z.of_nat (3 * S n))) as [H2|H2]; [|reflexivity].
    cbn [andb]. rewrite Z.mod_pow2_bits_low by lia.
    rewrite Z.shiftr_spec by lia. f_equal. lia.
Qed.

Lemma unmorton_small3 k : 0 <= unmorton_x 3 k < 8 /\ 0 <= unmorton_y 3 k < 8 /\ 0 <= unmorton_z 3 k < 8.
Proof. pose proof (unmorton_range 3 k) as H. unfold in_cube, in_grid in H. cbn in H |- *. lia. Qed.

Lemma decode_loop key n : (n <= 6)%nat ->
  foldM
    (fun '(x, y, z) i =>
       let i := Z.of_nat i in
       let k := Z.land (Z.shiftr key (i * 9)) 511 in
       dx <- tget DX k ;; dy <- tget DY k ;; dz <- tget DZ k ;;
       Ok (Z.lor x (shl64 dx (i * 3)), Z.lor y (shl64 dy (i * 3)), Z.lor z (shl64 dz (i * 3))))
    (0, 0, 0) (seq 0 n) = Ok (un3 (3 * n)%nat key).
Proof.
  induction n as [|n IH]; intros Hn; [reflexivity|].
  rewrite seq_S, foldM_app, IH by lia. cbn [bind foldM plus]. cbv zeta.
  unfold un3 at 1. cbn [Nat.add].
  rewrite land_511.
  set (k := Z.shiftr key (Z.of_nat n * 9) mod 2 ^ 9).
  assert (Hk : 0 <= k < 512).
  { unfold k. change 512 with (2 ^ 9). apply Z.mod_pos_bound. lia. }
  destruct (D_get k Hk) as (-> & -> & ->). cbn [bind].
  destruct (unmorton_small3 k) as (Bx & By & Bz).
  assert (Hp : 0 < 2 ^ (Z.of_nat n * 3)) by (apply Z.pow_pos_nonneg; lia).
  assert (Hp2 : 2 ^ (Z.of_nat n * 3) <= 2 ^ 18) by (apply Z.pow_le_mono_r; lia).
  assert (Hsh : forall v, 0 <= v < 8 -> shl64 v (Z.of_nat n * 3) = Z.shiftl v (Z.of_nat n * 3)).
  { intros v Hv. rewrite Z.shiftl_mul_pow2 by lia. apply shl64_exact; try lia.
    change (2 ^ 18) with 262144 in Hp2. change (2 ^ 63) with 9223372036854775808. nia. }
  rewrite !Hsh by assumption. unfold un3. unfold k. clear.
  f_equal. f_equal; [f_equal|].
  - apply (group_bits 2 unmorton_x); [lia|]. intros d m i Hi. apply unmorton_bits; exact Hi.
  - apply (group_bits 1 unmorton_y); [lia|]. intros d m i Hi. apply unmorton_bits; exact Hi.
  - apply (group_bits 0 unmorton_z); [lia|]. intros d m i Hi.
    destruct (unmorton_bits d m i Hi) as (_ & _ & ->). f_equal. f_equal. lia.
Qed.

Lemma testbit_above m n i : 0 <= m < 2 ^ n -> n <= i -> Z.testbit m i = false.
Proof.
  intros Hm Hi. assert (0 <= n) by (destruct (Z.neg_nonneg_cases n); [rewrite Z.pow_neg_r in Hm; lia|lia]).
  rewrite <- (Z.mod_small m (2 ^ n)) by lia. apply Z.mod_pow2_bits_high. lia.
Qed.

Lemma un3_more d e m : (d <= e)%nat -> 0 <= m < 8 ^ Z.of_nat d -> un3 e m = un3 d m.
Proof.
  intros Hde Hm. rewrite pow8_pow2 in Hm. unfold un3.
  assert (Hz : forall i c, 0 <= c -> Z.of_nat d <= i -> Z.testbit m (3 * i + c) = false).
  { intros i c Hc Hi. apply (testbit_above m (3 * Z.of_nat d)); lia. }
  f_equal; [f_equal|]; apply Z.bits_inj'; intros i Hi;
    destruct (unmorton_bits d m i Hi) as (A & B & C);
    destruct (unmorton_bits e m i Hi) as (A' & B' & C');
    rewrite ?A, ?B, ?C, ?A', ?B', ?C';
    (destruct (Z.ltb_spec i (Z.of_nat d)) as [H|H];
     [ replace (i <? Z.of_nat e) with true by (symmetry; apply Z.ltb_lt; lia); reflexivity
     | cbn [andb]; apply andb_false_intro2 ]).
  - apply Hz; lia.
  - apply Hz; lia.
  - replace (3 * i) with (3 * i + 0) by lia. apply Hz; lia.
Qed.

Lemma key2xyz_spec b m d : (d <= 16)%nat -> 0 <= m < 8 ^ Z.of_nat d ->
  key2xyz (b * 2 ^ 48 + m) d = Ok (unmorton_x d m, unmorton_y d m, unmorton_z d m, b).
Proof.
  intros Hd Hm. unfold key2xyz.
  assert (Hm48 : 0 <= m < 2 ^ 48).
  { rewrite pow8_pow2 in Hm.
    assert (2 ^ (3 * Z.of_nat d) <= 2 ^ 48) by (apply Z.pow_le_mono_r; lia). lia. }
  rewrite land_mask_mod by lia.
  rewrite Z.shiftr_div_pow2 by lia.
  replace ((b * 2 ^ 48 + m) / 2 ^ 48) with b by lia.
  replace ((b * 2 ^ 48 + m) mod 2 ^ 48) with m by lia.
  assert (Hn : ((d + 2) / 3 <= 6)%nat) by (apply Nat.div_le_upper_bound; lia).
  assert (Hn2 : (d <= 3 * ((d + 2) / 3))%nat).
  { pose proof (Nat.div_mod (d + 2) 3). pose proof (Nat.mod_upper_bound (d + 2) 3). lia. }
  rewrite decode_loop by exact Hn. cbn [bind].
  rewrite (un3_more d) by (lia || exact Hm). reflexivity.
Qed.

(** ** round trips *)

Lemma decode_encode x y z b d : (d <= 16)%nat -> - 2 ^ 15 <= b < 2 ^ 15 -> in_cube d x y z ->
  (k <- xyz2key x y z (Some b) d ;; key2xyz k d) = Ok (x, y, z, b).
Proof.
  intros Hd Hb H. rewrite xyz2key_b by assumption. cbn [bind]. unfold key_of.
  rewrite key2xyz_spec by (exact Hd || apply morton_range).
  destruct (unmorton_morton d x y z H) as (-> & -> & ->). reflexivity.
Qed.

Lemma key2xyz_key_of d b x y z : (d <= 16)%nat -> in_cube d x y z ->
  key2xyz (key_of d b x y z) d = Ok (x, y, z, b).
Proof.
  intros Hd H. unfold key_of.
  rewrite key2xyz_spec by (exact Hd || apply morton_range).
  destruct (unmorton_morton d x y z H) as (-> & -> & ->). reflexivity.
Qed.

Lemma encode_decode k d : (d <= 16)%nat -> - 2 ^ 63 <= k < 2 ^ 63 -> k mod 2 ^ 48 < 8 ^ Z.of_nat d ->
  exists x y z b, key2xyz k d = Ok (x, y, z, b) /\ in_cube d x y z /\ - 2 ^ 15 <= b < 2 ^ 15
                  /\ xyz2key x y z (Some b) d = Ok k.
Proof.
  intros Hd Hk Hm.
  exists (unmorton_x d (k mod 2 ^ 48)), (unmorton_y d (k mod 2 ^ 48)),
         (unmorton_z d (k mod 2 ^ 48)), (k / 2 ^ 48).
  assert (Hb : - 2 ^ 15 <= k / 2 ^ 48 < 2 ^ 15) by lia.
  assert (Hm' : 0 <= k mod 2 ^ 48 < 8 ^ Z.of_nat d)
    by (pose proof (Z.mod_pos_bound k (2 ^ 48)); lia).
  split; [|split; [|split]].
  - rewrite <- key2xyz_spec by assumption. f_equal. lia.
  - apply unmorton_range.
  - exact Hb.
  - rewrite xyz2key_b by assumption. unfold key_of.
    rewrite morton_unmorton by exact Hm'. f_equal. lia.
Qed.

(** ** parents, order *)

Lemma morton_S d x y z :
  morton (S d) x y z = 8 * morton d (x / 2) (y / 2) (z / 2) + (4 * (x mod 2) + 2 * (y mod 2) + z mod 2).
Proof. reflexivity. Qed.

Lemma parent_morton d x y z :
  Z.shiftr (morton (S d) x y z) 3 = morton d (x / 2) (y / 2) (z / 2) /\
  morton (S d) x y z mod 8 = 4 * (x mod 2) + 2 * (y mod 2) + z mod 2.
Proof.
  rewrite Z.shiftr_div_pow2 by lia. change (2 ^ 3) with 8. rewrite morton_S.
  pose proof (digit_bound x y z). lia.
Qed.

Lemma key_order d b x y z b' x' y' z' : (d <= 16)%nat ->
  key_of d b x y z < key_of d b' x' y' z' <->
  b < b' \/ (b = b' /\ morton d x y z < morton d x' y' z').
Proof.
  intros Hd. unfold key_of.
  pose proof (morton_lt_48 d x y z Hd). pose proof (morton_lt_48 d x' y' z' Hd). lia.
Qed.

Lemma morton_order d x y z x' y' z' :
  morton (S d) x y z < morton (S d) x' y' z' <->
  morton d (x / 2) (y / 2) (z / 2) < morton d (x' / 2) (y' / 2) (z' / 2) \/
  (morton d (x / 2) (y / 2) (z / 2) = morton d (x' / 2) (y' / 2) (z' / 2) /\
   4 * (x mod 2) + 2 * (y mod 2) + z mod 2 < 4 * (x' mod 2) + 2 * (y' mod 2) + z' mod 2).
Proof.
  rewrite !morton_S.
  pose proof (digit_bound x y z). pose proof (digit_bound x' y' z'). lia.
Qed.

(** ** the loop encoder *)

Lemma land_pow2 x i : 0 <= i -> Z.land x (Z.shiftl 1 i) = Z.b2z (Z.testbit x i) * 2 ^ i.
Proof.
  intros Hi. rewrite Z.shiftl_1_l. apply Z.bits_inj'; intros j Hj.
  rewrite Z.land_spec, Z.pow2_bits_eqb by lia.
  destruct (Z.ltb_spec j i) as [H|H].
  - rewrite Z.mul_pow2_bits_low by lia.
    replace (i =? j) with false by (symmetry; apply Z.eqb_neq; lia). apply andb_false_r.
  - rewrite Z.mul_pow2_bits by lia. destruct (Z.eqb_spec i j) as [->|Hne].
    + rewrite Z.sub_diag, Z.b2z_bit0, andb_true_r. reflexivity.
    + rewrite andb_false_r. destruct (Z.testbit x i); cbn [Z.b2z].
      * symmetry. apply (testbit_above 1 1); lia.
      * rewrite Z.testbit_0_l; reflexivity.
Qed.

Lemma b2z_pow_bits (b : bool) n i : 0 <= n -> 0 <= i ->
  Z.testbit (Z.b2z b * 2 ^ n) i = (i =? n) && b.
Proof.
  intros Hn Hi. destruct b; cbn [Z.b2z].
  - rewrite Z.mul_1_l, Z.pow2_bits_eqb, andb_true_r by lia. apply Z.eqb_sym.
  - rewrite Z.mul_0_l, Z.testbit_0_l, andb_false_r. reflexivity.
Qed.

Lemma loop_step_term x i c : 0 <= i <= 15 -> 0 <= c <= 2 ->
  shl64 (Z.land x (Z.shiftl 1 i)) (2 * i + c) = Z.b2z (Z.testbit x i) * 2 ^ (3 * i + c).
Proof.
  intros Hi Hc. rewrite land_pow2 by lia.
  assert (E : Z.b2z (Z.testbit x i) * 2 ^ i * 2 ^ (2 * i + c)
              = Z.b2z (Z.testbit x i) * 2 ^ (3 * i + c)).
  { rewrite <- Z.mul_assoc, <- Z.pow_add_r by lia. f_equal. f_equal. lia. }
  assert (0 <= 2 ^ (3 * i + c)) by (apply Z.pow_nonneg; lia).
  assert (2 ^ (3 * i + c) <= 2 ^ 47) by (apply Z.pow_le_mono_r; lia).
  rewrite shl64_exact; rewrite ?E; try lia;
    destruct (Z.testbit x i); cbn [Z.b2z]; lia.
Qed.

Lemma loop_xyz2key_morton x y z d : (d <= 16)%nat -> loop_xyz2key x y z d = morton d x y z.
Proof.
  unfold loop_xyz2key. induction d as [|d IH]; intros Hd; [reflexivity|].
  rewrite seq_S, fold_left_app, IH by lia. cbn [fold_left]. cbv zeta. cbn [Nat.add].
  rewrite !loop_step_term by lia.
  apply Z.bits_inj'; intros i Hi.
  rewrite !Z.lor_spec, !b2z_pow_bits, !morton_bits by lia. unfold owner.
  destruct (Z.ltb_spec i (3 * Z.of_nat d)) as [H|H].
  - replace (i <? 3 * Z.of_nat (S d)) with true by (symmetry; apply Z.ltb_lt; lia).
    replace (i =? 3 * Z.of_nat d + 2) with false by (symmetry; apply Z.eqb_neq; lia).
    replace (i =? 3 * Z.of_nat d + 1) with false by (symmetry; apply Z.eqb_neq; lia).
    replace (i =? 3 * Z.of_nat d + 0) with false by (symmetry; apply Z.eqb_neq; lia).
    cbn [andb]. rewrite !orb_false_r. reflexivity.
  - cbn [andb orb].
    destruct (Z.ltb_spec i (3 * Z.of_nat (S d))) as [H2|H2].
    + assert (Hc : i = 3 * Z.of_nat d + 0 \/ i = 3 * Z.of_nat d + 1 \/ i = 3 * Z.of_nat d + 2) by lia.
      destruct Hc as [-> | [-> | ->]].
      * replace ((3 * Z.of_nat d + 0) mod 3) with 0 by lia.
        replace ((3 * Z.of_nat d + 0) / 3) with (Z.of_nat d) by lia.
        replace (3 * Z.of_nat d + 0 =? 3 * Z.of_nat d + 2) with false by (symmetry; apply Z.eqb_neq; lia).
        replace (3 * Z.of_nat d + 0 =? 3 * Z.of_nat d + 1) with false by (symmetry; apply Z.eqb_neq; lia).
        rewrite Z.eqb_refl. reflexivity.
      * replace ((3 * Z.of_nat d + 1) mod 3) with 1 by lia.
        replace ((3 * Z.of_nat d + 1) / 3) with (Z.of_nat d) by lia.
        replace (3 * Z.of_nat d + 1 =? 3 * Z.of_nat d + 2) with false by (symmetry; apply Z.eqb_neq; lia).
        replace (3 * Z.of_nat d + 1 =? 3 * Z.of_nat d + 0) with false by (symmetry; apply Z.eqb_neq; lia).
        rewrite Z.eqb_refl. cbn. rewrite orb_false_r. reflexivity.
      * replace ((3 * Z.of_nat d + 2) mod 3) with 2 by lia.
        replace ((3 * Z.of_nat d + 2) / 3) with (Z.of_nat d) by lia.
        replace (3 * Z.of_nat d + 2 =? 3 * Z.of_nat d + 1) with false by (symmetry; apply Z.eqb_neq; lia).
        replace (3 * Z.of_nat d + 2 =? 3 * Z.of_nat d + 0) with false by (symmetry; apply Z.eqb_neq; lia).
        rewrite Z.eqb_refl. cbn. rewrite !orb_false_r. reflexivity.
    + replace (i =? 3 * Z.of_nat d + 2) with false by (symmetry; apply Z.eqb_neq; lia).
      replace (i =? 3 * Z.of_nat d + 1) with false by (symmetry; apply Z.eqb_neq; lia).
      replace (i =? 3 * Z.of_nat d + 0) with false by (symmetry; apply Z.eqb_neq; lia).
      reflexivity.
Qed.

(** ** the table cache *)

Definition cache_ok (cpu : tables) (c : list (nat * tables)) : Prop :=
  assoc O c = Some cpu /\ forall d t, assoc d c = Some t -> t = cpu.

Lemma assoc_app {A} d (l : list (nat * A)) d' a :
  assoc d (l ++ [(d', a)])
  = match assoc d l with Some x => Some x | None => if Nat.eqb d d' then Some a else None end.
Proof.
  induction l as [|[e x] l IH]; cbn; [reflexivity|].
  destruct (Nat.eqb d e); [reflexivity|]. apply IH.
Qed.

Lemma cache_get_ok cpu c d : cache_ok cpu c ->
  exists c', cache_get c d = Ok (c', cpu) /\ cache_ok cpu c'.
Proof.
  intros [H0 H]. unfold cache_get.
  destruct (assoc d c) as [t|] eqn:E.
  - exists c. rewrite (H _ _ E). split; [reflexivity|]. split; assumption.
  - rewrite H0. exists (c ++ [(d, cpu)]). split; [reflexivity|].
    split; [rewrite assoc_app, H0; reflexivity|].
    intros d' t'. rewrite assoc_app. destruct (assoc d' c) as [x|] eqn:E'.
    + intros [= <-]. eapply H; exact E'.
    + destruct (Nat.eqb d' d); [intros [= <-]; reflexivity|discriminate].
Qed.

Definition lut_ok (c : lut_cache) : Prop :=
  cache_ok (EX, EY, EZ) (c_encode c) /\ cache_ok (DX, DY, DZ) (c_decode c).

Lemma lut_init_ok : lut_ok lut_init.
Proof.
  split; (split; [reflexivity|]); intros d t; unfold lut_init, c_encode, c_decode, assoc;
    (destruct (Nat.eqb d 0); [intros [= <-]; reflexivity|discriminate]).
Qed.

Definition req_tables (r : lut_req) : tables :=
  match r with ReqEncode _ => (EX, EY, EZ) | ReqDecode _ => (DX, DY, DZ) end.

Lemma lut_step_ok c r : lut_ok c ->
  exists c', lut_step c r = Ok (c', req_tables r) /\ lut_ok c'.
Proof.
  intros [He Hd]. destruct r as [d|d]; unfold lut_step, req_tables.
  - destruct (cache_get_ok _ _ d He) as (c' & -> & Hc'). cbn [bind].
    eexists; split; [reflexivity|]. split; assumption.
  - destruct (cache_get_ok _ _ d Hd) as (c' & -> & Hc'). cbn [bind].
    eexists; split; [reflexivity|]. split; assumption.
Qed.

Lemma lut_history_ok h : exists c,
  foldM (fun c r => '(c', _) <- lut_step c r ;; Ok c') lut_init h = Ok c /\ lut_ok c.
Proof.
  induction h as [|r h IH] using rev_ind.
  - exists lut_init. split; [reflexivity|apply lut_init_ok].
  - destruct IH as (c & E & Hc). rewrite foldM_app, E. cbn [bind foldM].
    destruct (lut_step_ok c r Hc) as (c' & -> & Hc'). cbn [bind].
    exists c'. split; [reflexivity|exact Hc'].
Qed.

(** ** statements used by P_Key.v *)

Lemma key_roundtrip x y z b d :
  (d <= 16)%nat -> -32768 <= b < 32768 ->
  0 <= x < 2 ^ Z.of_nat d -> 0 <= y < 2 ^ Z.of_nat d -> 0 <= z < 2 ^ Z.of_nat d ->
  exists k, xyz2key x y z (Some b) d = Ok k /\ key2xyz k d = Ok (x, y, z, b).
Proof.
  intros Hd Hb Hx Hy Hz. exists (key_of d b x y z).
  split; [apply xyz2key_b; assumption || (cbn; lia)|].
  apply key2xyz_key_of; [assumption|]. unfold in_cube, in_grid; auto.
Qed.

Lemma key_roundtrip_nobatch x y z d :
  (d <= 16)%nat ->
  0 <= x < 2 ^ Z.of_nat d -> 0 <= y < 2 ^ Z.of_nat d -> 0 <= z < 2 ^ Z.of_nat d ->
  exists k, xyz2key x y z None d = Ok k /\ key2xyz k d = Ok (x, y, z, 0).
Proof.
  intros Hd Hx Hy Hz. exists (morton d x y z).
  split; [apply xyz2key_morton; assumption|].
  rewrite <- (key2xyz_key_of d 0 x y z Hd); [|unfold in_cube, in_grid; auto].
  f_equal.
Qed.

Lemma key_layout x y z b d k : (d <= 16)%nat -> -32768 <= b < 32768 ->
  xyz2key x y z (Some b) d = Ok k ->
  (forall i, 0 <= i < Z.of_nat d ->
     Z.testbit k (3 * i + 2) = Z.testbit x i /\
     Z.testbit k (3 * i + 1) = Z.testbit y i /\
     Z.testbit k (3 * i) = Z.testbit z i) /\
  (forall i, 3 * Z.of_nat d <= i < 48 -> Z.testbit k i = false) /\
  k / 2 ^ 48 = b.
Proof.
  intros Hd Hb Hk. rewrite xyz2key_b in Hk by (assumption || (cbn; lia)). injection Hk as <-.
  pose proof (morton_lt_48 d x y z Hd) as Hm. unfold key_of.
  assert (Hlow : forall i, 0 <= i < 48 ->
            Z.testbit (b * 2 ^ 48 + morton d x y z) i = Z.testbit (morton d x y z) i).
  { intros i Hi. rewrite <- lor_shift_add by exact Hm.
    rewrite Z.lor_spec, Z.mul_pow2_bits_low by lia. reflexivity. }
  split; [|split].
  - intros i Hi. rewrite !Hlow by lia. rewrite !morton_bits by lia. unfold owner.
    replace ((3 * i + 2) mod 3) with 2 by lia. replace ((3 * i + 1) mod 3) with 1 by lia.
    replace ((3 * i) mod 3) with 0 by lia.
    replace ((3 * i + 2) / 3) with i by lia. replace ((3 * i + 1) / 3) with i by lia.
    replace (3 * i / 3) with i by lia.
    replace (3 * i + 2 <? 3 * Z.of_nat d) with true by (symmetry; apply Z.ltb_lt; lia).
    replace (3 * i + 1 <? 3 * Z.of_nat d) with true by (symmetry; apply Z.ltb_lt; lia).
    replace (3 * i <? 3 * Z.of_nat d) with true by (symmetry; apply Z.ltb_lt; lia).
    auto.
  - intros i Hi. rewrite Hlow by lia. apply morton_bits_le; lia.
  - lia.
Qed.

Lemma key_modulo x y z b d : (d <= 16)%nat ->
  xyz2key x y z b d
  = xyz2key (x mod 2 ^ Z.of_nat d) (y mod 2 ^ Z.of_nat d) (z mod 2 ^ Z.of_nat d) b d.
Proof.
  intros Hd. destruct b as [b|].
  - rewrite !xyz2key_some, !xyz2key_morton, morton_mod by lia. reflexivity.
  - rewrite !xyz2key_morton, morton_mod by lia. reflexivity.
Qed.

Lemma key_loop_agrees x y z d : (d <= 16)%nat -> xyz2key x y z None d = Ok (loop_xyz2key x y z d).
Proof. intros Hd. rewrite xyz2key_morton, loop_xyz2key_morton by exact Hd. reflexivity. Qed.

Lemma key_parent x y z b d k : (S d <= 16)%nat -> -32768 <= b < 32768 ->
  xyz2key x y z (Some b) (S d) = Ok k ->
  exists m p,
    xyz2key x y z None (S d) = Ok m /\
    xyz2key (x / 2) (y / 2) (z / 2) None d = Ok p /\
    Z.shiftr m 3 = p /\ k mod 8 = 4 * (x mod 2) + 2 * (y mod 2) + z mod 2 /\
    (* with a batch index the batch bits move along and are put back at bit 48 *)
    xyz2key (x / 2) (y / 2) (z / 2) (Some b) d
    = Ok (Z.lor (Z.shiftl (Z.shiftr (Z.shiftr k 3) 45) 48) (Z.land (Z.shiftr k 3) (Z.shiftl 1 45 - 1))).
Proof.
  intros Hd Hb Hk. rewrite xyz2key_b in Hk by (lia || (cbn; lia)). injection Hk as <-.
  exists (morton (S d) x y z), (morton d (x / 2) (y / 2) (z / 2)).
  rewrite !xyz2key_morton by lia. rewrite xyz2key_b by lia.
  destruct (parent_morton d x y z) as [Hp Hm].
  split; [reflexivity|]. split; [reflexivity|]. split; [exact Hp|].
  pose proof (morton_range d (x / 2) (y / 2) (z / 2)) as R. rewrite pow8_pow2 in R.
  assert (2 ^ (3 * Z.of_nat d) <= 2 ^ 45) by (apply Z.pow_le_mono_r; lia).
  pose proof (digit_bound x y z).
  split.
  - unfold key_of. rewrite <- Hm. lia.
  - f_equal. rewrite land_mask_mod, !Z.shiftr_div_pow2, Z.shiftl_mul_pow2 by lia.
    unfold key_of. rewrite morton_S in *. set (p := morton d _ _ _) in *.
    set (o := 4 * (x mod 2) + 2 * (y mod 2) + z mod 2) in *. clearbody p o.
    replace ((b * 2 ^ 48 + (8 * p + o)) / 2 ^ 3) with (b * 2 ^ 45 + p) by lia.
    replace ((b * 2 ^ 45 + p) / 2 ^ 45) with b by lia.
    replace ((b * 2 ^ 45 + p) mod 2 ^ 45) with p by lia.
    symmetry. apply lor_shift_add. lia.
Qed.

Lemma key_order_thm b x y z b' x' y' z' d k k' : (S d <= 16)%nat ->
  -32768 <= b < 32768 -> -32768 <= b' < 32768 ->
  xyz2key x y z (Some b) (S d) = Ok k -> xyz2key x' y' z' (Some b') (S d) = Ok k' ->
  exists p p',
    xyz2key (x / 2) (y / 2) (z / 2) None d = Ok p /\
    xyz2key (x' / 2) (y' / 2) (z' / 2) None d = Ok p' /\
    (k < k' <-> b < b' \/ (b = b' /\ (p < p' \/ (p = p' /\
        4 * (x mod 2) + 2 * (y mod 2) + z mod 2 < 4 * (x' mod 2) + 2 * (y' mod 2) + z' mod 2)))).
Proof.
  intros Hd Hb Hb' Hk Hk'.
  rewrite xyz2key_b in Hk, Hk' by (lia || (cbn; lia)). injection Hk as <-. injection Hk' as <-.
  exists (morton d (x / 2) (y / 2) (z / 2)), (morton d (x' / 2) (y' / 2) (z' / 2)).
  rewrite !xyz2key_morton by lia. split; [reflexivity|]. split; [reflexivity|].
  rewrite key_order by exact Hd. rewrite morton_order. reflexivity.
Qed.

Lemma key_injective b x y z b' x' y' z' d k : (d <= 16)%nat ->
  -32768 <= b < 32768 -> -32768 <= b' < 32768 -> in_cube d x y z -> in_cube d x' y' z' ->
  xyz2key x y z (Some b) d = Ok k -> xyz2key x' y' z' (Some b') d = Ok k ->
  (b, x, y, z) = (b', x', y', z').
Proof.
  intros Hd Hb Hb' H H' Hk Hk'.
  rewrite xyz2key_b in Hk, Hk' by (lia || (cbn; lia)). rewrite <- Hk' in Hk. injection Hk as E.
  destruct (key_of_inj d b x y z b' x' y' z' Hd H H' E) as (-> & -> & -> & ->). reflexivity.
Qed.

Lemma lut_history h r : exists c c',
  foldM (fun c r => '(c', _) <- lut_step c r ;; Ok c') lut_init h = Ok c /\
  lut_step c r = Ok (c', match r with ReqEncode _ => (EX, EY, EZ) | ReqDecode _ => (DX, DY, DZ) end).
Proof.
  destruct (lut_history_ok h) as (c & E & Hc).
  destruct (lut_step_ok c r Hc) as (c' & E' & _). exists c, c'. split; [exact E|exact E'].
Qed.

Lemma int_batch_rejected x y z b d : (d <= 16)%nat -> xyz2key_arg x y z (BInt b) d = Err AttributeError.
Proof. intros Hd. unfold xyz2key_arg. rewrite xyz2key_morton by exact Hd. reflexivity. Qed.
