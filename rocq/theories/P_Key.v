(** Properties C01-C06: node keys. *)
From Coq Require Import List ZArith.
From Verif Require Import Res Tensor Key Spec KeyFacts.
Import ListNotations.
Open Scope Z_scope.

(** C01: decoding an encoded cell gives the cell back. *)
Theorem C01_encode_decode_roundtrip : forall x y z b d,
  (d <= 16)%nat -> -32768 <= b < 32768 ->
  0 <= x < 2 ^ Z.of_nat d -> 0 <= y < 2 ^ Z.of_nat d -> 0 <= z < 2 ^ Z.of_nat d ->
  exists k, xyz2key x y z (Some b) d = Ok k /\ key2xyz k d = Ok (x, y, z, b).
Proof. exact key_roundtrip. Qed.
Print Assumptions C01_encode_decode_roundtrip.

(** C01, default batch argument. *)
Theorem C01_roundtrip_no_batch : forall x y z d,
  (d <= 16)%nat ->
  0 <= x < 2 ^ Z.of_nat d -> 0 <= y < 2 ^ Z.of_nat d -> 0 <= z < 2 ^ Z.of_nat d ->
  exists k, xyz2key x y z None d = Ok k /\ key2xyz k d = Ok (x, y, z, 0).
Proof. exact key_roundtrip_nobatch. Qed.
Print Assumptions C01_roundtrip_no_batch.

Example C01_case : xyz2key 517 3 1023 (Some 7) 11 = Ok (7 * 2 ^ 48 + 690262879)
  /\ key2xyz (7 * 2 ^ 48 + 690262879) 11 = Ok (517, 3, 1023, 7).
Proof. vm_compute; auto. Qed.

(** The range of batch indices is sharp: 32768 does not survive. *)
Example C01_batch_overflow :
  (k <- xyz2key 1 2 3 (Some 32768) 5 ;; key2xyz k 5) = Ok (1, 2, 3, -32768).
Proof. vm_compute; auto. Qed.

(** C02: every 64-bit key whose coordinate part fits the depth decodes to a
    cell that encodes to the key. *)
Theorem C02_decode_encode_roundtrip : forall k d,
  (d <= 16)%nat -> - 2 ^ 63 <= k < 2 ^ 63 -> k mod 2 ^ 48 < 8 ^ Z.of_nat d ->
  exists x y z b, key2xyz k d = Ok (x, y, z, b) /\ in_cube d x y z /\ - 2 ^ 15 <= b < 2 ^ 15
                  /\ xyz2key x y z (Some b) d = Ok k.
Proof. exact encode_decode. Qed.
Print Assumptions C02_decode_encode_roundtrip.

Example C02_case : key2xyz (5 * 2 ^ 48 + 8 ^ 10 - 3) 10 = Ok (1023, 1022, 1023, 5)
  /\ xyz2key 1023 1022 1023 (Some 5) 10 = Ok (5 * 2 ^ 48 + 8 ^ 10 - 3).
Proof. vm_compute; auto. Qed.

(** C03: the bit layout, for all integers x, y, z. *)
Theorem C03_bit_layout : forall x y z b d k,
  (d <= 16)%nat -> -32768 <= b < 32768 ->
  xyz2key x y z (Some b) d = Ok k ->
  (forall i, 0 <= i < Z.of_nat d ->
     Z.testbit k (3 * i + 2) = Z.testbit x i /\
     Z.testbit k (3 * i + 1) = Z.testbit y i /\
     Z.testbit k (3 * i) = Z.testbit z i) /\
  (forall i, 3 * Z.of_nat d <= i < 48 -> Z.testbit k i = false) /\
  k / 2 ^ 48 = b.
Proof. exact key_layout. Qed.
Print Assumptions C03_bit_layout.

(** C03: coordinates outside the grid are silently reduced modulo 2^d. *)
Theorem C03_coordinates_wrap : forall x y z b d, (d <= 16)%nat ->
  xyz2key x y z b d
  = xyz2key (x mod 2 ^ Z.of_nat d) (y mod 2 ^ Z.of_nat d) (z mod 2 ^ Z.of_nat d) b d.
Proof. exact key_modulo. Qed.
Print Assumptions C03_coordinates_wrap.

(** C03: the table encoder equals the loop encoder the tables were made with. *)
Theorem C03_table_equals_loop : forall x y z d,
  (d <= 16)%nat -> xyz2key x y z None d = Ok (loop_xyz2key x y z d).
Proof. exact key_loop_agrees. Qed.
Print Assumptions C03_table_equals_loop.

(** The documented argument type "int" for [b] is rejected. *)
Theorem C03_int_batch_rejected : forall x y z b d, (d <= 16)%nat ->
  xyz2key_arg x y z (BInt b) d = Err AttributeError.
Proof. exact int_batch_rejected. Qed.
Print Assumptions C03_int_batch_rejected.

Example C03_case : xyz2key (-1) 300 5 (Some 2) 9 = Ok (2 * 2 ^ 48 + 110317029).
Proof. vm_compute; reflexivity. Qed.

(** C04: dropping three bits gives the enclosing cell one level up, the low
    three bits are the octant. *)
Theorem C04_parent_and_octant : forall x y z b d k,
  (S d <= 16)%nat -> -32768 <= b < 32768 ->
  xyz2key x y z (Some b) (S d) = Ok k ->
  exists m p,
    xyz2key x y z None (S d) = Ok m /\
    xyz2key (x / 2) (y / 2) (z / 2) None d = Ok p /\
    Z.shiftr m 3 = p /\ k mod 8 = 4 * (x mod 2) + 2 * (y mod 2) + z mod 2 /\
    (* with a batch index the batch bits move along and are put back at bit 48 *)
    xyz2key (x / 2) (y / 2) (z / 2) (Some b) d
    = Ok (Z.lor (Z.shiftl (Z.shiftr (Z.shiftr k 3) 45) 48) (Z.land (Z.shiftr k 3) (Z.shiftl 1 45 - 1))).
Proof. exact key_parent. Qed.
Print Assumptions C04_parent_and_octant.

Example C04_case : xyz2key 6 3 1 (Some 3) 3 = Ok (3 * 2 ^ 48 + 307) /\ xyz2key 3 1 0 None 2 = Ok 38.
Proof. vm_compute; auto. Qed.

(** C05: key order is batch first, then parent, then octant. *)
Theorem C05_key_order : forall b x y z b' x' y' z' d k k',
  (S d <= 16)%nat ->
  -32768 <= b < 32768 -> -32768 <= b' < 32768 ->
  xyz2key x y z (Some b) (S d) = Ok k -> xyz2key x' y' z' (Some b') (S d) = Ok k' ->
  exists p p',
    xyz2key (x / 2) (y / 2) (z / 2) None d = Ok p /\
    xyz2key (x' / 2) (y' / 2) (z' / 2) None d = Ok p' /\
    (k < k' <-> b < b' \/ (b = b' /\ (p < p' \/ (p = p' /\
        4 * (x mod 2) + 2 * (y mod 2) + z mod 2 < 4 * (x' mod 2) + 2 * (y' mod 2) + z' mod 2)))).
Proof. exact key_order_thm. Qed.
Print Assumptions C05_key_order.

(** C05: distinct cells have distinct keys. *)
Theorem C05_keys_injective : forall b x y z b' x' y' z' d k,
  (d <= 16)%nat ->
  -32768 <= b < 32768 -> -32768 <= b' < 32768 -> in_cube d x y z -> in_cube d x' y' z' ->
  xyz2key x y z (Some b) d = Ok k -> xyz2key x' y' z' (Some b') d = Ok k ->
  (b, x, y, z) = (b', x', y', z').
Proof. exact key_injective. Qed.
Print Assumptions C05_keys_injective.

Example C05_case : xyz2key 3 3 3 (Some 0) 2 = Ok 63 /\ xyz2key 0 0 0 (Some 1) 2 = Ok (2 ^ 48).
Proof. vm_compute; auto. Qed.

(** C06: after any history of table requests, any request returns the tables
    computed at import. *)
Theorem C06_tables_history_independent : forall h r, exists c c',
  foldM (fun c r => '(c', _) <- lut_step c r ;; Ok c') lut_init h = Ok c /\
  lut_step c r = Ok (c', match r with ReqEncode _ => (EX, EY, EZ) | ReqDecode _ => (DX, DY, DZ) end).
Proof. exact lut_history. Qed.
Print Assumptions C06_tables_history_independent.

Example C06_case :
  match foldM (fun c r => '(c', _) <- lut_step c r ;; Ok c') lut_init
          [ReqEncode 1; ReqDecode 2; ReqEncode 1; ReqEncode 2] with
  | Ok c => length (c_encode c) = 3%nat /\ length (c_decode c) = 2%nat
  | Err _ => False
  end.
Proof. vm_compute; auto. Qed.
