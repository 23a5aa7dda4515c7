(** Single-precision model of the coordinate computation of build_octree.  The other
    files use exact rational numbers; here the two operations of octree.py:163-164 and
    the conversion of shuffled_key.py:69 are those of IEEE 754 binary32 with rounding to
    nearest even, as formalised by Flocq. *)
From Coq Require Import List ZArith Bool.
From Flocq Require Import Core.Core IEEE754.BinarySingleNaN.
From Verif Require Import Res Tensor Key Num.
Import ListNotations.
Open Scope Z_scope.

(** binary32: 24 bits of precision, largest exponent 127.  NaN payloads are not
    modelled. *)
Definition f32 : Type := binary_float 24 128.
Definition f32_prec : FLX.Prec_gt_0 24 := eq_refl.
Definition f32_emax : Prec_lt_emax 24 128 := eq_refl.
Definition fadd (x y : f32) : f32 := @Bplus 24 128 f32_prec f32_emax mode_NE x y.
Definition fmul (x y : f32) : f32 := @Bmult 24 128 f32_prec f32_emax mode_NE x y.
Definition fone : f32 := @Bone 24 128 f32_prec f32_emax.

(** octree.py:163: scale = 2 ** (self.depth - 1), converted to float32 when it is
    multiplied with a float32 tensor *)
Definition fscale (dep : nat) : f32 := @Bldexp 24 128 f32_prec f32_emax mode_NE fone (Z.of_nat dep - 1).
(** octree.py:164: (points + 1.0) * scale, one coordinate *)
Definition frescale (dep : nat) (c : f32) : f32 := fmul (fadd c fone) (fscale dep).
(** shuffled_key.py:69, [.long()]: rounding towards zero.  The conversion of a NaN, an
    infinity or a value outside int64 is undefined in C; [None]. *)
Definition flong (x : f32) : option Z :=
  let t := Btrunc x in
  if is_finite x && (- 2 ^ 63 <=? t) && (t <? 2 ^ 63) then Some t else None.
Definition cell32 (dep : nat) (c : f32) : option Z := flong (frescale dep c).
(** octree.py:167-169, the key of one point; an undefined conversion stops the model *)
Definition point_key32 (dep : nat) (p : v3 f32) (b : option Z) : res Z :=
  let '(x, y, z) := v3map (cell32 dep) p in
  match x, y, z with
  | Some x, Some y, Some z => xyz2key x y z b dep
  | _, _, _ => Err ValueError
  end.
