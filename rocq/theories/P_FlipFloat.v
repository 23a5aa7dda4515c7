(** Property C134: flip in single precision. *)
From Coq Require Import Ascii String List ZArith Bool QArith Qcanon.
From Flocq Require Import Core.Core IEEE754.BinarySingleNaN.
From Verif Require Import Res Num Points PointsOps Float32 FlipFloat SpecFlip32 FlipFloatFacts.
Import ListNotations.

(** C134: for every cloud of binary32 values, infinities, signed zeros and NaN included, flip
    changes the signs of the coordinates named an odd number of times, in points and normals,
    and nothing else; a second flip restores every value. *)
Theorem C134_flip : forall axis p, Forall (fun a => In a ["x"; "y"; "z"]%char) (list_ascii_of_string axis) ->
  flip32 axis p = (mirrored (list_ascii_of_string axis) p, None) /\ flip32 axis (fst (flip32 axis p)) = (p, None).
Proof. exact thm_flip32. Qed.
Print Assumptions C134_flip.

(** C134: an unknown letter raises KeyError, after the letters before it took effect. *)
Theorem C134_unknown : forall axis p pre a rest, list_ascii_of_string axis = pre ++ a :: rest ->
  Forall (fun a => In a ["x"; "y"; "z"]%char) pre -> ~ In a ["x"; "y"; "z"]%char -> flip32 axis p = (mirrored pre p, Some KeyError).
Proof. exact thm_flip32_unknown. Qed.
Print Assumptions C134_unknown.

Example C134_case : let half : f32 := @B754_finite 24 128 false 8388608 (-24) eq_refl in
  let p := mkPoints [(half, B754_zero false, B754_infinity true); (B754_nan, half, half)] (Some [(half, half, half); (half, half, half)]) None None None 1 None 0 in
  Forall (fun a => In a ["x"; "y"; "z"]%char) (list_ascii_of_string "xzyz") /\
  match flip32 "xzyz" p with
  | (q, None) => match p_points q with
                 | [(B754_finite true _ _ _, B754_zero true, B754_infinity true); (B754_nan, B754_finite true _ _ _, B754_finite false _ _ _)] => true
                 | _ => false
                 end
  | _ => false
  end = true /\
  snd (flip32 "xw" p) = Some KeyError.
Proof.
  cbn zeta. split; [repeat constructor; cbn; tauto|]. split; vm_compute; reflexivity.
Qed.
