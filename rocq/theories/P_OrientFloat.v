(** Property C135: orient_normal in single precision. *)
From Coq Require Import Ascii String List ZArith Bool QArith Qcanon.
From Flocq Require Import Core.Core IEEE754.BinarySingleNaN.
From Verif Require Import Res Num Points PointsOps Float32 OrientFloat SpecOrient32 OrientFloatFacts.
Import ListNotations.

(** C135: every normal is kept or reversed exactly, and its component along the axis is
    never negative afterwards; nothing else changes. *)
Theorem C135_orient : forall axis i p, In (axis, i) axis_index ->
  orient_normal32 axis p = Ok (with_normals (turned i) p) /\ forall n, negative32 (part i (turned i n)) = false.
Proof. exact thm_orient32. Qed.
Print Assumptions C135_orient.

(** C135: a second call changes nothing for a normal whose component is a number other than
    zero, and restores the normal as it was before the first call in all other cases. *)
Theorem C135_again : forall axis i p, In (axis, i) axis_index -> exists q, orient_normal32 axis p = Ok q /\
  orient_normal32 axis q = Ok (with_normals (fun n => if positive32 (part i n) || negative32 (part i n) then turned i n else n) p).
Proof. exact thm_orient32_again. Qed.
Print Assumptions C135_again.

(** C135: "xyz" takes absolute values; without normals nothing happens; other names raise. *)
Theorem C135_other : forall axis p,
  (axis = "xyz"%string -> orient_normal32 axis p = Ok (with_normals (fun n => let '(x, y, z) := n in (Babs x, Babs y, Babs z)) p)) /\
  (p_normals p = None -> orient_normal32 axis p = Ok p) /\
  (p_normals p <> None -> ~ In axis ["x"; "y"; "z"; "xyz"]%string -> orient_normal32 axis p = Err KeyError).
Proof. exact thm_orient32_other. Qed.
Print Assumptions C135_other.

(** The second normal lies in the plane: one call reverses it, two calls restore it. *)
Example C135_case : let half : f32 := @B754_finite 24 128 false 8388608 (-24) eq_refl in
  let p := mkPoints [(half, half, half); (half, half, half)] (Some [(Bopp half, half, B754_infinity false); (B754_zero false, half, half)]) None None None 1 None 0 in
  In ("x"%string, 0%nat) axis_index /\ p_normals p <> None /\ ~ In "w"%string ["x"; "y"; "z"; "xyz"]%string /\
  match orient_normal32 "x" p with
  | Ok q => match p_normals q with
            | Some [(B754_finite false _ _ _, B754_finite true _ _ _, B754_infinity true); (B754_zero true, B754_finite true _ _ _, B754_finite true _ _ _)] => true
            | _ => false
            end
  | _ => false
  end = true.
Proof.
  cbn zeta. split; [left; reflexivity|]. split; [discriminate|]. split; [intros [H|[H|[H|[H|[]]]]]; discriminate|]. vm_compute; reflexivity.
Qed.
