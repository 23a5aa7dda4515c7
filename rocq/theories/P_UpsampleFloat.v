(** Property C129: linear upsampling in single precision. *)
From Coq Require Import Ascii String List ZArith Bool Reals Lra Lia QArith Qcanon Qreals.
From Flocq Require Import Core.Core IEEE754.BinarySingleNaN.
From Verif Require Import Res Num Points Octree NnBasic NnInterp Float32 FloatMean SpecSingle LinearFloat SpecLinear32 UpsampleFloatFacts.
Import ListNotations.
Open Scope R_scope.
Open Scope string_scope.
Open Scope list_scope.

(** C129: computed in binary32, linear upsampling from depth d to a depth t up to 16
    combines exactly the cells that exact arithmetic combines, with exactly the same
    weights when t <= d + 7, and with weights off by at most two relative rounding errors
    otherwise; the failures are the same.  No condition on the octree. *)
Theorem C129_same_weights : forall nempty o d t, (d < t <= 16)%nat ->
  match upsample_matrix o d t nempty with
  | Ok m => exists m32, upsample_matrix32 o d t nempty = Ok m32 /\
      Forall2 (fun e e32 => near_entry e e32 /\ ((t <= d + 7)%nat -> same_number (snd e) (snd e32))) m m32
  | Err e => upsample_matrix32 o d t nempty = Err e
  end.
Proof. exact thm_upsample32. Qed.
Print Assumptions C129_same_weights.

(** C129: the exact matrix compared above is the one OctreeUpsample multiplies the data
    with. *)
Theorem C129_matrix : forall C data o d t nempty, (d < t)%nat -> octree_upsample "linear" nempty C data o d (Some t) =
  (xyzb <- octree_xyzb o t nempty ;; _ <- check_rows data o d nempty ;; mat <- upsample_matrix o d t nempty ;; linear_apply C data (length xyzb) mat).
Proof. exact thm_upsample_is. Qed.
Print Assumptions C129_matrix.

(** C129: nearest-neighbour upsampling over more than one depth gives in binary32 what it
    gives in exact arithmetic (over one depth no coordinates are computed). *)
Theorem C129_nearest : forall nempty C data o d t, (d + 1 < t <= 16)%nat ->
  upsample_nearest32 C data o d t nempty = octree_upsample "nearest" nempty C data o d (Some t).
Proof. exact thm_upsample_nearest. Qed.
Print Assumptions C129_nearest.

(** From depth 1 to depth 2 of a full octree: 64 rows of eight entries, with the weights
    1/64, 3/64, 9/64 and 27/64 of trilinear interpolation (the cells beyond the faces are
    found at the opposite faces, see C08). *)
Example C129_case : let known (w : f32) := match w with
    | B754_finite false 8388608 (-29) _ | B754_finite false 12582912 (-28) _ | B754_finite false 9437184 (-26) _ | B754_finite false 14155776 (-25) _ => true
    | _ => false
    end in
  match (o <- octree_grow_full (octree_new 2 2 1 0) 0 true ;; o <- octree_grow_full o 1 true ;; octree_grow_full o 2 true) with
  | Ok o => match upsample_matrix32 o 1 2 false with Ok m => Nat.eqb (length m) 512 && forallb (fun e => known (snd e)) m | Err _ => false end
  | Err _ => false
  end = true.
Proof. vm_compute. reflexivity. Qed.
