(** Specification of neighbourhood tables with arbitrary centres, targets and
    kernel boxes. *)
From Coq Require Import String Ascii List ZArith Bool.
From Verif Require Import Octree Spec.
Import ListNotations.
Open Scope Z_scope.

(** [table] lists, for each centre cell, the positions in [targets] of the cells
    at the given offsets; -1 for a cell that is outside the grid or not a target. *)
Definition table_correct (d : nat) (centres targets : list Z) (offs : list (Z * Z * Z)) (table : list (list Z)) : Prop :=
  length table = length centres /\
  forall r row b x y z, nth_error table r = Some row -> in_cube d x y z ->
    nth_error centres r = Some (key_of d b x y z) ->
    length row = length offs /\
    forall j dx dy dz e, nth_error offs j = Some (dx, dy, dz) -> nth_error row j = Some e ->
      (0 <= e /\ in_cube d (x + dx) (y + dy) (z + dz) /\
       nth_error targets (Z.to_nat e) = Some (key_of d b (x + dx) (y + dy) (z + dz)))
      \/
      (e = -1 /\ ~ (in_cube d (x + dx) (y + dy) (z + dz) /\
                    In (key_of d b (x + dx) (y + dy) (z + dz)) targets)).

(** Offsets along one axis for a kernel digit. *)
Definition axis (c : ascii) : list Z :=
  if Ascii.eqb c "3" then [-1; 0; 1] else if Ascii.eqb c "2" then [0; 1] else [0].
(** The box of offsets of a kernel string, x slowest, z fastest. *)
Definition box (kernel : string) : list (Z * Z * Z) :=
  match kernel with
  | String a (String b (String c _)) =>
      flat_map (fun dx => flat_map (fun dy => map (fun dz => (dx, dy, dz)) (axis c)) (axis b)) (axis a)
  | _ => []
  end.
(** The documented kernel strings. *)
Definition kernels : list string :=
  ["333"; "222"; "311"; "131"; "113"; "331"; "313"; "133"]%string.

(** The first of the eight children of a cell. *)
Definition first_kid (k : Z) : Z := (k / 2^48) * 2^48 + 8 * (k mod 2^48).

(** Layer [d] of [o] stores a correct neighbourhood table for its own keys. *)
Definition has_neigh (o : octree) (d : nat) : Prop :=
  exists l ks t, nth_error (layers o) d = Some l /\ keys l = Some ks /\ neighs l = Some t /\ neigh_correct d ks t.

(** Two octrees hold the same data except possibly for neighbourhood tables. *)
Definition same_layer_data (l l' : layer) : Prop :=
  keys l' = keys l /\ children l' = children l /\ l_features l' = l_features l /\ l_normals l' = l_normals l /\
  l_points l' = l_points l /\ nnum l' = nnum l /\ nnum_nempty l' = nnum_nempty l /\
  batch_nnum l' = batch_nnum l /\ batch_nnum_nempty l' = batch_nnum_nempty l.
Definition same_data (o o' : octree) : Prop :=
  depth o' = depth o /\ full_depth o' = full_depth o /\ batch_size o' = batch_size o /\ device o' = device o /\
  List.Forall2 same_layer_data (layers o) (layers o').
