(** Specification vocabulary for the data pipeline. *)
From Coq Require Import String Ascii List ZArith Bool QArith Qcanon.
From Verif Require Import Res Num Points Octree SpecMerge SpecPoints Dataset.
Import ListNotations.
Open Scope Z_scope.

(** The word occurs in the key. *)
Definition mentions (key w : string) : Prop := exists a b, key = (a ++ w ++ b)%string.
(** The key asks for at most one kind of merging, and labels are called "label". *)
Definition clean_key (key : string) : Prop :=
  ~ (mentions key "octree" /\ mentions key "points") /\ (mentions key "label" -> key = "label"%string).

(** Values that can be collated under a key. *)
Definition collatable (mp : bool) (key : string) (vs : list value) : Prop :=
  (mentions key "octree" -> exists o0 os, vs = map VOct os /\ mergeable o0 os /\ (1 <= full_depth o0)%nat) /\
  (mentions key "points" -> mp = true -> exists ps, vs = map VPts ps /\ ps <> [] /\
     cat_ok p_normals ps /\ cat_ok p_features ps /\ cat_ok p_labels ps) /\
  (mentions key "label" -> exists zs, vs = map VNum zs).

(** What the batch holds under a key, given the values of the samples in order. *)
Definition collated (mp : bool) (key : string) (vs : list value) (v : out_value) : Prop :=
  (mentions key "octree" -> exists os om o, vs = map VOct os /\ merge_octrees os = Ok om /\
     construct_all_neigh om = Ok o /\ v = OOne (VOct o)) /\
  (mentions key "points" -> mp = true -> exists ps p, vs = map VPts ps /\ merge_points ps true = Ok p /\ v = OOne (VPts p)) /\
  (mentions key "label" -> exists zs, vs = map VNum zs /\ v = OTensor zs) /\
  (~ mentions key "octree" -> ~ (mentions key "points" /\ mp = true) -> ~ mentions key "label" -> v = OList vs).

(** The augmentation of one point: flip, rotate, translate, scale. *)
Definition sign_of (axes : string) (a : ascii) : Qc :=
  if Nat.even (List.length (filter (Ascii.eqb a) (list_ascii_of_string axes))) then qz 1 else qz (-1).
Definition augmented (r : draw) (v : v3 Qc) : v3 Qc :=
  let '(x, y, z) := v in
  let x := (x * sign_of (d_flip r) "x")%Qc in let y := (y * sign_of (d_flip r) "y")%Qc in let z := (z * sign_of (d_flip r) "z")%Qc in
  let '(m0, m1, m2) := d_rot r in
  let col (f : v3 Qc -> Qc) := (x * f m0 + y * f m1 + z * f m2)%Qc in
  let '(jx, jy, jz) := d_jitter r in
  let '(sx, sy, sz) := d_scale r in
  ((col (fun '(a, _, _) => a) + jx) * sx, (col (fun '(_, b, _) => b) + jy) * sy, (col (fun '(_, _, c) => c) + jz) * sz)%Qc.
(** The augmentation of a normal: flipped and rotated like the point; divided by a scale
    that differs between the axes and normalised by [nrm]. *)
Definition turned (nrm : v3 Qc -> v3 Qc) (r : draw) (n : v3 Qc) : v3 Qc :=
  let '(x, y, z) := n in
  let x := (x * sign_of (d_flip r) "x")%Qc in let y := (y * sign_of (d_flip r) "y")%Qc in let z := (z * sign_of (d_flip r) "z")%Qc in
  let '(m0, m1, m2) := d_rot r in
  let col (f : v3 Qc -> Qc) := (x * f m0 + y * f m1 + z * f m2)%Qc in
  let '(nx, ny, nz) := (col (fun '(a, _, _) => a), col (fun '(_, b, _) => b), col (fun '(_, _, c) => c)) in
  let '(sx, sy, sz) := d_scale r in
  if Qc_eq_dec sx sy then if Qc_eq_dec sx sz then (nx, ny, nz) else nrm (nx / sx, ny / sy, nz / sz)%Qc else nrm (nx / sx, ny / sy, nz / sz)%Qc.
(** A normal oriented along an axis: reversed unless its coordinate is positive; along all
    axes: no negative coordinate. *)
Definition reversed (n : v3 Qc) : v3 Qc := v3map Qcopp n.
Definition oriented (axis : string) (n : v3 Qc) : v3 Qc :=
  let '(x, y, z) := n in
  if String.eqb axis "x" then if Qclt_le_dec 0 x then n else reversed n
  else if String.eqb axis "y" then if Qclt_le_dec 0 y then n else reversed n
  else if String.eqb axis "z" then if Qclt_le_dec 0 z then n else reversed n
  else if String.eqb axis "xyz" then v3map (fun c => if Qclt_le_dec c 0 then (- c)%Qc else c) n
  else n.
(** A draw the code accepts: known axes, no zero scale. *)
Definition draw_ok (r : draw) : Prop :=
  Forall (fun a => In a ["x"; "y"; "z"]%char) (list_ascii_of_string (d_flip r)) /\
  (let '(sx, sy, sz) := d_scale r in sx <> 0%Qc /\ sy <> 0%Qc /\ sz <> 0%Qc).
Definition cfg_ok (c : transform_cfg) : Prop :=
  (t_cfull c <= t_cdepth c)%nat /\ (t_cdepth c <= 16)%nat /\ In (t_orient c) [""; "x"; "y"; "z"; "xyz"]%string.
(** A sample: an array of points and an array of normals of the same height. *)
Definition sample_ok (s : dict value) (xyz normals : list (v3 Qc)) : Prop :=
  NoDup (map fst s) /\ dlookup s "points" = Some (VArr xyz) /\ dlookup s "normals" = Some (VArr normals) /\
  List.length normals = List.length xyz.
