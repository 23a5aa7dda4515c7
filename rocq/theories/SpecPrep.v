(** Specification vocabulary for the transforms of the datasets. *)
From Coq Require Import String Ascii List ZArith Bool QArith Qcanon Sorted.
From Verif Require Import Res Num Points Octree PointsOps NnBasic Dataset SpecPoints SpecDataset SpecProject WF.
Import ListNotations.
Open Scope Z_scope.

(** The smallest box around some points: no face can be moved inwards. *)
Definition bounding_box (lo hi : v3 Qc) (vs : list (v3 Qc)) : Prop :=
  Forall (fun v => v3le lo v /\ v3le v hi) vs /\
  forall lo' hi', Forall (fun v => v3le lo' v /\ v3le v hi') vs -> v3le lo' lo /\ v3le hi hi'.
(** Moved by [c] and scaled by [k]. *)
Definition rescale (c : v3 Qc) (k : Qc) (v : v3 Qc) : v3 Qc :=
  let '(a, b, d) := c in let '(x, y, z) := v in (((x - a) * k)%Qc, ((y - b) * k)%Qc, ((z - d) * k)%Qc).
Definition middle (lo hi : v3 Qc) : v3 Qc :=
  let '(a, b, c) := lo in let '(x, y, z) := hi in (((a + x) / qz 2)%Qc, ((b + y) / qz 2)%Qc, ((c + z) / qz 2)%Qc).
(** The longest edge of a box. *)
Definition longest (lo hi : v3 Qc) (e : Qc) : Prop :=
  let '(a, b, c) := lo in let '(x, y, z) := hi in
  (x - a <= e)%Qc /\ (y - b <= e)%Qc /\ (z - c <= e)%Qc /\ (e = x - a \/ e = y - b \/ e = z - c)%Qc.
Definition small_box (lo hi : v3 Qc) (s : Qc) : Prop :=
  let '(a, b, c) := lo in let '(x, y, z) := hi in (x - a < s)%Qc /\ (y - b < s)%Qc /\ (z - c < s)%Qc.

(** The sample [out] holds the cloud [q] made of [p] by the augmentation of the draw [r] (if
    distort is set) with the points outside (-0.99, 0.99)^3 cut off, and the mask of the others. *)
Definition cut_sample (nrm : v3 Qc -> v3 Qc) (c : transform_cfg) (r : draw) (p q : pcloud Qc) (out : dict value) : Prop :=
  let f := if t_distort c then augmented r else (fun v => v) in
  let g := fun n => oriented (t_orient c) (if t_distort c then turned nrm r n else n) in
  let box := inside (Q2Qc (-99 # 100)) (Q2Qc (99 # 100)) in
  exists mask keep, dlookup out "points" = Some (VPts q) /\ dlookup out "inbox_mask" = Some (VMask mask) /\
    List.length mask = npt p /\ carried keep f g p q /\
    (forall i v, nth_error (p_points p) i = Some v -> (In i keep <-> box (f v)) /\ (nth_error mask i = Some true <-> box (f v))).
(** ... and the octree of [q]. *)
Definition with_octree (nrm : v3 Qc -> v3 Qc) (c : transform_cfg) (q : pcloud Qc) (out : dict value) : Prop :=
  exists o idx, dlookup out "octree" = Some (VOct o) /\ build_octree nrm (octree_new (t_cdepth c) (t_cfull c) 1 0) q = Ok (o, idx) /\
    wf_octree o /\ depth o = t_cdepth c /\ full_depth o = t_cfull c /\ batch_size o = 1%nat.
(** Nothing has been cut off. *)
Definition nothing_lost (p q : pcloud Qc) : Prop :=
  p_points q = p_points p /\ p_features q = p_features p /\ p_labels q = p_labels p.
(** A column of labels. *)
Definition label_column (ls : list Z) : option (list (list Qc)) := Some (map (fun l => [qz l]) ls).
(** The points number idx[0], idx[1], ... of [pts], each moved by [s] times its row of noise. *)
Definition noisy (s : Qc) (pts : list (v3 Qc)) (idx : list nat) (noise : list (v3 Qc)) (out : list (v3 Qc)) : Prop :=
  List.length out = List.length idx /\
  forall j i x y z a b c, nth_error idx j = Some i -> nth_error pts i = Some (x, y, z) -> nth_error noise j = Some (a, b, c) ->
    nth_error out j = Some (x + s * a, y + s * b, z + s * c)%Qc.
(** The centre of the scenes of ScanNet: the middle in x and y, the height 0.5. *)
Definition floor_middle (lo hi : v3 Qc) : v3 Qc := let '(a, b, _) := middle lo hi in (a, b, Q2Qc (1 # 2)).
Definition row3 (v : v3 Qc) : list Qc := let '(x, y, z) := v in [x; y; z].
(** The octree of a cloud: built of it and well formed. *)
Definition octree_of (nrm : v3 Qc -> v3 Qc) (dep full : nat) (p : pcloud Qc) (o : octree) : Prop :=
  exists idx, build_octree nrm (octree_new dep full 1 0) p = Ok (o, idx) /\ wf_octree o /\ depth o = dep /\ full_depth o = full /\ batch_size o = 1%nat.
(** The points of a cloud inside the open box, in their order. *)
Definition cut_to (lo hi : Qc) (vs ws : list (v3 Qc)) : Prop :=
  exists keep, StronglySorted lt keep /\ Forall2 (fun i w => nth_error vs i = Some w) keep ws /\
    forall i v, nth_error vs i = Some v -> (In i keep <-> inside lo hi v).
