(** Specification vocabulary: how far the results of convolutions and of UNet depend on the scene. *)
From Coq Require Import String List ZArith Bool QArith Qcanon.
From Verif Require Import Res Num Points Octree NnBasic Features Net Spec SpecGeo SpecBuild SpecNeigh SpecNN.
Import ListNotations.
Open Scope Z_scope.

(** The cell [q] of layer [d] lies, with its whole volume, within [r] cells of layer [dep]
    around the cell [c] of layer [dep], in the same sample. *)
Definition within (dep : nat) (c : Z * Z * Z * Z) (r : Z) (d : nat) (q : Z * Z * Z * Z) : Prop :=
  let '(cx, cy, cz, cb) := c in let '(x, y, z, b) := q in
  let p := 2 ^ Z.of_nat (dep - d) in
  b = cb /\ (cx - r <= x * p /\ x * p + p <= cx + 1 + r) /\ (cy - r <= y * p /\ y * p + p <= cy + 1 + r) /\
  (cz - r <= z * p /\ z * p + p <= cz + 1 + r).

(** The two octrees have the same nodes of layer [d] among the cells [near]. *)
Definition nodes_agree (o o' : octree) (ne : bool) (d : nat) (near : Z * Z * Z * Z -> Prop) : Prop :=
  forall cs cs' q, octree_xyzb o d ne = Ok cs -> octree_xyzb o' d ne = Ok cs' -> near q -> (In q cs <-> In q cs').
(** The nodes of layer [d] that both octrees have among the cells [near] have the same rows. *)
Definition features_agree {A} (o o' : octree) (ne : bool) (d : nat) (near : Z * Z * Z * Z -> Prop) (x x' : list A) : Prop :=
  forall cs cs' i j q, octree_xyzb o d ne = Ok cs -> octree_xyzb o' d ne = Ok cs' ->
    nth_error cs i = Some q -> nth_error cs' j = Some q -> near q -> nth_error x i = nth_error x' j.

(** The cells a convolution with stride [st] reads for the cell [q]: [q] or its first child
    shifted by the offsets of the kernel. *)
Definition reads (st : Z) (kernel : string) (q p : Z * Z * Z * Z) : Prop :=
  exists dx dy dz, In (dx, dy, dz) (box kernel) /\
    let '(x, y, z, b) := q in p = (st * x + dx, st * y + dy, st * z + dz, b).

(** How far UNet looks, in cells of its finest layer: the first convolution; a residual block
    looks one or two cells of its layer far; an upsampled cell takes the value of the cell
    above.  Layer [k] above the finest has cells of side 2^k. *)
Definition block_reach (g : unet_cfg) : Z := if u_basic g then 2 else 1.
Fixpoint enc_reach (w : Z) (k : nat) (blocks : list nat) : Z :=
  match blocks with [] => 0 | n :: l => Z.of_nat n * w * 2 ^ Z.of_nat (S k) + enc_reach w (S k) l end.
Fixpoint dec_reach (w : Z) (k : nat) (blocks : list nat) : Z :=
  match blocks with [] => 0 | n :: l => (1 + Z.of_nat n * w) * 2 ^ Z.of_nat (k - 1) + dec_reach w (k - 1) l end.
Definition unet_reach (g : unet_cfg) : Z :=
  1 + enc_reach (block_reach g) 0 (u_enc_blk g) + dec_reach (block_reach g) (List.length (u_enc_blk g)) (u_dec_blk g).
(** How far around the finest cell of a query point the interpolation looks: the cell of the
    layer of the result that contains it, and for the linear interpolation the cells next to it. *)
Definition query_reach (lin : bool) (g : unet_cfg) : Z :=
  (if lin then 2 else 1) * 2 ^ Z.of_nat (List.length (u_enc_blk g) - List.length (u_dec_blk g)) - 1.

(** The points whose finest cell lies within [r] cells of the cell [c]. *)
Definition near_point (dep : nat) (c : Z * Z * Z * Z) (r : Z) (pb : v3 Qc * Z) : Prop :=
  exists x y z, in_cell dep x y z (fst pb) /\ within dep c r dep (x, y, z, snd pb).
(** Two clouds have the same points, with the same normals and features and in the same order,
    among the points [near]; they may differ in all other points. *)
Definition same_part (near : v3 Qc * Z -> Prop) (pc pc' : pcloud Qc) : Prop :=
  exists keep keep' : list bool,
    Forall2 (fun k p => k = true <-> near p) keep (located pc) /\ Forall2 (fun k p => k = true <-> near p) keep' (located pc') /\
    pick keep (located pc) = pick keep' (located pc') /\
    option_map (pick keep) (p_normals pc) = option_map (pick keep') (p_normals pc') /\
    option_map (pick keep) (p_features pc) = option_map (pick keep') (p_features pc').
