(** Specification vocabulary for feature tensors: entries, shapes, sums, inner
    products, dense convolution. *)
From Coq Require Import String List ZArith Bool QArith Qcanon.
From Verif Require Import Num SpecNeigh.
Import ListNotations.
Open Scope Z_scope.

(** x has shape (n, C) / (n, k, C). *)
Definition shape {A} (n C : nat) (x : list (list A)) : Prop :=
  length x = n /\ Forall (fun r => length r = C) x.
Definition shape3 {A} (n k C : nat) (x : list (list (list A))) : Prop :=
  length x = n /\ Forall (shape k C) x.

(** Entries x[i, c] and x[i, k, c]. *)
Definition at2 (x : list vec) (i c : nat) : Qc := nth c (nth i x []) 0%Qc.
Definition at3 (x : list (list vec)) (i k c : nat) : Qc := at2 (nth i x []) k c.

(** f 0 + f 1 + ... + f (n-1) *)
Fixpoint sum_n (n : nat) (f : nat -> Qc) : Qc :=
  match n with O => 0%Qc | S m => (sum_n m f + f m)%Qc end.

(** Inner products of two tensors of the same shape. *)
Definition inner (n C : nat) (x y : list vec) : Qc :=
  sum_n n (fun i => sum_n C (fun c => at2 x i c * at2 y i c)%Qc).
Definition inner3 (n k C : nat) (x y : list (list vec)) : Qc :=
  sum_n n (fun i => sum_n k (fun j => sum_n C (fun c => at3 x i j c * at3 y i j c)%Qc)).

(** Sum and difference of two tensors of shape (n, C). *)
Definition tabulate (n C : nat) (f : nat -> nat -> Qc) : list vec :=
  map (fun i => map (f i) (seq 0 C)) (seq 0 n).
Definition add2 (n C : nat) (x y : list vec) : list vec := tabulate n C (fun i c => at2 x i c + at2 y i c)%Qc.
Definition sub2 (n C : nat) (x y : list vec) : list vec := tabulate n C (fun i c => at2 x i c - at2 y i c)%Qc.
Definition add3 (n k C : nat) (x y : list (list vec)) : list (list vec) :=
  map (fun i => tabulate k C (fun j c => at3 x i j c + at3 y i j c)%Qc) (seq 0 n).

(** Feature of the node with row number [e]; zero for a missing node, e = -1. *)
Definition at_row (x : list vec) (e : Z) (c : nat) : Qc :=
  if e <? 0 then 0%Qc else at2 x (Z.to_nat e) c.

(** Entry [k] of row [r] of a neighbourhood table. *)
Definition entry (t : list (list Z)) (r k : nat) : Z := nth k (nth r t []) (-1).

(** ** dense grids *)

(** A dense feature grid of a batch: voxel (b, x, y, z) of the 2^d cube is row
    ((b*2^d + x)*2^d + y)*2^d + z, as in a contiguous tensor (B, 2^d, 2^d, 2^d, C). *)
Definition inside (d : nat) (x y z : Z) : bool :=
  let p := 2 ^ Z.of_nat d in
  (0 <=? x) && (x <? p) && (0 <=? y) && (y <? p) && (0 <=? z) && (z <? p).
Definition vox_row (d : nat) (b x y z : Z) : nat :=
  let p := 2 ^ Z.of_nat d in Z.to_nat (((b * p + x) * p + y) * p + z).
(** Channel [c] of a voxel, zero outside the cube (zero padding). *)
Definition voxel (d : nat) (vox : list vec) (b x y z : Z) (c : nat) : Qc :=
  if inside d x y z then at2 vox (vox_row d b x y z) c else 0%Qc.

(** Dense 3-D convolution of the grid at voxel (b, x, y, z): one weight matrix per
    kernel offset, zero padding. *)
Definition dense_conv (d : nat) (vox : list vec) (kernel : string) (C : nat) (W : list (list vec))
    (b x y z : Z) (o : nat) : Qc :=
  sum_n (length (box kernel)) (fun k =>
    let '(dx, dy, dz) := nth k (box kernel) (0, 0, 0) in
    sum_n C (fun c => voxel d vox b (x + dx) (y + dy) (z + dz) c * at3 W k c o)%Qc).

(** Kernel sizes accepted by the convolutions (a short list is extended with its
    last value) and the neighbourhood they select. *)
Definition kernel_sizes : list (list nat * string) :=
  [([3], "333"); ([2], "222"); ([3; 3], "333"); ([2; 2], "222"); ([3; 1], "311"); ([1; 3], "133");
   ([3; 3; 3], "333"); ([2; 2; 2], "222"); ([3; 1; 1], "311"); ([1; 3; 1], "131"); ([1; 1; 3], "113");
   ([3; 3; 1], "331"); ([1; 3; 3], "133"); ([3; 1; 3], "313")]%nat%string.

Definition bias_at (bias : option vec) (o : nat) : Qc :=
  match bias with None => 0%Qc | Some b => nth o b 0%Qc end.
(** The bias, if any, has one value per output channel. *)
Definition bias_ok (Co : nat) (bias : option vec) : Prop := match bias with None => True | Some b => length b = Co end.

(** ** octree layers as index sets *)
From Verif Require Import Octree WF.

(** Number of (non-empty) nodes of layer [d]. *)
Definition node_count (o : octree) (d : nat) (ne : bool) : nat :=
  match nth_error (layers o) d with
  | Some l => Z.to_nat (if ne then nnum_nempty l else nnum l)
  | None => O
  end.
(** Layer [d] of a well-formed octree has its neighbourhood table, and the kernel
    and stride are supported. *)
Definition conv_ready (o : octree) (d : nat) (kernel : string) (stride : Z) : Prop :=
  wf_octree o /\ (d <= depth o)%nat /\ has_neigh o d /\ In kernel kernels /\
  (stride = 1 \/ (stride = 2 /\ (1 <= d)%nat)).
(** Number of rows of the neighbourhood table: the nodes themselves for stride 1,
    the non-empty nodes of the layer above for stride 2. *)
Definition out_count (o : octree) (d : nat) (stride : Z) (ne : bool) : nat :=
  if stride =? 1 then node_count o d ne else node_count o (d - 1) true.
(** The layer a convolution of stride 1 or 2 on layer [d] writes to, and the layer a
    deconvolution writes to. *)
Definition down (d : nat) (stride : Z) : nat := if stride =? 2 then (d - 1)%nat else d.
Definition up (d : nat) (stride : Z) : nat := if stride =? 2 then S d else d.

(** ** structured weights *)

(** Full convolution weights (K, C, C) of depth-wise weights (K, 1, C): channel c of
    the output uses only channel c of the input. *)
Definition diagonal (K C : nat) (W : list (list vec)) : list (list vec) :=
  map (fun k => tabulate C C (fun c c' => if Nat.eqb c c' then at3 W k 0 c else 0%Qc)) (seq 0 K).
(** Full convolution weights (K, g*ci, g*co) of the weights of g groups, each
    (K, ci, co): output group j uses only input group j. *)
Definition block_diagonal (K g ci co : nat) (Ws : list (list (list vec))) : list (list vec) :=
  map (fun k => tabulate (g * ci) (g * co) (fun c c' =>
    if Nat.eqb (c / ci) (c' / co) then at3 (nth (c / ci) Ws []) k (c mod ci) (c' mod co) else 0%Qc)) (seq 0 K).

(** ** parents and children, pooling *)

(** The parent of a cell (x, y, z, b), and its number 0..7 among the children. *)
Definition parent_cell (q : Z * Z * Z * Z) : Z * Z * Z * Z :=
  let '(x, y, z, b) := q in (x / 2, y / 2, z / 2, b).
Definition child_no (q : Z * Z * Z * Z) : Z :=
  let '(x, y, z, b) := q in 4 * (x mod 2) + 2 * (y mod 2) + z mod 2.

(** [x] holds the features of the cells [cs].  [v] is the maximum of channel [c]
    over the cells of [cs] that are children of cell [p], and [s] the number of the
    first child where it is attained; [None], minus infinity, and 0 if [p] has no
    child in [cs]. *)
Definition max_over_children (x : list vec) (cs : list (Z * Z * Z * Z)) (p : Z * Z * Z * Z) (c : nat)
    (v : option Qc) (s : Z) : Prop :=
  match v with
  | None => s = 0 /\ forall q, In q cs -> parent_cell q <> p
  | Some m =>
      (exists j q, nth_error cs j = Some q /\ parent_cell q = p /\ child_no q = s /\ at2 x j c = m) /\
      forall j q, nth_error cs j = Some q -> parent_cell q = p ->
        (at2 x j c <= m)%Qc /\ (child_no q < s -> (at2 x j c < m)%Qc)
  end.
(** Entries of a tensor of any type. *)
Definition entry2 {A} (dflt : A) (x : list (list A)) (i c : nat) : A := nth c (nth i x []) dflt.
(** Every entry of a tensor with values in the numbers extended by minus infinity is
    a number. *)
Definition finite {A} (x : list (list (option A))) : Prop := Forall (Forall (fun v => v <> None)) x.
(** Every non-empty cell of layer [d] has a non-empty child. *)
Definition branching (o : octree) (d : nat) : Prop :=
  forall qs cs q, octree_xyzb o d true = Res.Ok qs -> octree_xyzb o (S d) true = Res.Ok cs -> In q qs ->
    exists c, In c cs /\ parent_cell c = q.
(** Number of existing neighbours in row [r] of a neighbourhood table. *)
Definition neighbour_count (t : list (list Z)) (r : nat) : Z := Z.of_nat (List.length (filter (Z.leb 0) (nth r t []))).
(** Batch index of every cell. *)
Definition samples (cs : list (Z * Z * Z * Z)) : list Z := map (fun '(_, _, _, b) => b) cs.
(** The factor of drop path for a random draw [r]: 0 with probability [p], else
    the factor that keeps the mean, or 1 without scaling. *)
Definition drop_factor (p : Qc) (scale : bool) (r : Qc) : Qc :=
  if Qclt_le_dec r p then 0%Qc else if scale then (/ (1 - p))%Qc else 1%Qc.
