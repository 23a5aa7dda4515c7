(** Concatenation of batch members. *)
From Coq Require Import List ZArith Bool Qcanon.
From Verif Require Import Points SpecGeo Octree WF.
Import ListNotations.
Open Scope Z_scope.

(** The members of a list with their positions i, i+1, ... *)
Fixpoint indexed {A} (i : Z) (l : list A) : list (Z * A) :=
  match l with [] => [] | a :: t => (i, a) :: indexed (i + 1) t end.

(** The members of a list of blocks with the number of rows before each block. *)
Fixpoint starts (n : Z) (sizes : list Z) : list Z :=
  match sizes with [] => [] | s :: t => n :: starts (n + s) t end.

(** The nodes of member i get batch index i (their own is 0). *)
Definition join_keys (kss : list (list Z)) : list Z :=
  concat (map (fun '(i, ks) => map (fun k => i * 2 ^ 48 + k) ks) (indexed 0 kss)).

(** Row numbers of member i are shifted past the rows of the members before it;
    -1 stays -1. *)
Definition shift_row (n r : Z) : Z := if r <? 0 then -1 else r + n.
Definition join_rows (sizes : list Z) (rss : list (list Z)) : list Z :=
  concat (map (fun '(n, rs) => map (shift_row n) rs) (combine (starts 0 sizes) rss)).
Definition join_tables (sizes : list Z) (tss : list (list (list Z))) : list (list Z) :=
  concat (map (fun '(n, t) => map (map (shift_row n)) t) (combine (starts 0 sizes) tss)).

Definition total (sizes : list Z) : Z := fold_right Z.add 0 sizes.

(** Cells of member i: the same coordinates, batch index i. *)
Definition join_cells (css : list (list (Z * Z * Z * Z))) : list (Z * Z * Z * Z) :=
  concat (map (fun '(i, cs) => map (fun '(x, y, z, _) => (x, y, z, i)) cs) (indexed 0 css)).

(** Per-node data (features, normals or points) of the members. *)
Definition first_has {A B} (f : A -> option B) (ls : list A) : bool :=
  match ls with a :: _ => match f a with Some _ => true | None => false end | [] => false end.
Definition cat_some {A B} (f : A -> option (list B)) (ls : list A) : list B :=
  concat (map (fun a => match f a with Some r => r | None => [] end) ls).
(** They can be concatenated: present everywhere if present in the first. *)
Definition cat_ok {A B} (f : A -> option (list B)) (ls : list A) : Prop :=
  first_has f ls = true -> Forall (fun a => f a <> None) ls.
(** The result: the rows of the members one after the other, at the finest depth. *)
Definition joined_signal {A} (f : layer -> option (list A)) (last : bool) (ls : list layer) : option (list A) :=
  if last && first_has f ls then Some (cat_some f ls) else None.

(** Octrees that merge_octrees can join: single-sample well-formed octrees of the
    same depth, full depth and device. *)
Definition mergeable (o0 : octree) (os : list octree) : Prop :=
  hd_error os = Some o0 /\ Z.of_nat (length os) <= 32768 /\
  Forall (fun o => wf_octree o /\ batch_size o = 1%nat /\ depth o = depth o0 /\
                   full_depth o = full_depth o0 /\ device o = device o0) os /\
  forall ls, Forall2 (fun o l => nth_error (layers o) (depth o0) = Some l) os ls ->
    cat_ok l_features ls /\ cat_ok l_normals ls /\ cat_ok l_points ls.

(** Layer l joins the layers ls of the members. *)
Definition joined (last : bool) (ls : list layer) (l : layer) : Prop :=
  (exists kss, Forall2 (fun li ks => keys li = Some ks) ls kss /\ keys l = Some (join_keys kss)) /\
  (exists css, Forall2 (fun li cs => children li = Some cs) ls css /\
               children l = Some (join_rows (map nnum_nempty ls) css)) /\
  nnum l = total (map nnum ls) /\ nnum_nempty l = total (map nnum_nempty ls) /\
  batch_nnum l = map nnum ls /\ batch_nnum_nempty l = map nnum_nempty ls /\
  l_features l = joined_signal l_features last ls /\
  l_normals l = joined_signal l_normals last ls /\
  l_points l = joined_signal l_points last ls.

(** Clouds that merge_points can join: single clouds on one device, attributes
    present everywhere if present in the first, feature rows of one width. *)
Definition clouds_ok (dev : nat) (ps : list (pcloud Qc)) : Prop :=
  ps <> [] /\ Forall (good_cloud 1) ps /\ Forall (fun p => p_device p = dev) ps /\
  cat_ok p_normals ps /\ cat_ok p_features ps /\ cat_ok p_labels ps /\
  exists c, forall p f, In p ps -> p_features p = Some f -> Forall (fun r => length r = c) f.

(** Two layers agree on everything but the per-batch counters. *)
Definition same_layer (l l' : layer) : Prop :=
  keys l' = keys l /\ children l' = children l /\ neighs l' = neighs l /\ l_features l' = l_features l /\
  l_normals l' = l_normals l /\ l_points l' = l_points l /\ nnum l' = nnum l /\ nnum_nempty l' = nnum_nempty l.
Definition same_octree (o o' : octree) : Prop :=
  depth o' = depth o /\ full_depth o' = full_depth o /\ batch_size o' = batch_size o /\ device o' = device o /\
  Forall2 same_layer (layers o) (layers o').

(** Cutting a list in pieces of given lengths. *)
Fixpoint cut {A} (sizes : list Z) (l : list A) : list (list A) :=
  match sizes with
  | [] => []
  | n :: t => firstn (Z.to_nat n) l :: cut t (skipn (Z.to_nat n) l)
  end.

(** An attribute of the merged cloud: concatenated if the first cloud has it. *)
Definition opt_cat {A B} (f : A -> option (list B)) (ps : list A) : option (list B) :=
  if first_has f ps then Some (cat_some f ps) else None.
(** Every point carries the number of its cloud. *)
Definition batch_ids {T} (ps : list (pcloud T)) : list Z :=
  concat (map (fun '(i, p) => repeat i (length (p_points p))) (indexed 0 ps)).
