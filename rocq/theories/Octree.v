(** Model of /repo/ocnn/octree/octree.py. *)
From Coq Require Import List ZArith Bool QArith Qcanon String.
From Verif Require Import Res Tensor Key Num Points.
Import ListNotations.
Open Scope Z_scope.

(** octree.py:51-77 (reset).  The parallel Python lists keys[d], children[d], ...
    are transposed into one record per depth; [None] entries are [None].
    nnum/nnum_nempty are int32 tensors in the code, unbounded integers here. *)
Record layer := mkLayer {
  keys : option (list Z);
  children : option (list Z);
  neighs : option (list (list Z));
  l_features : option (list vec);
  l_normals : option (list (v3 Qc));
  l_points : option (list (v3 Qc));
  nnum : Z;
  nnum_nempty : Z;
  batch_nnum : list Z;
  batch_nnum_nempty : list Z
}.

Record octree := mkOctree {
  depth : nat;
  full_depth : nat;
  batch_size : nat;
  device : nat;
  layers : list layer
}.

Definition set_keys (l : layer) v :=
  mkLayer (Some v) (children l) (neighs l) (l_features l) (l_normals l) (l_points l)
          (nnum l) (nnum_nempty l) (batch_nnum l) (batch_nnum_nempty l).
Definition set_children (l : layer) v :=
  mkLayer (keys l) (Some v) (neighs l) (l_features l) (l_normals l) (l_points l)
          (nnum l) (nnum_nempty l) (batch_nnum l) (batch_nnum_nempty l).
Definition set_neighs (l : layer) v :=
  mkLayer (keys l) (children l) (Some v) (l_features l) (l_normals l) (l_points l)
          (nnum l) (nnum_nempty l) (batch_nnum l) (batch_nnum_nempty l).
Definition set_features (l : layer) v :=
  mkLayer (keys l) (children l) (neighs l) v (l_normals l) (l_points l)
          (nnum l) (nnum_nempty l) (batch_nnum l) (batch_nnum_nempty l).
Definition set_normals (l : layer) v :=
  mkLayer (keys l) (children l) (neighs l) (l_features l) v (l_points l)
          (nnum l) (nnum_nempty l) (batch_nnum l) (batch_nnum_nempty l).
Definition set_points (l : layer) v :=
  mkLayer (keys l) (children l) (neighs l) (l_features l) (l_normals l) v
          (nnum l) (nnum_nempty l) (batch_nnum l) (batch_nnum_nempty l).
Definition set_nnum (l : layer) v :=
  mkLayer (keys l) (children l) (neighs l) (l_features l) (l_normals l) (l_points l)
          v (nnum_nempty l) (batch_nnum l) (batch_nnum_nempty l).
Definition set_nnum_nempty (l : layer) v :=
  mkLayer (keys l) (children l) (neighs l) (l_features l) (l_normals l) (l_points l)
          (nnum l) v (batch_nnum l) (batch_nnum_nempty l).
Definition with_layers (o : octree) ls :=
  mkOctree (depth o) (full_depth o) (batch_size o) (device o) ls.

(** octree.py:54-71: the empty state made by [reset]. *)
Definition empty_layer (bs : nat) : layer :=
  mkLayer None None None None None None 0 0 (repeat 0 bs) (repeat 0 bs).
(** octree.py:41-49, Octree.__init__ *)
Definition octree_new (dep full bs dev : nat) : octree :=
  mkOctree dep full bs dev (repeat (empty_layer bs) (dep + 1)).

(** Python list/tensor access [self.xxx[i]]; negative indices count from the end. *)
Definition get_layer (o : octree) (i : Z) : res layer := tget (layers o) i.
(** [self.xxx[d] = ...] for d >= 0 *)
Definition upd_layer (o : octree) (d : nat) (f : layer -> layer) : res octree :=
  match nth_error (layers o) d with
  | Some l => Ok (with_layers o (set_nth (layers o) d (f l)))
  | None => Err IndexError
  end.
(** Using a [None] entry as a tensor raises TypeError. *)
Definition need {A} (x : option A) : res A :=
  match x with Some a => Ok a | None => Err TypeError end.

(** ** look-up tables (octree.py:73-96) *)

(** utils.py:46-74, range_grid(min, max) *)
Definition range_grid (mn mx : Z) : list (Z * Z * Z) :=
  let rng := map (fun i => mn + i) (arange (Z.to_nat (mx + 1 - mn))) in
  flat_map (fun x => flat_map (fun y => map (fun z => (x, y, z)) rng) rng) rng.

(** octree.py:75-83; trunc_div (utils.py:21-31) is division rounding to zero. *)
Definition neigh_grid : list (list (Z * Z * Z)) :=
  map (fun '(cx, cy, cz) =>
         map (fun '(dx, dy, dz) => (cx + dx, cy + dy, cz + dz)) (range_grid (-1) 1))
      (range_grid 2 3).
Definition lut_parent : list (list Z) :=
  map (map (fun '(x, y, z) => Z.quot x 2 * 9 + Z.quot y 2 * 3 + Z.quot z 2 * 1)) neigh_grid.
Definition lut_child : list (list Z) :=
  map (map (fun '(x, y, z) => (x mod 2) * 4 + (y mod 2) * 2 + (z mod 2) * 1)) neigh_grid.

(** octree.py:86-95 *)
Definition lut_kernel : list (string * list Z) :=
  [ ("222"%string, [13; 14; 16; 17; 22; 23; 25; 26]);
    ("311"%string, [4; 13; 22]);
    ("131"%string, [10; 13; 16]);
    ("113"%string, [12; 13; 14]);
    ("331"%string, [1; 4; 7; 10; 13; 16; 19; 22; 25]);
    ("313"%string, [3; 4; 5; 12; 13; 14; 21; 22; 23]);
    ("133"%string, [9; 10; 11; 12; 13; 14; 15; 16; 17]) ].
Fixpoint lookup_kernel (k : string) (l : list (string * list Z)) : option (list Z) :=
  match l with
  | [] => None
  | (k', v) :: t => if String.eqb k k' then Some v else lookup_kernel k t
  end.

(** ** queries *)

(** octree.py:137-145 *)
Definition nempty_mask (o : octree) (d : Z) : res (list bool) :=
  l <- get_layer o d ;; c <- need (children l) ;; Ok (map (fun i => 0 <=? i) c).

(** octree.py:98-110 *)
Definition octree_key (o : octree) (d : Z) (nempty : bool) : res (list Z) :=
  l <- get_layer o d ;; k <- need (keys l) ;;
  if nempty then m <- nempty_mask o d ;; mask_get k m else Ok k.

(** octree.py:112-121 *)
Definition octree_xyzb (o : octree) (d : nat) (nempty : bool) : res (list (Z * Z * Z * Z)) :=
  k <- octree_key o (Z.of_nat d) nempty ;; mapM (fun k => key2xyz k d) k.

(** octree.py:123-135 *)
Definition octree_batch_id (o : octree) (d : Z) (nempty : bool) : res (list Z) :=
  l <- get_layer o d ;; k <- need (keys l) ;;
  let b := map (fun k => Z.shiftr k 48) k in
  if nempty then m <- nempty_mask o d ;; mask_get b m else Ok b.

(** ** neighbourhoods *)

(** octree.py:318-335, construct_neigh for depth <= full_depth *)
Definition neigh_full (bs d : nat) : res (list (list Z)) :=
  let num := (8 ^ d)%nat in
  xyz <- mapM (fun k => key2xyz k d) (arange num) ;;
  let xyz := flat_map (fun '(x, y, z, _) =>
               map (fun '(gx, gy, gz) => (x + gx, y + gy, z + gz)) (range_grid (-1) 1)) xyz in
  neigh <- mapM (fun '(x, y, z) => xyz2key x y z None d) xyz ;;
  let neigh := map (fun b => map (fun n => n + b * Z.of_nat num) neigh) (arange bs) in
  let bound := Z.shiftl 1 (Z.of_nat d) in
  let invalid := map (fun '(x, y, z) =>
                   ((x <? 0) || (y <? 0) || (z <? 0))
                   || ((bound <=? x) || (bound <=? y) || (bound <=? z))) xyz in
  let neigh := map (fun row => mask_fill row invalid (-1)) neigh in
  view_rows 27 (List.concat neigh).

(** octree.py:337-346, construct_neigh for depth > full_depth, computed entry by
    entry (the code builds (N,8,27) index tensors, the values are the same). *)
Definition neigh_entry (child_p row : list Z) (lp lc : Z) : res Z :=
  np <- tget row lp ;;
  cp <- tget child_p np ;;
  Ok (if (cp <? 0) || (np <? 0) then -1 else cp * 8 + lc).
Definition neigh_sparse (child_p : list Z) (neigh_p : list (list Z)) : res (list (list Z)) :=
  rows <- mask_get neigh_p (map (fun i => 0 <=? i) child_p) ;;
  blocks <- mapM (fun row =>
    mapM (fun '(lp, lc) => mapM (fun '(p, c) => neigh_entry child_p row p c) (combine lp lc))
         (combine lut_parent lut_child)) rows ;;
  Ok (List.concat blocks).

(** octree.py:311-346 *)
Definition construct_neigh (o : octree) (d : nat) : res octree :=
  if Nat.leb d (full_depth o) then
    n <- neigh_full (batch_size o) d ;;
    upd_layer o d (fun l => set_neighs l n)
  else
    p <- get_layer o (Z.of_nat d - 1) ;;
    c <- need (children p) ;;
    np <- need (neighs p) ;;
    n <- neigh_sparse c np ;;
    upd_layer o d (fun l => set_neighs l n).

(** octree.py:348-353 *)
Definition construct_all_neigh (o : octree) : res octree :=
  foldM construct_neigh o (seq 1 (depth o)).

(** ** building *)

(** octree.py:226-254 *)
Definition octree_grow_full (o : octree) (d : nat) (update_neigh : bool) : res octree :=
  _ <- assert_ (Nat.leb d (full_depth o)) ;;
  let num := (8 ^ d)%nat in
  let tot := Z.of_nat num * Z.of_nat (batch_size o) in
  let key := flat_map (fun b => map (fun k => Z.lor k (shl64 b 48)) (arange num))
                      (arange (batch_size o)) in
  o <- upd_layer o d (fun l =>
         set_children (set_keys (set_nnum_nempty (set_nnum l tot) tot) key)
                      (arange (num * batch_size o))) ;;
  if update_neigh then construct_neigh o d else Ok o.

(** octree.py:620-639 *)
Definition init_octree (dep full bs dev : nat) : res octree :=
  foldM (fun o d => octree_grow_full o d true) (octree_new dep full bs dev) (seq 0 (full + 1)).

(** utils.py:117-147, scatter_add along dim 0 of a tensor of rows. *)
Definition scatter_size (idx : list Z) (dim_size : option nat) : nat :=
  match dim_size with
  | Some n => n
  | None => match idx with
            | [] => O
            | i :: t => Z.to_nat (fold_left Z.max t i + 1)
            end
  end.
Definition scatter_add {A} (add : A -> A -> A) (zero : A) (src : list A) (idx : list Z)
    (dim_size : option nat) : res (list A) :=
  scatter_add_into add (repeat zero (scatter_size idx dim_size)) idx src.

(** octree.py:163-164: points rescaled from [-1,1] to [0, 2^depth] *)
Definition rescale (dep : nat) (p : v3 Qc) : v3 Qc :=
  v3map (fun c => (c + 1) * q2pow (Z.of_nat dep - 1))%Qc p.

(** octree.py:167-169: the key of one point *)
Definition point_key (dep : nat) (p : v3 Qc) (b : option Z) : res Z :=
  let '(x, y, z) := rescale dep p in
  xyz2key (qtrunc x) (qtrunc y) (qtrunc z) b dep.

Definition zip_with {A B C} (f : A -> B -> C) (l : list A) (m : list B) : list C :=
  map (fun ab => f (fst ab) (snd ab)) (combine l m).

(** octree.py:178-201, one iteration of the loop over the sparse layers *)
Definition build_step (st : octree * list Z) (d : nat) : res (octree * list Z) :=
  let '(o, node_key) := st in
  let '(pkey, pidx) := unique_consecutive (map (fun k => Z.shiftr k 3) node_key) in
  let key := flat_map (fun p => map (fun j => shl64 p 3 + j) (arange 8)) pkey in
  let addr := zip_with (fun p k => Z.lor (shl64 p 3) (k mod 8)) pidx node_key in
  child <- index_put (repeat (-1) (List.length key)) addr (arange (List.length node_key)) ;;
  o <- upd_layer o d (fun l =>
         set_children (set_nnum_nempty (set_nnum (set_keys l key) (zlen key)) (zlen node_key)) child) ;;
  let node_key :=
    if Nat.eqb (batch_size o) 1 then pkey
    else map (fun p => Z.lor (shl64 (Z.shiftr p 45) 48) (Z.land p (Z.shiftl 1 45 - 1))) pkey in
  Ok (o, node_key).

(** octree.py:203-212, children of the layer full_depth *)
Definition build_full_children (o : octree) (node_key : list Z) : res octree :=
  let d := full_depth o in
  l <- get_layer o (Z.of_nat d) ;;
  c <- need (children l) ;;
  let nempty_idx :=
    if Nat.eqb (batch_size o) 1 then node_key
    else map (fun k => Z.lor (shl64 (Z.shiftr k 48) (3 * Z.of_nat d)) (Z.land k (Z.shiftl 1 48 - 1)))
             node_key in
  child <- index_put (map (fun _ => -1) c) nempty_idx (arange (List.length node_key)) ;;
  upd_layer o d (fun l => set_nnum_nempty (set_children l child) (zlen node_key)).

(** octree.py:147-224, build_octree.  [normalize] is F.normalize on one row. *)
Definition build_octree (normalize : v3 Qc -> v3 Qc) (o : octree) (pc : pcloud Qc)
  : res (octree * list Z) :=
  let o := mkOctree (depth o) (full_depth o) (batch_size o) (p_device pc) (layers o) in
  _ <- assert_ (Nat.eqb (p_batch_size pc) (batch_size o)) ;;
  let points := map (rescale (depth o)) (p_points pc) in
  key <- (if Nat.eqb (batch_size o) 1
          then mapM (fun p => point_key (depth o) p None) (p_points pc)
          else match p_batch_id pc with
               | None => Err AttributeError
               | Some bid =>
                   if Nat.eqb (List.length bid) (List.length (p_points pc))
                   then mapM (fun pb => point_key (depth o) (fst pb) (Some (snd pb)))
                             (combine (p_points pc) bid)
                   else Err RuntimeError
               end) ;;
  let '(node_key, idx, counts) := unique key in
  o <- foldM (fun o d => octree_grow_full o d false) o (seq 0 (full_depth o + 1)) ;;
  '(o, node_key) <- foldM build_step (o, node_key)
                      (rev (seq (full_depth o + 1) (depth o - full_depth o))) ;;
  o <- build_full_children o node_key ;;
  (* average the signal for the last octree layer *)
  psum <- scatter_add v3add v3zero points idx None ;;
  let pavg := zip_with (fun p n => v3map (fun c => c / qz n)%Qc p) psum counts in
  o <- upd_layer o (depth o) (fun l => set_points l (Some pavg)) ;;
  o <- (match p_normals pc with
        | None => Ok o
        | Some nrm =>
            nsum <- scatter_add v3add v3zero nrm idx None ;;
            upd_layer o (depth o) (fun l => set_normals l (Some (map normalize nsum)))
        end) ;;
  o <- (match p_features pc with
        | None => Ok o
        | Some f =>
            fsum <- scatter_add vadd (vzero (width f)) f idx None ;;
            upd_layer o (depth o) (fun l =>
              set_features l (Some (zip_with (fun r n => map (fun c => c / qz n)%Qc r) fsum counts)))
        end) ;;
  Ok (o, idx).

(** ** splitting and growing *)

(** utils.py:77-96, cumsum(data, dim=0, exclusive=True) of a 1-D tensor *)
Definition cumsum_excl (l : list Z) : list Z := 0 :: cumsum_incl l.

(** octree.py:256-278 *)
Definition split_children (split : list Z) : res (list Z * Z) :=
  let empty := map (Z.eqb 0) split in
  let sum := cumsum_excl split in
  let child := firstn (List.length split) sum in
  let n := nth (List.length split) sum 0 in
  let child := mask_fill child empty (-1) in
  if n =? 0 then child <- tset child 0 0 ;; Ok (child, 1) else Ok (child, n).
Definition octree_split (o : octree) (split : list Z) (d : nat) : res octree :=
  '(child, n) <- split_children split ;;
  upd_layer o d (fun l => set_nnum_nempty (set_children l child) n).

(** octree.py:280-309 *)
Definition octree_grow (o : octree) (d : nat) (update_neigh : bool) : res octree :=
  p <- get_layer o (Z.of_nat d - 1) ;;
  let n := nnum_nempty p * 8 in
  o <- upd_layer o d (fun l => set_nnum_nempty (set_nnum l n) n) ;;
  key <- octree_key o (Z.of_nat d - 1) true ;;
  let key := map (fun k =>
    Z.lor (shl64 (Z.land k (Z.shiftl 1 48 - 1)) 3) (shl64 (Z.shiftr k 48) 48)) key in
  let key := flat_map (fun k => map (fun j => k + j) (arange 8)) key in
  _ <- (if n <? 0 then Err RuntimeError else Ok tt) ;;
  o <- upd_layer o d (fun l => set_children (set_keys l key) (arange (Z.to_nat n))) ;;
  if update_neigh then construct_neigh o d else Ok o.

(** ** searching *)

(** octree.py:371-392, one query against the list of keys *)
Definition search1 (key : list Z) (q : Z) : res Z :=
  let i := bucketize key q in
  if i <? zlen key then
    k <- tget key i ;;
    Ok (if k =? q then i else -1)
  else Ok (-1).
Definition search_key (o : octree) (query : list Z) (d : nat) (nempty : bool) : res (list Z) :=
  key <- octree_key o (Z.of_nat d) nempty ;;
  mapM (search1 key) query.

(** octree.py:355-369; the rows (x, y, z, b) of [query] after [.long()] *)
Definition search_xyzb (o : octree) (query : list (Z * Z * Z * Z)) (d : nat) (nempty : bool)
  : res (list Z) :=
  key <- mapM (fun '(x, y, z, b) => xyz2key x y z (Some b) d) query ;;
  search_key o key d nempty.

(** ** get_neigh *)

(** octree.py:421-422: neigh[valid] = child[neigh[valid]] *)
Definition remap_neigh (child : list Z) (row : list Z) : res (list Z) :=
  mapM (fun n => if 0 <=? n then tget child n else Ok n) row.

(** octree.py:394-431 *)
Definition get_neigh (o : octree) (d : nat) (kernel : string) (stride : Z) (nempty : bool)
  : res (list (list Z)) :=
  l <- get_layer o (Z.of_nat d) ;;
  neigh <- (if stride =? 1 then need (neighs l)
            else if stride =? 2 then n <- need (neighs l) ;; Ok (every 8 n)
            else Err ValueError) ;;
  neigh <- (if nempty then
              child <- need (children l) ;;
              neigh <- (if stride =? 1
                        then mask_get neigh (map (fun i => 0 <=? i) child)
                        else Ok neigh) ;;
              mapM (remap_neigh child) neigh
            else Ok neigh) ;;
  if String.eqb kernel "333" then Ok neigh
  else match lookup_kernel kernel lut_kernel with
       | Some lut => mapM (fun row => gather row lut) neigh
       | None => Err ValueError
       end.

(** ** merging *)

(** octree.py:588: cumsum(batch_nnum_nempty, dim=1, exclusive=True)[d] *)
Definition merge_layer (ls : list layer) (last : bool) : res layer :=
  let cum := cumsum_excl (map nnum_nempty ls) in
  key <- mapM (fun il => k <- need (keys (snd il)) ;;
           Ok (map (fun k => Z.lor (Z.land k (Z.shiftl 1 48 - 1)) (shl64 (fst il) 48)) k))
         (enumerate ls) ;;
  child <- mapM (fun lc => c <- need (children (fst lc)) ;;
             Ok (map (fun i => if 0 <=? i then i + snd lc else i) c))
           (combine ls cum) ;;
  feat <- (match ls with
           | l0 :: _ => match l_features l0 with
                        | Some _ => if last then r <- cat_attr (map l_features ls) ;; Ok (Some r) else Ok None
                        | None => Ok None end
           | [] => Ok None end) ;;
  norm <- (match ls with
           | l0 :: _ => match l_normals l0 with
                        | Some _ => if last then r <- cat_attr (map l_normals ls) ;; Ok (Some r) else Ok None
                        | None => Ok None end
           | [] => Ok None end) ;;
  pts <- (match ls with
          | l0 :: _ => match l_points l0 with
                       | Some _ => if last then r <- cat_attr (map l_points ls) ;; Ok (Some r) else Ok None
                       | None => Ok None end
          | [] => Ok None end) ;;
  Ok (mkLayer (Some (List.concat key)) (Some (List.concat child)) None feat norm pts
        (fold_right Z.add 0 (map nnum ls)) (fold_right Z.add 0 (map nnum_nempty ls))
        (map nnum ls) (map nnum_nempty ls)).

(** octree.py:554-617.  The layer list of each input is read at depth d. *)
Definition merge_octrees (os : list octree) : res octree :=
  match os with
  | [] => Err IndexError
  | o0 :: rest =>
      _ <- assert_ (forallb (fun o => Nat.eqb (depth o) (depth o0) && Nat.eqb (full_depth o) (full_depth o0)
                                      && Nat.eqb (device o) (device o0)) rest) ;;
      ls <- mapM (fun d =>
              ld <- mapM (fun o => get_layer o (Z.of_nat d)) os ;;
              merge_layer ld (Nat.eqb d (depth o0)))
            (seq 0 (depth o0 + 1)) ;;
      Ok (mkOctree (depth o0) (full_depth o0) (List.length os) (device o0) ls)
  end.

(** octree.py:508-541, to(device): a new octree with all tensors copied. *)
Definition octree_to (o : octree) (dev : nat) : octree :=
  if Nat.eqb (device o) dev then o
  else mkOctree (depth o) (full_depth o) (batch_size o) dev (layers o).
