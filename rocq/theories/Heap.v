(** Model of the queries of ocnn/octree/octree.py with explicit tensor storage:
    which calls return views of stored tensors, which allocate, and which write in
    place.  The values computed are those of Octree.v; here the question is what
    happens to the storages. *)
From Coq Require Import String List ZArith Bool.
From Verif Require Import Res Tensor Key Octree.
Import ListNotations.
Open Scope Z_scope.

(** A heap of storages; storage [i] is never freed.  Boolean tensors hold 0 and 1. *)
Definition heap : Type := list (list Z).
(** A 1-D tensor: a storage and the positions of its elements in it; a 2-D tensor
    has rows of positions.  Slices and strided tensors are views of this kind. *)
Record view := mkView { v_id : nat; v_pos : list nat }.
Record view2 := mkView2 { w_id : nat; w_pos : list (list nat) }.
Definition rd (h : heap) (v : view) : list Z := map (fun p => nth p (nth (v_id v) h []) 0) (v_pos v).
Definition rd2 (h : heap) (w : view2) : list (list Z) := map (map (fun p => nth p (nth (w_id w) h []) 0)) (w_pos w).

(** Programs over the heap.  An exception keeps the effects made before it. *)
Definition prog (A : Type) : Type := heap -> res A * heap.
Definition pret {A} (a : A) : prog A := fun h => (Ok a, h).
Definition pbind {A B} (m : prog A) (f : A -> prog B) : prog B :=
  fun h => match m h with (Ok a, h') => f a h' | (Err e, h') => (Err e, h') end.
Definition lift {A} (r : res A) : prog A := fun h => (r, h).
Notation "x <~ e ;; k" := (pbind e (fun x => k)) (at level 61, e at next level, right associativity).

Definition read (v : view) : prog (list Z) := fun h => (Ok (rd h v), h).
Definition read2 (w : view2) : prog (list (list Z)) := fun h => (Ok (rd2 h w), h).
Definition zb (b : bool) : Z := if b then 1 else 0.
Definition bz (z : Z) : bool := z =? 1.
Definition readb (v : view) : prog (list bool) := fun h => (Ok (map bz (rd h v)), h).
(** A new tensor with its own storage. *)
Definition alloc (l : list Z) : prog view := fun h => (Ok (mkView (List.length h) (seq 0 (List.length l))), h ++ [l]).
Fixpoint pos2 (off : nat) (rows : list (list Z)) : list (list nat) :=
  match rows with [] => [] | r :: rs => seq off (List.length r) :: pos2 (off + List.length r) rs end.
Definition alloc2 (rows : list (list Z)) : prog view2 := fun h => (Ok (mkView2 (List.length h) (pos2 0 rows)), h ++ [concat rows]).
(** In-place writes at positions of a storage. *)
Definition write (i : nat) (ps : list nat) (vs : list Z) : prog unit :=
  fun h => (Ok tt, set_nth h i (fold_left (fun s pv => set_nth s (fst pv) (snd pv)) (combine ps vs) (nth i h []))).
(** t[mask] = vals, for a 1-D tensor or a 2-D tensor and the flattened mask *)
Definition put_at (i : nat) (pos : list nat) (mask : list bool) (vals : list Z) : prog unit :=
  if negb (Nat.eqb (List.length mask) (List.length pos)) then lift (Err IndexError)
  else if Nat.eqb (count_true mask) (List.length vals) then write i (select mask pos) vals
  else lift (Err RuntimeError).
Definition put (v : view) (mask : list bool) (vals : list Z) : prog unit := put_at (v_id v) (v_pos v) mask vals.
(** t[mask] = x for a scalar *)
Definition put1 (v : view) (mask : list bool) (x : Z) : prog unit :=
  put_at (v_id v) (v_pos v) mask (repeat x (count_true mask)).

(** The stored tensors that the queries use: octree.py:66-71 *)
Record hlayer := mkHlayer { h_keys : option view; h_children : option view; h_neighs : option view2 }.

(** octree.py:137-145 *)
Definition h_nempty_mask (ho : list hlayer) (d : Z) : prog view :=
  l <~ lift (tget ho d) ;; c <~ lift (need (h_children l)) ;; c <~ read c ;;
  alloc (map (fun i => zb (0 <=? i)) c).

(** octree.py:98-110: without [nempty] the stored tensor itself is returned *)
Definition h_key (ho : list hlayer) (d : Z) (nempty : bool) : prog view :=
  l <~ lift (tget ho d) ;; key <~ lift (need (h_keys l)) ;;
  if nempty then
    mask <~ h_nempty_mask ho d ;;
    k <~ read key ;; m <~ readb mask ;; r <~ lift (mask_get k m) ;; alloc r
  else pret key.

(** octree.py:112-121; key2xyz (shuffled_key.py:93-115) returns four new tensors *)
Definition h_xyzb (ho : list hlayer) (d : nat) (nempty : bool) : prog (view * view * view * view) :=
  key <~ h_key ho (Z.of_nat d) nempty ;; k <~ read key ;;
  cs <~ lift (mapM (fun k => key2xyz k d) k) ;;
  x <~ alloc (map (fun '(x, y, z, b) => x) cs) ;; y <~ alloc (map (fun '(x, y, z, b) => y) cs) ;;
  z <~ alloc (map (fun '(x, y, z, b) => z) cs) ;; b <~ alloc (map (fun '(x, y, z, b) => b) cs) ;;
  pret (x, y, z, b).

(** octree.py:123-135 *)
Definition h_batch_id (ho : list hlayer) (d : Z) (nempty : bool) : prog view :=
  l <~ lift (tget ho d) ;; key <~ lift (need (h_keys l)) ;; k <~ read key ;;
  batch_id <~ alloc (map (fun k => Z.shiftr k 48) k) ;;
  if nempty then
    mask <~ h_nempty_mask ho d ;;
    b <~ read batch_id ;; m <~ readb mask ;; r <~ lift (mask_get b m) ;; alloc r
  else pret batch_id.

(** octree.py:371-392: lines 389-391 write into the new tensors [valid] and [idx] *)
Definition h_search_key (ho : list hlayer) (query : view) (d : nat) (nempty : bool) : prog view :=
  key <~ h_key ho (Z.of_nat d) nempty ;;
  k <~ read key ;; q <~ read query ;;
  idx <~ alloc (map (bucketize k) q) ;;
  i <~ read idx ;;
  valid <~ alloc (map (fun i => zb (i <? zlen k)) i) ;;
  v <~ readb valid ;;
  iv <~ lift (mask_get i v) ;; kv <~ lift (gather k iv) ;; qv <~ lift (mask_get q v) ;;
  found <~ alloc (zip_with (fun a b => zb (a =? b)) kv qv) ;;
  _ <~ alloc (map zb v) ;;
  f <~ read found ;;
  _ <~ put valid v f ;;
  v <~ readb valid ;;
  _ <~ put1 idx (map negb v) (-1) ;;
  pret idx.

(** octree.py:355-369 *)
Definition row4 (r : list Z) : res (Z * Z * Z * Z) :=
  match r with [x; y; z; b] => Ok (x, y, z, b) | _ => Err IndexError end.
Definition h_search_xyzb (ho : list hlayer) (query : view2) (d : nat) (nempty : bool) : prog view :=
  q <~ read2 query ;; q <~ lift (mapM row4 q) ;;
  k <~ lift (mapM (fun '(x, y, z, b) => xyz2key x y z (Some b) d) q) ;;
  key <~ alloc k ;;
  h_search_key ho key d nempty.

(** octree.py:394-431.  Stride 1 starts from the stored table itself, stride 2 from a
    clone of a strided view; [neigh[nempty_node]] copies; lines 421-422 write in
    place; [neigh[:, lut]] copies. *)
Definition h_get_neigh (ho : list hlayer) (d : nat) (kernel : string) (stride : Z) (nempty : bool) : prog view2 :=
  l <~ lift (tget ho (Z.of_nat d)) ;;
  neigh <~ (if stride =? 1 then lift (need (h_neighs l))
            else if stride =? 2 then
              n <~ lift (need (h_neighs l)) ;;
              let v := mkView2 (w_id n) (every 8 (w_pos n)) in
              rows <~ read2 v ;; alloc2 rows
            else lift (Err ValueError)) ;;
  neigh <~ (if nempty then
              child <~ lift (need (h_children l)) ;; c <~ read child ;;
              neigh <~ (if stride =? 1 then
                          node <~ alloc (map (fun i => zb (0 <=? i)) c) ;; m <~ readb node ;;
                          rows <~ read2 neigh ;; rows <~ lift (mask_get rows m) ;; alloc2 rows
                        else pret neigh) ;;
              rows <~ read2 neigh ;;
              valid <~ alloc (map (fun i => zb (0 <=? i)) (concat rows)) ;; v <~ readb valid ;;
              i <~ lift (mask_get (concat rows) v) ;; vals <~ lift (gather c i) ;;
              _ <~ put_at (w_id neigh) (concat (w_pos neigh)) v vals ;;
              pret neigh
            else pret neigh) ;;
  if String.eqb kernel "333" then pret neigh
  else match lookup_kernel kernel lut_kernel with
       | Some lut => rows <~ read2 neigh ;; r <~ lift (mapM (fun row => gather row lut) rows) ;; alloc2 r
       | None => lift (Err ValueError)
       end.

(** One call of the interface.  [A] and [B] are the types of query tensors. *)
Inductive query (A B : Type) : Type :=
| QKey (d : Z) (nempty : bool)
| QXyzb (d : nat) (nempty : bool)
| QBatch (d : Z) (nempty : bool)
| QMask (d : Z)
| QSearchKey (q : A) (d : nat) (nempty : bool)
| QSearchXyzb (q : B) (d : nat) (nempty : bool)
| QNeigh (d : nat) (kernel : string) (stride : Z) (nempty : bool).
Arguments QKey {A B}. Arguments QXyzb {A B}. Arguments QBatch {A B}. Arguments QMask {A B}.
Arguments QSearchKey {A B}. Arguments QSearchXyzb {A B}. Arguments QNeigh {A B}.
(** The tensors returned by a call, and their contents. *)
Inductive answer (A B : Type) : Type := One (a : A) | Two (b : B) | Four (x y z b : A).
Arguments One {A B}. Arguments Two {A B}. Arguments Four {A B}.

Definition call (ho : list hlayer) (q : query view view2) : prog (answer view view2) :=
  match q with
  | QKey d ne => r <~ h_key ho d ne ;; pret (One r)
  | QXyzb d ne => r <~ h_xyzb ho d ne ;; let '(x, y, z, b) := r in pret (Four x y z b)
  | QBatch d ne => r <~ h_batch_id ho d ne ;; pret (One r)
  | QMask d => r <~ h_nempty_mask ho d ;; pret (One r)
  | QSearchKey q d ne => r <~ h_search_key ho q d ne ;; pret (One r)
  | QSearchXyzb q d ne => r <~ h_search_xyzb ho q d ne ;; pret (One r)
  | QNeigh d k s ne => r <~ h_get_neigh ho d k s ne ;; pret (Two r)
  end.
(** A history of calls; the caller survives exceptions. *)
Fixpoint calls (ho : list hlayer) (qs : list (query view view2)) (h : heap) : list (res (answer view view2)) * heap :=
  match qs with
  | [] => ([], h)
  | q :: qs => let '(r, h1) := call ho q h in let '(rs, h2) := calls ho qs h1 in (r :: rs, h2)
  end.
