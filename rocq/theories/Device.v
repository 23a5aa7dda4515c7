(** Model of Octree.to with explicit tensor storage. *)
From Coq Require Import List ZArith Bool.
From Verif Require Import Res Tensor Octree Heap.
Import ListNotations.
Open Scope Z_scope.

(** octree.py:525-527, list_to_device, for one entry: a tensor is copied to the other
    device, anything else becomes None.  Only the integer tensors are followed in the
    heap (keys, children, neighs: octree.py:531-533); features, normals and points
    (534-536) are copied the same way and are values in Octree.v. *)
Definition p_opt {A B} (f : A -> prog B) (x : option A) : prog (option B) :=
  match x with Some a => b <~ f a ;; pret (Some b) | None => pret None end.
Definition copy1 (v : view) : prog view := l <~ read v ;; alloc l.
Definition copy2 (w : view2) : prog view2 := rows <~ read2 w ;; alloc2 rows.
(** octree.py:531-533 one list after the other; a layer is one entry of the three lists.
    Simplification: the copies are made layer by layer, which only changes the numbers
    of the new storages. *)
Definition h_copy_layer (l : hlayer) : prog hlayer :=
  k <~ p_opt copy1 (h_keys l) ;; c <~ p_opt copy1 (h_children l) ;; n <~ p_opt copy2 (h_neighs l) ;;
  pret (mkHlayer k c n).
Fixpoint h_copy (ho : list hlayer) : prog (list hlayer) :=
  match ho with
  | [] => pret []
  | l :: ho => l <~ h_copy_layer l ;; ho <~ h_copy ho ;; pret (l :: ho)
  end.
(** octree.py:508-541: on the same device the octree itself is returned *)
Definition h_to (o : octree) (ho : list hlayer) (dev : nat) : prog (list hlayer) :=
  if Nat.eqb (device o) dev then pret ho else h_copy ho.
