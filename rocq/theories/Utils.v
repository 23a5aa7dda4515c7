(** Model of /repo/ocnn/utils.py: scatter_add, cumsum, and the kernel-size lists that
    layer constructors share and extend in place. *)
From Coq Require Import String List ZArith Bool QArith Qcanon.
From Coq Require DecimalString.
From Verif Require Import Res Tensor Key Num Points Octree NnBasic.
Import ListNotations.
Open Scope Z_scope.

(** utils.py:77-96, cumsum(data, 0, exclusive) of a 1-D integer tensor *)
Definition cumsum (data : list Z) (exclusive : bool) : list Z :=
  if exclusive then 0 :: cumsum_incl data else cumsum_incl data.
(** utils.py:77-96, cumsum(data, 1, exclusive) of a 2-D integer tensor *)
Definition cumsum_rows (data : list (list Z)) (exclusive : bool) : list (list Z) :=
  map (fun r => cumsum r exclusive) data.

(** utils.py:99-147, scatter_add of a 2-D tensor [src] with [C] > 0 columns and a 1-D
    [index].  [out], if given, has as many columns (dim 0) or rows (dim 1) as [src];
    it is the tensor that is returned, so the result is also its new content. *)
Definition scatter_add2 (C : nat) (src : feat) (index : list Z) (dim : Z) (out : option feat)
    (dim_size : option nat) : res feat :=
  if (dim =? 0) || (dim =? -2) then
    let out := match out with Some out => out | None => repeat (vzero C) (scatter_size index dim_size) end in
    scatter_add_into vadd out index src
  else if (dim =? 1) || (dim =? -1) then
    let out := match out with
               | Some out => out
               | None => repeat (vzero (scatter_size index dim_size)) (List.length src) end in
    if Nat.eqb (List.length out) (List.length src) && Nat.eqb (List.length index) C
    then mapM (fun os => scatter_add_into Qcplus (fst os) index (snd os)) (combine out src)
    else Err RuntimeError
  else Err IndexError.

(** ** kernel-size lists *)

(** Python lists are objects; a constructor receives a reference.  A store maps the
    reference to the current content. *)
Definition lists : Type := list (list Z).

(** utils.py:169-178: the assertion, then [append] of the last element in a loop.  The
    list [r] itself grows; an exception keeps what was appended before it. *)
Fixpoint append_last (r : nat) (n : nat) (h : lists) : res unit * lists :=
  match n with
  | O => (Ok tt, h)
  | S n =>
      let l := nth r h [] in
      match tget l (-1) with
      | Ok a => append_last r n (set_nth h r (l ++ [a]))
      | Err e => (Err e, h)
      end
  end.
Definition resize_list (r : nat) (num : nat) (h : lists) : res unit * lists :=
  let n := List.length (nth r h []) in
  if Nat.ltb n (num + 1) then append_last r (num - n) h else (Err AssertionError, h).

(** str(x) of an integer; utils.py:181-186 *)
Definition str_z (z : Z) : string := DecimalString.NilZero.string_of_int (Z.to_int z).
Definition list2str_z (l : list Z) : string := fold_right String.append EmptyString (map str_z l).

(** A layer object: its attribute kernel_size is the caller's list, kernel and kdim are
    computed once.  octree_conv.py:27-33, octree_pool.py:133-134 (which has no kdim). *)
Record klayer := mkKlayer { k_list : nat; k_kernel : string; k_dim : Z }.
Definition new_layer (r : nat) (h : lists) : res klayer * lists :=
  match resize_list r 3 h with
  | (Ok _, h) =>
      let l := nth r h [] in
      (Ok (mkKlayer r (list2str_z l) (nth 0 l 0 * nth 1 l 0 * nth 2 l 0)), h)
  | (Err e, h) => (Err e, h)
  end.

(** What a program does with layers.  References are to existing objects, so an event
    that names a list or layer that does not exist is no event of any program and does
    nothing.
    - [ENew l]: evaluates a list expression, such as a literal [\[3\]];
    - [EMake r]: constructs a layer from list [r] (a literal, a shared variable or a
      default argument): OctreeConv, OctreeDeconv, OctreeDWConv (octree_conv.py:21-36,
      octree_dwconv.py:21-26), a pooling layer (octree_pool.py:131-136);
    - [EGroup r g]: octree_gconv.py:50-53, [g] layers from the same list;
    - [ERun i]: forward of layer [i], which constructs a helper object from the list of
      the layer (octree_conv.py:236-240, 273-277, 374-378). *)
Inductive levent := ENew (l : list Z) | EMake (r : nat) | EGroup (r g : nat) | ERun (i : nat).
(** Lists, layers constructed so far, outcomes of the constructor calls. *)
Record lstate := mkLstate { s_lists : lists; s_layers : list klayer; s_outcomes : list (nat * res klayer) }.
Definition make_layer (keep : bool) (r : nat) (st : lstate) : lstate * bool :=
  if negb (Nat.ltb r (List.length (s_lists st))) then (st, false) else
  let '(out, h) := new_layer r (s_lists st) in
  (mkLstate h (match out with Ok k => if keep then s_layers st ++ [k] else s_layers st | Err _ => s_layers st end)
     (s_outcomes st ++ [(r, out)]), match out with Ok _ => true | Err _ => false end).
Fixpoint make_group (r g : nat) (st : lstate) : lstate :=
  match g with
  | O => st
  | S g => let '(st, ok) := make_layer true r st in if ok then make_group r g st else st
  end.
Definition lstep (st : lstate) (e : levent) : lstate :=
  match e with
  | ENew l => mkLstate (s_lists st ++ [l]) (s_layers st) (s_outcomes st)
  | EMake r => fst (make_layer true r st)
  | EGroup r g => make_group r g st
  | ERun i => match nth_error (s_layers st) i with
              | Some k => fst (make_layer false (k_list k) st)
              | None => st
              end
  end.
Definition lrun (h : lists) (evs : list levent) : lstate := fold_left lstep evs (mkLstate h [] []).

(** utils.py:189-205, the point cloud of build_example_octree *)
Definition example_cloud (pt_num : nat) : res (pcloud Qc) :=
  _ <- assert_ (Nat.leb pt_num 3 && Nat.ltb 0 pt_num) ;;
  let h := Q2Qc (1 # 16) in
  points_new 0 (firstn pt_num [(qz (-1), qz (-1), qz (-1)); (qz 0, qz 0, qz (-1)); (h, h, qz (-1))])
    (Some (firstn pt_num [(qz 1, qz 0, qz 0); (qz (-1), qz 0, qz 0); (qz 0, qz 1, qz 0)]))
    (Some (firstn pt_num [[qz 1; qz (-1)]; [qz 2; qz (-2)]; [qz 3; qz (-3)]]))
    (Some (Lab2 (firstn pt_num [[qz 0]; [qz 2]; [qz 2]]))) None 1.
(** utils.py:189-205 *)
Definition build_example_octree (normalize : v3 Qc -> v3 Qc) (dep full pt_num : nat) : res octree :=
  pc <- example_cloud pt_num ;;
  r <- build_octree normalize (octree_new dep full 1 0) pc ;;
  Ok (fst r).
