(** Model of the tensors behind Points objects (/repo/ocnn/octree/points.py): which
    calls write into an existing tensor and which make a new one.  Points and normals
    are followed in a heap; no call writes into features, labels or batch indices, so
    they are values.  Coordinates are exact reals as in PointsOps.v. *)
From Coq Require Import String Ascii List ZArith Bool Reals.
From Verif Require Import Res Tensor Num Points PointsOps.
Import ListNotations.

(** A tensor of N rows is a cell of the heap. *)
Definition theap : Type := list (list (v3 R)).
Definition tread (h : theap) (i : nat) : list (v3 R) := nth i h [].
Fixpoint twrite (h : theap) (i : nat) (rows : list (v3 R)) : theap :=
  match h, i with
  | [], _ => []
  | _ :: h, O => rows :: h
  | r :: h, S i => r :: twrite h i rows
  end.

(** points.py:30-45: a Points object holds references to tensors. *)
Record hcloud : Type := mkH {
  h_pts : nat; h_nrm : option nat;
  h_feat : option (list (list R)); h_lab : option (list (list R)); h_bid : option (list Z);
  h_size : nat; h_npt : option (list Z); h_dev : nat }.
(** What the object looks like to a reader. *)
Definition content (h : theap) (c : hcloud) : pcloud R :=
  mkPoints (tread h (h_pts c)) (option_map (tread h) (h_nrm c)) (h_feat c) (h_lab c) (h_bid c) (h_size c) (h_npt c) (h_dev c).
(** self.points = ..., self.normals = ...: the object gets a new tensor *)
Definition new_points (h : theap) (c : hcloud) (rows : list (v3 R)) : theap * hcloud :=
  (h ++ [rows], mkH (length h) (h_nrm c) (h_feat c) (h_lab c) (h_bid c) (h_size c) (h_npt c) (h_dev c)).
Definition new_normals (h : theap) (c : hcloud) (rows : list (v3 R)) : theap * hcloud :=
  (h ++ [rows], mkH (h_pts c) (Some (length h)) (h_feat c) (h_lab c) (h_bid c) (h_size c) (h_npt c) (h_dev c)).
(** An object all of whose tensors are new (slicing, to another device, merging). *)
Definition new_cloud (h : theap) (p : pcloud R) : theap * hcloud :=
  match p_normals p with
  | None => (h ++ [p_points p], mkH (length h) None (p_features p) (p_labels p) (p_batch_id p) (p_batch_size p) (p_batch_npt p) (p_device p))
  | Some n => (h ++ [p_points p; n], mkH (length h) (Some (S (length h))) (p_features p) (p_labels p) (p_batch_id p) (p_batch_size p) (p_batch_npt p) (p_device p))
  end.

(** points.py:74-92, orient_normal: one axis makes a new tensor, 'xyz' is abs_() in place *)
Definition h_orient (h : theap) (c : hcloud) (axis : string) : theap * hcloud * option exn :=
  match h_nrm c with
  | None => (h, c, None)
  | Some n =>
      if String.eqb axis "x" then (new_normals h c (map (orient_row 0) (tread h n)), None)
      else if String.eqb axis "y" then (new_normals h c (map (orient_row 1) (tread h n)), None)
      else if String.eqb axis "z" then (new_normals h c (map (orient_row 2) (tread h n)), None)
      else if String.eqb axis "xyz" then (twrite h n (map (v3map Rabs) (tread h n)), c, None)
      else (h, c, Some KeyError)
  end.
(** new tensors for the normals, if there are any *)
Definition map_normals (hc : theap * hcloud) (f : v3 R -> v3 R) : theap * hcloud :=
  let '(h, c) := hc in match h_nrm c with None => (h, c) | Some n => new_normals h c (map f (tread h n)) end.
Definition map_points (h : theap) (c : hcloud) (f : v3 R -> v3 R) : theap * hcloud := new_points h c (map f (tread h (h_pts c))).
(** points.py:94-113, scale *)
Definition h_scale (h : theap) (c : hcloud) (factor : v3 R) : theap * hcloud * option exn :=
  let '(fx, fy, fz) := factor in
  let non_zero := negb (Reqb fx 0) && negb (Reqb fy 0) && negb (Reqb fz 0) in
  let all_ones := Reqb fx 1 && Reqb fy 1 && Reqb fz 1 in
  let non_uniform := negb (Reqb fx fx) || negb (Reqb fy fx) || negb (Reqb fz fx) in
  if negb non_zero then (h, c, Some AssertionError)
  else if all_ones then (h, c, None)
  else
    let hc := map_points h c (fun v => v3zip Rmult v factor) in
    if non_uniform then (map_normals hc (scale_normal (1 / fx, 1 / fy, 1 / fz)%R), None) else (hc, None).
(** points.py:115-132, rotate *)
Definition h_rotate (h : theap) (c : hcloud) (angle : v3 R) : theap * hcloud :=
  let rot := rot_matrix angle in
  map_normals (map_points h c (fun v => vecmat v rot)) (fun v => vecmat v rot).
(** points.py:151-156, flip: self.points[:, idx] *= -1.0 and the same for the normals, in place *)
Fixpoint h_flip (axes : list ascii) (h : theap) (c : hcloud) : theap * option exn :=
  match axes with
  | [] => (h, None)
  | a :: axes =>
      match axis_of a with
      | Err e => (h, Some e)
      | Ok idx =>
          let h := twrite h (h_pts c) (map (negate_at idx) (tread h (h_pts c))) in
          let h := match h_nrm c with None => h | Some n => twrite h n (map (negate_at idx) (tread h n)) end in
          h_flip axes h c
      end
  end.

(** The objects of a program and one call of it: a method of object [i], or merge_points
    of some objects.  Slicing, to(another device) and merging return a new object, which
    is appended; a call on an object that does not exist is no call. *)
Record world : Type := mkW { w_heap : theap; w_objs : list hcloud }.
Inductive call : Type := CDo (i : nat) (op : pop) | CMerge (is : list nat) (update : bool).
Fixpoint replace {A} (l : list A) (i : nat) (a : A) : list A :=
  match l, i with [], _ => [] | _ :: l, O => a :: l | x :: l, S i => x :: replace l i a end.
Definition in_place (w : world) (i : nat) (r : theap * hcloud * option exn) : world * option exn :=
  let '(h, c, e) := r in (mkW h (replace (w_objs w) i c), e).
Definition appended (w : world) (r : res (pcloud R)) : world * option exn :=
  match r with
  | Ok q => let '(h, c) := new_cloud (w_heap w) q in (mkW h (w_objs w ++ [c]), None)
  | Err e => (w, Some e)
  end.
Definition do_method (w : world) (i : nat) (c : hcloud) (op : pop) : world * option exn :=
  let h := w_heap w in
  match op with
  | POrient axis => in_place w i (h_orient h c axis)
  | PScale f => in_place w i (h_scale h c f)
  | PRotate a => in_place w i (h_rotate h c a, None)
  | PTranslate d => in_place w i (map_points h c (fun v => v3zip Rplus v d), None)
  | PFlip axis => let '(h', e) := h_flip (list_ascii_of_string axis) h c in in_place w i (h', c, e)
  | PClip mn mx esp =>
      (* points.py:167-170: the fields of the slice replace those of the object *)
      match clip Rltb Rplus Rminus mn mx esp (content h c) with
      | Ok (_, q) => in_place w i (new_cloud h q, None)
      | Err e => (w, Some e)
      end
  | PIndex mask => appended w (points_getitem (content h c) mask)
  | PNormalize a b s =>
      (* points.py:219-222 *)
      in_place w i (new_points h c (p_points (normalize a b s (content h c))), None)
  | PTo dev =>
      (* points.py:237-253: the same object on the same device *)
      if Nat.eqb (h_dev c) dev then (w, None) else appended w (Ok (points_to (content h c) dev))
  end.
Definition do_call (w : world) (k : call) : world * option exn :=
  match k with
  | CDo i op => match nth_error (w_objs w) i with None => (w, None) | Some c => do_method w i c op end
  | CMerge is update =>
      match mapM (fun i => match nth_error (w_objs w) i with Some c => Ok c | None => Err IndexError end) is with
      | Ok cs => appended w (merge_points (map (content (w_heap w)) cs) update)
      | Err _ => (w, None)
      end
  end.
(** A program: the exceptions are caught and the program goes on. *)
Fixpoint run_calls (w : world) (ks : list call) : world * list (option exn) :=
  match ks with
  | [] => (w, [])
  | k :: ks => let '(w, e) := do_call w k in let '(w, es) := run_calls w ks in (w, e :: es)
  end.
