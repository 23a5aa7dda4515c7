(** Model of the transformations of /repo/ocnn/octree/points.py.  Coordinates are
    exact: real numbers where the code uses sin, cos or sqrt, any ordered scalar
    type for slicing; rounding is not modelled here. *)
From Coq Require Import String Ascii List ZArith Bool QArith Qcanon Reals.
From Verif Require Import Res Tensor Num Points Octree.
Import ListNotations.

(** ** slicing *)
(** points.py:190-199, inbox_mask; a float bound is broadcast to the three columns *)
Definition inbox_mask {T} (ltb : T -> T -> bool) (bbmin bbmax : v3 T) (p : pcloud T) : list bool :=
  let '(x0, y0, z0) := bbmin in let '(x1, y1, z1) := bbmax in
  map (fun '(x, y, z) => (ltb x0 x && ltb y0 y && ltb z0 z) && (ltb x x1 && ltb y y1 && ltb z z1)) (p_points p).
(** points.py:158-170, clip: returns the mask and replaces all fields of the object *)
Definition clip {T} (ltb : T -> T -> bool) (add sub : T -> T -> T) (mn mx esp : T) (p : pcloud T)
  : res (list bool * pcloud T) :=
  let lo := add mn esp in let hi := sub mx esp in
  let mask := inbox_mask ltb (lo, lo, lo) (hi, hi, hi) p in
  q <- points_getitem p mask ;; Ok (mask, q).

(** ** geometry over the reals *)
Open Scope R_scope.
Definition Rltb (a b : R) : bool := if Rlt_dec a b then true else false.
Definition Reqb (a b : R) : bool := if Req_EM_T a b then true else false.
Definition set_points {T} (p : pcloud T) (f : v3 T -> v3 T) : pcloud T :=
  mkPoints (map f (p_points p)) (p_normals p) (p_features p) (p_labels p) (p_batch_id p)
           (p_batch_size p) (p_batch_npt p) (p_device p).
Definition set_pnormals {T} (p : pcloud T) (f : v3 T -> v3 T) : pcloud T :=
  mkPoints (p_points p) (option_map (map f) (p_normals p)) (p_features p) (p_labels p) (p_batch_id p)
           (p_batch_size p) (p_batch_npt p) (p_device p).

(** points.py:74-92, orient_normal *)
Definition orient_row (idx : nat) (n : v3 R) : v3 R :=
  let '(x, y, z) := n in
  let c := match idx with O => x | S O => y | _ => z end in
  let flag := (if Rltb 0 c then 1 else 0) * 2 - 1 in
  (x * flag, y * flag, z * flag).
Definition orient_normal (axis : string) (p : pcloud R) : res (pcloud R) :=
  match p_normals p with
  | None => Ok p
  | Some _ =>
      if String.eqb axis "x" then Ok (set_pnormals p (orient_row 0))
      else if String.eqb axis "y" then Ok (set_pnormals p (orient_row 1))
      else if String.eqb axis "z" then Ok (set_pnormals p (orient_row 2))
      else if String.eqb axis "xyz" then Ok (set_pnormals p (v3map Rabs))
      else Err KeyError
  end.

(** points.py:94-113, scale *)
Definition scale_normal (ifactor n : v3 R) : v3 R :=
  let '(x, y, z) := v3zip Rmult n ifactor in
  let norm2 := Rmax (sqrt (x * x + y * y + z * z)) (1 / 10 ^ 12) in
  (x / norm2, y / norm2, z / norm2).
Definition points_scale (factor : v3 R) (p : pcloud R) : res (pcloud R) :=
  let '(fx, fy, fz) := factor in
  let non_zero := negb (Reqb fx 0) && negb (Reqb fy 0) && negb (Reqb fz 0) in
  let all_ones := Reqb fx 1 && Reqb fy 1 && Reqb fz 1 in
  let non_uniform := negb (Reqb fx fx) || negb (Reqb fy fx) || negb (Reqb fz fx) in
  _ <- assert_ non_zero ;;
  if all_ones then Ok p
  else
    let p := set_points p (fun v => v3zip Rmult v factor) in
    if non_uniform then Ok (set_pnormals p (scale_normal (1 / fx, 1 / fy, 1 / fz))) else Ok p.

(** Row vector times matrix, matrix times matrix, matrices as rows. *)
Definition vecmat (v : v3 R) (m : v3 (v3 R)) : v3 R :=
  let '(x, y, z) := v in
  let '((a, b, c), (d, e, f), (g, h, i)) := m in
  (x * a + y * d + z * g, x * b + y * e + z * h, x * c + y * f + z * i).
Definition matmul (m n : v3 (v3 R)) : v3 (v3 R) := v3map (fun row => vecmat row n) m.
(** points.py:122-127 *)
Definition rot_matrix (angle : v3 R) : v3 (v3 R) :=
  let '(ax, ay, az) := angle in
  let rotx := ((1, 0, 0), (0, cos ax, sin ax), (0, - sin ax, cos ax)) in
  let roty := ((cos ay, 0, - sin ay), (0, 1, 0), (sin ay, 0, cos ay)) in
  let rotz := ((cos az, sin az, 0), (- sin az, cos az, 0), (0, 0, 1)) in
  matmul (matmul rotx roty) rotz.
(** points.py:115-132, rotate *)
Definition rotate (angle : v3 R) (p : pcloud R) : pcloud R :=
  let rot := rot_matrix angle in
  set_pnormals (set_points p (fun v => vecmat v rot)) (fun v => vecmat v rot).

(** points.py:134-142, translate *)
Definition translate (dis : v3 R) (p : pcloud R) : pcloud R := set_points p (fun v => v3zip Rplus v dis).

(** points.py:144-156, flip: axis by axis, so an unknown letter raises after the
    letters before it took effect *)
Definition negate_at (idx : nat) (v : v3 R) : v3 R :=
  let '(x, y, z) := v in
  match idx with O => (x * -1, y, z) | S O => (x, y * -1, z) | _ => (x, y, z * -1) end.
Definition axis_of (c : ascii) : res nat :=
  if Ascii.eqb c "x" then Ok 0%nat else if Ascii.eqb c "y" then Ok 1%nat
  else if Ascii.eqb c "z" then Ok 2%nat else Err KeyError.
Fixpoint flip_loop (axes : list ascii) (p : pcloud R) : pcloud R * option exn :=
  match axes with
  | [] => (p, None)
  | a :: axes =>
      match axis_of a with
      | Err e => (p, Some e)
      | Ok idx => flip_loop axes (set_pnormals (set_points p (negate_at idx)) (negate_at idx))
      end
  end.
Definition flip (axis : string) (p : pcloud R) : pcloud R * option exn := flip_loop (list_ascii_of_string axis) p.

(** points.py:201-208, bbox; the minimum over no points raises *)
Definition bbox (p : pcloud R) : res (v3 R * v3 R) :=
  match p_points p with
  | [] => Err IndexError
  | v :: vs => Ok (fold_left (v3zip Rmin) vs v, fold_left (v3zip Rmax) vs v)
  end.
(** points.py:210-222, normalize *)
Definition normalize (bbmin bbmax : v3 R) (scale : R) (p : pcloud R) : pcloud R :=
  let center := v3map (fun c => c * / 2) (v3zip Rplus bbmin bbmax) in
  let '(sx, sy, sz) := v3zip Rminus bbmax bbmin in
  let box_size := Rmax (Rmax sx sy) sz + 1 / 10 ^ 6 in
  set_points p (fun v => v3map (fun c => c * (2 * scale / box_size)) (v3zip Rminus v center)).

(** One call on a Points object; an exception keeps the effects made before it. *)
Inductive pop : Type :=
| POrient (axis : string) | PScale (factor : v3 R) | PRotate (angle : v3 R) | PTranslate (dis : v3 R)
| PFlip (axis : string) | PClip (mn mx esp : R) | PIndex (mask : list bool)
| PNormalize (bbmin bbmax : v3 R) (scale : R) | PTo (dev : nat).
Definition settle (p : pcloud R) (r : res (pcloud R)) : pcloud R * option exn :=
  match r with Ok q => (q, None) | Err e => (p, Some e) end.
Definition papply (p : pcloud R) (op : pop) : pcloud R * option exn :=
  match op with
  | POrient axis => settle p (orient_normal axis p)
  | PScale f => settle p (points_scale f p)
  | PRotate a => (rotate a p, None)
  | PTranslate d => (translate d p, None)
  | PFlip axis => flip axis p
  | PClip mn mx esp => settle p (mq <- clip Rltb Rplus Rminus mn mx esp p ;; Ok (snd mq))
  | PIndex mask => settle p (points_getitem p mask)
  | PNormalize a b s => (normalize a b s p, None)
  | PTo dev => (points_to p dev, None)
  end.
Definition papply_all (p : pcloud R) (ops : list pop) : pcloud R := fold_left (fun p op => fst (papply p op)) ops p.

(** ** octree.py:478-506, Octree.to_points.  batch_id is a 1-D tensor. *)
Definition to_points (o : octree) (rescale : bool) : res (pcloud Qc) :=
  let d := depth o in
  l <- get_layer o (Z.of_nat d) ;;
  batch_id <- octree_batch_id o (Z.of_nat d) true ;;
  '(xyz, batch_id) <- (match l_points l with
                       | Some xyz => Ok (xyz, batch_id)
                       | None =>
                           cs <- octree_xyzb o d true ;;
                           Ok (map (fun '(x, y, z, _) => v3map (fun c => (qz c + Q2Qc (1 # 2)%Q)%Qc) (x, y, z)) cs,
                               map (fun '(_, _, _, b) => b) cs)
                       end) ;;
  let xyz := if rescale then map (v3map (fun c => (c * q2pow (1 - Z.of_nat d) - qz 1)%Qc)) xyz else xyz in
  points_new (device o) xyz (l_normals l) (l_features l) None (Some (Bid1 batch_id)) (batch_size o).
