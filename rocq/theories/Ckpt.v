(** Model of projects/tools/upgrade_ckpt.py and parse_ckpt.py, and of the file names in
    projects/datascts/image2shape.py.  A checkpoint is a dictionary: a list of names and
    tensors in the order of insertion.  Simplifications: tensors are contiguous, as
    torch.save writes parameters, so [view] only looks at the number of entries; printing
    is modelled by the list of printed rows; the scripts read and write one file, which
    the model passes as a value. *)
From Coq Require Import String Ascii List ZArith Bool QArith Qcanon.
From Verif Require Import Res Num Filelist.
Import ListNotations.
Local Open Scope string_scope.
Local Open Scope list_scope.
Local Open Scope nat_scope.

(** A tensor: its shape and its entries in row-major order. *)
Record tensor := mkTensor { t_shape : list nat; t_data : list Qc }.
Definition numel (shape : list nat) : nat := fold_right Nat.mul 1 shape.
Definition ckpt := list (string * tensor).

(** str.replace(old, new) for [old] <> '': occurrences from left to right that do not
    overlap.  [skip] counts the characters of the current occurrence still to drop. *)
Fixpoint replace_from (old new s : string) (skip : nat) : string :=
  match s with
  | EmptyString => EmptyString
  | String c t =>
      match skip with
      | S k => replace_from old new t k
      | O => if String.prefix old s then String.append new (replace_from old new t (String.length old - 1))
             else String c (replace_from old new t 0)
      end
  end.
Definition replace (old new s : string) : string := replace_from old new s 0.

(** upgrade_ckpt.py:19: val.view(val.shape[0], -1, last_dim).permute(2, 1, 0).  torch
    infers the -1 from the number of entries; it raises if the other two sizes do not
    divide that number or have product 0. *)
Definition view_permute (v : tensor) (last : nat) : res tensor :=
  match t_shape v with
  | [] => Err IndexError
  | a :: _ =>
      if (a * last =? 0) || negb (List.length (t_data v) mod (a * last) =? 0) then Err RuntimeError
      else let n := List.length (t_data v) / (a * last) in
           Ok (mkTensor [last; n; a]
                (flat_map (fun k => flat_map (fun j => map (fun i => nth ((i * n + j) * last + k) (t_data v) 0%Qc) (seq 0 a)) (seq 0 n)) (seq 0 last)))
  end.
(** upgrade_ckpt.py:26: val.squeeze(2) *)
Definition squeeze2 (v : tensor) : res tensor :=
  match t_shape v with
  | a :: b :: c :: rest => Ok (if c =? 1 then mkTensor (a :: b :: rest) (t_data v) else v)
  | _ => Err IndexError
  end.
(** upgrade_ckpt.py:17-33: the new name and the new value of one entry *)
Definition upgrade_entry (key : string) (val : tensor) : res (string * tensor) :=
  if contains "conv.weight" key then
    let last := if contains "downsample" key || contains "upsample" key then 8 else 27 in
    v <- view_permute val last ;; Ok (key, v)
  else if contains "conv1x1.weight" key then
    let new_key := if contains "conv1x1.conv1x1" key then replace "conv1x1.conv1x1" "conv.linear" key
                   else replace "conv1x1" "linear" key in
    v <- squeeze2 val ;; Ok (new_key, v)
  else if contains "conv1x1.bias" key then Ok (replace "conv1x1.bias" "linear.bias" key, val)
  else Ok (key, val).
(** d[k] = v: an existing key keeps its place *)
Fixpoint put (d : ckpt) (k : string) (v : tensor) : ckpt :=
  match d with
  | [] => [(k, v)]
  | (k', v') :: r => if String.eqb k' k then (k', v) :: r else (k', v') :: put r k v
  end.
(** upgrade_ckpt.py:13-33 *)
Definition upgrade (weights : ckpt) : res ckpt :=
  foldM (fun d kv => e <- upgrade_entry (fst kv) (snd kv) ;; Ok (put d (fst e) (snd e))) [] weights.
(** upgrade_ckpt.py:35: filename[:-4] + '.upgrade.pth' *)
Definition upgrade_file (filename : string) : string :=
  String.append (substring 0 (String.length filename - 4) filename) ".upgrade.pth".

(** parse_ckpt.py:31-36: is a name skipped? *)
Definition excluded (skips : list string) (name : string) : bool := existsb (fun s => contains s name) skips.
(** parse_ckpt.py:24-45: the printed rows (counter, name, shape, number of entries) and the
    printed total *)
Definition list_var (skips : list string) (vars : ckpt) : list (nat * string * list nat * nat) * nat :=
  let '(rows, total, _) :=
    fold_left (fun '(rows, total, counter) kv =>
      if excluded skips (fst kv) then (rows, total, counter)
      else let num := numel (t_shape (snd kv)) in
           (rows ++ [(counter, fst kv, t_shape (snd kv), num)], total + num, S counter)) vars ([], 0, 0) in
  (rows, total).

(** image2shape.py:42-50 and 59-70: the files from which ReadFile takes the points and the
    image of a sample.  [r] is the number drawn by randint(0, 24).
    '%02d' of a number below 100 *)
Definition fmt02 (r : nat) : string :=
  String (ascii_of_nat (48 + r / 10)) (String (ascii_of_nat (48 + r mod 10)) EmptyString).
Definition point_file (filetype filename : string) : res string :=
  if String.eqb filetype "ply" then Ok (String.append filename ".ply")
  else if String.eqb filetype "npz" then Ok (String.append filename ".npz")
  else Err ValueError.
Definition image_file (filetype filename : string) (r : nat) : string :=
  let folder_img := replace (String.append "points." filetype) "renderings" filename in
  String.append folder_img (String.append "/rendering/" (String.append (fmt02 r) ".png")).
Definition sample_files (filetype filename : string) (r : nat) : res (string * string) :=
  p <- point_file filetype filename ;; Ok (p, image_file filetype filename r).
