(** Model of Octree.get_input_feature and ocnn.modules.InputFeature. *)
From Coq Require Import String Ascii List ZArith Bool QArith Qcanon.
From Verif Require Import Res Tensor Key Num Points Octree NnBasic NnConv.
Import ListNotations.
Open Scope Z_scope.

(** str.upper() of an ASCII string *)
Definition upper1 (c : ascii) : ascii :=
  let n := nat_of_ascii c in if Nat.leb 97 n && Nat.leb n 122 then ascii_of_nat (n - 32) else c.
Definition upper (s : string) : list ascii := map upper1 (list_ascii_of_string s).
(** [c in s] for a single character *)
Definition has (c : ascii) (s : list ascii) : bool := existsb (Ascii.eqb c) s.

(** octree.py:456-457: points.frac() - 0.5 *)
Definition local_points (pts : list (v3 Qc)) : list (v3 Qc) := map (v3map (fun c => qfrac c - Q2Qc (1 # 2))%Qc) pts.
(** octree.py:460: torch.sum(local_points * normals, dim=1, keepdim=True) *)
Definition displacement (p n : v3 Qc) : vec := [fold_right Qcplus 0%Qc (v3list (v3zip Qcmult p n))].

(** octree.py:433-476.  [CF] is the number of columns of the features.  A [None] signal
    is appended as it is and rejected by torch.cat (TypeError); [None.frac()] raises
    AttributeError; arithmetic with [None] raises TypeError; torch.cat of no tensor
    raises RuntimeError.  Points and normals of different heights cannot be multiplied
    (torch would broadcast a single row, which no octree has). *)
Definition get_input_feature (CF : nat) (o : octree) (feature : string) (nempty : bool) : res feat :=
  let d := depth o in
  let s := upper feature in
  l <- get_layer o (Z.of_nat d) ;;
  let fn := if has "N" s then [(3%nat, option_map (map v3list) (l_normals l))] else [] in
  local <- (if has "L" s || has "D" s
            then match l_points l with Some p => Ok (local_points p) | None => Err AttributeError end
            else Ok []) ;;
  fd <- (if has "D" s
         then n <- need (l_normals l) ;;
              if Nat.eqb (List.length local) (List.length n)
              then Ok [(1%nat, Some (zip_with displacement local n))] else Err RuntimeError
         else Ok []) ;;
  let fl := if has "L" s then [(3%nat, Some (map v3list local))] else [] in
  fp <- (if has "P" s
         then p <- need (l_points l) ;;
              Ok [(3%nat, Some (map (fun p => v3list (v3map (fun c => c * q2pow (1 - Z.of_nat d) - 1)%Qc p)) p))]
         else Ok []) ;;
  let ff := if has "F" s then [(CF, l_features l)] else [] in
  let features := fn ++ fd ++ fl ++ fp ++ ff in
  blocks <- mapM (fun cf => need (snd cf)) features ;;
  out <- cat_cols blocks ;;
  if nempty then Ok out
  else octree_pad (fold_right Nat.add O (map fst features)) out o (Z.of_nat d) (0%Qc).

(** modules.py:171-193, InputFeature: the string is converted once more *)
Definition input_feature (CF : nat) (feature : string) (nempty : bool) (o : octree) : res feat :=
  get_input_feature CF o (string_of_list_ascii (upper feature)) nempty.
