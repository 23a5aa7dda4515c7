(** Model of parts of /repo/projects: the metrics and the evaluation of
    segmentation.py, octree2pts of autoencoder.py, and the label and chunk handling of
    tools/seg_scannet.py and datascts/semantic_kitti.py.  Saving and loading of files,
    the training loop (thsolver) and devices are not modelled. *)
From Coq Require Import String Ascii List ZArith Bool QArith Qcanon Qround.
From Verif Require Import Res Tensor Key Num Points Octree PointsOps NnBasic NnConv NnInterp Utils Dataset Net.
Import ListNotations.
Open Scope Z_scope.

(** ** segmentation.py: metrics *)

(** segmentation.py:162, 172-173: number of true entries as a float; the sums are exact *)
Definition qcount (m : list bool) : Qc := qz (Z.of_nat (count_true m)).
(** segmentation.py:149, 168: 1.0e-10 *)
Definition esp10 : Qc := (/ qz 10000000000)%Qc.

(** segmentation.py:76-78, the filter of labels in model_forward *)
Definition label_filter {A} (m : Z) (logit : list A) (labels : list Z) : res (list A * list Z) :=
  let label_mask := map (fun l => m <? l) labels in
  lg <- mask_get logit label_mask ;;
  lb <- mask_get labels label_mask ;;
  Ok (lg, lb).

(** segmentation.py:160-163, accuracy; the mean of no element is nan ([None]).  Tensors
    of different lengths raise (torch would broadcast a single row). *)
Definition accuracy (logit : feat) (label : list Z) : res (option Qc) :=
  let pred := map argmax logit in
  if negb (Nat.eqb (List.length pred) (List.length label)) then Err RuntimeError else
  match label with
  | [] => Ok None
  | _ => Ok (Some (qcount (zip_with Z.eqb pred label) / qz (zlen label))%Qc)
  end.

(** segmentation.py:165-181, IoU_per_shape.  The state of the loop is IoU,
    valid_part_num and the two lists. *)
Definition iou_step (pred label : list Z) (st : Qc * Qc * list Qc * list Qc) (k : Z) : Qc * Qc * list Qc * list Qc :=
  let '(iou, vpn, intsc, union) := st in
  let pk := map (Z.eqb k) pred in let lk := map (Z.eqb k) label in
  let ik := qcount (zip_with andb pk lk) in
  let uk := qcount (zip_with orb pk lk) in
  let valid := if existsb (fun b => b) lk then qz 1 else 0%Qc in
  ((iou + valid * ik / (uk + esp10))%Qc, (vpn + valid)%Qc, intsc ++ [ik], union ++ [uk]).
Definition IoU_per_shape (logit : feat) (label : list Z) (class_num : nat) : res (Qc * list Qc * list Qc) :=
  let pred := map argmax logit in
  if negb (Nat.eqb (List.length pred) (List.length label)) then Err RuntimeError else
  let '(iou, vpn, intsc, union) := fold_left (iou_step pred label) (arange class_num) (0%Qc, 0%Qc, [], []) in
  Ok ((iou / (vpn + esp10))%Qc, intsc, union).

(** segmentation.py:135-153, result_callback.  The tracker (thsolver.AverageTracker)
    averages each quantity over the test batches; [batches] holds what test_step put
    into it.  avg['test/intsc_%d'] with a missing class raises KeyError. *)
Definition average (xs : list Qc) : Qc := (fold_right Qcplus 0%Qc xs / qz (zlen xs))%Qc.
Definition class_avg (col : list (list Qc)) (k : Z) : res Qc :=
  xs <- mapM (fun row => if k <? 0 then Err KeyError else match nth_error row (Z.to_nat k) with Some x => Ok x | None => Err KeyError end) col ;;
  Ok (average xs).
Definition result_callback (m : Z) (num_class : nat) (batches : list (list Qc * list Qc)) : res Qc :=
  let mask := m + 1 in
  let ks := map (fun i => mask + Z.of_nat i) (seq 0 (Z.to_nat (Z.of_nat num_class - mask))) in
  s <- foldM (fun acc k =>
         i <- class_avg (map fst batches) k ;;
         u <- class_avg (map snd batches) k ;;
         Ok (acc + i / (u + esp10))%Qc) 0%Qc ks ;;
  if Z.of_nat num_class =? mask then Err ZeroDivisionError
  else Ok (s / qz (Z.of_nat num_class - mask))%Qc.

(** ** segmentation.py: evaluation *)

(** torch.split(x, sizes): the sizes have to add up to the number of rows *)
Fixpoint split_rows {A} (l : list A) (sizes : list nat) : list (list A) :=
  match sizes with [] => [] | n :: t => firstn n l :: split_rows (skipn n l) t end.
Definition tsplit {A} (l : list A) (sizes : list nat) : res (list (list A)) :=
  if Nat.eqb (fold_right Nat.add O sizes) (List.length l) then Ok (split_rows l sizes) else Err RuntimeError.

(** d[name] = d.get(name, 0) + rows (segmentation.py:126, seg_scannet.py:286); torch and
    numpy would also broadcast a single row, here different heights raise *)
Definition acc_add (st : dict feat) (name : string) (rows : feat) : res (dict feat) :=
  match dlookup st name with
  | None => Ok (dset st name rows)
  | Some old => if Nat.eqb (List.length old) (List.length rows) then Ok (dset st name (zip_with vadd old rows)) else Err RuntimeError
  end.

(** What model_forward and the data loader hand to eval_step: the logits and labels of
    all points that were not clipped, the number of such points per sample, the
    inbox_mask and the file name of each sample. *)
Record eval_batch := mkEval { e_logit : feat; e_labels : list Z; e_npts : list nat; e_masks : list (list bool); e_names : list string }.

(** segmentation.py:115-126, the body of the loop *)
Definition eval_item (C : nat) (b : eval_batch) (probs : list feat) (st : dict feat) (i : nat) : res (dict feat) :=
  prob <- tget probs (Z.of_nat i) ;;
  inbox_mask <- tget (e_masks b) (Z.of_nat i) ;;
  prob_all_pts <- mask_put (repeat (vzero C) (List.length inbox_mask)) inbox_mask prob ;;
  filename <- tget (e_names b) (Z.of_nat i) ;;
  acc_add st filename prob_all_pts.
(** segmentation.py:102-126, eval_step without the saving of lines 128-133; [C] is the number of classes, [softmax] an
    arbitrary function of a row, [m] is LOSS.mask; the state is self.eval_rst. *)
Definition eval_step (C : nat) (softmax : list Qc -> list Qc) (m : Z) (st : dict feat) (b : eval_batch) : res (dict feat) :=
  '(logit, _) <- label_filter m (e_logit b) (e_labels b) ;;
  let prob := map softmax logit in
  probs <- tsplit prob (e_npts b) ;;
  foldM (eval_item C b probs) st (seq 0 (List.length (e_masks b))).

(** ** tools/seg_scannet.py *)

(** seg_scannet.py:36-51: the two lists of classes *)
Definition class_ids20 : list Z := [0; 1; 2; 3; 4; 5; 6; 7; 8; 9; 10; 11; 12; 14; 16; 24; 28; 33; 34; 36; 39].
Definition class_ids200 : list Z := [
    0; 1; 2; 3; 4; 5; 6; 7; 8; 9; 10; 11; 13; 14; 15; 16; 17; 18; 19; 21; 22;
    23; 24; 26; 27; 28; 29; 31; 32; 33; 34; 35; 36; 38; 39; 40; 41; 42; 44; 45;
    46; 47; 48; 49; 50; 51; 52; 54; 55; 56; 57; 58; 59; 62; 63; 64; 65; 66; 67;
    68; 69; 70; 71; 72; 73; 74; 75; 76; 77; 78; 79; 80; 82; 84; 86; 87; 88; 89;
    90; 93; 95; 96; 97; 98; 99; 100; 101; 102; 103; 104; 105; 106; 107; 110;
    112; 115; 116; 118; 120; 121; 122; 125; 128; 130; 131; 132; 134; 136; 138;
    139; 140; 141; 145; 148; 154; 155; 156; 157; 159; 161; 163; 165; 166; 168;
    169; 170; 177; 180; 185; 188; 191; 193; 195; 202; 208; 213; 214; 221; 229;
    230; 232; 233; 242; 250; 261; 264; 276; 283; 286; 300; 304; 312; 323; 325;
    331; 342; 356; 370; 392; 395; 399; 408; 417; 488; 540; 562; 570; 572; 581;
    609; 748; 776; 1156; 1163; 1164; 1165; 1166; 1167; 1168; 1169; 1170; 1171;
    1172; 1173; 1174; 1175; 1176; 1178; 1179; 1180; 1181; 1182; 1183; 1184;
    1185; 1186; 1187; 1188; 1189; 1190; 1191].
(** seg_scannet.py:53-56 *)
Definition class_ids (scannet200 : bool) : list Z := if scannet200 then class_ids200 else class_ids20.
Definition label_dict (scannet200 : bool) : res (list Z) :=
  index_put (repeat 0 2048) (class_ids scannet200) (arange (List.length (class_ids scannet200))).
Definition ilabel_dict (scannet200 : bool) : list Z := class_ids scannet200.
(** seg_scannet.py:250: label_new = label_dict[label] *)
Definition new_labels (scannet200 : bool) (label : list Z) : res (list Z) := t <- label_dict scannet200 ;; gather t label.
(** seg_scannet.py:293-294: label = ilabel_dict[argmax(prob)] *)
Definition old_labels (scannet200 : bool) (prob : feat) : res (list Z) := gather (ilabel_dict scannet200) (map argmax prob).

(** np.ceil *)
Definition qceil (q : Qc) : Z := Qceiling q.
Definition qmax (a b : Qc) : Qc := if qltb a b then b else a.
Definition qmin (a b : Qc) : Qc := if qltb b a then b else a.
(** np.min / np.max over the rows; no row raises ValueError *)
Definition rows_fold (f : Qc -> Qc -> Qc) (vs : list (v3 Qc)) : res (v3 Qc) :=
  match vs with [] => Err ValueError | v :: t => Ok (fold_left (v3zip f) t v) end.
(** seg_scannet.py:186-212, generate_chunks: the masks of the chunks that are saved, in
    the order of their numbers; [None] when the scene is used as a whole.  [min_size] is
    3000 in the code.  The casts are exact. *)
Definition generate_chunks (cropsize stride : Qc) (min_size : Z) (vs : list (v3 Qc)) : res (option (list (list bool))) :=
  bbmin <- rows_fold qmin vs ;;
  bbmax <- rows_fold qmax vs ;;
  let '(x, y, z) := v3zip Qcminus bbmax bbmin in
  if qltb x cropsize && qltb y cropsize && qltb z cropsize then Ok None else
  let chunk_num := v3map (fun c => qceil (qmax (c - cropsize) 0 / stride)%Qc + 1) bbmax in
  let '(n0, n1, n2) := chunk_num in
  let ids := flat_map (fun i => flat_map (fun j => map (fun k => (i, j, k)) (arange (Z.to_nat n2))) (arange (Z.to_nat n1))) (arange (Z.to_nat n0)) in
  let masks := map (fun '(i, j, k) =>
    let cmin := v3zip (fun b n => (b + qz n * stride)%Qc) bbmin (i, j, k) in
    let cmax := v3map (fun c => (c + cropsize)%Qc) cmin in
    map (fun v =>
      let '(a, b, c) := v3zip qleb v cmax in let '(a', b', c') := v3zip qleb cmin v in
      (a && a') && (b && b') && (c && c')) vs) ids in
  Ok (Some (filter (fun m => negb (Z.of_nat (count_true m) <? min_size)) masks)).

(** seg_scannet.py:208: the name of chunk number [i] of a scene, without '.ply' *)
Definition chunk_name (scene : string) (i : nat) : string := (scene ++ ".chunk_" ++ str_z (Z.of_nat i))%string.
(** s[:-n] *)
Definition drop_last (n : nat) (s : string) : string := substring 0 (String.length s - n) s.
(** seg_scannet.py:272-286, the loop of generate_output_seg over the listed files;
    [load] is np.load(...)['prob'], [load_mask] np.load of the mask file. *)
Definition merge_file (C : nat) (load : string -> res feat) (load_mask : string -> res (list bool)) (probs : dict feat) (name : string)
  : res (dict feat) :=
  prob0 <- load name ;;
  if contains "chunk" name then
    mask <- load_mask name ;;
    prob1 <- mask_put (repeat (vzero C) (List.length mask)) mask prob0 ;;
    acc_add probs (drop_last 8 name) prob1
  else acc_add probs name prob0.
(** seg_scannet.py:259-295, generate_output_seg: file names of scenes and their labels *)
Definition generate_output_seg (C : nat) (scannet200 : bool) (load : string -> res feat) (load_mask : string -> res (list bool)) (files : list string)
  : res (dict (list Z)) :=
  probs <- foldM (merge_file C load load_mask) [] files ;;
  mapM (fun '(name, prob) => l <- old_labels scannet200 prob ;; Ok (name, l)) probs.

(** ** datascts/semantic_kitti.py *)

(** semantic_kitti.py:18-28 *)
Definition label_name_mapping : list (Z * string) :=
  [(0, "unlabeled"); (1, "outlier"); (10, "car"); (11, "bicycle"); (13, "bus");
   (15, "motorcycle"); (16, "on-rails"); (18, "truck"); (20, "other-vehicle");
   (30, "person"); (31, "bicyclist"); (32, "motorcyclist"); (40, "road");
   (44, "parking"); (48, "sidewalk"); (49, "other-ground"); (50, "building");
   (51, "fence"); (52, "other-structure"); (60, "lane-marking"); (70, "vegetation");
   (71, "trunk"); (72, "terrain"); (80, "pole"); (81, "traffic-sign");
   (99, "other-object"); (252, "moving-car"); (253, "moving-bicyclist");
   (254, "moving-person"); (255, "moving-motorcyclist"); (256, "moving-on-rails");
   (257, "moving-bus"); (258, "moving-truck"); (259, "moving-other-vehicle")]%string.
(** semantic_kitti.py:30-34 *)
Definition kept_labels : list string :=
  ["road"; "sidewalk"; "parking"; "other-ground"; "building"; "car"; "truck";
   "bicycle"; "motorcycle"; "other-vehicle"; "vegetation"; "trunk"; "terrain";
   "person"; "bicyclist"; "motorcyclist"; "fence"; "pole"; "traffic-sign"]%string.
(** s.replace(old, ''): left to right, without overlaps *)
Fixpoint remove_all (old : string) (skip : nat) (s : string) : string :=
  match s with
  | EmptyString => EmptyString
  | String c t =>
      match skip with
      | S k => remove_all old k t
      | O => if String.prefix old s then remove_all old (String.length old - 1) t else String c (remove_all old O t)
      end
  end.
(** semantic_kitti.py:37-46, get_label_map *)
Definition get_label_map : res (list Z) :=
  let label_dict : dict Z := combine kept_labels (map (Z.add 1) (arange (List.length kept_labels))) in
  foldM (fun map_ '(idx, name) =>
    let name := remove_all "moving-" O name in
    tset map_ idx (match dlookup label_dict name with Some c => c | None => 0 end)) (repeat 0 260) label_name_mapping.
(** semantic_kitti.py:68: self.label_map[labels & 0xFFFF] *)
Definition kitti_labels (labels : list Z) : res (list Z) :=
  t <- get_label_map ;; gather t (map (fun l => Z.land l 65535) labels).
(** semantic_kitti.py:63-64: the normalisation with scale factor 100 *)
Definition kitti_normalize (vs : list (v3 Qc)) : res (list (v3 Qc)) :=
  mn <- rows_fold qmin vs ;;
  mx <- rows_fold qmax vs ;;
  let center := v3zip (fun a b => (a + b) / qz 2)%Qc mn mx in
  Ok (map (fun v => v3zip (fun a c => (a - c) / qz 100)%Qc v center) vs).

(** ** autoencoder.py (projects): octree2pts *)

(** projects/autoencoder.py:89-105.  [nrm] is F.normalize of a row; the signal has four
    columns, the displacement is the last one; a row is a position and a normal.
    Tensors of different heights raise. *)
Definition octree2pts (nrm : v3 Qc -> v3 Qc) (o : octree) : res (list (list (v3 Qc * v3 Qc))) :=
  let d := depth o in
  l <- get_layer o (Z.of_nat d) ;;
  signal <- need (l_features l) ;;
  nd <- mapM (fun r => match r with [a; b; c; e] => Ok (nrm (a, b, c), e) | _ => Err RuntimeError end) signal ;;
  xyzb <- octree_xyzb o d true ;;
  if negb (Nat.eqb (List.length xyzb) (List.length nd)) then Err RuntimeError else
  let point_cloud := zip_with (fun '(x, y, z, _) '(n, e) =>
    (v3zip (fun c nc => (c + Q2Qc (1 # 2) + e * nc) / q2pow (Z.of_nat d - 1) - 1)%Qc (qz x, qz y, qz z) n, n)) xyzb nd in
  batch_id <- octree_batch_id o (Z.of_nat d) true ;;
  let points_num := map (fun i => count_true (map (Z.eqb i) batch_id)) (arange (batch_size o)) in
  tsplit point_cloud points_num.
