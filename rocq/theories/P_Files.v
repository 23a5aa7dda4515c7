(** C106-C107: point clouds in files. *)
From Coq Require Import String Ascii List ZArith Bool QArith Qcanon Lia.
From Verif Require Import Res Num NumFacts Points SpecPoints Files SpecFiles FilesFacts PlyFacts.
Import ListNotations.
Local Open Scope string_scope.
Local Open Scope list_scope.
Local Open Scope nat_scope.

(** C106: an archive holds, under its own name and once, exactly each attribute that was
    asked for and that the cloud has. *)
Theorem C106_npz : forall p base info, letters info ->
  exists d, points_save p (String.append base ".npz") info = Ok (String.append base ".npz", NpzFile d) /\
    NoDup (map fst d) /\ forall name a, In (name, a) d <-> asked p info name a.
Proof. exact thm_save_npz. Qed.
Print Assumptions C106_npz.

(** C106: a text file has one line for each point, with all attributes asked for in the
    order of the letters, each number rounded to six decimals. *)
Theorem C106_xyz : forall p base info name a, cloud_ok p -> letters info -> asked p info name a ->
  exists lines, points_save p (String.append base ".xyz") info = Ok (String.append base ".xyz", XyzFile lines) /\
    List.length lines = npt p /\
    forall i line, nth_error lines i = Some line -> exists r, whole_row p i (list_ascii_of_string info) r /\ Forall2 six_decimals line r.
Proof. exact thm_save_xyz. Qed.
Print Assumptions C106_xyz.

(** C106: a text file cannot be written if nothing that is asked for is there. *)
Theorem C106_xyz_none : forall p base info, letters info -> (forall name a, ~ asked p info name a) ->
  points_save p (String.append base ".xyz") info = Err ValueError.
Proof. exact thm_save_xyz_none. Qed.
Print Assumptions C106_xyz_none.

(** C106: an unknown letter is a KeyError, another file name a ValueError. *)
Theorem C106_errors : forall p filename info,
  ((exists c, In c (list_ascii_of_string info) /\ forall n, ~ letter c n) -> points_save p filename info = Err KeyError) /\
  (letters info -> (forall b, filename <> String.append b "npz") -> (forall b, filename <> String.append b "xyz") ->
   points_save p filename info = Err ValueError).
Proof. exact thm_save_errors. Qed.
Print Assumptions C106_errors.

(** C106: the reader of the projects gets back from an archive the points, normals and
    labels that were saved, in 32-bit precision, and raises KeyError for what was not
    saved; colors are never in an archive, since features are saved as 'features'. *)
Theorem C106_read : forall f32 p base info f name pts nrm lab (hn hc hl : bool), letters info ->
  points_save p (String.append base ".npz") info = Ok (name, f) ->
  asked_opt p info "points" pts -> asked_opt p info "normals" nrm -> asked_opt p info "labels" lab ->
  (pts <> None -> served hn nrm -> hc = false -> served hl lab ->
   exists a, pts = Some a /\
   read_file f32 hn hc hl name f =
     Ok (("points", Floats (map (map f32) a)) :: entry hn "normals" (fun t => Floats (map (map f32) t)) nrm ++
         entry hl "labels" (fun t => Ints (map (map qtrunc) t)) lab)) /\
  (pts = None \/ (hn = true /\ nrm = None) \/ hc = true \/ (hl = true /\ lab = None) -> read_file f32 hn hc hl name f = Err KeyError).
Proof. exact thm_read_npz. Qed.
Print Assumptions C106_read.

(** C107: what is written to a ply file in a folder is read back: points and normals in
    32-bit precision, colors and labels from 0 to 255 as they were; the folder is made if it
    does not exist; asking for what was not written is a ValueError. *)
Theorem C107_round : forall f32 have d c base n points normals colors labels,
  (forall x, f32 (f32 x) = f32 x) -> (forall k, (0 <= k <= 255)%Z -> f32 (qz k) = qz k) ->
  c <> "/"%char -> has_char "/" base = false ->
  sized n 3 points -> osized n 3 normals -> osized n 3 colors -> osized n 1 labels -> obytes colors -> obytes labels ->
  let dir := String.append d (String c EmptyString) in
  let name := String.append dir (String "/" (String.append base ".ply")) in
  exists f, save_points_to_ply f32 have name points normals colors (option_map Lab2 labels) = Written (if have dir then None else Some dir) name f /\
  forall hn hc hl,
  (served hn normals -> served hc colors -> served hl labels ->
   read_file f32 hn hc hl name f =
     Ok (("points", Floats (map (map f32) points)) :: entry hn "normals" (fun t => Floats (map (map f32) t)) normals ++
         entry hc "colors" Floats colors ++ entry hl "labels" (fun t => IntVec (flat t)) labels)) /\
  ((hn = true /\ normals = None) \/ (hc = true /\ colors = None) \/ (hl = true /\ labels = None) ->
   read_file f32 hn hc hl name f = Err ValueError).
Proof. exact thm_ply_round. Qed.
Print Assumptions C107_round.

(** C107: nothing can be written to a name without a folder. *)
Theorem C107_bare_refuted : forall f32 have name n points normals colors labels, has_char "/" name = false ->
  sized n 3 points -> osized n 3 normals -> osized n 3 colors -> osized n 1 labels ->
  save_points_to_ply f32 have name points normals colors (option_map Lab2 labels) = NotFound.
Proof. exact thm_ply_bare. Qed.
Print Assumptions C107_bare_refuted.

(** C107: labels as a vector, arrays of different heights, and a row whose length differs
    from the number of columns are a ValueError. *)
Theorem C107_errors : forall f32 have name points normals colors,
  (forall l, save_points_to_ply f32 have name points normals colors (Some (Lab1 l)) = Raised ValueError) /\
  (forall labels, (exists b, In b (opt_list normals ++ opt_list colors ++ opt_list labels) /\ List.length b <> List.length points) ->
     save_points_to_ply f32 have name points normals colors (option_map Lab2 labels) = Raised ValueError) /\
  (forall labels n i, List.length points = n -> Forall (fun b => List.length b = n) (opt_list normals ++ opt_list colors ++ opt_list labels) -> i < n ->
     List.length (rowcat i (points :: opt_list normals ++ opt_list colors ++ opt_list labels)) <>
       3 + (if some normals then 3 else 0) + (if some colors then 3 else 0) + (if some labels then 1 else 0) ->
     save_points_to_ply f32 have name points normals colors (option_map Lab2 labels) = Raised ValueError).
Proof. exact thm_ply_errors. Qed.
Print Assumptions C107_errors.

(** C107: ModelNet's own reader agrees with the general one on ply files. *)
Theorem C107_modelnet : forall f32 b t v,
  read_modelnet f32 (String.append b ".ply") (PlyFile t v) = read_file f32 true false false (String.append b ".ply") (PlyFile t v).
Proof. exact thm_read_modelnet. Qed.
Print Assumptions C107_modelnet.

(** C107: ModelNet's own reader gets from an archive the points and normals that were saved,
    unrounded, and raises KeyError if one of them was not saved. *)
Theorem C107_modelnet_npz : forall f32 p base info f name pts nrm, letters info -> points_save p (String.append base ".npz") info = Ok (name, f) ->
  asked_opt p info "points" pts -> asked_opt p info "normals" nrm ->
  read_modelnet f32 name f = match pts, nrm with Some a, Some b => Ok [("points", Floats a); ("normals", Floats b)] | _, _ => Err KeyError end.
Proof. exact thm_modelnet_npz. Qed.
Print Assumptions C107_modelnet_npz.

(** C107: a text file of ShapeNet of two or more points becomes a ply file from which the
    points, the normals and the part numbers within the category are read. *)
Theorem C107_shapenet : forall f32 have d c base i n k raw (ls : list Z),
  (forall x, f32 (f32 x) = f32 x) -> (forall k, (0 <= k <= 255)%Z -> f32 (qz k) = qz k) ->
  c <> "/"%char -> has_char "/" base = false ->
  nth_error seg_num i = Some k -> n >= 2 -> sized n 7 raw ->
  Forall2 (fun r l => nth 6 r 0%Qc = qz (before i + l) /\ (0 <= l < k)%Z) raw ls ->
  let dir := String.append d (String c EmptyString) in
  let name := String.append dir (String "/" (String.append base ".ply")) in
  exists f, txt_to_ply f32 have i name raw = Written (if have dir then None else Some dir) name f /\
  read_file f32 true false true name f =
    Ok [("points", Floats (map (fun r => map f32 (firstn 3 r)) raw)); ("normals", Floats (map (fun r => map f32 (firstn 3 (skipn 3 r))) raw)); ("labels", IntVec ls)].
Proof. exact thm_shapenet. Qed.
Print Assumptions C107_shapenet.

(** C107: each of the 50 part labels of ShapeNet belongs to exactly one category. *)
Theorem C107_parts : forall l, (0 <= l < 50)%Z <->
  exists i, (exists k, nth_error seg_num i = Some k /\ (before i <= l < before i + k)%Z) /\
  forall j, (exists k, nth_error seg_num j = Some k /\ (before j <= l < before j + k)%Z) -> j = i.
Proof. exact thm_parts. Qed.
Print Assumptions C107_parts.

(** C107: a text file of one point is not converted. *)
Theorem C107_single_refuted : forall f32 have i name r, txt_to_ply f32 have i name [r] = Raised IndexError.
Proof. exact thm_single. Qed.
Print Assumptions C107_single_refuted.

(** The hypotheses are met: a cloud of two points with features, saved and read. *)
Example ex_save : let q := fun k => qz k in
  let p := mkPoints [(q 1%Z, q 2%Z, q 3%Z); (q 4%Z, q 5%Z, q 6%Z)] None (Some [[q 7%Z]; [q 8%Z]]) (Some [[q 1%Z]; [q 0%Z]]) None 1 None 0 in
  cloud_ok p /\ letters "PnfL" /\ asked p "PnfL" "features" [[q 7%Z]; [q 8%Z]] /\ asked_opt p "PnfL" "normals" None /\
  points_save p "a.npz" "PnfL" = Ok ("a.npz", NpzFile [("points", [[q 1%Z; q 2%Z; q 3%Z]; [q 4%Z; q 5%Z; q 6%Z]]); ("features", [[q 7%Z]; [q 8%Z]]); ("labels", [[q 1%Z]; [q 0%Z]])]).
Proof.
  intros q p. split; [repeat split|]. split; [|split; [|split]].
  - intros c [<-|[<-|[<-|[<-|[]]]]]; eexists; unfold letter; simpl; [left|do 3 right; left|do 5 right; left|do 6 right; left]; reflexivity.
  - split; [right; right; left; split; reflexivity|]. exists "f"%char. split; [simpl; tauto|unfold letter; simpl; tauto].
  - intros a ([(E & _)|[(_ & n & E & _)|[(E & _)|[(E & _)|(E & _)]]]] & _); discriminate E.
  - reflexivity.
Qed.
Example ex_bad : exists c, In c (list_ascii_of_string "PNX") /\ forall n, ~ letter c n.
Proof. exists "X"%char. split; [simpl; tauto|]. intros n H. unfold letter in H. simpl in H. intuition discriminate. Qed.
Example ex_parts : let r := fun k => [0; 0; 0; 0; 0; 1; qz k]%Qc in
  nth_error seg_num 1 = Some 2%Z /\ sized 2 7 [r 5%Z; r 4%Z] /\
  Forall2 (fun r l => nth 6 r 0%Qc = qz (before 1 + l) /\ (0 <= l < 2)%Z) [r 5%Z; r 4%Z] [1%Z; 0%Z].
Proof. intro r. split; [reflexivity|]. split; [split; [reflexivity|constructor; [reflexivity|constructor; [reflexivity|constructor]]]|]. constructor; [split; [reflexivity|lia]|]. constructor; [split; [reflexivity|lia]|constructor]. Qed.
Example ex_colors : bytes [[0; qz 255; qz 3]%Qc].
Proof.
  constructor; [|constructor]. constructor; [exists 0%Z; split; [lia|reflexivity]|]. constructor; [exists 255%Z; split; [lia|reflexivity]|].
  constructor; [exists 3%Z; split; [lia|reflexivity]|constructor].
Qed.
