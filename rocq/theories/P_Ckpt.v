(** Properties C113 and C114: checkpoints of an older version, and the files of a sample of
    the image-to-shape project. *)
From Coq Require Import String Ascii List ZArith Bool QArith Qcanon Lia.
From Verif Require Import Res Num SpecFilelist Ckpt SpecCkpt CkptFacts CkptExamples.
Import ListNotations.
Local Open Scope string_scope.
Local Open Scope list_scope.
Local Open Scope nat_scope.

(** C113: every entry of the old checkpoint gets its new name and its new value; the new
    checkpoint holds these entries in their order if the new names differ, and in any case
    has exactly the new names, each once, with the value of the last entry of that name. *)
Theorem C113_upgrade : forall w, Forall (fun kv => upgradable (fst kv) (snd kv)) w ->
  exists us u, Forall2 (fun kv e => new_name (fst kv) (fst e) /\ new_value (fst kv) (snd kv) (snd e)) w us /\ upgrade w = Ok u /\
    (NoDup (map fst us) -> u = us) /\ (forall k, In k (map fst u) <-> In k (map fst us)) /\ (List.length u <= List.length w) /\
    NoDup (map fst u) /\ forall k v, In (k, v) u <-> exists a b, us = a ++ (k, v) :: b /\ ~ In k (map fst b).
Proof. exact thm_upgrade. Qed.
Print Assumptions C113_upgrade.

(** C113: if an entry cannot be upgraded, nothing is written. *)
Theorem C113_upgrade_fails : forall w, ~ Forall (fun kv => upgradable (fst kv) (snd kv)) w -> forall u, upgrade w <> Ok u.
Proof. exact thm_upgrade_fails. Qed.
Print Assumptions C113_upgrade_fails.

(** C113: replacing text in names; [replaced] determines the result. *)
Theorem C113_replace : forall old new s t, old <> EmptyString -> (replaced old new s t <-> t = replace old new s).
Proof. intros old new s t H. split; [exact (thm_replace_unique old new H s t)|intros ->; exact (thm_replace old new H s)]. Qed.
Print Assumptions C113_replace.

(** C113: the listing of a checkpoint. *)
Theorem C113_listing : forall skips vars rows total, list_var skips vars = (rows, total) -> listed skips vars rows total.
Proof. exact thm_list_var. Qed.
Print Assumptions C113_listing.

(** C113: the new checkpoint stem.upgrade.pth is written beside the old one, which is never
    overwritten. *)
Theorem C113_file : (forall stem ext, String.length ext = 4 -> upgrade_file (String.append stem ext) = String.append stem ".upgrade.pth") /\ (forall f, upgrade_file f <> f).
Proof. exact (conj thm_upgrade_file thm_upgrade_file_new). Qed.
Print Assumptions C113_file.

Example C113_case : Forall (fun kv => upgradable (fst kv) (snd kv)) ex_ckpt.
Proof. exact ex_upgradable. Qed.
Example C113_names_case : (u <- upgrade ex_ckpt ;; Ok (map (fun kv => (fst kv, t_shape (snd kv))) u)) = Ok
  [("conv1.conv.weights", [27; 3; 2]); ("downsample.0.conv.weights", [8; 2; 2]); ("resblocks.0.conv1x1a.conv.linear.weight", [2; 3]);
   ("header.1.linear.weight", [4; 3]); ("header.1.linear.bias", [4]); ("conv1.bn.running_mean", [2])].
Proof. exact ex_names. Qed.
Example C113_listing_case : list_var ["bn."; "bias"] ex_ckpt =
  ([(0, "conv1.conv.weights", [2; 3; 27], 162); (1, "downsample.0.conv.weights", [2; 16], 32); (2, "resblocks.0.conv1x1a.conv1x1.conv1x1.weight", [2; 3; 1], 6);
    (3, "header.1.conv1x1.weight", [4; 3; 1], 12)], 212).
Proof. exact ex_listing. Qed.
(** Two names can become one; then a weight is lost without an error. *)
Example C113_lost_case : exists w u, NoDup (map fst w) /\ List.length w = 2 /\ Forall (fun kv => upgradable (fst kv) (snd kv)) w /\ upgrade w = Ok u /\ List.length u = 1.
Proof. exact ex_lost. Qed.
(** Weight and bias of a 1x1 convolution inside another module get names in different modules. *)
Example C113_bias_case : exists w, (u <- upgrade w ;; Ok (map fst u)) = Ok ["a.conv.linear.weight"; "a.conv1x1.linear.bias"] /\
  map fst w = ["a.conv1x1.conv1x1.weight"; "a.conv1x1.conv1x1.bias"].
Proof. exact ex_bias. Qed.
(** Upgrading twice raises an error or changes the weights again. *)
Example C113_twice_case : (exists w u, upgrade w = Ok u /\ upgrade u = Err RuntimeError) /\
  exists w u t, upgrade w = Ok u /\ upgrade u = Ok t /\ map (fun kv => t_shape (snd kv)) t <> map (fun kv => t_shape (snd kv)) u.
Proof. exact (conj ex_twice ex_twice_silent). Qed.

Example C113_file_case : upgrade_file "logs/model.pth" = "logs/model.upgrade.pth".
Proof. reflexivity. Qed.

(** C114: points and image of a sample come from the same entry of the file list, the points
    from the folder points.ply or points.npz, the image from the folder renderings beside it. *)
Theorem C114_sample_files : forall T root rest r, (T = "ply" \/ T = "npz") -> ~ occurs (String.append "points." T) root -> ~ occurs (String.append "points." T) rest ->
  sample_files T (String.append root (String "/" (String.append (String.append "points." T) rest))) r =
  Ok (String.append root (String "/" (String.append "points." (String.append T (String.append rest (String.append "." T))))),
      String.append root (String.append "/renderings" (String.append rest (String.append "/rendering/" (String.append (fmt02 r) ".png"))))).
Proof. exact thm_sample_files. Qed.
Print Assumptions C114_sample_files.
(** C114: the number of the view is written with its two decimal digits. *)
Theorem C114_view : forall a b, a < 10 -> b < 10 -> fmt02 (10 * a + b) = String.append (substring a 1 "0123456789") (substring b 1 "0123456789").
Proof. exact thm_view. Qed.
Print Assumptions C114_view.
Theorem C114_unknown_type : forall T name r, T <> "ply" -> T <> "npz" -> sample_files T name r = Err ValueError.
Proof. exact thm_sample_type. Qed.
Print Assumptions C114_unknown_type.
Example C114_case : ~ occurs (String.append "points." "npz") "data/ShapeNetV1" /\ ~ occurs (String.append "points." "npz") "/03001627/abc".
Proof. exact ex_files_hyp. Qed.
Example C114_files_case : sample_files "npz" "data/ShapeNetV1/points.npz/03001627/abc" 7 =
  Ok ("data/ShapeNetV1/points.npz/03001627/abc.npz", "data/ShapeNetV1/renderings/03001627/abc/rendering/07.png").
Proof. exact ex_files. Qed.
