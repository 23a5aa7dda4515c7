(** Example clouds for C65. *)
From Coq Require Import List ZArith Bool QArith Qcanon.
From Verif Require Import Res Tensor Num Points SpecPoints Examples.
Import ListNotations.
(** Two copies of clouds merged into a batch. *)
Definition ex_merged : pcloud Qc :=
  match merge_points [ex_cloud; mkPoints [(qz 0, qz 0, qz 0)] (option_map (firstn 1) (p_normals ex_cloud)) (option_map (firstn 1) (p_features ex_cloud))
                       (option_map (firstn 1) (p_labels ex_cloud)) None 1 None 0] true with Ok p => p | Err _ => ex_cloud end.
Definition ex_merged_slice : pcloud Qc := match points_getitem ex_merged [true; false; true; true] with Ok p => p | Err _ => ex_merged end.
Lemma ex_merged_ok : cloud_ok ex_merged. Proof. vm_compute. repeat split. Qed.
Lemma ex_merged_to : p_batch_size (points_to ex_merged 1) <> p_batch_size ex_merged. Proof. vm_compute. discriminate. Qed.
Lemma ex_merged_get : points_getitem ex_merged [true; false; true; true] = Ok ex_merged_slice. Proof. vm_compute. reflexivity. Qed.
Lemma ex_merged_npt : p_batch_npt ex_merged <> None. Proof. vm_compute. discriminate. Qed.
