(** Example data for the transforms of the datasets. *)
From Coq Require Import String Ascii List ZArith Bool QArith Qcanon.
From Verif Require Import Res Num Points Octree PointsOps Dataset SpecDataset DatasetExamples Prep SpecAug.
Import ListNotations.
Open Scope Z_scope.

Definition ex_pcfg (distort : bool) : transform_cfg := mkTransform 3 1 distort "y".
Definition q (a : Z) (b : positive) : Qc := Q2Qc (a # b).
Definition ex_xyz : list (v3 Qc) := [(qz 0, qz 0, qz 0); (qz 150, qz 20, qz 1); (qz 50, qz 190, qz 10)].
Definition ex_nrm : list (v3 Qc) := [(qz 1, qz 0, qz 0); (qz 0, qz (-1), qz 0); (qz 0, qz 0, qz 1)].
Definition ex_dens : list (list Qc) := [[q 1 2]; [q 1 3]; [q 3 4]].
Definition ex_labs : list Z := [40; 65536 + 252; 71].
Definition ex_cols : list (v3 Qc) := [(qz 0, qz 10, qz 255); (qz 100, qz 200, qz 55); (qz 200, qz 30, qz 5)].
Definition ex_gray : list (v3 Qc) := [(qz 0, qz 10, qz 7); (qz 100, qz 200, qz 7); (qz 200, qz 30, qz 7)].
Definition ex_cd : cdraw := mkCdraw (q 1 2) (q 1 10) (q 1 2, q 1 4, qz 1) (q 1 3) (fun i => (qz (Z.of_nat i), q 1 2, qz (-1))).
(** a lump of noise around the node (1,1,1) *)
Definition ex_noise : nat -> grid := fun _ i => if in_dim (3, 3, 3) i then (qz 27, qz (-27), qz 0) else v3zero.
Definition cloud_in (r : res (dict value)) : option (pcloud Qc) :=
  match r with Ok out => match dlookup out "points" with Some (VPts p) => Some p | _ => None end | Err _ => None end.
Definition nums (l : list (v3 Qc)) : list (Q * Q * Q) := map (fun v => let '(x, y, z) := v in (this x, this y, this z)) l.

Lemma ex_pcfg_ok b : cfg_ok (ex_pcfg b).
Proof. split; [repeat constructor|]. split; [repeat constructor|]. cbn. auto. Qed.
Lemma ex_kitti : match cloud_in (kitti_call (fun n => n) (ex_pcfg false) ex_draw ex_xyz ex_dens ex_labs) with
  | Some p => nums (p_points p) = [((-3 # 4), (-19 # 20), (-1 # 20)); ((3 # 4), (-3 # 4), (-1 # 25)); ((-1 # 4), (19 # 20), (1 # 20))]%Q
      /\ option_map (map (map this)) (p_labels p) = Some [[1]; [6]; [12]]%Q
  | None => False end.
Proof. vm_compute. auto. Qed.
Lemma ex_segshape : match cloud_in (segshape_call (fun n => n) (ex_pcfg false) ex_draw ex_xyz ex_nrm [3; 1; 2]) with
  | Some p => nums (p_points p) = [(-120000000 # 190000001, -152000000 # 190000001, -8000000 # 190000001);
           (120000000 # 190000001, -120000000 # 190000001, -6400000 # 190000001); (-40000000 # 190000001, 152000000 # 190000001, 8000000 # 190000001)]%Q
  | None => False end.
Proof. vm_compute. reflexivity. Qed.
(** a scale too small for two of the points *)
Lemma ex_aeshape : match cloud_in (aeshape_call (fun n => n) (ex_pcfg false) ex_draw (qz 100) ex_xyz ex_nrm) with
  | Some p => nums (p_points p) = [(0, 0, 0)]%Q /\ option_map nums (p_normals p) = Some [(-1 # 1, 0, 0)]%Q
  | None => False end.
Proof. vm_compute. auto. Qed.
Lemma ex_completion : match completion_call (fun n => n) 3 1 ex_xyz ex_nrm [(qz 1, qz 0, qz (-1)); (qz 0, qz 200, qz 0); (qz 200, qz 0, qz 0)] [2; 0; 1] with
  | Ok (_, pi, _, pg) => npt pi = 2%nat /\ nums (p_points pg) = [(-142500000 # 190000001, -180500000 # 190000001, -9500000 # 190000001);
         (142500000 # 190000001, -142500000 # 190000001, -7600000 # 190000001); (-47500000 # 190000001, 180500000 # 190000001, 9500000 # 190000001)]%Q
  | Err _ => False end.
Proof. vm_compute. auto. Qed.
Definition ex_room : list (v3 Qc) := [(qz 0, qz 0, qz 0); (qz 3, qz 4, qz 1); (qz 1, qz 2, qz 2)].
Lemma ex_scannet : match scannet_call (fun n => n) (ex_pcfg false) ex_draw ex_cd 0%Qc ex_noise ex_room ex_nrm ex_cols [3; 1; 2] with
  | Ok (Some o) => match cloud_in (Ok o) with Some p => nums (p_points p) = [(-75 # 512, -25 # 128, -25 # 512); (75 # 512, 25 # 128, 25 # 512); (-25 # 512, 0, 75 # 512)]%Q | None => False end
  | _ => False end.
Proof. vm_compute. reflexivity. Qed.
Lemma ex_scannet_distort : match scannet_call (fun n => n) (ex_pcfg true) ex_draw ex_cd 0%Qc (fun _ _ => v3zero) ex_room ex_nrm ex_cols [3; 1; 2] with
  | Ok (Some o) => match cloud_in (Ok o) with Some p => npt p = 3%nat | None => False end
  | _ => False end.
Proof. vm_compute. reflexivity. Qed.
Definition cnums (l : list (v3 cnum)) := map (fun v : v3 cnum => let '(x, y, z) := v in (option_map this x, option_map this y, option_map this z)) l.
Lemma ex_color : match color_distort ex_cd (q 1 10) (q 5 100) (map (v3map (fun a => (a / qz 255)%Qc)) ex_cols) with
  | Ok rows => cnums rows = [(Some 0, Some (1 # 40), Some (19 # 20)); (Some (253 # 510), Some (1769 # 2040), Some (263 # 1020)); (Some (253 # 255), Some (1117 # 12920), Some (61 # 1020))]%Q
  | Err _ => False end.
Proof. vm_compute. reflexivity. Qed.
Lemma ex_constant : exists g color rows, Forall (fun v => forall k, (0 <= channel k v <= 1)%Qc) color /\ (0 <= c_blend g <= 1)%Qc /\
  color_distort g (Q2Qc (1 # 10)) (Q2Qc (5 # 100)) color = Ok rows /\ List.length rows = 3%nat /\ Forall (fun w => channel 2 w = None) rows.
Proof.
  exists ex_cd, (map (v3map (fun a => (a / qz 255)%Qc)) ex_gray). eexists. split.
  - repeat apply Forall_cons; try apply Forall_nil; intros [|[|k]]; vm_compute; split; discriminate.
  - split; [split; discriminate|]. split; [vm_compute; reflexivity|]. split; [reflexivity|]. repeat apply Forall_cons; try apply Forall_nil; reflexivity.
Qed.
Lemma ex_elastic : match elastic_round (ex_noise 0) (qz 100) (q 1 10) ex_xyz with
  | Ok r => nums r = [(343 # 270, -343 # 270, 0); (1130933 # 7500, 144067 # 7500, 1); (227431 # 4500, 852569 # 4500, 10)]%Q
  | Err _ => False end.
Proof. vm_compute. reflexivity. Qed.
