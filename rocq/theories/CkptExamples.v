(** Examples for C113 and C114. *)
From Coq Require Import String Ascii List ZArith Bool QArith Qcanon Lia.
From Verif Require Import Res Num Filelist FilelistFacts SpecFilelist Ckpt SpecCkpt CkptFacts.
Import ListNotations.
Local Open Scope string_scope.
Local Open Scope list_scope.
Local Open Scope nat_scope.

Definition numbers (shape : list nat) : tensor := mkTensor shape (map (fun i => qz (Z.of_nat i)) (seq 0 (numel shape))).
(** A small checkpoint: a convolution, a downsampling layer, a 1x1 convolution with
    normalisation, a last layer with bias, a running mean. *)
Definition ex_ckpt : ckpt :=
  [("conv1.conv.weights", numbers [2; 3; 27]); ("downsample.0.conv.weights", numbers [2; 16]);
   ("resblocks.0.conv1x1a.conv1x1.conv1x1.weight", numbers [2; 3; 1]);
   ("header.1.conv1x1.weight", numbers [4; 3; 1]); ("header.1.conv1x1.bias", numbers [4]); ("conv1.bn.running_mean", numbers [2])].
Lemma upgradable_dec k v : (if contains "conv.weight" k then
    match t_shape v with [] => false | o :: _ => negb (o =? 0) && (List.length (t_data v) mod (o * cells_no k) =? 0) end
  else if contains "conv1x1.weight" k then 3 <=? List.length (t_shape v) else true) = true -> upgradable k v.
Proof.
  intros H. split.
  - intros A. apply contains_iff in A. rewrite A in H. destruct (t_shape v) as [|o r]; [discriminate|]. apply andb_true_iff in H as (H1 & H2). apply negb_true_iff, Nat.eqb_neq in H1. apply Nat.eqb_eq in H2.
    exists o, r, (cells_no k). split; [reflexivity|]. split; [apply cells_no_of|]. split; [lia|]. exists (List.length (t_data v) / (o * cells_no k)).
    pose proof (cells_pos k). pose proof (Nat.div_mod (List.length (t_data v)) (o * cells_no k) ltac:(nia)) as Q. rewrite H2 in Q. nia.
  - intros A B. apply contains_no in A. apply contains_iff in B. rewrite A, B in H. apply Nat.leb_le in H. exact H.
Qed.
Lemma ex_upgradable : Forall (fun kv => upgradable (fst kv) (snd kv)) ex_ckpt.
Proof. repeat (apply Forall_cons; [apply upgradable_dec; vm_compute; reflexivity|]); apply Forall_nil. Qed.
Lemma ex_names : (u <- upgrade ex_ckpt ;; Ok (map (fun kv => (fst kv, t_shape (snd kv))) u)) = Ok
  [("conv1.conv.weights", [27; 3; 2]); ("downsample.0.conv.weights", [8; 2; 2]); ("resblocks.0.conv1x1a.conv.linear.weight", [2; 3]);
   ("header.1.linear.weight", [4; 3]); ("header.1.linear.bias", [4]); ("conv1.bn.running_mean", [2])].
Proof. vm_compute. reflexivity. Qed.
(** Weight and bias of one layer move to different modules. *)
Lemma ex_bias : exists w, (u <- upgrade w ;; Ok (map fst u)) = Ok ["a.conv.linear.weight"; "a.conv1x1.linear.bias"] /\
  map fst w = ["a.conv1x1.conv1x1.weight"; "a.conv1x1.conv1x1.bias"].
Proof. exists [("a.conv1x1.conv1x1.weight", numbers [2; 3; 1]); ("a.conv1x1.conv1x1.bias", numbers [2])]. split; vm_compute; reflexivity. Qed.
(** Two names become one, and a weight is lost. *)
Lemma ex_lost : exists w u, NoDup (map fst w) /\ List.length w = 2 /\ Forall (fun kv => upgradable (fst kv) (snd kv)) w /\ upgrade w = Ok u /\ List.length u = 1.
Proof.
  exists [("linear.weight", numbers [2; 3]); ("conv1x1.weight", numbers [2; 3; 1])]. eexists. split; [repeat constructor; cbn; intuition discriminate|]. split; [reflexivity|].
  split; [repeat (apply Forall_cons; [apply upgradable_dec; vm_compute; reflexivity|]); apply Forall_nil|]. split; vm_compute; reflexivity.
Qed.
(** An upgraded checkpoint must not be upgraded again. *)
Lemma ex_twice : exists w u, upgrade w = Ok u /\ upgrade u = Err RuntimeError.
Proof. exists [("conv1.conv.weights", numbers [2; 3; 27])]. eexists. split; vm_compute; reflexivity. Qed.
Lemma ex_twice_silent : exists w u t, upgrade w = Ok u /\ upgrade u = Ok t /\ map (fun kv => t_shape (snd kv)) t <> map (fun kv => t_shape (snd kv)) u.
Proof. exists [("downsample.conv.weights", numbers [16; 4; 8])]. eexists _, _. split; [vm_compute; reflexivity|]. split; [vm_compute; reflexivity|]. vm_compute. discriminate. Qed.
Lemma ex_listing : list_var ["bn."; "bias"] ex_ckpt =
  ([(0, "conv1.conv.weights", [2; 3; 27], 162); (1, "downsample.0.conv.weights", [2; 16], 32); (2, "resblocks.0.conv1x1a.conv1x1.conv1x1.weight", [2; 3; 1], 6);
    (3, "header.1.conv1x1.weight", [4; 3; 1], 12)], 212).
Proof. vm_compute. reflexivity. Qed.
Lemma ex_files : sample_files "npz" "data/ShapeNetV1/points.npz/03001627/abc" 7 =
  Ok ("data/ShapeNetV1/points.npz/03001627/abc.npz", "data/ShapeNetV1/renderings/03001627/abc/rendering/07.png").
Proof. vm_compute. reflexivity. Qed.
Lemma ex_files_hyp : ~ occurs (String.append "points." "npz") "data/ShapeNetV1" /\ ~ occurs (String.append "points." "npz") "/03001627/abc".
Proof. split; apply contains_no; vm_compute; reflexivity. Qed.
