(** Concrete cases for the theorems of P_Shape.v. *)
From Coq Require Import String List ZArith Bool QArith Qcanon Lia.
From Verif Require Import Res Tensor Num Points Octree NnBasic Features Net Spec SpecGeo SpecBuild WF SpecGrow SpecNeigh SpecNN SpecNet NetFacts NetAe NetBuilt Examples NetExamples DecodeExamples Shape SpecShape ShapeFacts.
Import ListNotations.
Open Scope Z_scope.

(** One point at the centre of each of the 64 cells, all with the same normal. *)
Definition ex_grid : list (v3 Qc) :=
  let c i := Q2Qc (2 * i - 3 # 4) in
  flat_map (fun x => flat_map (fun y => map (fun z => (c x, c y, c z)) [0; 1; 2; 3]) [0; 1; 2; 3]) [0; 1; 2; 3].
Definition ex_grid_cloud : pcloud Qc := mkPoints ex_grid (Some (map (fun _ => (qz 0, qz 0, qz 1)) ex_grid)) None None None 1 None 0.
Definition ex_grid_octree : octree :=
  match build_octree (fun v => v) (octree_new 2 1 1 0) ex_grid_cloud with
  | Ok (o, _) => match construct_all_neigh o with Ok o => o | Err _ => o end
  | Err _ => octree_new 2 1 1 0
  end.
(** A network that always asks for children and predicts that normal. *)
Definition ex_constant : params :=
  mkParams (fun _ _ _ _ => 0%Qc) (fun p i => match p with (n, _) :: _ => if String.eqb n "header" then (if Nat.eqb i 2 then 1%Qc else 0%Qc) else qz (Z.of_nat i) | [] => 0%Qc end)
    (fun _ _ x => Ok x) (fun _ _ _ => 1%Qc) (fun v => v).
Definition ex_small_ae : ae_cfg := mkAe [2; 2; 2]%nat 2 2 1 1.
Definition ex_ce (r : list Qc) (l : Z) : Qc := (nth 0 r 0 - nth 1 r 0 + qz l)%Qc.

Lemma ex_small_ae_ok : ae_config ex_small_ae.
Proof. constructor; cbn; try lia; repeat apply Forall_cons; try apply Forall_nil; vm_compute; discriminate. Qed.
Lemma ex_norms_constant : norms_keep 0 ex_constant.
Proof. intros p C n x _ H. exists x. auto. Qed.
Lemma ex_grid_input : build_input (octree_new 2 1 1 0) ex_grid_cloud.
Proof.
  constructor; cbn [full_depth depth batch_size layers octree_new]; try (vm_compute; reflexivity); try lia.
  constructor; cbn [p_points p_normals p_features p_labels p_batch_id p_batch_size ex_grid_cloud]; try lia; try (intros; discriminate).
  intros n [= <-]. vm_compute. reflexivity.
Qed.
Lemma ex_grid_ready : wf_octree ex_grid_octree /\ depth ex_grid_octree = 2%nat /\ full_depth ex_grid_octree = 1%nat /\ batch_size ex_grid_octree = 1%nat /\
  layers_ready ex_grid_octree false 0 1 2.
Proof.
  destruct (thm_built_ready (fun v => v) (octree_new 2 1 1 0) ex_grid_cloud ex_grid_input) as (o1 & idx & o2 & E1 & E2 & W & D1 & D2 & D3 & H); [cbn; lia|].
  assert (Eo : o2 = ex_grid_octree) by (unfold ex_grid_octree; rewrite E1, E2; reflexivity). subst o2. repeat (split; [assumption|]). apply (H false).
Qed.
Definition all_width (C : nat) (x : list (list Qc)) : bool := forallb (fun r => Nat.eqb (length r) C) x.
Lemma width_shape n C x : Nat.eqb (length x) n && all_width C x = true -> shape n C x.
Proof.
  intros H. apply andb_true_iff in H. destruct H as [H1 H2]. split; [apply Nat.eqb_eq; exact H1|]. apply Forall_forall. intros r Hr. unfold all_width in H2. rewrite forallb_forall in H2. apply Nat.eqb_eq, H2, Hr.
Qed.
(** A run with every accuracy 1 and regression loss 0. *)
Lemma ex_perfect : exists x logits signal gt,
  get_input_feature 0 ex_grid_octree "ND" false = Ok x /\ shape (node_count ex_grid_octree 2 false) 4 x /\
  AutoEncoder ex_small_ae ex_constant 4 4 0 0 "ND" ex_grid_octree false = Ok (logits, signal, ex_grid_octree) /\
  get_input_feature 0 ex_grid_octree "ND" true = Ok gt /\ shape (node_count ex_grid_octree 2 true) 4 gt /\
  exists per reg total, compute_loss ex_ce 0 ex_grid_octree logits signal = Ok (per, reg, total) /\ Forall (fun p => snd p = Some 1%Qc) per /\ reg = Some 0%Qc.
Proof.
  destruct (ok_check (get_input_feature 0 ex_grid_octree "ND" false) (fun x => Nat.eqb (length x) (node_count ex_grid_octree 2 false) && all_width 4 x)) as (x & Ex & Hx); [vm_compute; reflexivity|].
  destruct (ok_check (get_input_feature 0 ex_grid_octree "ND" true) (fun x => Nat.eqb (length x) (node_count ex_grid_octree 2 true) && all_width 4 x)) as (gt & Eg & Hg); [vm_compute; reflexivity|].
  destruct ex_grid_ready as (W & D1 & D2 & D3 & HL).
  destruct (thm_autoencoder_fixed ex_small_ae ex_constant 4 4 0 0 0 "ND" ex_grid_octree ex_small_ae_ok ex_norms_constant W (eq_sym D1) HL ltac:(vm_compute; discriminate) x Ex (width_shape _ _ _ Hx)) as (l & s & E & _).
  exists x, l, s, gt. split; [exact Ex|]. split; [apply width_shape; exact Hx|]. split; [exact E|]. split; [exact Eg|]. split; [apply width_shape; exact Hg|].
  destruct (ok_check (r <- AutoEncoder ex_small_ae ex_constant 4 4 0 0 "ND" ex_grid_octree false ;; compute_loss ex_ce 0 ex_grid_octree (fst (fst r)) (snd (fst r)))
    (fun c => forallb (fun p => match snd p with Some a => qeqb a 1%Qc | None => false end) (fst (fst c)) && match snd (fst c) with Some r => qeqb r 0%Qc | None => false end)) as (r & Er & V); [vm_compute; reflexivity|].
  rewrite E in Er. cbn [bind fst snd] in Er. destruct r as [[per reg] total]. cbn [fst snd] in V. apply andb_true_iff in V. destruct V as [V1 V2]. exists per, reg, total. split; [exact Er|]. split.
  - apply Forall_forall. intros p Hp. rewrite forallb_forall in V1. specialize (V1 p Hp). destruct (snd p) as [a|]; [|discriminate]. f_equal. apply Qc_is_canon, Qeq_bool_iff. exact V1.
  - destruct reg as [q|]; [|discriminate]. f_equal. apply Qc_is_canon, Qeq_bool_iff. exact V2.
Qed.
Lemma ex_grid_occupied : forall d, (1 <= d <= 2)%nat -> (0 < node_count ex_grid_octree d true)%nat.
Proof. intros d Hd. assert (H : d = 1%nat \/ d = 2%nat) by lia. destruct H as [-> | ->]; apply Nat.ltb_lt; vm_compute; reflexivity. Qed.

(** Three images; the encoder returns rows of 16 numbers. *)
Definition ex_encoder (image : list Z) : res (list (list Qc)) := Ok (map (fun v => map (fun i => qz ((v + Z.of_nat i) mod 7 - 3)) (seq 0 16)) image).
Lemma ex_encoder_ok : exists x, ex_encoder [5; 1; 4] = Ok x /\ shape 3 (a_code ex_ae * 8 ^ a_full ex_ae) x.
Proof. eexists. split; [reflexivity|]. apply width_shape. vm_compute. reflexivity. Qed.
Lemma i2s_default_ok code dep full : channel_ok code -> (full <= dep <= 9)%nat -> ae_config (i2s_default code dep full).
Proof. intros H0 H. constructor; cbn [a_ch a_code a_depth a_full i2s_default List.length]; try lia; [repeat apply Forall_cons; try apply Forall_nil; vm_compute; discriminate|exact H0]. Qed.
