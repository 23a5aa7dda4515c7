(** The logits are the last layer applied to features that do not depend on it. *)
From Coq Require Import String List ZArith Bool QArith Qcanon Lia.
From Verif Require Import Res Tensor ListFacts Key Num Points Octree NnBasic NnConv NnInterp Features Net SumFacts SpecState StateFacts StateNets SpecHead.
Import ListNotations.
Open Scope Z_scope.

Lemma outcomes_bind {A B} (R : B -> B -> Prop) (x x' : res A) (f g : A -> res B) :
  x = x' -> (forall a, x = Ok a -> outcomes R (f a) (g a)) -> outcomes R (bind x f) (bind x' g).
Proof. intros <- H. destruct x as [a|e]; cbn; [apply H; reflexivity|reflexivity]. Qed.
Lemma outcomes_map {A B} (R : A -> A -> Prop) (S : B -> B -> Prop) (x x' : res A) (f g : A -> res B) :
  outcomes R x x' -> (forall a a', R a a' -> outcomes S (f a) (g a')) -> outcomes S (bind x f) (bind x' g).
Proof. intros E H. destruct x as [a|e], x' as [a'|e']; cbn in E |- *; try contradiction; [apply H; exact E|exact E]. Qed.

Lemma tensor1_nth n f j : (j < n)%nat -> nth j (tensor1 n f) 0%Qc = f j.
Proof. intros H. unfold tensor1. rewrite (nth_indep _ 0%Qc (f O)) by (rewrite map_length, seq_length; exact H). rewrite map_nth, seq_nth by exact H. reflexivity. Qed.
Lemma tensor1_len n f : length (tensor1 n f) = n.
Proof. unfold tensor1. rewrite map_length, seq_length. reflexivity. Qed.
Lemma transpose_len n B : length (transpose n B) = n.
Proof. unfold transpose. rewrite map_length, seq_length. reflexivity. Qed.

Definition prod_at (j : nat) (xr : Qc * vec) : Qc := (fst xr * nth j (snd xr) 0)%Qc.
Lemma sum_scale (c : Qc) j (r : vec) : forall (B B' : list vec), length B = length B' ->
  (forall l, (l < length B)%nat -> nth j (nth l B' []) 0 = c * nth j (nth l B []) 0)%Qc ->
  qsum_list (map (prod_at j) (combine r B')) = (c * qsum_list (map (prod_at j) (combine r B)))%Qc.
Proof.
  induction r as [|a r IH]; intros B B' L H.
  - cbn. ring.
  - destruct B as [|b B], B' as [|b' B']; try discriminate L; [cbn; ring|].
    cbn [combine map]. unfold qsum_list. cbn [fold_right]. fold (qsum_list (map (prod_at j) (combine r B'))). fold (qsum_list (map (prod_at j) (combine r B))).
    rewrite (IH B B').
    + unfold prod_at. cbn [fst snd]. pose proof (H O ltac:(cbn; lia)) as H0. cbn [nth] in H0. rewrite H0. ring.
    + cbn in L; lia.
    + intros l Hl. apply (H (S l)). cbn; lia.
Qed.

Lemma transpose_nth n B l j : (l < n)%nat -> nth j (nth l (transpose n B) []) 0%Qc = nth l (nth j B []) 0%Qc.
Proof.
  intros H. unfold transpose. set (f := fun j => map (fun r => nth j r 0%Qc) B).
  rewrite (nth_indep _ [] (f O)) by (rewrite map_length, seq_length; exact H). rewrite (map_nth f), seq_nth by exact H. unfold f. cbn [Nat.add].
  change (0%Qc) with ((fun r : list Qc => nth l r 0%Qc) []) at 1 || idtac.
  destruct (Nat.lt_ge_cases j (length B)) as [Hj|Hj].
  - rewrite (nth_indep _ 0%Qc (nth l [] 0%Qc)) by (rewrite map_length; exact Hj). rewrite (map_nth (fun r => nth l r 0%Qc)). reflexivity.
  - rewrite (nth_overflow (map _ _)) by (rewrite map_length; exact Hj). rewrite (nth_overflow B) by exact Hj. destruct l; reflexivity.
Qed.
Lemma tensor2_nth a b f j l : (j < a)%nat -> (l < b)%nat -> nth l (nth j (tensor2 a b f) []) 0%Qc = f j l.
Proof.
  intros Hj Hl. unfold tensor2. set (h := fun i => tensor1 b (f i)).
  rewrite (nth_indep _ [] (h O)) by (rewrite map_length, seq_length; exact Hj). rewrite (map_nth h), seq_nth by exact Hj. unfold h. cbn [Nat.add].
  apply tensor1_nth. exact Hl.
Qed.
Lemma vecmat_at n r B j : (j < n)%nat -> nth j (vecmat n r B) 0%Qc = qsum_list (map (prod_at j) (combine r B)).
Proof.
  intros H. unfold vecmat. set (h := fun j => qsum_list (map (fun xr => fst xr * nth j (snd xr) 0)%Qc (combine r B))).
  rewrite (nth_indep _ 0%Qc (h O)) by (rewrite map_length, seq_length; exact H). rewrite (map_nth h), seq_nth by exact H. reflexivity.
Qed.

Section Head.
Context (P P' : params).
Notation ag := (same_checkpoint P P').
Lemma before_last A p ci co : before_last_layer (A ++ s_linear p ci co) = A.
Proof. unfold before_last_layer. rewrite app_length. cbn [length s_linear]. replace (length A + 2 - 2)%nat with (length A + 0)%nat by lia. rewrite firstn_app_2. cbn [firstn]. apply app_nil_r. Qed.
Lemma ag_app' a b : ag a -> ag b -> ag (a ++ b).
Proof. intros H1 H2. apply Forall_app. split; assumption. Qed.
Lemma no_outputs (S : nat -> list (path * slot)) A p ci co : (forall n, S n = A ++ s_linear p ci n) ->
  ag (before_last_layer (S co)) -> ag (S O).
Proof.
  intros E H. rewrite E in H |- *. rewrite before_last in H. apply ag_app'; [exact H|].
  constructor; [intros j l Hj; lia|]. constructor; [intros j Hj; lia|constructor].
Qed.

(** ** The last layer of each checkpoint *)
Ltac ends := eexists; intros n; repeat rewrite app_assoc; reflexivity.
Lemma unet_ends g cin : exists A, forall n, unet_state g cin n = A ++ s_linear (sub (sub [] "header" 0) "1" 0) (u_head g) n.
Proof. unfold unet_state, s_head. cbv zeta. ends. Qed.
Lemma lenet_ends cin stages : exists A, forall n, lenet_state cin n stages = A ++ s_linear (sub [] "header" 3) 128 n.
Proof. unfold lenet_state. ends. Qed.
Lemma resnet_ends cin num stages : exists A, forall n, resnet_state cin n num stages = A ++ s_linear (sub [] "header" 2) 512 n.
Proof. unfold resnet_state. ends. Qed.
Lemma segnet_ends cin stages : exists A, forall n, segnet_state cin n stages = A ++ s_linear (sub (sub [] "header" 0) "1" 0) 64 n.
Proof. unfold segnet_state, s_head. cbv zeta. ends. Qed.
Lemma hrnet_ends cin stages num : exists A, forall n, hrnet_state cin n stages num = A ++ s_linear (sub (sub [] "cls_header" 0) "header" 1) 1024 n.
Proof. unfold hrnet_state. ends. Qed.

Context (c : Qc) (s : nat -> Qc).

Lemma linear_changed p ci co x : layer_changed P P' p ci co c s ->
  outcomes (logits_changed co c s) (linear P p ci co true x) (linear P' p ci co true x).
Proof.
  intros [Hw Hb]. unfold linear, mm. rewrite !transpose_len. destruct (forallb _ x); cbn [bind outcomes]; [|reflexivity].
  unfold add_bias, logits_changed. rewrite !map_map. induction x as [|r x IH]; cbn [map]; [constructor|]. constructor; [|exact IH].
  assert (L : forall Q, length (vecmat co r (transpose ci (tensor2 co ci (p_weight Q p O)))) = length (tensor1 co (p_bias Q p)))
    by (intros Q; rewrite vecmat_length, tensor1_len; reflexivity).
  split; [rewrite vadd_len by apply L; apply vecmat_length|]. split; [rewrite vadd_len by apply L; apply vecmat_length|].
  intros j Hj. rewrite !vadd_nth by apply L. rewrite !tensor1_nth, !vecmat_at by exact Hj. rewrite Hb by exact Hj.
  rewrite (sum_scale c j r (transpose ci (tensor2 co ci (p_weight P p O)))).
  - ring.
  - rewrite !transpose_len. reflexivity.
  - intros l Hl. rewrite transpose_len in Hl. rewrite !transpose_nth by exact Hl. rewrite !tensor2_nth by assumption. apply Hw; assumption.
Qed.
Lemma head_changed p ci ch co x : ag (s_linear_bn (sub p "0" 0) ci ch) -> layer_changed P P' (sub p "1" 0) ch co c s ->
  outcomes (logits_changed co c s) (head P p ci ch co x) (head P' p ci ch co x).
Proof. intros H1 H2. unfold head. apply outcomes_bind; [apply conv1x1_bn_relu_same; exact H1|]. intros y _. apply linear_changed. exact H2. Qed.

(** ** The networks *)
Definition with_points (co : nat) (a a' : feat * list qpoint) : Prop := logits_changed co c s (fst a) (fst a') /\ snd a' = snd a.

Lemma unet_changed g cin cout lin ne x o depth pts : ag (before_last_layer (unet_state g cin cout)) ->
  layer_changed P P' (sub (sub [] "header" 0) "1" 0) (u_head g) cout c s ->
  outcomes (with_points cout) (UNet g P cin cout lin ne x o depth pts) (UNet g P' cin cout lin ne x o depth pts).
Proof.
  intros H Hl. destruct (unet_ends g cin) as [A EA]. apply (no_outputs (unet_state g cin) A _ _ cout EA) in H. clear A EA.
  unfold UNet. cbv zeta. apply outcomes_bind.
  - unfold unet_encoder. apply bind_ext'; [reflexivity|]. intros c0 E0. apply (tget_val _ 0) in E0. destruct E0 as [<- _].
    apply bind_ext'.
    + apply (conv_bn_relu_same _ _ _ _ _ 3%nat 27%nat); [reflexivity|]. unfold unet_state in H. cbv zeta in H. apply ag_app in H. apply H.
    + intros y _. apply foldM_ext'. intros t z Hz. apply in_arange in Hz. destruct Hz as (i & Hi & ->). apply (unet_down_same _ _ g cin 0); assumption.
  - intros convd _. apply outcomes_bind.
    + unfold unet_decoder. apply bind_ext'; [reflexivity|]. intros y _. apply foldM_ext'. intros t z Hz. apply in_arange in Hz.
      destruct Hz as (i & Hi & ->). apply (unet_up_same _ _ g cin 0); assumption.
    + intros y _. apply outcomes_bind; [reflexivity|]. intros c1 Ec. apply (tget_back _ 0) in Ec. destruct Ec as [<- _].
      apply outcomes_bind; [reflexivity|]. intros [z pts'] _. eapply outcomes_map; [apply head_changed; [|exact Hl]|].
      * unfold unet_state in H. cbv zeta in H. do 5 (apply ag_app in H; destruct H as [_ H]). rewrite nth_last. apply ag_app in H. apply H.
      * intros a a' Ha. split; [exact Ha|reflexivity].
Qed.

Context (Hn : same_noise P P').
Lemma lenet_changed cin cout stages ne x o depth : ag (before_last_layer (lenet_state cin cout stages)) ->
  layer_changed P P' (sub [] "header" 3) 128 cout c s ->
  outcomes (logits_changed cout c s) (LeNet P cin cout stages ne x o depth) (LeNet P' cin cout stages ne x o depth).
Proof.
  intros H Hl. destruct (lenet_ends cin stages) as [A EA]. apply (no_outputs (fun n => lenet_state cin n stages) A _ _ cout EA) in H. clear A EA.
  unfold lenet_state in H. apply ag_app in H. destruct H as [H1 H]. apply ag_app in H. destruct H as [H2 _].
  unfold LeNet. cbv zeta. apply outcomes_bind.
  - apply foldM_ext'. intros y z Hz. apply in_arange in Hz. destruct Hz as (i & Hi & ->). apply (ag_seq _ _ _ _ i) in H1; [|exact Hi]. cbv beta in H1.
    unfold lenet_stage. cbv zeta. rewrite Zof_succ.
    apply bind_ext'; [reflexivity|]. intros a Ea. apply bind_ext'; [reflexivity|]. intros b Eb.
    apply tget_val in Ea. apply tget_val in Eb. destruct Ea as [<- _], Eb as [<- _]. rewrite !in_nth by lia.
    cbn [Nat.eqb]. replace (S i - 1)%nat with i by lia.
    apply bind_ext'; [|reflexivity]. apply (conv_bn_relu_same _ _ _ _ _ 3%nat 27%nat); [reflexivity|exact H1].
  - intros y _. apply outcomes_bind; [reflexivity|]. intros C _. apply outcomes_bind; [reflexivity|]. intros v _. rewrite !(dropout_same P P' Hn).
    apply outcomes_bind; [apply fc_bn_relu_same; exact H2|]. intros f _. rewrite (dropout_same P P' Hn). apply linear_changed. exact Hl.
Qed.
Lemma resnet_changed cin cout num stages ne x o depth : ag (before_last_layer (resnet_state cin cout num stages)) ->
  layer_changed P P' (sub [] "header" 2) 512 cout c s ->
  outcomes (logits_changed cout c s) (ResNet P cin cout num stages ne x o depth) (ResNet P' cin cout num stages ne x o depth).
Proof.
  intros H Hl. destruct (resnet_ends cin num stages) as [A EA]. apply (no_outputs (fun n => resnet_state cin n num stages) A _ _ cout EA) in H. clear A EA.
  unfold resnet_state in H. apply ag_app in H. destruct H as [H1 H]. apply ag_app in H. destruct H as [H2 H].
  apply ag_app in H. destruct H as [H3 _]. unfold ResNet. cbv zeta.
  apply outcomes_bind; [reflexivity|]. intros c0 E0. apply (tget_val _ 0) in E0. destruct E0 as [<- L0]. rewrite stage_length in L0.
  rewrite stage_nth by exact L0.
  apply outcomes_bind; [apply (conv_bn_relu_same _ _ _ _ _ 3%nat 27%nat); [reflexivity|exact H1]|]. intros y _.
  apply outcomes_bind; [reflexivity|]. intros y' _. apply outcomes_bind.
  - apply foldM_ext'. intros t z Hz. apply in_arange in Hz. destruct Hz as (i & Hi & ->). apply (ag_seq _ _ _ _ i) in H2; [|exact Hi]. cbv beta in H2.
    unfold resnet_stage. cbv zeta. rewrite Zof_succ. rewrite Nat.add_1_r in H2.
    apply bind_ext'; [reflexivity|]. intros a Ea. apply bind_ext'; [reflexivity|]. intros b Eb.
    apply tget_val in Ea. apply tget_val in Eb. destruct Ea as [<- _], Eb as [<- _]. rewrite !stage_nth by lia.
    apply bind_ext'; [|reflexivity]. apply res_blocks_same. exact H2.
  - intros t _. apply outcomes_bind; [reflexivity|]. intros C EC. apply (tget_back _ 0) in EC. destruct EC as [<- _].
    rewrite stage_length, stage_nth by lia. apply outcomes_bind; [reflexivity|]. intros g _.
    apply outcomes_bind; [apply fc_bn_relu_same; exact H3|]. intros f _. rewrite (dropout_same P P' Hn). apply linear_changed. exact Hl.
Qed.
End Head.
