(** The names of the tensors of a checkpoint are distinct. *)
From Coq Require Import String List ZArith Bool Lia.
From Verif Require Import Net SpecState.
Import ListNotations.
Open Scope string_scope.
Open Scope list_scope.

(** all tensors of [l] belong to modules at or below [p] *)
Definition under (p : path) (l : list (path * slot)) : Prop := Forall (fun e => exists s, fst e = p ++ s) l.
Definition good (p : path) (l : list (path * slot)) : Prop := under p l /\ NoDup (map name_of l).

Lemma under_app p a b : under p a -> under p b -> under p (a ++ b).
Proof. intros Ha Hb. apply Forall_app. split; assumption. Qed.
Lemma under_up p q l : under (p ++ q) l -> under p l.
Proof.
  intros H. eapply Forall_impl; [|exact H]. cbn beta. intros e (s & E). exists (q ++ s). rewrite app_assoc. exact E.
Qed.
Lemma under_nil l : under [] l.
Proof. apply Forall_forall. intros e _. exists (fst e). reflexivity. Qed.
Lemma under_flat {T} p (f : T -> list (path * slot)) l : (forall i, In i l -> under p (f i)) -> under p (flat_map f l).
Proof.
  intros H. apply Forall_forall. intros e He. apply in_flat_map in He. destruct He as (i & Hi & He).
  pose proof (H i Hi) as Hu. unfold under in Hu. rewrite Forall_forall in Hu. apply Hu. exact He.
Qed.
Lemma under_in p l n : under p l -> In n (map name_of l) -> exists s, fst n = p ++ s.
Proof.
  intros H Hi. apply in_map_iff in Hi. destruct Hi as (e & <- & He). unfold under in H. rewrite Forall_forall in H. exact (H e He).
Qed.

Lemma nodup_app {A} (a b : list A) : NoDup a -> NoDup b -> (forall x, In x a -> In x b -> False) -> NoDup (a ++ b).
Proof.
  induction a as [|x a IH]; intros Ha Hb H; [exact Hb|]. inversion Ha; subst. cbn [app]. constructor.
  - rewrite in_app_iff. intros [Hi|Hi]; [contradiction|]. apply (H x); [left; reflexivity|exact Hi].
  - apply IH; [assumption..|]. intros y Hy. apply H. right; exact Hy.
Qed.
(** two groups below different children of [c] share no name *)
Definition apart (p q : path) : Prop := exists c a b p' q', p = c ++ a :: p' /\ q = c ++ b :: q' /\ a <> b.
Lemma apart_disjoint p q l m : apart p q -> under p l -> under q m -> forall n, In n (map name_of l) -> In n (map name_of m) -> False.
Proof.
  intros (c & a & b & p' & q' & -> & -> & Hab) Hl Hm n H1 H2.
  destruct (under_in _ _ _ Hl H1) as (s & E1). destruct (under_in _ _ _ Hm H2) as (t & E2).
  rewrite E1 in E2. rewrite <- !app_assoc in E2. apply app_inv_head in E2. cbn [app] in E2. injection E2 as E2 _. contradiction.
Qed.
Lemma good_flat {T} p (q : T -> path) (f : T -> list (path * slot)) l : NoDup l -> (forall i, In i l -> good (p ++ q i) (f i)) ->
  (forall i j, In i l -> In j l -> i <> j -> apart (p ++ q i) (p ++ q j)) -> good p (flat_map f l).
Proof.
  intros Hl Hg Ha. split.
  - apply under_flat. intros i Hi. apply (under_up _ (q i)). apply Hg. exact Hi.
  - induction l as [|i l IH]; [constructor|]. inversion Hl; subst. cbn [flat_map]. rewrite map_app. apply nodup_app.
    + apply Hg. left; reflexivity.
    + apply IH; [assumption| |]; intros; [apply Hg|apply Ha]; try (right; assumption); assumption.
    + intros n Hn Hm. apply in_map_iff in Hm. destruct Hm as (e & <- & He). apply in_flat_map in He. destruct He as (j & Hj & He).
      apply (apart_disjoint (p ++ q i) (p ++ q j) (f i) (f j)) with (n := name_of e).
      * apply Ha; [left; reflexivity|right; exact Hj|]. intros ->. contradiction.
      * apply Hg. left; reflexivity.
      * apply Hg. right; exact Hj.
      * exact Hn.
      * apply in_map. exact He.
Qed.
Lemma good_app p q1 q2 a b : good (p ++ q1) a -> good (p ++ q2) b -> apart (p ++ q1) (p ++ q2) -> good p (a ++ b).
Proof.
  intros [Ha Na] [Hb Nb] Hap. split; [apply under_app; [exact (under_up _ _ _ Ha)|exact (under_up _ _ _ Hb)]|].
  rewrite map_app. apply nodup_app; [assumption..|]. exact (apart_disjoint _ _ _ _ Hap Ha Hb).
Qed.
Lemma apart_sub p n m i j : (n, i) <> (m, j) -> apart (sub p n i) (sub p m j).
Proof.
  intros H. exists p, (n, Z.of_nat i), (m, Z.of_nat j), [], []. split; [reflexivity|]. split; [reflexivity|].
  intros E. injection E as -> E. apply Nat2Z.inj in E. subst. apply H. reflexivity.
Qed.

Lemma good_two p s t : kind_of s <> kind_of t -> good p [(p, s); (p, t)].
Proof.
  intros H. split.
  - repeat constructor; exists []; rewrite app_nil_r; reflexivity.
  - cbn [map name_of fst snd]. repeat constructor; cbn [In]; [|tauto]. intros [E|[]]. unfold name_of in E. cbn [fst snd] in E. injection E as E. congruence.
Qed.
Lemma good_conv p k ci co : good p (s_conv_bn p k ci co). Proof. apply good_two. discriminate. Qed.
Lemma good_deconv p k ci co : good p (s_deconv_bn p k ci co). Proof. apply good_two. discriminate. Qed.
Lemma good_lin_bn p ci co : good p (s_linear_bn p ci co). Proof. apply good_two. discriminate. Qed.
Lemma good_lin p ci co : good p (s_linear p ci co). Proof. apply good_two. discriminate. Qed.
Lemma good_empty p : good p []. Proof. split; constructor. Qed.

(** Lists of groups: a group list is good when the modules of its groups are pairwise
    different children of [p]. *)
Definition group : Type := (string * nat * list (path * slot))%type.
Lemma good_groups p (gs : list group) : NoDup (map fst gs) ->
  Forall (fun g => good (sub p (fst (fst g)) (snd (fst g))) (snd g)) gs -> good p (concat (map snd gs)).
Proof.
  intros Hn Hg. rewrite <- flat_map_concat_map.
  apply (good_flat p (fun g => [(fst (fst g), Z.of_nat (snd (fst g)))])).
  - apply (NoDup_map_inv fst). exact Hn.
  - intros g Hi. rewrite Forall_forall in Hg. exact (Hg g Hi).
  - intros [[n i] l] [[m j] k] Hi Hj Hne. cbn [fst snd]. apply apart_sub. intros E. apply Hne.
    destruct (In_nth _ _ ("", O, []) Hi) as (a & La & Ea). destruct (In_nth _ _ ("", O, []) Hj) as (b & Lb & Eb).
    rewrite <- Ea, <- Eb. f_equal. apply (proj1 (NoDup_nth (map fst gs) ("", O)) Hn); [rewrite map_length; assumption..|].
    change ("", O) with (fst ("", O, @nil (path * slot))). rewrite !map_nth, Ea, Eb. exact E.
Qed.
Lemma good_range p name (f : nat -> list (path * slot)) s n : (forall i, (s <= i < s + n)%nat -> good (sub p name i) (f i)) -> good p (flat_map f (seq s n)).
Proof.
  intros H. apply (good_flat p (fun i => [(name, Z.of_nat i)])).
  - apply seq_NoDup.
  - intros i Hi. apply in_seq in Hi. apply H. lia.
  - intros i j _ _ Hij. apply apart_sub. intros E. injection E as E. contradiction.
Qed.

Lemma good_res_block p ci co b : good p (s_res_block p ci co b).
Proof.
  unfold s_res_block. cbv zeta.
  replace (_ ++ _) with (concat (map snd [("conv1x1a", O, s_linear_bn (sub p "conv1x1a" 0) ci (co / b)); ("conv3x3", O, s_conv_bn (sub p "conv3x3" 0) 27 (co / b) (co / b));
    ("conv1x1b", O, s_linear_bn (sub p "conv1x1b" 0) (co / b) co); ("conv1x1c", O, if Nat.eqb ci co then [] else s_linear_bn (sub p "conv1x1c" 0) ci co)])).
  2: { cbn [map concat snd]. rewrite app_nil_r. reflexivity. }
  apply good_groups.
  - cbn [map fst]. repeat constructor; cbn [In]; intuition discriminate.
  - repeat apply Forall_cons; cbn [fst snd]; [apply good_lin_bn|apply good_conv|apply good_lin_bn|destruct (Nat.eqb ci co); [apply good_empty|apply good_lin_bn]|constructor].
Qed.
Lemma good_res_block2 p ci co b : good p (s_res_block2 p ci co b).
Proof.
  unfold s_res_block2. cbv zeta.
  replace (_ ++ _) with (concat (map snd [("conv3x3a", O, s_conv_bn (sub p "conv3x3a" 0) 27 ci (co / b)); ("conv3x3b", O, s_conv_bn (sub p "conv3x3b" 0) 27 (co / b) co);
    ("conv1x1", O, if Nat.eqb ci co then [] else s_linear_bn (sub p "conv1x1" 0) ci co)])).
  2: { cbn [map concat snd]. rewrite app_nil_r. reflexivity. }
  apply good_groups.
  - cbn [map fst]. repeat constructor; cbn [In]; intuition discriminate.
  - repeat apply Forall_cons; cbn [fst snd]; [apply good_conv|apply good_conv|destruct (Nat.eqb ci co); [apply good_empty|apply good_lin_bn]|constructor].
Qed.
Lemma good_res_blocks p ci co num b basic : good p (s_res_blocks p ci co num b basic).
Proof. unfold s_res_blocks. apply (good_range p "resblks"). intros i _. destruct basic; [apply good_res_block2|apply good_res_block]. Qed.
Lemma good_head p ci ch co : good p (s_head p ci ch co).
Proof. apply (good_app p [("0", 0%Z)] [("1", 0%Z)]); [apply good_lin_bn|apply good_lin|]. apply (apart_sub p "0" "1" 0 0). discriminate. Qed.

(** Networks: groups of modules with different names at the top. *)
Definition named (p : path) (name : string) (l : list (path * slot)) : Prop := exists is fs, l = flat_map fs is /\ NoDup is /\ forall i : nat, In i is -> good (sub p name i) (fs i).
Lemma named_range p name f n : (forall i, good (sub p name i) (f i)) -> named p name (flat_map f (seq 0 n)).
Proof. intros H. exists (seq 0 n), f. split; [reflexivity|]. split; [apply seq_NoDup|]. intros i _. apply H. Qed.
Lemma named_one p name i l : good (sub p name i) l -> named p name l.
Proof. intros H. exists [i], (fun _ => l). split; [cbn [flat_map]; rewrite app_nil_r; reflexivity|]. split; [repeat constructor; intros []|]. intros j [<-|[]]. exact H. Qed.
Lemma named_two p name i j l m : i <> j -> good (sub p name i) l -> good (sub p name j) m -> named p name (l ++ m).
Proof.
  intros Hij Hl Hm. exists [i; j], (fun k => if Nat.eqb k i then l else m). split.
  - cbn [flat_map]. rewrite Nat.eqb_refl, app_nil_r. replace (Nat.eqb j i) with false; [reflexivity|]. symmetry. apply Nat.eqb_neq. auto.
  - split; [repeat constructor; cbn [In]; intuition congruence|]. intros k [<-|[<-|[]]]; [rewrite Nat.eqb_refl; exact Hl|].
    replace (Nat.eqb j i) with false; [exact Hm|]. symmetry. apply Nat.eqb_neq. auto.
Qed.
Lemma good_named p (gs : list (string * list (path * slot))) : NoDup (map fst gs) -> Forall (fun g => named p (fst g) (snd g)) gs ->
  good p (concat (map snd gs)).
Proof.
  intros Hn Hg. split.
  - rewrite <- flat_map_concat_map. apply under_flat. intros [n l] Hi. rewrite Forall_forall in Hg. destruct (Hg _ Hi) as (is & fs & E & _ & H).
    cbn [fst snd] in *. rewrite E. apply under_flat. intros i Hii. apply (under_up p [(n, Z.of_nat i)]). apply H. exact Hii.
  - induction gs as [|[n l] gs IH]; [constructor|]. inversion Hn as [|? ? Hnot Hn']; subst. inversion Hg as [|? ? Hx Hg']; subst.
    cbn [map concat snd]. rewrite map_app. cbn [fst snd] in *. destruct Hx as (is & fs & -> & Hnd & H). apply nodup_app.
    + apply (good_flat p (fun i => [(n, Z.of_nat i)])); [exact Hnd|exact H|].
      intros i j _ _ Hij. apply apart_sub. intros E. injection E as E. contradiction.
    + apply IH; assumption.
    + intros nm H1 H2. apply in_map_iff in H1. destruct H1 as (e1 & <- & H1). apply in_flat_map in H1. destruct H1 as (i & Hi & H1).
      apply in_map_iff in H2. destruct H2 as (e2 & E2 & H2). rewrite <- flat_map_concat_map in H2. apply in_flat_map in H2. destruct H2 as ([m k] & Hm & H2).
      rewrite Forall_forall in Hg'. destruct (Hg' _ Hm) as (is' & fs' & E' & _ & H'). cbn [fst snd] in *. rewrite E' in H2. apply in_flat_map in H2.
      destruct H2 as (j & Hj & H2).
      apply (apart_disjoint (sub p n i) (sub p m j) (fs i) (fs' j)) with (n := name_of e1).
      * apply apart_sub. intros E. injection E as -> _. apply Hnot. apply in_map_iff. exists (m, k). split; [reflexivity|exact Hm].
      * apply H. exact Hi.
      * apply H'. exact Hj.
      * apply in_map. exact H1.
      * rewrite <- E2. apply in_map. exact H2.
Qed.

Lemma unet_names g cin cout : NoDup (map name_of (unet_state g cin cout)).
Proof.
  unfold unet_state. cbv zeta.
  match goal with |- NoDup (map _ (?a ++ ?b ++ ?c ++ ?d ++ ?e ++ ?f)) =>
    replace (a ++ b ++ c ++ d ++ e ++ f) with (concat (map snd [("conv1", a); ("downsample", b); ("encoder", c); ("upsample", d); ("decoder", e); ("header", f)]))
      by (cbn [map concat snd]; rewrite app_nil_r; reflexivity) end.
  apply (good_named []); [cbn [map fst]; repeat constructor; cbn [In]; intuition discriminate|].
  repeat apply Forall_cons; cbn [fst snd]; [apply (named_one _ _ 0); apply good_conv|apply named_range; intros i; apply good_conv|apply named_range; intros i; apply good_res_blocks
    |apply named_range; intros i; apply good_deconv|apply named_range; intros i; apply good_res_blocks|apply (named_one _ _ 0); apply good_head|constructor].
Qed.
Lemma lenet_names cin cout stages : NoDup (map name_of (lenet_state cin cout stages)).
Proof.
  unfold lenet_state.
  match goal with |- NoDup (map _ (?a ++ ?b)) => replace (a ++ b) with (concat (map snd [("convs", a); ("header", b)])) by (cbn [map concat snd]; rewrite app_nil_r; reflexivity) end.
  apply (good_named []); [cbn [map fst]; repeat constructor; cbn [In]; intuition discriminate|].
  repeat apply Forall_cons; cbn [fst snd]; [apply named_range; intros i; apply good_conv|apply (named_two _ _ 1 3); [discriminate|apply good_lin_bn|apply good_lin]|constructor].
Qed.
Lemma resnet_names cin cout num stages : NoDup (map name_of (resnet_state cin cout num stages)).
Proof.
  unfold resnet_state.
  match goal with |- NoDup (map _ (?a ++ ?b ++ ?c)) => replace (a ++ b ++ c) with (concat (map snd [("conv1", a); ("resblocks", b); ("header", c)])) by (cbn [map concat snd]; rewrite app_nil_r; reflexivity) end.
  apply (good_named []); [cbn [map fst]; repeat constructor; cbn [In]; intuition discriminate|].
  repeat apply Forall_cons; cbn [fst snd]; [apply (named_one _ _ 0); apply good_conv|apply named_range; intros i; apply good_res_blocks|apply (named_two _ _ 0 2); [discriminate|apply good_lin_bn|apply good_lin]|constructor].
Qed.
Lemma segnet_names cin cout stages : NoDup (map name_of (segnet_state cin cout stages)).
Proof.
  unfold segnet_state. cbv zeta.
  match goal with |- NoDup (map _ (?a ++ ?b ++ ?c ++ ?d)) => replace (a ++ b ++ c ++ d) with (concat (map snd [("convs", a); ("bottleneck", b); ("deconvs", c); ("header", d)])) by (cbn [map concat snd]; rewrite app_nil_r; reflexivity) end.
  apply (good_named []); [cbn [map fst]; repeat constructor; cbn [In]; intuition discriminate|].
  repeat apply Forall_cons; cbn [fst snd]; [apply named_range; intros i; apply good_conv|apply (named_one _ _ 0); apply good_conv|apply named_range; intros i; apply good_conv|apply (named_one _ _ 0); apply good_head|constructor].
Qed.
Lemma ae_names g cin cout : NoDup (map name_of (ae_enc_state g cin ++ ae_dec_state g cout)).
Proof.
  unfold ae_enc_state, ae_dec_state. cbv zeta. rewrite <- !app_assoc.
  match goal with |- NoDup (map _ (?a ++ ?b ++ ?c ++ ?d ++ ?e ++ ?f ++ ?h ++ ?k)) =>
    replace (a ++ b ++ c ++ d ++ e ++ f ++ h ++ k) with (concat (map snd [("conv1", a); ("encoder_blks", b); ("downsample", c); ("proj", d); ("upsample", e); ("decoder_blks", f); ("predict", h); ("header", k)])) by (cbn [map concat snd]; rewrite app_nil_r; reflexivity) end.
  apply (good_named []); [cbn [map fst]; repeat constructor; cbn [In]; intuition discriminate|].
  repeat apply Forall_cons; cbn [fst snd]; [apply (named_one _ _ 0); apply good_conv|apply named_range; intros i; apply good_res_blocks|apply named_range; intros i; apply good_conv
    |apply (named_one _ _ 0); apply good_lin|apply named_range; intros i; apply good_deconv|apply named_range; intros i; apply good_res_blocks|apply named_range; intros i; apply good_head
    |apply (named_one _ _ 0); apply good_head|constructor].
Qed.
(** the number i * num + j of a transition determines i and j *)
Lemma trans_inj n a b a' b' : (b < n)%nat -> (b' < n)%nat -> (a * n + b = a' * n + b')%nat -> a = a' /\ b = b'.
Proof.
  intros Hb Hb' E. assert (Ea : a = a').
  { transitivity ((a * n + b) / n)%nat; [apply (Nat.div_unique _ _ _ b); [exact Hb|lia]|]. rewrite E. symmetry. apply (Nat.div_unique _ _ _ b'); [exact Hb'|lia]. }
  subst a'. split; [reflexivity|]. lia.
Qed.
Lemma good_pairs p name n k (f : nat -> nat -> list (path * slot)) : (forall a b, good (sub p name (a * n + b)) (f a b)) ->
  good p (flat_map (fun a => flat_map (fun b => f a b) (seq 0 n)) (seq 0 k)).
Proof.
  intros H. replace (flat_map (fun a => flat_map (fun b => f a b) (seq 0 n)) (seq 0 k))
    with (flat_map (fun ab => f (fst ab) (snd ab)) (list_prod (seq 0 k) (seq 0 n))).
  2: { generalize (seq 0 k) as l. induction l as [|a l IH]; [reflexivity|]. cbn [list_prod flat_map]. rewrite flat_map_app, IH. f_equal.
       generalize (seq 0 n) as m. induction m as [|b m IHm]; [reflexivity|]. cbn [map flat_map fst snd]. rewrite IHm. reflexivity. }
  apply (good_flat p (fun ab => [(name, Z.of_nat (fst ab * n + snd ab))])).
  - assert (forall (l m : list nat), NoDup l -> NoDup m -> NoDup (list_prod l m)) as Hp; [|apply Hp; apply seq_NoDup].
    intros l m Hl Hm. induction Hl as [|x l Hx Hl IH]; [constructor|]. cbn [list_prod]. apply nodup_app; [|exact IH|].
    + clear - Hm. induction Hm as [|y m Hy Hm IHm]; [constructor|]. cbn [map]. constructor; [|exact IHm]. intros Hi. apply in_map_iff in Hi. destruct Hi as (z & E & Hz). injection E as ->. contradiction.
    + intros [a b] H1 H2. apply in_map_iff in H1. destruct H1 as (z & E & Hz). injection E as -> ->. apply in_prod_iff in H2. destruct H2. contradiction.
  - intros [a b] _. apply H.
  - intros [a b] [a' b'] H1 H2 Hne. apply in_prod_iff in H1. apply in_prod_iff in H2. rewrite !in_seq in *. cbn [fst snd].
    apply apart_sub. intros E. injection E as E. apply Hne. destruct (trans_inj n a b a' b') as [-> ->]; [lia|lia|exact E|reflexivity].
Qed.
Lemma hrnet_names cin cout stages num : NoDup (map name_of (hrnet_state cin cout stages num)).
Proof.
  unfold hrnet_state.
  match goal with |- NoDup (map _ (?a ++ ?b ++ ?c ++ ?d ++ ?e)) => rewrite (app_assoc a b) end.
  match goal with |- NoDup (map _ (?a ++ ?c ++ ?d ++ ?e)) => replace (a ++ c ++ d ++ e) with (concat (map snd [("front", a); ("branches", c); ("transitions", d); ("cls_header", e)])) by (cbn [map concat snd]; rewrite app_nil_r; reflexivity) end.
  apply (good_named []); [cbn [map fst]; repeat constructor; cbn [In]; intuition discriminate|].
  repeat apply Forall_cons; cbn [fst snd]; [..|constructor].
  - apply (named_one _ _ 0). apply (good_app _ [("conv", 0%Z)] [("conv", 1%Z)]); [apply good_conv|apply good_conv|].
    apply (apart_sub (sub [] "front" 0) "conv" "conv" 0 1). discriminate.
  - apply named_range. intros i. apply (good_range _ "resblocks"). intros b _. apply good_res_blocks.
  - apply named_range. intros i. cbv zeta.
    apply (good_pairs _ "trans_func" (Nat.min (i + 2) 4) _ (fun a b => if Nat.eqb (hr_width a) (hr_width b) then [] else _)).
    intros a b. destruct (Nat.eqb (hr_width a) (hr_width b)); [apply good_empty|apply good_lin_bn].
  - apply (named_one _ _ 0). apply (good_app _ [("conv1x1", 0%Z)] [("header", 1%Z)]); [apply good_lin_bn|apply good_lin|].
    apply (apart_sub (sub [] "cls_header" 0) "conv1x1" "header" 0 1). discriminate.
Qed.
