(** Proofs about histories of layer constructions that share kernel-size lists. *)
From Coq Require Import String List ZArith Bool Lia.
From Verif Require Import Res Tensor ListFacts Utils SpecUtils.
Import ListNotations.
Open Scope Z_scope.

Definition full3 (s : Z * Z * Z) : list Z := let '(a, b, c) := s in [a; b; c].
Definition layer_ok (l0 : list Z) (r : nat) (out : res klayer) : Prop :=
  match three_sizes l0 with
  | Ok s => out = Ok (mkKlayer r (kernel_name s) (kernel_cells s))
  | Err e => out = Err e
  end.
(** current content [c] of a list created as [l0] *)
Definition content_ok (l0 c : list Z) : Prop :=
  c = l0 \/ exists s, three_sizes l0 = Ok s /\ c = full3 s.

Lemma nth_set_nth {A} (l : list A) i j v d : (i < length l)%nat -> nth j (set_nth l i v) d = if Nat.eqb i j then v else nth j l d.
Proof.
  revert i j; induction l as [|a l IH]; intros i j H; cbn [length] in H; [lia|].
  destruct i as [|i], j as [|j]; cbn [set_nth nth Nat.eqb]; try reflexivity. apply IH. lia.
Qed.
Lemma set_nth_twice {A} (l : list A) i v w : set_nth (set_nth l i v) i w = set_nth l i w.
Proof. revert i; induction l as [|a l IH]; intros [|i]; cbn; congruence. Qed.
Lemma set_nth_same {A} (l : list A) i d : (i < length l)%nat -> set_nth l i (nth i l d) = l.
Proof. revert i; induction l as [|a l IH]; intros [|i] H; cbn in *; try lia; [reflexivity|]. f_equal. apply IH. lia. Qed.

Lemma append_out : forall s : string, (s ++ "")%string = s.
Proof. induction s as [|c s IH]; cbn; congruence. Qed.

Lemma str_full3 s : list2str_z (full3 s) = kernel_name s.
Proof. destruct s as [[a b] c]. unfold list2str_z, kernel_name, full3. cbn [map fold_right]. rewrite append_out. reflexivity. Qed.

Lemma new_layer_spec l0 c r h : (r < length h)%nat -> nth r h [] = c -> content_ok l0 c ->
  exists out, new_layer r h = (out, match three_sizes l0 with Ok s => set_nth h r (full3 s) | Err _ => h end) /\ layer_ok l0 r out.
Proof.
  intros Hr Hc HO.
  assert (D : (exists s, three_sizes l0 = Ok s /\ c = full3 s) \/
              (exists a, l0 = [a] /\ c = [a]) \/ (exists a b, l0 = [a; b] /\ c = [a; b]) \/ (l0 = [] /\ c = []) \/
              (exists a b d e t, l0 = a :: b :: d :: e :: t /\ c = l0)).
  { destruct HO as [->|(s & E & ->)]; [|left; exists s; split; [exact E|reflexivity]].
    destruct l0 as [|a [|b [|d [|e t]]]].
    - right; right; right; left. split; reflexivity.
    - right; left. exists a. split; reflexivity.
    - right; right; left. exists a, b. split; reflexivity.
    - left. exists (a, b, d). split; reflexivity.
    - right; right; right; right. exists a, b, d, e, t. split; reflexivity. }
  destruct D as [([[a b] d] & E & Ec)|[(a & E1 & Ec)|[(a & b & E1 & Ec)|[(E1 & Ec)|(a & b & d & e & t & E1 & Ec)]]]]; subst c.
  - exists (Ok (mkKlayer r (kernel_name (a, b, d)) (kernel_cells (a, b, d)))). unfold layer_ok. rewrite E. split; [|reflexivity].
    unfold new_layer, resize_list. rewrite Ec. cbn [full3 length Nat.ltb Nat.leb Nat.add Nat.sub append_last]. rewrite Ec.
    f_equal; [|pose proof (set_nth_same h r [] Hr) as S; rewrite Ec in S; symmetry; exact S].
    f_equal. f_equal. apply (str_full3 (a, b, d)).
  - subst l0. cbn [three_sizes]. exists (Ok (mkKlayer r (kernel_name (a, a, a)) (kernel_cells (a, a, a)))). unfold layer_ok. cbn [three_sizes]. split; [|reflexivity].
    unfold new_layer, resize_list. rewrite Ec. cbn [length Nat.ltb Nat.leb Nat.add Nat.sub append_last]. rewrite Ec.
    change (tget [a] (-1)) with (Ok a). cbv iota beta. rewrite nth_set_nth, Nat.eqb_refl by exact Hr.
    cbn [app]. change (tget [a; a] (-1)) with (Ok a). cbv iota beta. rewrite set_nth_twice, nth_set_nth, Nat.eqb_refl by exact Hr.
    cbn [app]. f_equal. f_equal. f_equal. apply (str_full3 (a, a, a)).
  - subst l0. cbn [three_sizes]. exists (Ok (mkKlayer r (kernel_name (a, b, b)) (kernel_cells (a, b, b)))). unfold layer_ok. cbn [three_sizes]. split; [|reflexivity].
    unfold new_layer, resize_list. rewrite Ec. cbn [length Nat.ltb Nat.leb Nat.add Nat.sub append_last]. rewrite Ec.
    change (tget [a; b] (-1)) with (Ok b). cbv iota beta. rewrite nth_set_nth, Nat.eqb_refl by exact Hr.
    cbn [app]. f_equal. f_equal. f_equal. apply (str_full3 (a, b, b)).
  - subst l0. exists (Err IndexError). split; [|reflexivity]. unfold new_layer, resize_list. rewrite Ec. cbn [length Nat.ltb Nat.leb Nat.add Nat.sub append_last]. rewrite Ec. reflexivity.
  - rewrite E1. exists (Err AssertionError). split; [|reflexivity]. unfold new_layer, resize_list. rewrite Ec, E1. reflexivity.
Qed.

Record inv (objs : list (list Z)) (st : lstate) : Prop := {
  i_len : length (s_lists st) = length objs;
  i_cont : forall r, content_ok (nth r objs []) (nth r (s_lists st) []);
  i_lay : forall k, In k (s_layers st) -> (k_list k < length objs)%nat /\ exists s, three_sizes (nth (k_list k) objs []) = Ok s /\
     k_kernel k = kernel_name s /\ k_dim k = kernel_cells s /\ nth (k_list k) (s_lists st) [] = full3 s;
  i_out : forall r out, In (r, out) (s_outcomes st) -> (r < length objs)%nat /\ layer_ok (nth r objs []) r out
}.

Lemma make_inv objs keep r st : inv objs st -> inv objs (fst (make_layer keep r st)).
Proof.
  intros [I1 I2 I3 I4]. unfold make_layer. destruct (Nat.ltb_spec r (length (s_lists st))) as [Hr|Hr]; cbn [negb]; [|constructor; assumption].
  destruct (new_layer_spec (nth r objs []) _ r (s_lists st) Hr eq_refl (I2 r)) as (out & E & L). rewrite E. cbn [fst].
  remember (match three_sizes (nth r objs []) with Ok s => set_nth (s_lists st) r (full3 s) | Err _ => s_lists st end) as h' eqn:Eh.
  assert (Lh : length h' = length (s_lists st)) by (subst h'; destruct (three_sizes _); [apply set_nth_length|reflexivity]).
  assert (Ch : forall j, nth j h' [] = nth j (s_lists st) [] \/ (j = r /\ exists s, three_sizes (nth r objs []) = Ok s /\ nth j h' [] = full3 s)).
  { intros j. subst h'. destruct (three_sizes _) as [s|e] eqn:E3; [|left; reflexivity]. rewrite nth_set_nth by exact Hr.
    destruct (Nat.eqb_spec r j); [|left; reflexivity]. right. split; [congruence|]. exists s. split; reflexivity. }
  constructor; cbn [s_lists s_layers s_outcomes].
  - congruence.
  - intros j. destruct (Ch j) as [->|(-> & s & E3 & ->)]; [apply I2|]. right. exists s. split; [exact E3|reflexivity].
  - assert (Hold : forall k, In k (s_layers st) -> (k_list k < length objs)%nat /\ exists s, three_sizes (nth (k_list k) objs []) = Ok s /\
       k_kernel k = kernel_name s /\ k_dim k = kernel_cells s /\ nth (k_list k) h' [] = full3 s).
    { intros k Hk. destruct (I3 k Hk) as (H1 & s & H2 & H3 & H4 & H5). split; [exact H1|]. exists s. do 3 (split; [assumption|]).
      destruct (Ch (k_list k)) as [->|(Er & s' & E3 & ->)]; [exact H5|]. rewrite Er in H2. congruence. }
    intros k Hk. unfold layer_ok in L. destruct out as [k'|e]; [|apply Hold; exact Hk]. destruct keep; [|apply Hold; exact Hk].
    apply in_app_or in Hk. destruct Hk as [Hk|[<-|[]]]; [apply Hold; exact Hk|].
    destruct (three_sizes (nth r objs [])) as [s|e] eqn:E3; [|discriminate]. injection L as ->. cbn [k_list k_kernel k_dim].
    split; [lia|]. exists s. do 3 (split; [assumption || reflexivity|]). subst h'. rewrite nth_set_nth, Nat.eqb_refl by exact Hr. reflexivity.
  - intros j o Hj. apply in_app_or in Hj. destruct Hj as [Hj|[Hj|[]]]; [apply I4; exact Hj|]. injection Hj as <- <-. split; [lia|exact L].
Qed.
Lemma group_inv objs r g : forall st, inv objs st -> inv objs (make_group r g st).
Proof.
  induction g as [|g IH]; intros st I; cbn [make_group]; [exact I|].
  pose proof (make_inv objs true r st I) as I'. destruct (make_layer true r st) as [st' ok]. cbn [fst] in I'. destruct ok; [apply IH|]; exact I'.
Qed.
Lemma step_inv objs st e : inv objs st -> inv (objs ++ match e with ENew l => [l] | _ => [] end) (lstep st e).
Proof.
  intros I. destruct e as [l|r|r g|i]; cbn [lstep]; try (rewrite app_nil_r).
  - destruct I as [I1 I2 I3 I4].
    assert (N : forall j, (j < length objs)%nat -> nth j (objs ++ [l]) [] = nth j objs [] /\ nth j (s_lists st ++ [l]) [] = nth j (s_lists st) []).
    { intros j Hj. rewrite !app_nth1 by lia. split; reflexivity. }
    constructor; cbn [s_lists s_layers s_outcomes].
    + rewrite !app_length. cbn. lia.
    + intros j. destruct (Nat.ltb_spec j (length objs)) as [Hj|Hj]; [destruct (N j Hj) as [-> ->]; apply I2|].
      rewrite !app_nth2 by lia. rewrite I1. left. reflexivity.
    + intros k Hk. destruct (I3 k Hk) as (H1 & s & H2). split; [rewrite app_length; lia|]. exists s. destruct (N _ H1) as [-> ->]. exact H2.
    + intros j o Hj. destruct (I4 j o Hj) as (H1 & H2). split; [rewrite app_length; lia|]. rewrite (proj1 (N _ H1)). exact H2.
  - apply make_inv. exact I.
  - apply group_inv. exact I.
  - destruct (nth_error (s_layers st) i); [apply make_inv|]; exact I.
Qed.
Lemma run_inv evs : forall objs st, inv objs st -> inv (objs ++ flat_map (fun e => match e with ENew l => [l] | _ => [] end) evs) (fold_left lstep evs st).
Proof.
  induction evs as [|e evs IH]; intros objs st I; cbn [flat_map fold_left]; [rewrite app_nil_r; exact I|].
  rewrite app_assoc. apply IH. apply step_inv. exact I.
Qed.

Theorem thm_kernel_history : forall h evs, let st := lrun h evs in let objs := objects h evs in
  (forall r out, In (r, out) (s_outcomes st) -> exists l0, nth_error objs r = Some l0 /\
     match three_sizes l0 with
     | Ok s => out = Ok (mkKlayer r (kernel_name s) (kernel_cells s))
     | Err e => out = Err e end) /\
  (forall k, In k (s_layers st) -> exists l0 a b c, nth_error objs (k_list k) = Some l0 /\ three_sizes l0 = Ok (a, b, c) /\
     k_kernel k = kernel_name (a, b, c) /\ k_dim k = a * b * c /\ nth_error (s_lists st) (k_list k) = Some [a; b; c]).
Proof.
  intros h evs st objs.
  assert (I : inv objs st).
  { apply run_inv. constructor; cbn; try (intros; contradiction); [reflexivity|]. intros r. left. reflexivity. }
  assert (NE : forall (l : list (list Z)) r, (r < length l)%nat -> nth_error l r = Some (nth r l [])).
  { intros l r Hr. apply nth_error_nth'. exact Hr. }
  destruct I as [I1 I2 I3 I4]. split.
  - intros r out Hin. destruct (I4 r out Hin) as [H1 H2]. exists (nth r objs []). split; [apply NE; exact H1|exact H2].
  - intros k Hk. destruct (I3 k Hk) as (H1 & [[a b] c] & H2 & H3 & H4 & H5). exists (nth (k_list k) objs []), a, b, c.
    split; [apply NE; exact H1|]. split; [exact H2|]. split; [exact H3|]. split; [exact H4|].
    rewrite NE by (rewrite I1; exact H1). rewrite H5. reflexivity.
Qed.
