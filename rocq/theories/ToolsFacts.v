(** Proofs about the file handling of projects/tools. *)
From Coq Require Import String Ascii List ZArith Bool Lia Permutation Sorted.
From Verif Require Import Tools SpecTools.
Import ListNotations.

(** ** Order of names *)
Lemma ascii_lt a b : Ascii.compare a b = Lt <-> nat_of_ascii a < nat_of_ascii b.
Proof.
  unfold Ascii.compare, nat_of_ascii. rewrite N.compare_lt_iff. lia.
Qed.
Lemma ascii_refl a : Ascii.compare a a = Eq.
Proof. unfold Ascii.compare. apply N.compare_refl. Qed.
Lemma before_compare s t : before s t <-> String.compare s t = Lt.
Proof.
  split.
  - induction 1; cbn [String.compare].
    + reflexivity.
    + apply ascii_lt in H. now rewrite H.
    + now rewrite ascii_refl.
  - revert t. induction s as [|a s IH]; destruct t as [|b t]; cbn [String.compare]; intros H; try discriminate.
    + constructor.
    + destruct (Ascii.compare a b) eqn:E; try discriminate.
      * apply Ascii.compare_eq_iff in E. subst b. now apply b_next, IH.
      * apply b_char. now apply ascii_lt.
Qed.
Lemma before_irrefl s : ~ before s s.
Proof. induction s as [|a s IH]; intros H; inversion H; subst; [lia | auto]. Qed.
Lemma before_trans s t u : before s t -> before t u -> before s u.
Proof.
  intros H. revert u. induction H; intros u Hu; inversion Hu; subst; try (constructor; fail).
  - apply b_char. lia.
  - now apply b_char.
  - now apply b_char.
  - apply b_next. auto.
Qed.
Lemma leb_spec s t : String.leb s t = true <-> before s t \/ s = t.
Proof.
  unfold String.leb. rewrite before_compare. split.
  - destruct (String.compare s t) eqn:E; try discriminate; auto.
    apply String.compare_eq_iff in E. auto.
  - intros [->| ->]; auto.
    assert (String.compare t t = Eq) as ->; auto.
    destruct (String.compare t t) eqn:E; auto.
    + apply before_compare, before_irrefl in E. tauto.
    + pose proof (String.compare_antisym t t) as A. rewrite E in A. discriminate A.
Qed.
Lemma leb_false s t : String.leb s t = false -> before t s.
Proof.
  intros H. destruct (String.leb_total s t) as [E|E]; [congruence|].
  apply leb_spec in E. destruct E as [E| ->]; auto.
  assert (String.leb s s = true) by (apply leb_spec; auto). congruence.
Qed.

(** ** sorted *)
Lemma insert_perm x l : Permutation (insert x l) (x :: l).
Proof.
  induction l as [|y l IH]; cbn [insert]; auto.
  destruct (String.leb x y); auto. rewrite IH. apply perm_swap.
Qed.
Lemma sorted_perm l : Permutation (sorted_names l) l.
Proof. induction l as [|x l IH]; cbn [sorted_names]; auto. rewrite insert_perm. now constructor. Qed.
Lemma insert_sorted x l : ~ In x l -> StronglySorted before l -> StronglySorted before (insert x l).
Proof.
  induction l as [|y l IH]; cbn [insert]; intros Hn H.
  - constructor; constructor.
  - inversion_clear H as [|? ? Hs Hf]. destruct (String.leb x y) eqn:E.
    + apply leb_spec in E. destruct E as [E| ->]; [| cbn in Hn; tauto].
      constructor; [constructor; auto|]. constructor; auto.
      eapply Forall_impl; [|exact Hf]. intros z Hz. eapply before_trans; eauto.
    + apply leb_false in E. constructor; [apply IH; cbn in Hn; tauto|].
      apply Forall_forall. intros z Hz. apply (Permutation_in _ (insert_perm x l)) in Hz.
      destruct Hz as [<-|Hz]; auto. rewrite Forall_forall in Hf. auto.
Qed.
Lemma sorted_sorted l : NoDup l -> StronglySorted before (sorted_names l).
Proof.
  induction 1 as [|x l Hx Hl IH]; cbn [sorted_names]; [constructor|].
  apply insert_sorted; auto. intros H. apply Hx. revert H. apply Permutation_in, sorted_perm.
Qed.
Lemma sorted_nodup l : StronglySorted before l -> NoDup l.
Proof.
  induction 1 as [|x l Hs IH Hf]; constructor; auto.
  intros Hx. rewrite Forall_forall in Hf. now apply (before_irrefl x), Hf.
Qed.
Lemma sorted_unique l m : StronglySorted before l -> StronglySorted before m -> Permutation l m -> l = m.
Proof.
  intros Hl. revert m. induction Hl as [|x l Hl IH Hf]; intros m Hm Hp.
  - apply Permutation_nil in Hp. now subst.
  - destruct m as [|y m]; [symmetry in Hp; apply Permutation_nil in Hp; discriminate|].
    inversion_clear Hm as [|? ? Hm' Hg].
    assert (x = y) as ->.
    { assert (In x (y :: m)) as [?|Hx] by (eapply Permutation_in; [exact Hp | now left]); auto.
      assert (In y (x :: l)) as [?|Hy] by (eapply Permutation_in; [symmetry; exact Hp | now left]); auto.
      rewrite Forall_forall in Hf, Hg. exfalso. apply (before_irrefl x). eapply before_trans; eauto. }
    f_equal. apply IH; auto. now apply Permutation_cons_inv in Hp.
Qed.
Lemma sorted_is l m : StronglySorted before m -> Permutation l m -> sorted_names l = m.
Proof.
  intros Hm Hp. apply sorted_unique; auto.
  - apply sorted_sorted. eapply Permutation_NoDup; [symmetry; exact Hp | now apply sorted_nodup].
  - now rewrite sorted_perm.
Qed.

(** ** Runs *)
Lemma last_in {A} (l : list A) d : l <> [] -> In (last l d) l.
Proof.
  induction l as [|x l IH]; intros H; [tauto|]. destruct l as [|y l]; [now left|].
  right. apply IH. discriminate.
Qed.
Lemma last_cons {A} (a : A) l d : last (a :: l) d = last l a.
Proof. revert a d. induction l as [|b l IH]; intros a d; auto. cbn [last] in *. rewrite !IH. now destruct l. Qed.
Lemma end_of_inv {A} (P : A -> Prop) s l : P s -> Forall P l -> P (end_of s l).
Proof.
  unfold end_of. intros Hs Hl. destruct l as [|x l]; auto.
  rewrite Forall_forall in Hl. apply Hl, last_in. discriminate.
Qed.
Lemma removelast_in {A} (l : list A) x : In x (removelast l) -> In x l.
Proof.
  induction l as [|y l IH]; cbn [removelast]; auto. destruct l as [|z l]; [intros []|].
  intros [->|H]; [now left | right; auto].
Qed.
Lemma trace_inv {A} (P : A -> Prop) acts s :
  P s -> (forall a t, In a acts -> P t -> Forall P (a t)) -> Forall P (trace acts s).
Proof.
  revert s. induction acts as [|a acts IH]; cbn [trace]; intros s Hs H; constructor; auto.
  assert (Forall P (a s)) as Ha by (apply H; [now left | auto]).
  apply Forall_app. split.
  - apply Forall_forall. intros x Hx. rewrite Forall_forall in Ha. auto using removelast_in.
  - apply IH; [now apply end_of_inv|]. intros b t Hb. apply H. now right.
Qed.
Lemma run_inv {A} (P : A -> Prop) acts s :
  P s -> (forall a t, In a acts -> P t -> Forall P (a t)) -> P (run acts s).
Proof.
  revert s. induction acts as [|a acts IH]; cbn [run]; intros s Hs H; auto.
  apply IH; [apply end_of_inv; auto; apply H; auto; now left|]. intros b t Hb. apply H. now right.
Qed.
Lemma run_app {A} (a b : list (action A)) s : run (a ++ b) s = run b (run a s).
Proof. revert s. induction a as [|x a IH]; cbn [run app]; auto. Qed.
Lemma trace_run {A} (acts : list (action A)) s : In (run acts s) (trace acts s).
Proof.
  revert s. induction acts as [|a acts IH]; intros s; [now left|].
  cbn [run trace]. right. apply in_or_app. right. apply IH.
Qed.

(** ** cleanup_ckpt *)
Lemma in_remove x y l : In y (remove_name x l) <-> In y l /\ y <> x.
Proof.
  unfold remove_name. rewrite filter_In, negb_true_iff, String.eqb_neq. intuition.
Qed.
Lemma remove_perm x l a b : NoDup (a ++ x :: b) -> Permutation l (a ++ x :: b) -> Permutation (remove_name x l) (a ++ b).
Proof.
  intros Hn Hp. apply NoDup_Permutation.
  - apply NoDup_filter. eapply Permutation_NoDup; [symmetry; exact Hp | auto].
  - eapply NoDup_remove_1; eauto.
  - intros y. rewrite in_remove. apply NoDup_remove_2 in Hn. split.
    + intros [Hy Hne]. apply (Permutation_in _ Hp) in Hy. rewrite in_app_iff in *. cbn [In] in Hy. intuition congruence.
    + intros Hy. split.
      * apply (Permutation_in _ (Permutation_sym Hp)). rewrite in_app_iff in *. cbn [In]. tauto.
      * intros ->. auto.
Qed.

(** The state of one folder whose file [x] is to be kept. *)
Inductive good : option string -> list string -> Prop :=
| g_none : good None []
| g_one x : good (Some x) [x]
| g_more x y pre names : StronglySorted before (pre ++ [x; y]) -> Permutation names (pre ++ [x; y]) -> good (Some x) names.
Definition only (k : option string) : list string := match k with Some x => [x] | None => [] end.

Lemma good_exists names : NoDup names -> exists k, good k names.
Proof.
  intros Hn. pose proof (sorted_sorted _ Hn) as Hs. pose proof (sorted_perm names) as Hp.
  revert Hs Hp. generalize (sorted_names names) as m. intros m Hs Hp. destruct m as [|z m].
  - apply Permutation_nil in Hp. subst. exists None. constructor.
  - destruct (@exists_last _ (z :: m)) as (l & a & E); [discriminate|]. rewrite E in Hs, Hp. clear E z m.
    destruct l as [|z m].
    + cbn [app] in Hp. apply Permutation_length_1_inv in Hp. subst. exists (Some a). constructor.
    + destruct (@exists_last _ (z :: m)) as (l & b & E); [discriminate|]. rewrite E in Hs, Hp. clear E z m.
      exists (Some b). rewrite <- app_assoc in Hs, Hp. cbn [app] in Hs, Hp.
      eapply g_more; [exact Hs | now symmetry].
Qed.
Lemma good_perm k a b : good k a -> Permutation a b -> good k b.
Proof.
  intros H Hp. destruct H as [|x|x y pre names Hs Hn].
  - apply Permutation_nil in Hp. subst. constructor.
  - apply Permutation_length_1_inv in Hp. subst. constructor.
  - eapply g_more; [exact Hs|]. now rewrite <- Hp.
Qed.
Lemma doomed_more x y pre names :
  StronglySorted before (pre ++ [x; y]) -> Permutation names (pre ++ [x; y]) -> doomed names = pre ++ [y].
Proof.
  intros Hs Hp. unfold doomed. rewrite (sorted_is _ _ Hs Hp), app_length. cbn [List.length].
  destruct (Nat.eqb_spec (List.length pre + 2) 1); [lia|].
  replace (List.length pre + 2 - 2) with (List.length pre + 0) by lia.
  replace (List.length pre + 2 - 1) with (List.length pre + 1) by lia.
  rewrite firstn_app_2, skipn_app, skipn_all2 by lia.
  replace (List.length pre + 1 - List.length pre) with 1 by lia. cbn [firstn skipn app]. now rewrite app_nil_r.
Qed.
Lemma sorted_tail a l : StronglySorted before (a :: l) -> StronglySorted before l.
Proof. now inversion 1. Qed.
Lemma removals_good x y pre : forall names,
  StronglySorted before (pre ++ [x; y]) -> Permutation names (pre ++ [x; y]) ->
  Forall (good (Some x)) (removals names (pre ++ [y])) /\ last (removals names (pre ++ [y])) names = [x].
Proof.
  induction pre as [|a pre IH]; intros names Hs Hp; cbn [app removals].
  - assert (remove_name y names = [x]) as ->.
    { apply Permutation_length_1_inv. symmetry.
      apply (remove_perm y names [x] []); [apply (sorted_nodup _ Hs) | exact Hp]. }
    split; [repeat constructor | reflexivity].
  - assert (Permutation (remove_name a names) (pre ++ [x; y])) as Hq
      by (apply (remove_perm a names []); [apply (sorted_nodup _ Hs) | exact Hp]).
    destruct (IH _ (sorted_tail _ _ Hs) Hq) as [Hf Hl]. split.
    + constructor; auto. eapply g_more; [exact (sorted_tail _ _ Hs) | exact Hq].
    + rewrite last_cons. exact Hl.
Qed.
Lemma folder_steps k names : good k names ->
  Forall (good k) (removals names (doomed names)) /\ last (removals names (doomed names)) names = only k.
Proof.
  intros H. destruct H as [|x|x y pre names Hs Hp].
  - split; [constructor | reflexivity].
  - split; [constructor | reflexivity].
  - rewrite (doomed_more _ _ _ _ Hs Hp). now apply removals_good.
Qed.

Lemma set_folder_nth i l s j : i < List.length s ->
  nth_error (set_folder i l s) j = if Nat.eqb j i then Some l else nth_error s j.
Proof.
  unfold set_folder. intros Hi. destruct (Nat.eqb_spec j i) as [->|Hne].
  - rewrite nth_error_app2; rewrite firstn_length_le by lia; [|lia]. now rewrite Nat.sub_diag.
  - destruct (Nat.lt_ge_cases j i) as [Hlt|Hge].
    + rewrite nth_error_app1 by (rewrite firstn_length_le; lia).
      revert s j Hi Hlt Hne. induction i as [|i IH]; intros s j Hi Hlt Hne; [lia|].
      destruct s as [|x s]; [cbn in Hi; lia|]. cbn [firstn]. destruct j as [|j]; auto.
      cbn [nth_error List.length] in *. apply IH; lia.
    + rewrite nth_error_app2; rewrite firstn_length_le by lia; [|lia].
      replace (j - i) with (S (j - S i)) by lia. cbn [nth_error].
      replace j with (S i + (j - S i)) at 2 by lia. generalize (j - S i) as n. clear. generalize (S i) as m.
      intros m. revert s. induction m as [|m IH]; intros s n; auto. destruct s as [|x s]; [now destruct n|].
      cbn [skipn Nat.add nth_error]. apply IH.
Qed.
Definition goods (ks : list (option string)) (s : folders) : Prop :=
  List.length s = List.length ks /\ forall i k, nth_error ks i = Some k -> exists names, nth_error s i = Some names /\ good k names.
Lemma set_folder_length i l s : i < List.length s -> List.length (set_folder i l s) = List.length s.
Proof. intros H. unfold set_folder. rewrite app_length, firstn_length_le by lia. cbn [List.length]. rewrite skipn_length. lia. Qed.
Lemma goods_set ks s i k l : goods ks s -> nth_error ks i = Some k -> good k l -> goods ks (set_folder i l s).
Proof.
  intros [Hlen Hg] Hk Hl. assert (i < List.length s) as Hi by (rewrite Hlen; apply nth_error_Some; congruence).
  split; [now rewrite set_folder_length|]. intros j k' Hj. rewrite set_folder_nth by auto.
  destruct (Nat.eqb_spec j i) as [->|]; [|auto]. exists l. split; auto. congruence.
Qed.
Lemma clean_folder_goods ks i s : goods ks s -> Forall (goods ks) (clean_folder i s).
Proof.
  intros H. unfold clean_folder. destruct (nth_error s i) as [names|] eqn:E; [|constructor].
  destruct (nth_error ks i) as [k|] eqn:Ek.
  - destruct (proj2 H _ _ Ek) as (n' & En & Hg). assert (n' = names) as -> by congruence.
    apply Forall_map. eapply Forall_impl; [|apply (folder_steps _ _ Hg)]. cbn beta. intros l Hl. eapply goods_set; eauto.
  - exfalso. apply nth_error_None in Ek. assert (i < List.length s) by (apply nth_error_Some; congruence). destruct H. lia.
Qed.
Lemma last_map {A B} (f : A -> B) l d : last (map f l) (f d) = f (last l d).
Proof. induction l as [|x l IH]; auto. destruct l as [|y l]; auto. Qed.
Lemma set_folder_same i l s : nth_error s i = Some l -> set_folder i l s = s.
Proof.
  unfold set_folder. revert s. induction i as [|i IH]; intros [|x s]; cbn [nth_error firstn skipn app]; try discriminate.
  - intros E. congruence.
  - intros E. f_equal. now apply IH.
Qed.
Lemma clean_folder_end ks i k s : goods ks s -> nth_error ks i = Some k ->
  end_of s (clean_folder i s) = set_folder i (only k) s.
Proof.
  intros H Hk. destruct (proj2 H _ _ Hk) as (names & En & Hg). unfold clean_folder, end_of. rewrite En.
  rewrite <- (proj2 (folder_steps _ _ Hg)).
  rewrite <- (last_map (fun l => set_folder i l s)). now rewrite (set_folder_same i names s En).
Qed.
Lemma run_cleanup_from ks n : forall i s, goods ks s -> i + n = List.length ks ->
  (forall j k, j < i -> nth_error ks j = Some k -> nth_error s j = Some (only k)) ->
  forall j k, nth_error ks j = Some k -> nth_error (run (map clean_folder (seq i n)) s) j = Some (only k).
Proof.
  induction n as [|n IH]; intros i s Hg Hin Hdone; cbn [seq map run].
  - intros j k Hj. apply Hdone; auto. assert (j < List.length ks) by (apply nth_error_Some; congruence). lia.
  - destruct (nth_error ks i) as [k0|] eqn:Ek; [| apply nth_error_None in Ek; lia].
    rewrite (clean_folder_end _ _ _ _ Hg Ek). apply IH; [| lia |].
    + eapply goods_set; eauto. destruct k0; constructor.
    + intros j k Hj Hk. rewrite set_folder_nth by (rewrite (proj1 Hg); lia).
      destruct (Nat.eqb_spec j i) as [->|]; [congruence|]. apply Hdone; auto. lia.
Qed.
Lemma run_length ks n s : goods ks s -> List.length (run (cleanup n) s) = List.length ks.
Proof.
  intros H. apply (run_inv (goods ks)); auto. intros a t Ha Ht. unfold cleanup in Ha. apply in_map_iff in Ha.
  destruct Ha as (i & <- & _). now apply clean_folder_goods.
Qed.
Lemma run_cleanup ks s : goods ks s -> run (cleanup (List.length s)) s = map only ks.
Proof.
  intros H. assert (forall j, nth_error (run (cleanup (List.length s)) s) j = nth_error (map only ks) j) as He.
  { intros j. rewrite nth_error_map. destruct (nth_error ks j) as [k|] eqn:Ek; cbn [option_map].
    - apply (run_cleanup_from ks (List.length s) 0 s H); auto; [apply (proj1 H) | lia].
    - apply nth_error_None. rewrite (run_length _ _ _ H). now apply nth_error_None. }
  revert He. generalize (run (cleanup (List.length s)) s) as a, (map only ks) as b. clear.
  induction a as [|x a IH]; intros [|y b] He; auto.
  - specialize (He 0). discriminate.
  - specialize (He 0). discriminate.
  - f_equal; [specialize (He 0); cbn in He; congruence|]. apply IH. intros j. apply (He (S j)).
Qed.
Lemma goods_exists s : Forall (@NoDup string) s -> exists ks, goods ks s.
Proof.
  induction 1 as [|names s Hn Hs [ks [Hl Hg]]].
  - exists []. split; auto. intros i k Hk. now destruct i.
  - destruct (good_exists _ Hn) as [k Hk]. exists (k :: ks). split; [cbn; lia|].
    intros [|i] k' E; cbn [nth_error] in *; [| now apply Hg]. exists names. split; auto. congruence.
Qed.
Lemma goods_seen ks a b : goods ks a -> relisted a b -> goods ks b.
Proof.
  intros [Hl Hg] Hr. assert (List.length b = List.length a) as Hab by (clear -Hr; induction Hr; cbn; congruence).
  split; [congruence|]. intros i k Hk. destruct (Hg i k Hk) as (names & En & Hn).
  assert (exists m, nth_error b i = Some m /\ Permutation names m) as (m & Em & Hp).
  { clear -Hr En. revert i En. induction Hr as [|x y a b Hxy Hr IH]; intros [|i]; cbn [nth_error]; try discriminate.
    - intros E. exists y. split; auto. congruence.
    - apply IH. }
  exists m. split; auto. eapply good_perm; eauto.
Qed.
Lemma goods_trace ks n s : goods ks s -> Forall (goods ks) (trace (cleanup n) s).
Proof.
  intros H. apply trace_inv; auto. intros a t Ha Ht. unfold cleanup in Ha. apply in_map_iff in Ha.
  destruct Ha as (i & <- & _). now apply clean_folder_goods.
Qed.

Lemma good_spec k names : good k names ->
  (names = [] -> only k = []) /\ (forall x, names = [x] -> only k = [x]) /\
  (2 <= List.length names -> exists x, only k = [x] /\ second_last x names).
Proof.
  intros H. destruct H as [|x|x y pre names Hs Hp].
  - split; [auto|split; [discriminate | cbn; lia]].
  - split; [discriminate|split; [auto | cbn; lia]].
  - assert (2 <= List.length names) as Hlen by (rewrite (Permutation_length Hp), app_length; cbn; lia).
    split; [intros ->; cbn in Hlen; lia|]. split; [intros z ->; cbn in Hlen; lia|].
    intros _. exists x. split; auto. split.
    + apply (Permutation_in _ (Permutation_sym Hp)). apply in_or_app. right. now left.
    + exists y. split; [apply (Permutation_in _ (Permutation_sym Hp)); apply in_or_app; right; right; now left|].
      assert (before x y /\ forall z, In z (pre ++ [x; y]) -> z = y \/ z = x \/ before z x) as [Hb Hz].
      { clear -Hs. induction pre as [|a pre IH]; cbn [app] in *.
        - inversion_clear Hs as [|? ? _ Hf]. inversion_clear Hf. split; auto. intros z [<-|[<-|[]]]; auto.
        - destruct (IH (sorted_tail _ _ Hs)) as [Hb Hz]. split; auto. intros z [<-|Hi]; auto.
          right. right. inversion_clear Hs as [|? ? _ Hf]. rewrite Forall_forall in Hf. apply Hf, in_or_app. right. now left. }
      split; auto. intros z Hi. apply Hz, (Permutation_in _ Hp), Hi.
Qed.

Lemma thm_cleanup s : Forall (@NoDup string) s ->
  List.length (run (cleanup (List.length s)) s) = List.length s /\
  forall i names, nth_error s i = Some names -> exists left,
    nth_error (run (cleanup (List.length s)) s) i = Some left /\
    (names = [] -> left = []) /\ (forall x, names = [x] -> left = [x]) /\
    (2 <= List.length names -> exists x, left = [x] /\ second_last x names).
Proof.
  intros H. destruct (goods_exists _ H) as [ks Hg]. rewrite (run_cleanup _ _ Hg), map_length. split; [symmetry; apply (proj1 Hg)|].
  intros i names Ei. destruct (nth_error ks i) as [k|] eqn:Ek.
  - exists (only k). rewrite nth_error_map, Ek. split; auto. apply good_spec.
    destruct (proj2 Hg _ _ Ek) as (n' & En & Hk). congruence.
  - exfalso. apply nth_error_None in Ek. assert (i < List.length s) by (apply nth_error_Some; congruence). destruct Hg. lia.
Qed.
Lemma thm_cleanup_crash s s' : Forall (@NoDup string) s ->
  history (fun m => trace (cleanup (List.length s)) m) relisted (fun _ => True) s s' ->
  run (cleanup (List.length s)) s' = run (cleanup (List.length s)) s.
Proof.
  intros H Hh. destruct (goods_exists _ H) as [ks Hg].
  assert (goods ks s') as Hg'.
  { induction Hh as [|m m' m'' Hm IH Hi _ Hr]; auto. eapply goods_seen; [|exact Hr].
    pose proof (goods_trace ks (List.length s) m IH) as Hf. rewrite Forall_forall in Hf. auto. }
  rewrite (run_cleanup _ _ Hg). replace (List.length s) with (List.length s') by (destruct Hg, Hg'; lia).
  now apply run_cleanup.
Qed.

(** ** Files *)
Lemma put_same f c s : put f c s f = Some c.
Proof. unfold put. now rewrite String.eqb_refl. Qed.
Lemma put_other f c s g : f <> g -> put f c s g = s g.
Proof. unfold put. intros H. apply String.eqb_neq in H. now rewrite H. Qed.
Lemma trace_app_in {A} (a b : list (action A)) s x : In x (trace b (run a s)) -> In x (trace (a ++ b) s).
Proof.
  revert s. induction a as [|y a IH]; cbn [run app trace]; auto.
  intros s H. right. apply in_or_app. right. now apply IH.
Qed.
Lemma write_trace f c s acts x :
  In x (put f Part s :: trace acts (put f (Whole c) s)) -> In x (trace ((fun s => write_file f c s) :: acts) s).
Proof. cbn [trace write_file removelast end_of last app]. intros H. now right. Qed.

(** *** process_scannet *)
Lemma txt_in sc t : sc_txt sc = Some t -> In t (scene_files sc).
Proof. unfold scene_files. intros ->. right. now left. Qed.
Lemma flat_unique {A B} (f : A -> list B) l a b x :
  NoDup (flat_map f l) -> In a l -> In b l -> In x (f a) -> In x (f b) -> a = b.
Proof.
  induction l as [|c l IH]; cbn [flat_map]; intros Hn Ha Hb Hx Hy; [destruct Ha|].
  assert (forall z, In z (f c) -> In z (flat_map f l) -> False) as Hd.
  { clear -Hn. induction (f c) as [|w v IH]; cbn [app] in *; [intros z []|].
    inversion_clear Hn. intros z [<-|Hz]; [rewrite in_app_iff in *; tauto | eauto]. }
  assert (NoDup (flat_map f l)) as Hn'.
  { clear -Hn. induction (f c) as [|w v IH]; cbn [app] in *; auto. inversion_clear Hn. auto. }
  destruct Ha as [<-|Ha], Hb as [<-|Hb]; auto.
  - exfalso. eapply Hd; [exact Hx|]. apply in_flat_map. eauto.
  - exfalso. eapply Hd; [exact Hy|]. apply in_flat_map. eauto.
Qed.
Lemma flat_part {A B} (f : A -> list B) l a : NoDup (flat_map f l) -> In a l -> NoDup (f a).
Proof.
  induction l as [|c l IH]; cbn [flat_map]; intros Hn Ha; [destruct Ha|].
  destruct Ha as [<-|Ha].
  - clear -Hn. induction (f c) as [|w v IH]; constructor; cbn [app] in Hn; inversion_clear Hn; auto. rewrite in_app_iff in H. tauto.
  - apply IH; auto. clear -Hn. induction (f c) as [|w v IH]; cbn [app] in *; auto. inversion_clear Hn. auto.
Qed.
Definition ok_scene (sc : scene) (m : files) : Prop :=
  m (sc_out sc) = Some (Whole (sc_cloud sc)) /\ forall t, sc_txt sc = Some t -> m t = Some (Whole (sc_labels sc)).
Definition scene_state (sc : scene) (m : files) : Prop :=
  m (sc_out sc) = None \/ m (sc_out sc) = Some Part \/ ok_scene sc m.

Section Scannet.
Variable scenes : list scene.
Hypothesis apart : NoDup (flat_map scene_files scenes).
Variable s0 : files.
Definition sc_inv (m : files) : Prop :=
  (forall g, ~ In g (flat_map scene_files scenes) -> m g = s0 g) /\ (forall sc, In sc scenes -> scene_state sc m).
Definition agree_off (sc : scene) (m m' : files) : Prop := forall g, ~ In g (scene_files sc) -> m' g = m g.
Lemma state_off sc sc' m m' : In sc scenes -> In sc' scenes -> sc' <> sc -> agree_off sc m m' -> scene_state sc' m -> scene_state sc' m'.
Proof.
  intros H H' Hne Ha. assert (forall g, In g (scene_files sc') -> m' g = m g) as Hg.
  { intros g Hg. apply Ha. intros Hg'. apply Hne. eapply flat_unique; eauto. }
  unfold scene_state, ok_scene. rewrite (Hg (sc_out sc')) by now left.
  intros [E|[E|[E Ht]]]; auto. right. right. split; auto. intros t Et. rewrite Hg; auto. now apply txt_in.
Qed.
Lemma inv_off sc m m' : In sc scenes -> agree_off sc m m' -> scene_state sc m' -> sc_inv m -> sc_inv m'.
Proof.
  intros H Ha Hs [Hg Hi]. split.
  - intros g Hn. rewrite Ha; auto. intros Hx. apply Hn, in_flat_map. eauto.
  - intros sc' H'. destruct (String.string_dec (sc_out sc') (sc_out sc)) as [E|E].
    + assert (sc' = sc) as -> by (eapply flat_unique; [exact apart | | | left; reflexivity | left; symmetry; exact E]; auto). auto.
    + eapply state_off; [exact H | exact H' | congruence | exact Ha | auto].
Qed.
Lemma scene_cases sc m : In sc scenes -> m (sc_out sc) = None ->
  exists l, do_scene sc m = l /\ l <> [] /\ Forall (agree_off sc m) l /\ Forall (scene_state sc) l /\ ok_scene sc (end_of m l) /\
    exists x, In x (removelast l) /\ x (sc_out sc) = Some Part.
Proof.
  clear s0. intros H E. unfold do_scene. rewrite E. unfold then_, write_file.
  pose proof (flat_part _ _ _ apart H) as Hd. unfold scene_files in Hd.
  unfold scene_state, ok_scene, agree_off, scene_files.
  destruct (sc_txt sc) as [t|].
  - assert (sc_out sc <> t) as Hne by (inversion_clear Hd; cbn in *; intuition congruence).
    eexists. split; [reflexivity|]. cbn [end_of last app removelast]. split; [discriminate|].
    split; [repeat (apply Forall_cons || apply Forall_nil); intros g Hg; cbn [In] in Hg; rewrite ?put_other by (intuition congruence); auto|].
    split.
    { repeat (apply Forall_cons || apply Forall_nil); cbn beta.
      - left. now rewrite put_other by congruence.
      - left. now rewrite put_other by congruence.
      - right. left. apply put_same.
      - right. right. split; [apply put_same|]. intros t' Et. injection Et as <-. rewrite put_other by auto. apply put_same. }
    split.
    { split; [apply put_same|]. intros t' Et. injection Et as <-. rewrite put_other by auto. apply put_same. }
    exists (put (sc_out sc) Part (put t (Whole (sc_labels sc)) m)). split; [cbn; auto | apply put_same].
  - eexists. split; [reflexivity|]. cbn [end_of last app removelast]. split; [discriminate|].
    split; [repeat (apply Forall_cons || apply Forall_nil); intros g Hg; cbn [In] in Hg; rewrite ?put_other by (intuition congruence); auto|].
    split.
    { repeat (apply Forall_cons || apply Forall_nil); cbn beta.
      - right. left. apply put_same.
      - right. right. split; [apply put_same | discriminate]. }
    split; [split; [apply put_same | discriminate]|].
    exists (put (sc_out sc) Part m). split; [cbn; auto | apply put_same].
Qed.
Lemma do_scene_skip sc m c : m (sc_out sc) = Some c -> do_scene sc m = [].
Proof. unfold do_scene. now intros ->. Qed.
Lemma do_scene_inv sc m : In sc scenes -> sc_inv m -> Forall sc_inv (do_scene sc m).
Proof.
  intros H Hi. destruct (m (sc_out sc)) as [c|] eqn:E; [rewrite (do_scene_skip _ _ _ E); constructor|].
  destruct (scene_cases sc m H E) as (l & -> & _ & Ha & Hs & _).
  rewrite Forall_forall in *. intros x Hx. apply (inv_off sc m x); auto.
Qed.
Lemma scannet_trace m : sc_inv m -> Forall sc_inv (trace (process_scannet scenes) m).
Proof.
  intros H. apply trace_inv; auto. intros a t Ha Ht. apply in_map_iff in Ha. destruct Ha as (sc & <- & Hsc). now apply do_scene_inv.
Qed.
Definition no_part (m : files) : Prop := forall sc, In sc scenes -> m (sc_out sc) <> Some Part.
Lemma scene_end sc m : In sc scenes -> sc_inv m -> no_part m ->
  sc_inv (end_of m (do_scene sc m)) /\ no_part (end_of m (do_scene sc m)) /\ ok_scene sc (end_of m (do_scene sc m)) /\
  forall sc', In sc' scenes -> ok_scene sc' m -> ok_scene sc' (end_of m (do_scene sc m)).
Proof.
  intros H Hi Hp.
  assert (sc_inv (end_of m (do_scene sc m))) as Hi' by (apply end_of_inv; auto; now apply do_scene_inv).
  split; auto. destruct (m (sc_out sc)) as [c|] eqn:E.
  - rewrite (do_scene_skip _ _ _ E). cbn [end_of last]. split; auto. split; auto.
    destruct (proj2 Hi sc H) as [E'|[E'|E']]; auto; [congruence | now apply Hp in E'].
  - destruct (scene_cases sc m H E) as (l & El & Hne & Ha & Hs & Hok & _). rewrite El in *.
    assert (agree_off sc m (end_of m l)) as Hag by (rewrite Forall_forall in Ha; apply Ha, last_in, Hne).
    assert (forall sc', In sc' scenes -> sc' = sc \/ forall g, In g (scene_files sc') -> end_of m l g = m g) as Hc.
    { intros sc' H'. destruct (String.string_dec (sc_out sc') (sc_out sc)) as [E2|E2].
      - left. eapply flat_unique; [exact apart | | | left; reflexivity | left; symmetry; exact E2]; auto.
      - right. intros g Hg. apply Hag. intros Hg'. apply E2. f_equal. eapply flat_unique; [exact apart | | | exact Hg | exact Hg']; auto. }
    split; [|split; auto].
    + intros sc' H'. destruct (Hc sc' H') as [->|Hg]; [intros Hx; discriminate (eq_trans (eq_sym (proj1 Hok)) Hx)|].
      rewrite Hg by now left. auto.
    + intros sc' H' [E1 E2]. destruct (Hc sc' H') as [->|Hg]; auto. split; [rewrite Hg; [auto | now left]|].
      intros t Et. rewrite Hg; auto. now apply txt_in.
Qed.
Lemma run_scenes l : forall m, incl l scenes -> sc_inv m -> no_part m ->
  sc_inv (run (map do_scene l) m) /\
  forall sc, In sc scenes -> In sc l \/ ok_scene sc m -> ok_scene sc (run (map do_scene l) m).
Proof.
  induction l as [|a l IH]; intros m Hin Hi Hp; cbn [map run].
  - split; auto. intros sc _ [[]|]; auto.
  - destruct (scene_end a m) as (Hi' & Hp' & Hok & Hk); auto; [apply Hin; now left|].
    destruct (IH (end_of m (do_scene a m))) as [Hi2 Hk2]; auto; [intros x Hx; apply Hin; now right|].
    split; auto. intros sc Hsc [[<-|Hl]|Ho]; apply Hk2; auto.
Qed.
End Scannet.

Lemma sc_inv_start scenes s : (forall sc, In sc scenes -> s (sc_out sc) = None) -> sc_inv scenes s s.
Proof. intros H. split; auto. intros sc Hsc. left. auto. Qed.
Lemma thm_scannet scenes s : NoDup (flat_map scene_files scenes) -> (forall sc, In sc scenes -> s (sc_out sc) = None) ->
  let s' := run (process_scannet scenes) s in
  (forall sc, In sc scenes -> s' (sc_out sc) = Some (Whole (sc_cloud sc)) /\
     forall t, sc_txt sc = Some t -> s' t = Some (Whole (sc_labels sc))) /\
  (forall g, ~ In g (flat_map scene_files scenes) -> s' g = s g).
Proof.
  intros Ha Hf s'. destruct (run_scenes scenes Ha s scenes s) as [Hi Hk].
  - apply incl_refl.
  - now apply sc_inv_start.
  - intros sc Hsc. rewrite Hf by auto. discriminate.
  - split; [intros sc Hsc; apply Hk; auto | apply (proj1 Hi)].
Qed.
Lemma thm_scannet_resume scenes s m : NoDup (flat_map scene_files scenes) -> (forall sc, In sc scenes -> s (sc_out sc) = None) ->
  history (trace (process_scannet scenes)) eq (fun m => forall sc, In sc scenes -> m (sc_out sc) <> Some Part) s m ->
  forall g, run (process_scannet scenes) m g = run (process_scannet scenes) s g.
Proof.
  intros Ha Hf Hh.
  assert (sc_inv scenes s m /\ no_part scenes m) as [Hi Hp].
  { induction Hh as [|m m' m'' Hm [IHi IHp] Hi Hfine <-].
    - split; [now apply sc_inv_start|]. intros sc Hsc. rewrite Hf by auto. discriminate.
    - split; [|exact Hfine]. pose proof (scannet_trace scenes Ha s m IHi) as Ht. rewrite Forall_forall in Ht. auto. }
  destruct (run_scenes scenes Ha s scenes m (incl_refl _) Hi Hp) as [Hi' Hk].
  destruct (thm_scannet scenes s Ha Hf) as [Hk0 Hg0]. intros g.
  destruct (in_dec String.string_dec g (flat_map scene_files scenes)) as [Hg|Hg].
  - apply in_flat_map in Hg. destruct Hg as (sc & Hsc & Hg). destruct (Hk sc Hsc (or_introl Hsc)) as [E1 E2].
    destruct (Hk0 sc Hsc) as [E3 E4]. unfold scene_files in Hg. destruct Hg as [<-|Hg]; [unfold process_scannet in *; congruence|].
    destruct (sc_txt sc) as [t|] eqn:Et; [|destruct Hg]. destruct Hg as [<-|[]]. unfold process_scannet in *.
    rewrite (E2 t eq_refl), (E4 t eq_refl). reflexivity.
  - rewrite Hg0 by auto. apply (proj1 Hi' g Hg).
Qed.
Lemma part_stays scenes sc m : NoDup (flat_map scene_files scenes) -> In sc scenes -> m (sc_out sc) = Some Part ->
  Forall (fun x => x (sc_out sc) = Some Part) (trace (process_scannet scenes) m) /\
  run (process_scannet scenes) m (sc_out sc) = Some Part.
Proof.
  intros Ha Hsc E.
  assert (forall a t, In a (process_scannet scenes) -> t (sc_out sc) = Some Part -> Forall (fun x : files => x (sc_out sc) = Some Part) (a t)) as Hstep.
  { intros a t Hin Ht. apply in_map_iff in Hin. destruct Hin as (sc' & <- & Hs').
    destruct (t (sc_out sc')) as [c|] eqn:E'; [rewrite (do_scene_skip _ _ _ E'); constructor|].
    destruct (scene_cases scenes Ha sc' t Hs' E') as (l & -> & _ & Hag & _).
    eapply Forall_impl; [|exact Hag]. cbn beta. intros x Hx. rewrite Hx; auto.
    intros Hi. assert (sc = sc') by (eapply flat_unique; [exact Ha | | | left; reflexivity | exact Hi]; auto). congruence. }
  split; [now apply trace_inv | now apply (run_inv (fun x : files => x (sc_out sc) = Some Part))].
Qed.
Lemma thm_scannet_lost scenes s sc : NoDup (flat_map scene_files scenes) -> (forall sc, In sc scenes -> s (sc_out sc) = None) ->
  In sc scenes ->
  exists mid, In mid (trace (process_scannet scenes) s) /\
    forall m, history (trace (process_scannet scenes)) eq (fun _ => True) mid m ->
      run (process_scannet scenes) m (sc_out sc) = Some Part.
Proof.
  intros Ha Hf Hsc. destruct (in_split _ _ Hsc) as (l1 & l2 & El).
  assert (run (map do_scene l1) s (sc_out sc) = None) as En.
  { assert (forall a t, In a (map do_scene l1) -> t (sc_out sc) = None -> Forall (fun x : files => x (sc_out sc) = None) (a t)) as Hstep.
    { intros a t Hin Ht. apply in_map_iff in Hin. destruct Hin as (sc' & <- & Hs').
      assert (In sc' scenes) as Hs by (rewrite El; apply in_or_app; auto).
      destruct (t (sc_out sc')) as [c|] eqn:E'; [rewrite (do_scene_skip _ _ _ E'); constructor|].
      destruct (scene_cases scenes Ha sc' t Hs E') as (l & -> & _ & Hag & _).
      eapply Forall_impl; [|exact Hag]. cbn beta. intros x Hx. rewrite Hx; auto.
      intros Hi. assert (sc = sc') by (eapply flat_unique; [exact Ha | | | left; reflexivity | exact Hi]; auto). subst sc'.
      clear -Ha El Hs'. subst scenes. rewrite flat_map_app in Ha. cbn [flat_map] in Ha.
      assert (In (sc_out sc) (flat_map scene_files l1)) as Hx by (apply in_flat_map; exists sc; split; auto; now left).
      revert Hx Ha. generalize (flat_map scene_files l1) as v. unfold scene_files. intros v. induction v as [|w v IH]; [intros []|].
      intros [->|Hx] Hn; cbn [app] in Hn; inversion_clear Hn; auto. apply H. apply in_or_app. right. now left. }
    apply (run_inv (fun x : files => x (sc_out sc) = None)); auto. }
  destruct (scene_cases scenes Ha sc _ Hsc En) as (l & El' & _ & _ & _ & _ & x & Hx & Ex).
  exists x. split.
  - unfold process_scannet. rewrite El, map_app. apply trace_app_in. cbn [map trace]. right. rewrite El'. apply in_or_app. now left.
  - intros m Hm. apply part_stays; auto.
    induction Hm as [|m m' m'' Hm IH Hi _ <-]; auto. pose proof (proj1 (part_stays scenes sc m Ha Hsc IH)) as Hq.
    rewrite Forall_forall in Hq. auto.
Qed.

(** *** unzip *)
Notation extract members := (map (fun (m : string * string) (s : files) => write_file (fst m) (snd m) s) members).
Lemma extract_ext members : forall s m, (forall g, ~ In g (map fst members) -> m g = s g) ->
  forall g, run (extract members) m g = run (extract members) s g.
Proof.
  induction members as [|[f c] l IH]; cbn [map run fst snd]; intros s m H; [intros g; apply H; auto|].
  apply IH. cbn [write_file end_of last]. intros g Hg. destruct (String.string_dec f g) as [->|Hne]; [now rewrite !put_same|].
  rewrite !put_other by auto. apply H. cbn [map fst In]. tauto.
Qed.
Lemma extract_other members : forall s g, ~ In g (map fst members) -> run (extract members) s g = s g.
Proof.
  induction members as [|[f c] l IH]; cbn [map run fst snd]; intros s g H; auto.
  rewrite IH by (cbn in H; tauto). cbn [write_file end_of last]. apply put_other. cbn in H. tauto.
Qed.
Lemma extract_get members : forall s f c, NoDup (map fst members) -> In (f, c) members -> run (extract members) s f = Some (Whole c).
Proof.
  induction members as [|[f c] l IH]; cbn [map run fst snd]; intros s g d Hn Hi; [destruct Hi|]. inversion_clear Hn.
  destruct Hi as [E|Hi]; auto. injection E as -> ->. rewrite extract_other by auto. cbn [write_file end_of last]. apply put_same.
Qed.
Lemma extract_trace_off members s : Forall (fun m => forall g, ~ In g (map fst members) -> m g = s g) (trace (extract members) s).
Proof.
  apply trace_inv; auto. intros a t Ha Ht. apply in_map_iff in Ha. destruct Ha as ([f c] & <- & Hm). cbn [fst snd write_file].
  assert (forall x g, ~ In g (map fst members) -> put f x t g = s g) as Hp.
  { intros x g Hg. rewrite put_other; auto. intros ->. apply Hg, in_map_iff. now exists (g, c). }
  constructor; [|constructor]; auto.
Qed.
Lemma trace_app {A} (a b : list (action A)) s x : In x (trace (a ++ b) s) -> In x (trace a s) \/ In x (trace b (run a s)).
Proof.
  revert s. induction a as [|y a IH]; cbn [app trace run]; auto.
  intros s [<-|H]; [left; now left|]. apply in_app_iff in H. destruct H as [H|H]; [left; right; apply in_or_app; auto|].
  apply IH in H. destruct H as [H|H]; auto. left. right. apply in_or_app. auto.
Qed.
Lemma last_write f c (s : files) x : In x (trace [fun s => write_file f c s] s) -> x = s \/ x = put f Part s \/ x = put f (Whole c) s.
Proof. cbn [trace write_file removelast end_of last app In]. intuition. Qed.
Lemma unzip_run flag members s : s flag = None -> ~ In flag (map fst members) -> forall g, g <> flag ->
  run (unzip flag members s) s g = run (extract members) s g.
Proof.
  intros E Hf g Hg. unfold unzip. rewrite E, run_app. cbn [run write_file end_of last]. now rewrite put_other by congruence.
Qed.
Definition uz_inv flag (members : list (string * string)) (s m : files) : Prop :=
  (m flag = None /\ forall g, ~ In g (map fst members) -> m g = s g) \/
  (m flag <> None /\ forall g, g <> flag -> m g = run (extract members) s g).
Lemma uz_trace flag members s m m' : s flag = None -> ~ In flag (map fst members) ->
  uz_inv flag members s m -> In m' (trace (unzip flag members m) m) -> uz_inv flag members s m'.
Proof.
  intros E Hf Hi H. unfold unzip in H. destruct (m flag) as [c|] eqn:Em.
  - cbn in H. destruct H as [<-|[]]. auto.
  - destruct Hi as [[_ Hi]|[Hx _]]; [|congruence]. apply trace_app in H. destruct H as [H|H].
    + left. pose proof (extract_trace_off members m) as Ht. rewrite Forall_forall in Ht. specialize (Ht _ H). cbn beta in Ht.
      split; [rewrite Ht; auto|]. intros g Hg. rewrite Ht by auto. auto.
    + apply last_write in H. destruct H as [-> |H].
      * left. split; [now rewrite extract_other|]. intros g Hg. rewrite extract_other; auto.
      * right. split; [destruct H as [-> | ->]; rewrite put_same; discriminate|]. intros g Hg.
        rewrite <- (extract_ext members s m Hi g). destruct H as [-> | ->]; apply put_other; congruence.
Qed.
Lemma thm_unzip flag members s m : s flag = None -> ~ In flag (map fst members) ->
  history (fun m => trace (unzip flag members m) m) eq (fun _ => True) s m ->
  let s' := run (unzip flag members m) m in
  s' flag <> None /\ (forall g, g <> flag -> ~ In g (map fst members) -> s' g = s g) /\
  (NoDup (map fst members) -> forall f c, In (f, c) members -> s' f = Some (Whole c)).
Proof.
  intros E Hf Hh s'. assert (uz_inv flag members s m) as Hi.
  { induction Hh as [|m m' m'' Hm IH Hi _ <-]; [left; auto|]. eapply uz_trace; eauto. }
  assert (s' flag <> None /\ forall g, g <> flag -> s' g = run (extract members) s g) as [H1 H2].
  { unfold s'. destruct Hi as [[Em Hi]|[Em Hi]].
    - split; [|intros g Hg; rewrite unzip_run by auto; now apply extract_ext].
      unfold unzip. rewrite Em, run_app. cbn [run write_file end_of last]. rewrite put_same. discriminate.
    - unfold unzip. destruct (m flag) as [c|] eqn:Ec; [|congruence]. cbn [run]. split; [congruence | auto]. }
  split; auto. split.
  - intros g Hg Hn. rewrite H2, extract_other; auto.
  - intros Hn f c Hfc. rewrite H2; [now apply extract_get|]. intros ->. apply Hf, in_map_iff. now exists (flag, c).
Qed.

(** *** _clean_off_file *)
Lemma substring_all s : substring 0 (String.length s) s = s.
Proof. induction s as [|c s IH]; cbn [String.length substring]; auto. now rewrite IH. Qed.
Lemma substring_zero s : substring 0 0 s = EmptyString.
Proof. now destruct s. Qed.
Lemma starts_spec p c : starts_with p c = true <-> exists r, c = (p ++ r)%string.
Proof.
  unfold starts_with. rewrite String.eqb_eq. revert c. induction p as [|a p IH]; cbn [String.length append]; intros c.
  - rewrite substring_zero. split; eauto.
  - destruct c as [|b c]; cbn [substring].
    + split; [discriminate | intros (r & H); discriminate].
    + split.
      * intros H. injection H as -> H. apply IH in H. destruct H as (r & ->). now exists r.
      * intros (r & H). injection H as -> H. f_equal. apply IH. now exists r.
Qed.
Lemma fix_some c c' : fix_off c = Some c' ->
  exists rest, c = ("OFF" ++ rest)%string /\ (forall t, rest <> String (ascii_of_nat 10) t) /\
    c' = ("OFF" ++ String (ascii_of_nat 10) rest)%string.
Proof.
  unfold fix_off. destruct (starts_with "OFF" c) eqn:E; cbn [negb]; [|discriminate].
  destruct (starts_with ("OFF" ++ newline) c) eqn:E2; [intros H; discriminate H|]. intros H.
  apply starts_spec in E. destruct E as (rest & ->). exists rest. split; auto. split.
  - intros t ->. assert (starts_with ("OFF" ++ newline) ("OFF" ++ String (ascii_of_nat 10) t) = true) by (apply starts_spec; now exists t). congruence.
  - injection H as <-. cbn [append String.length substring Nat.sub]. rewrite substring_zero, Nat.sub_0_r, substring_all. reflexivity.
Qed.
Lemma fix_none c : fix_off c = None -> forall rest, c = ("OFF" ++ rest)%string -> exists t, rest = String (ascii_of_nat 10) t.
Proof.
  intros H rest ->. unfold fix_off in H.
  assert (starts_with "OFF" ("OFF" ++ rest) = true) as E by (apply starts_spec; eauto). rewrite E in H. cbn [negb] in H.
  destruct (starts_with ("OFF" ++ newline) _) eqn:E2; [|discriminate]. apply starts_spec in E2. destruct E2 as (t & Ht).
  exists t. cbn in Ht. injection Ht as ->. reflexivity.
Qed.
Lemma fix_needed rest : (forall t, rest <> String (ascii_of_nat 10) t) -> exists c', fix_off ("OFF" ++ rest) = Some c'.
Proof.
  intros H. destruct (fix_off ("OFF" ++ rest)) as [c'|] eqn:E; eauto. exfalso.
  destruct (fix_none _ E rest eq_refl) as (t & ->). now apply (H t).
Qed.
Lemma fix_idem c c' : fix_off c = Some c' -> fix_off c' = None.
Proof.
  intros H. apply fix_some in H. destruct H as (rest & _ & _ & ->).
  destruct (fix_off _) as [d|] eqn:E; auto. apply fix_some in E. destruct E as (r & E & Hr & _).
  exfalso. cbn in E. injection E as E. now apply (Hr rest).
Qed.
Definition mended (c : string) : string := match fix_off c with Some c' => c' | None => c end.
Lemma mended_repaired c : repaired c (mended c).
Proof.
  unfold mended. destruct (fix_off c) as [c'|] eqn:E.
  - apply fix_some in E. destruct E as (r & -> & Hr & ->). now constructor.
  - constructor. now apply fix_none.
Qed.
Lemma mended_idem c : mended (mended c) = mended c.
Proof. unfold mended at 2 3. destruct (fix_off c) as [c'|] eqn:E; unfold mended; [now rewrite (fix_idem _ _ E) | now rewrite E]. Qed.
Definition mend (o : option content) : option content :=
  match o with Some (Whole c) => Some (Whole (mended c)) | _ => o end.
Lemma mend_idem o : mend (mend o) = mend o.
Proof. destruct o as [[|c]|]; cbn [mend]; auto. now rewrite mended_idem. Qed.
Lemma clean_off_end f s g : end_of s (clean_off f s) g = if String.eqb f g then mend (s g) else s g.
Proof.
  unfold clean_off. destruct (String.eqb_spec f g) as [<-|Hne].
  - destruct (s f) as [[|c]|] eqn:E; cbn [end_of last mend]; auto. unfold mended.
    destruct (fix_off c); cbn [write_file end_of last]; [apply put_same | auto].
  - destruct (s f) as [[|c]|] eqn:E; cbn [end_of last]; auto.
    destruct (fix_off c); cbn [write_file end_of last]; [now apply put_other | auto].
Qed.
Lemma clean_off_fix f s c c' : s f = Some (Whole c) -> fix_off c = Some c' -> clean_off f s = write_file f c' s.
Proof. unfold clean_off. now intros -> ->. Qed.
Lemma clean_run names : forall s g, run (map clean_off names) s g = if existsb (fun f => String.eqb f g) names then mend (s g) else s g.
Proof.
  induction names as [|f names IH]; cbn [map run existsb]; intros s g; auto.
  rewrite IH, clean_off_end. destruct (String.eqb f g), (existsb _ names); cbn [orb]; auto. apply mend_idem.
Qed.
Lemma existsb_in names g : existsb (fun f => String.eqb f g) names = true <-> In g names.
Proof.
  rewrite existsb_exists. split; [intros (f & Hf & E); apply String.eqb_eq in E; congruence | intros H; exists g; split; auto; apply String.eqb_refl].
Qed.
(** what a file may hold during the loop *)
Definition between (s m : files) (g : string) : Prop := m g = s g \/ m g = mend (s g) \/ m g = Some Part.
Lemma clean_trace names s m : (forall g, In g names -> between s m g) ->
  Forall (fun x => (forall g, In g names -> between s x g) /\ (forall g, ~ In g names -> x g = m g)) (trace (map clean_off names) m).
Proof.
  intros H. apply trace_inv; auto. intros a t Ha [Hb Ho]. apply in_map_iff in Ha. destruct Ha as (f & <- & Hf).
  unfold clean_off. destruct (t f) as [[|c]|] eqn:E; try constructor. destruct (fix_off c) as [c'|] eqn:Ec; [|constructor].
  assert (forall x, x = Part \/ Some (Whole c') = mend (s f) /\ x = Whole c' ->
    (forall g, In g names -> between s (put f x t) g) /\ (forall g, ~ In g names -> put f x t g = m g)) as Hx.
  { intros x Hx. split; intros g Hg.
    - destruct (String.string_dec f g) as [<-|Hne]; [|unfold between in *; rewrite put_other; auto].
      unfold between. rewrite put_same. destruct Hx as [->|[<- ->]]; auto.
    - rewrite put_other; auto. intros ->. auto. }
  constructor; [apply Hx; auto | constructor; [apply Hx; right; split; auto | constructor]].
  destruct (Hb f Hf) as [E1|[E1|E1]]; rewrite E in E1.
  - rewrite <- E1. cbn [mend]. unfold mended. now rewrite Ec.
  - exfalso. destruct (s f) as [[|d]|]; cbn [mend] in E1; try discriminate. injection E1 as ->.
    assert (mended (mended d) = mended d) as Hd by apply mended_idem. unfold mended at 1 in Hd. rewrite Ec in Hd. subst c'.
    apply fix_idem in Ec as Ec'. congruence.
  - discriminate.
Qed.

Section Clean.
Variables (flag : string) (names : list string) (s : files).
Hypothesis no_flag : s flag = None.
Hypothesis flag_apart : ~ In flag names.
Definition cl_inv (m : files) : Prop :=
  (forall g, ~ In g names -> g <> flag -> m g = s g) /\ (forall g, In g names -> between s m g) /\
  (m flag <> None -> forall g, In g names -> m g = mend (s g) \/ m g = Some Part).
Lemma cl_start : cl_inv s.
Proof. split; [auto|]. split; [intros; left; auto | congruence]. Qed.
Lemma mend_between m g : between s m g -> mend (m g) = mend (s g) \/ m g = Some Part.
Proof. intros [-> | [-> | ->]]; auto. rewrite mend_idem. auto. Qed.
Lemma cl_trace m m' : cl_inv m -> In m' (trace (clean_all flag names m) m) -> cl_inv m'.
Proof.
  intros (Ho & Hb & Hf) H. unfold clean_all in H. destruct (m flag) as [c|] eqn:Em.
  - cbn in H. destruct H as [<-|[]]. split; auto. split; auto. intros _. apply Hf. discriminate.
  - pose proof (clean_trace names s m Hb) as Ht. rewrite Forall_forall in Ht.
    apply trace_app in H. destruct H as [H|H].
    + destruct (Ht _ H) as [H1 H2]. split; [intros g Hg Hg'; rewrite H2; auto|]. split; auto.
      intros Hx. rewrite H2 in Hx; auto. congruence.
    + destruct (Ht _ (trace_run _ _)) as [H1 H2].
      assert (forall g, In g names -> run (map clean_off names) m g = mend (s g) \/ run (map clean_off names) m g = Some Part) as H3.
      { intros g Hg. rewrite clean_run. apply existsb_in in Hg as Hg'. rewrite Hg'.
        destruct (mend_between m g (Hb g Hg)) as [->|E]; auto. rewrite E. auto. }
      apply last_write in H.
      assert (forall g, g <> flag -> m' g = run (map clean_off names) m g) as Hm'
        by (intros g Hg; destruct H as [->|[->| ->]]; auto; apply put_other; congruence).
      split; [intros g Hg Hg'; rewrite Hm', H2; auto|]. split.
      * intros g Hg. assert (g <> flag) by congruence. unfold between. rewrite Hm' by auto. right. auto.
      * intros _ g Hg. assert (g <> flag) by congruence. rewrite Hm' by auto. auto.
Qed.
Lemma cl_run m : cl_inv m -> (forall g, In g names -> m g <> Some Part) ->
  forall g, g <> flag -> run (clean_all flag names m) m g = if existsb (fun f => String.eqb f g) names then mend (s g) else s g.
Proof.
  intros (Ho & Hb & Hf) Hp g Hg. unfold clean_all. destruct (m flag) as [c|] eqn:Em.
  - cbn [run]. destruct (existsb _ names) eqn:E.
    + apply existsb_in in E. destruct (Hf ltac:(discriminate) g E) as [|E']; auto. now apply Hp in E'.
    + apply Ho; auto. intros Hi. apply existsb_in in Hi. congruence.
  - rewrite run_app. cbn [run write_file end_of last]. rewrite put_other by congruence. rewrite clean_run.
    destruct (existsb _ names) eqn:E.
    + apply existsb_in in E. destruct (mend_between m g (Hb g E)) as [|E']; auto. now apply Hp in E'.
    + apply Ho; auto. intros Hi. apply existsb_in in Hi. congruence.
Qed.
Hypothesis whole : forall f, In f names -> s f <> Some Part.
Lemma thm_clean m : history (fun m => trace (clean_all flag names m) m) eq (fun m => forall f, In f names -> m f <> Some Part) s m ->
  let s' := run (clean_all flag names m) m in
  (forall f c, In f names -> s f = Some (Whole c) -> exists c', repaired c c' /\ s' f = Some (Whole c')) /\
  (forall g, ~ In g names -> g <> flag -> s' g = s g).
Proof.
  intros Hh s'. assert (cl_inv m /\ forall g, In g names -> m g <> Some Part) as [Hi Hp].
  { induction Hh as [|m m' m'' Hm [IH _] Hi Hfine <-]; [split; [apply cl_start | exact whole]|]. split; auto. eapply cl_trace; eauto. }
  unfold s'. split.
  - intros f c Hf E. exists (mended c). split; [apply mended_repaired|].
    rewrite (cl_run m Hi Hp) by congruence. apply existsb_in in Hf. rewrite Hf, E. reflexivity.
  - intros g Hg Hne. rewrite (cl_run m Hi Hp) by auto. destruct (existsb _ names) eqn:E; auto. apply existsb_in in E. tauto.
Qed.
End Clean.

Lemma clean_part_stays flag names f m : f <> flag -> m f = Some Part ->
  Forall (fun x => x f = Some Part) (trace (clean_all flag names m) m) /\ run (clean_all flag names m) m f = Some Part.
Proof.
  intros Hne E.
  assert (forall a t, In a (clean_all flag names m) -> t f = Some Part -> Forall (fun x : files => x f = Some Part) (a t)) as Hstep.
  { unfold clean_all. destruct (m flag); [intros a t []|]. intros a t Ha Ht. apply in_app_or in Ha. destruct Ha as [Ha|[<-|[]]].
    - apply in_map_iff in Ha. destruct Ha as (g & <- & _). unfold clean_off. destruct (t g) as [[|c]|] eqn:Eg; try constructor.
      assert (g <> f) by congruence. destruct (fix_off c); constructor; [|constructor; [|constructor]]; now rewrite put_other.
    - constructor; [|constructor; [|constructor]]; rewrite put_other; auto. }
  split; [now apply trace_inv | now apply (run_inv (fun x : files => x f = Some Part))].
Qed.
Lemma thm_clean_lost flag names s f rest : s flag = None -> ~ In flag names -> In f names ->
  s f = Some (Whole ("OFF" ++ rest)) -> (forall t, rest <> String (ascii_of_nat 10) t) ->
  exists mid, In mid (trace (clean_all flag names s) s) /\
    forall m, history (fun m => trace (clean_all flag names m) m) eq (fun _ => True) mid m ->
      run (clean_all flag names m) m f = Some Part.
Proof.
  intros E Hn Hf Es Hr.
  assert (f <> flag) as Hne by congruence.
  assert (exists mid, In mid (trace (clean_all flag names s) s) /\ mid f = Some Part) as (mid & Hi & Hp).
  { unfold clean_all. rewrite E.
    assert (exists l1 l2, names = l1 ++ f :: l2 /\ ~ In f l1) as (l1 & l2 & -> & Hl1).
    { clear -Hf. induction names as [|x l IH]; [destruct Hf|]. destruct (String.string_dec x f) as [->|Hx].
      - exists [], l. auto.
      - destruct Hf as [?|Hf]; [congruence|]. destruct (IH Hf) as (a & b & -> & Ha). exists (x :: a), b. split; auto. cbn. intuition. }
    rewrite map_app, <- app_assoc. destruct (fix_needed rest Hr) as [c' Hc].
    exists (put f Part (run (map clean_off l1) s)). split; [|apply put_same].
    apply trace_app_in. cbn [map app trace]. right. apply in_or_app. left.
    rewrite (clean_off_fix f _ ("OFF" ++ rest) c'); [now left | | exact Hc].
    rewrite clean_run. destruct (existsb _ l1) eqn:Ex; [apply existsb_in in Ex; tauto | exact Es]. }
  exists mid. split; auto. intros m Hm. apply clean_part_stays; auto.
  induction Hm as [|m m' m'' Hm IH Hi' _ <-]; auto. pose proof (proj1 (clean_part_stays flag names f m Hne IH)) as Hq.
  rewrite Forall_forall in Hq. auto.
Qed.
