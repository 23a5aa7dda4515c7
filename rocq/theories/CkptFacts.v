(** Proofs about the upgrade of checkpoints. *)
From Coq Require Import String Ascii List ZArith Bool QArith Qcanon Lia Arith ArithRing.
From Verif Require Import Res Num Filelist FilelistFacts SpecFilelist Ckpt SpecCkpt.
Import ListNotations.
Local Open Scope string_scope.
Local Open Scope list_scope.
Local Open Scope nat_scope.

Lemma sapp_assoc a b c : String.append (String.append a b) c = String.append a (String.append b c).
Proof. induction a as [|x a IH]; [reflexivity|]. cbn [String.append]. rewrite IH. reflexivity. Qed.
Lemma sapp_len a b : String.length (String.append a b) = String.length a + String.length b.
Proof. induction a as [|x a IH]; [reflexivity|]. cbn [String.append String.length]. rewrite IH. reflexivity. Qed.
Lemma contains_no c s : contains c s = false <-> ~ occurs c s.
Proof. rewrite <- contains_iff. destruct (contains c s); split; congruence. Qed.

(** ** replace *)
Section Replace.
  Variables (old new : string).
  Hypothesis Hold : old <> EmptyString.
  Lemma from_skip p : forall s, replace_from old new (String.append p s) (String.length p) = replace_from old new s 0.
  Proof. induction p as [|c p IH]; intros s; [reflexivity|]. cbn [String.append String.length replace_from]. apply IH. Qed.
  Lemma replace_old b : replace old new (String.append old b) = String.append new (replace old new b).
  Proof.
    unfold replace. assert (P : String.prefix old (String.append old b) = true) by (apply prefix_iff; eauto).
    assert (E : exists c t, old = String c t) by (destruct old as [|c t]; [contradiction|eauto]). destruct E as (c & t & E).
    assert (X : String.append old b = String c (String.append t b)) by (rewrite E; reflexivity). rewrite X in P |- *. cbn [replace_from]. rewrite P. f_equal.
    assert (L : String.length old - 1 = String.length t) by (rewrite E; cbn [String.length]; lia). rewrite L. apply from_skip.
  Qed.
  Lemma replace_step c s : ~ (exists b, String c s = String.append old b) -> replace old new (String c s) = String c (replace old new s).
  Proof.
    intros H. unfold replace. cbn [replace_from]. destruct (String.prefix old (String c s)) eqn:P; [|reflexivity]. exfalso. apply H, prefix_iff, P.
  Qed.
  Lemma replace_first a b : (forall a' b', String.append a (String.append old b) = String.append a' (String.append old b') -> String.length a <= String.length a') ->
    replace old new (String.append a (String.append old b)) = String.append a (String.append new (replace old new b)).
  Proof.
    induction a as [|c a IH]; intros H; [apply replace_old|]. cbn [String.append]. rewrite replace_step.
    - f_equal. apply IH. intros a' b' E. assert (Q : String.length (String c a) <= String.length (String c a')) by (apply (H _ b'); cbn [String.append]; rewrite E; reflexivity). cbn [String.length] in Q. lia.
    - intros (b' & E). assert (Q : String.length (String c a) <= String.length EmptyString) by (apply (H _ b'); exact E). cbn in Q. lia.
  Qed.
  Lemma replace_none s : ~ occurs old s -> replace old new s = s.
  Proof.
    induction s as [|c s IH]; intros H; [reflexivity|]. rewrite replace_step.
    - f_equal. apply IH. intros (a & b & E). apply H. exists (String c a), b. cbn [String.append]. rewrite E. reflexivity.
    - intros (b & E). apply H. exists EmptyString, b. exact E.
  Qed.
  Lemma first_occurrence s : occurs old s -> exists a b, s = String.append a (String.append old b) /\
    forall a' b', s = String.append a' (String.append old b') -> String.length a <= String.length a'.
  Proof.
    induction s as [|c s IH]; intros H.
    - destruct H as (a & b & E). exists a, b. split; [exact E|]. destruct a; [cbn; lia|discriminate E].
    - destruct (String.prefix old (String c s)) eqn:P.
      + apply prefix_iff in P as (b & E). exists EmptyString, b. split; [exact E|]. cbn. lia.
      + assert (NP : forall b, String c s <> String.append old b) by (intros b E; assert (T : String.prefix old (String c s) = true) by (apply prefix_iff; eauto); congruence).
        destruct IH as (a & b & E & M).
        { destruct H as ([|y a] & b & E); [exfalso; exact (NP b E)|]. cbn [String.append] in E. injection E as _ E. exists a, b. exact E. }
        exists (String c a), b. split; [cbn [String.append]; rewrite E; reflexivity|]. intros [|y a'] b' E'; [exfalso; exact (NP b' E')|].
        cbn [String.append] in E'. injection E' as _ E'. apply M in E'. cbn [String.length]. lia.
  Qed.
  Theorem thm_replace s : replaced old new s (replace old new s).
  Proof.
    remember (String.length s) as n eqn:En. revert s En. induction n as [n IH] using lt_wf_ind. intros s En.
    destruct (contains old s) eqn:C.
    - apply contains_iff, first_occurrence in C as (a & b & E & M). subst s. rewrite replace_first by exact M. constructor; [exact M|]. apply (IH (String.length b)); [|reflexivity].
      rewrite !sapp_len in En. destruct old; [contradiction|]. cbn [String.length] in En. lia.
    - apply contains_no in C. rewrite replace_none by exact C. constructor. exact C.
  Qed.
  Theorem thm_replace_unique s t : replaced old new s t -> t = replace old new s.
  Proof.
    induction 1 as [s H|a b b' H _ IH]; [symmetry; apply replace_none; exact H|]. rewrite replace_first by exact H. rewrite <- IH. reflexivity.
  Qed.
End Replace.

(** ** dictionaries *)
Lemma put_new d k v : ~ In k (map fst d) -> put d k v = d ++ [(k, v)].
Proof.
  induction d as [|(k', v') d IH]; intros H; [reflexivity|]. cbn [put app]. destruct (String.eqb_spec k' k) as [->|N]; [exfalso; apply H; left; reflexivity|].
  rewrite IH; [reflexivity|]. intros X. apply H. right. exact X.
Qed.
Lemma put_keys d k v : In k (map fst d) -> map fst (put d k v) = map fst d.
Proof.
  induction d as [|(k', v') d IH]; intros H; [destruct H|]. cbn [put map fst]. destruct (String.eqb_spec k' k) as [->|N]; [reflexivity|].
  cbn [map fst]. rewrite IH; [reflexivity|]. destruct H as [H|H]; [contradiction|exact H].
Qed.
Lemma put_in d k v k' v' : In (k', v') (put d k v) -> (k' = k /\ v' = v) \/ In (k', v') d.
Proof.
  induction d as [|(a, b) d IH]; cbn [put]; [intros [H|[]]; injection H as <- <-; auto|]. destruct (String.eqb_spec a k) as [->|N].
  - intros [H|H]; [injection H as <- <-; auto|right; right; exact H].
  - intros [H|H]; [right; left; exact H|]. destruct (IH H) as [?|?]; [auto|right; right; assumption].
Qed.

(** ** one entry *)
Definition cells_no (key : string) : nat := if contains "downsample" key || contains "upsample" key then 8 else 27.
Lemma cells_no_of k : cells_of k (cells_no k).
Proof.
  unfold cells_no, cells_of. destruct (contains "downsample" k) eqn:A; [|destruct (contains "upsample" k) eqn:B]; cbn [orb].
  - apply contains_iff in A. split; [reflexivity|]. intros N. contradiction.
  - apply contains_iff in B. split; [reflexivity|]. intros _ N. contradiction.
  - apply contains_no in A, B. split; [tauto|reflexivity].
Qed.
Lemma cells_fun k n : cells_of k n -> n = cells_no k.
Proof.
  intros [A B]. destruct (cells_no_of k) as [C D]. destruct (contains "downsample" k) eqn:E; [apply contains_iff in E; rewrite A, C by auto; reflexivity|].
  destruct (contains "upsample" k) eqn:F; [apply contains_iff in F; rewrite A, C by auto; reflexivity|]. apply contains_no in E, F. rewrite B, D by auto. reflexivity.
Qed.
Lemma cells_pos k : 0 < cells_no k.
Proof. unfold cells_no. destruct (_ || _); lia. Qed.
Lemma flat_const {A B} (f : A -> list B) n l : (forall x, List.length (f x) = n) -> List.length (flat_map f l) = List.length l * n.
Proof. intros H. induction l as [|x l IH]; [reflexivity|]. cbn [flat_map List.length]. rewrite app_length, H, IH. lia. Qed.
Lemma nth_flat {B} (f : nat -> list B) n m x y s : (forall x, List.length (f x) = n) -> x < m -> y < n ->
  nth_error (flat_map f (seq s m)) (x * n + y) = nth_error (f (s + x)) y.
Proof.
  intros H. revert x s. induction m as [|m IH]; intros x s Hx Hy; [lia|]. cbn [seq flat_map]. destruct x as [|x].
  - rewrite Nat.add_0_r. cbn [Nat.mul Nat.add]. rewrite nth_error_app1 by (rewrite H; lia). reflexivity.
  - rewrite nth_error_app2 by (rewrite H; nia). rewrite H. replace (S x * n + y - n) with (x * n + y) by nia. rewrite IH by lia. f_equal. f_equal. lia.
Qed.
Definition turn (a n last : nat) (D : list Qc) : list Qc :=
  flat_map (fun k => flat_map (fun j => map (fun i => nth ((i * n + j) * last + k) D 0%Qc) (seq 0 a)) (seq 0 n)) (seq 0 last).
Lemma turn_len a n last D : List.length (turn a n last D) = last * (n * a).
Proof.
  unfold turn. rewrite (flat_const _ (n * a)), seq_length; [reflexivity|]. intros k. rewrite (flat_const _ a), seq_length; [reflexivity|]. intros j. rewrite map_length. apply seq_length.
Qed.
Lemma turn_nth a n last D i j k : i < a -> j < n -> k < last -> List.length D = a * n * last ->
  nth_error (turn a n last D) ((k * n + j) * a + i) = nth_error D ((i * n + j) * last + k).
Proof.
  intros Hi Hj Hk L. unfold turn. replace ((k * n + j) * a + i) with (k * (n * a) + (j * a + i)) by ring.
  assert (J : j * a + i < n * a) by nia.
  rewrite (nth_flat _ (n * a)); [|intros x; rewrite (flat_const _ a), seq_length; [reflexivity|intros y; rewrite map_length; apply seq_length]|exact Hk|exact J].
  rewrite (nth_flat _ a); [|intros y; rewrite map_length; apply seq_length|exact Hj|exact Hi].
  rewrite nth_error_map. cbn [Nat.add]. assert (E : nth_error (seq 0 a) i = Some i) by (rewrite nth_error_nth' with (d := 0) by (rewrite seq_length; exact Hi); rewrite seq_nth by exact Hi; reflexivity).
  rewrite E. cbn [option_map]. symmetry. apply nth_error_nth'. rewrite L. assert (i * n + j < a * n) by nia. nia.
Qed.
Lemma view_ok v o r n i : t_shape v = o :: r -> 0 < o -> 0 < n -> List.length (t_data v) = o * i * n ->
  view_permute v n = Ok (mkTensor [n; i; o] (turn o i n (t_data v))).
Proof.
  intros E Ho Hn L. unfold view_permute. rewrite E, L. assert (Z0 : o * n =? 0 = false) by (apply Nat.eqb_neq; nia). rewrite Z0. cbn [orb].
  replace (o * i * n) with (i * (o * n)) by ring. rewrite Nat.mod_mul, Nat.div_mul by nia. reflexivity.
Qed.
Lemma view_err v n : 0 < n -> ~ (exists o r, t_shape v = o :: r /\ 0 < o /\ exists i, List.length (t_data v) = o * i * n) -> exists e, view_permute v n = Err e.
Proof.
  intros Hn H. unfold view_permute. destruct (t_shape v) as [|o r] eqn:E; [eauto|]. destruct (o * n =? 0) eqn:Z0; [cbn; eauto|]. apply Nat.eqb_neq in Z0.
  destruct (List.length (t_data v) mod (o * n) =? 0) eqn:M; [|cbn; eauto]. apply Nat.eqb_eq in M. exfalso. apply H. exists o, r. split; [reflexivity|]. split; [nia|].
  exists (List.length (t_data v) / (o * n)). pose proof (Nat.div_mod (List.length (t_data v)) (o * n) Z0) as Q. rewrite M in Q. nia.
Qed.

Theorem thm_entry_ok k v : upgradable k v -> exists k' v', upgrade_entry k v = Ok (k', v') /\ new_name k k' /\ new_value k v v'.
Proof.
  intros [U1 U2]. unfold upgrade_entry. fold (cells_no k). destruct (contains "conv.weight" k) eqn:A.
  - apply contains_iff in A. destruct (U1 A) as (o & r & n & E & Hn & Ho & i & L). apply cells_fun in Hn. subst n. pose proof (cells_pos k) as P.
    rewrite (view_ok v o r (cells_no k) i E Ho P L). cbn [bind]. eexists _, _. split; [reflexivity|]. split; [split; [reflexivity|tauto]|]. split; [|tauto]. intros _.
    exists o, i, (cells_no k). split; [apply cells_no_of|]. split; [exact Ho|]. split; [exact L|]. split; [reflexivity|]. split.
    + unfold whole. cbn [t_data t_shape fold_right]. rewrite turn_len. ring.
    + intros a b c Ha Hb Hc. unfold entry3. cbn [t_shape t_data]. apply Nat.ltb_lt in Ha as Ha', Hb as Hb', Hc as Hc'. rewrite Ha', Hb', Hc'. cbn [andb]. apply turn_nth; assumption.
  - apply contains_no in A. destruct (contains "conv1x1.weight" k) eqn:B.
    + apply contains_iff in B. specialize (U2 A B). destruct (t_shape v) as [|a [|b [|c r]]] eqn:E; cbn in U2; try lia.
      unfold squeeze2. rewrite E. cbn [bind]. eexists _, _. split; [reflexivity|]. split.
      * split; [tauto|]. split; [|split; [|tauto]].
        -- intros _ _ Q. apply contains_iff in Q. rewrite Q. apply thm_replace. discriminate.
        -- intros _ _ Q. apply contains_no in Q. rewrite Q. apply thm_replace. discriminate.
      * split; [tauto|]. split; [|tauto]. intros _ _. destruct (c =? 1) eqn:C.
        -- apply Nat.eqb_eq in C. split; [reflexivity|]. exists a, b, c, r. split; [exact E|]. split; [reflexivity|]. intros N. contradiction.
        -- apply Nat.eqb_neq in C. split; [reflexivity|]. exists a, b, c, r. split; [exact E|]. split; [intros N; contradiction|reflexivity].
    + apply contains_no in B. destruct (contains "conv1x1.bias" k) eqn:C.
      * apply contains_iff in C. eexists _, _. split; [reflexivity|]. split; [|split; [tauto|]; split; [tauto|reflexivity]].
        split; [tauto|]. split; [tauto|]. split; [tauto|]. split; [|tauto]. intros _ _ _. apply thm_replace. discriminate.
      * apply contains_no in C. eexists _, _. split; [reflexivity|]. split; [|split; [tauto|]; split; [tauto|reflexivity]].
        split; [tauto|]. split; [tauto|]. split; [tauto|]. split; [tauto|reflexivity].
Qed.
Theorem thm_entry_err k v : ~ upgradable k v -> exists e, upgrade_entry k v = Err e.
Proof.
  intros H. unfold upgrade_entry. fold (cells_no k). destruct (contains "conv.weight" k) eqn:A.
  - apply contains_iff in A. destruct (view_err v (cells_no k) (cells_pos k)) as (e & E); [|rewrite E; cbn; eauto].
    intros (o & r & E & Ho & i & L). apply H. split; [|tauto]. intros _. exists o, r, (cells_no k). split; [exact E|]. split; [apply cells_no_of|]. eauto.
  - apply contains_no in A. destruct (contains "conv1x1.weight" k) eqn:B.
    + unfold squeeze2. destruct (t_shape v) as [|a [|b [|c r]]] eqn:E; cbn [bind]; eauto. exfalso. apply H. split; [tauto|]. intros _ _. rewrite E. cbn. lia.
    + exfalso. apply contains_no in B. apply H. split; tauto.
Qed.
Lemma name_fun k v k' v' k'' : upgrade_entry k v = Ok (k', v') -> new_name k k'' -> k'' = k'.
Proof.
  intros E (N1 & N2 & N3 & N4 & N5). unfold upgrade_entry in E. destruct (contains "conv.weight" k) eqn:A.
  - apply contains_iff in A. rewrite (N1 A). destruct (view_permute _ _); [|discriminate]. cbn [bind] in E. congruence.
  - apply contains_no in A. destruct (contains "conv1x1.weight" k) eqn:B.
    + apply contains_iff in B. destruct (squeeze2 v); [|discriminate]. cbn [bind] in E. destruct (contains "conv1x1.conv1x1" k) eqn:C.
      * apply contains_iff in C. specialize (N2 A B C). apply thm_replace_unique in N2; [congruence|discriminate].
      * apply contains_no in C. specialize (N3 A B C). apply thm_replace_unique in N3; [congruence|discriminate].
    + apply contains_no in B. destruct (contains "conv1x1.bias" k) eqn:C.
      * apply contains_iff in C. specialize (N4 A B C). apply thm_replace_unique in N4; [congruence|discriminate].
      * apply contains_no in C. rewrite (N5 A B C). congruence.
Qed.

(** ** the checkpoint *)
Lemma upgrade_app w d : (exists e, foldM (fun d kv => e <- upgrade_entry (fst kv) (snd kv) ;; Ok (put d (fst e) (snd e))) d w = Err e) \/
  exists us, Forall2 (fun kv e => upgrade_entry (fst kv) (snd kv) = Ok e) w us /\
    foldM (fun d kv => e <- upgrade_entry (fst kv) (snd kv) ;; Ok (put d (fst e) (snd e))) d w = Ok (fold_left (fun d e => put d (fst e) (snd e)) us d).
Proof.
  revert d. induction w as [|(k, v) w IH]; intros d; [right; exists []; split; [constructor|reflexivity]|]. cbn [foldM fst snd]. destruct (upgrade_entry k v) as [e|x] eqn:E; cbn [bind]; [|left; eauto].
  destruct (IH (put d (fst e) (snd e))) as [H|(us & H & Q)]; [left; exact H|]. right. exists (e :: us). split; [constructor; assumption|exact Q].
Qed.
Lemma puts_new us d : NoDup (map fst d ++ map fst us) -> fold_left (fun d e => put d (fst e) (snd e)) us d = d ++ us.
Proof.
  revert d. induction us as [|(k, v) us IH]; intros d H; [rewrite app_nil_r; reflexivity|]. cbn [fold_left fst snd]. cbn [map fst] in H.
  rewrite put_new by (apply NoDup_remove_2 in H; intros X; apply H, in_or_app; auto). rewrite IH.
  - rewrite <- app_assoc. reflexivity.
  - rewrite map_app. cbn [map fst]. rewrite <- app_assoc. exact H.
Qed.
Lemma puts_keys us d k : In k (map fst (fold_left (fun d e => put d (fst e) (snd e)) us d)) <-> In k (map fst d) \/ In k (map fst us).
Proof.
  revert d. induction us as [|(a, v) us IH]; intros d; [cbn; tauto|]. cbn [fold_left fst snd map]. rewrite IH.
  assert (Q : In k (map fst (put d a v)) <-> In k (map fst d) \/ a = k).
  { destruct (in_dec string_dec a (map fst d)) as [H|H]; [rewrite put_keys by exact H; split; [tauto|intros [?|<-]; auto]|].
    rewrite put_new by exact H. rewrite map_app, in_app_iff. cbn. tauto. }
  rewrite Q. cbn [In]. tauto.
Qed.
Lemma foldM_err w kv : In kv w -> (exists e, upgrade_entry (fst kv) (snd kv) = Err e) -> forall d, exists e, foldM (fun d kv => e <- upgrade_entry (fst kv) (snd kv) ;; Ok (put d (fst e) (snd e))) d w = Err e.
Proof.
  induction w as [|a w IH]; intros Hi (e & E) d; [destruct Hi|]. cbn [foldM]. destruct Hi as [->|Hi]; [rewrite E; cbn; eauto|].
  destruct (upgrade_entry (fst a) (snd a)); cbn [bind]; eauto.
Qed.
(** the last entry of each name stays *)
Lemma put_spec d k v : NoDup (map fst d) -> NoDup (map fst (put d k v)) /\ forall k' v', In (k', v') (put d k v) <-> (k' = k /\ v' = v) \/ (k' <> k /\ In (k', v') d).
Proof.
  induction d as [|(a, b) d IH]; cbn [put map fst]; intros N.
  - split; [repeat constructor; intros []|]. intros k' v'. cbn. split; [intros [H|[]]; injection H as <- <-; auto|intros [(-> & ->)|(_ & [])]; auto].
  - inversion N as [|? ? Na Nd]; subst. destruct (String.eqb_spec a k) as [->|D]; cbn [map fst].
    + split; [constructor; assumption|]. intros k' v'. cbn [In]. split.
      * intros [H|H]; [injection H as <- <-; auto|]. right. split; [|right; exact H]. intros ->. apply Na. apply in_map_iff. exists (k, v'). auto.
      * intros [(-> & ->)|(Q & [H|H])]; [left; reflexivity| |right; exact H]. injection H as <- _. contradiction.
    + destruct (IH Nd) as (N1 & I1). split.
      * constructor; [|exact N1]. intros H. apply in_map_iff in H. destruct H as ((x, y) & E & H). cbn in E. subst x. apply I1 in H. destruct H as [(E & _)|(_ & H)]; [contradiction|].
        apply Na. apply in_map_iff. exists (a, y). auto.
      * intros k' v'. cbn [In]. rewrite I1. split.
        -- intros [H|[H|(Q & H)]]; [injection H as <- <-; right; split; [exact D|left; reflexivity]|left; exact H|right; split; [exact Q|right; exact H]].
        -- intros [H|(Q & [H|H])]; [right; left; exact H|left; exact H|right; right; split; assumption].
Qed.
Lemma puts_last us : let u := fold_left (fun d e => put d (fst e) (snd e)) us [] in
  NoDup (map fst u) /\ forall k v, In (k, v) u <-> exists a b, us = a ++ (k, v) :: b /\ ~ In k (map fst b).
Proof.
  cbn zeta. induction us as [|(k0, v0) us IH] using rev_ind.
  - split; [constructor|]. intros k v. split; [intros []|]. intros (a & b & E & _). destruct a; discriminate.
  - rewrite fold_left_app. cbn [fold_left fst snd]. destruct IH as (N & I). destruct (put_spec _ k0 v0 N) as (N1 & I1). split; [exact N1|]. intros k v. rewrite I1. split.
    + intros [(-> & ->)|(Q & H)]; [exists us, []; split; [reflexivity|intros []]|]. apply I in H. destruct H as (a & b & -> & H). exists a, (b ++ [(k0, v0)]).
      rewrite <- app_assoc. split; [reflexivity|]. rewrite map_app, in_app_iff. cbn. intros [X|[X|[]]]; congruence.
    + intros (a & b & E & H). destruct b as [|x b _] using rev_ind.
      * apply app_inj_tail in E. destruct E as (_ & E). injection E as <- <-. auto.
      * rewrite app_comm_cons, app_assoc in E. apply app_inj_tail in E. destruct E as (-> & <-). rewrite map_app, in_app_iff in H. cbn in H. right.
        split; [intros ->; apply H; auto|]. apply I. exists a, b. split; [reflexivity|]. intros X. apply H. auto.
Qed.
Theorem thm_upgrade w : Forall (fun kv => upgradable (fst kv) (snd kv)) w ->
  exists us u, Forall2 (fun kv e => new_name (fst kv) (fst e) /\ new_value (fst kv) (snd kv) (snd e)) w us /\ upgrade w = Ok u /\
    (NoDup (map fst us) -> u = us) /\ (forall k, In k (map fst u) <-> In k (map fst us)) /\ (List.length u <= List.length w) /\
    NoDup (map fst u) /\ forall k v, In (k, v) u <-> exists a b, us = a ++ (k, v) :: b /\ ~ In k (map fst b).
Proof.
  intros H. unfold upgrade. destruct (upgrade_app w []) as [(e & E)|(us & F & E)].
  - exfalso. clear -H E. revert E. generalize (@nil (string * tensor)) as d. induction H as [|(k, v) w Hu _ IH]; intros d E; [discriminate|]. cbn [foldM fst snd] in E.
    destruct (thm_entry_ok k v Hu) as (k' & v' & Q & _). rewrite Q in E. cbn [bind] in E. exact (IH _ E).
  - eexists us, _. split; [|split; [exact E|]; split; [|split; [|split]]].
    + clear E. induction F as [|(k, v) (k', v') w us E _ IH]; [constructor|]. inversion H; subst. constructor; [|apply IH; assumption]. cbn [fst snd] in *.
      destruct (thm_entry_ok k v H2) as (a & b & Q & N & V). assert (a = k') by congruence. assert (b = v') by congruence. subst. auto.
    + intros N. apply (puts_new us []). exact N.
    + intros k. rewrite puts_keys. cbn. tauto.
    + assert (L : forall us d, List.length (fold_left (fun d e => put d (fst e) (snd e)) us d) <= List.length d + List.length us).
      { clear. induction us as [|(k, v) us IH]; intros d; cbn [fold_left fst snd List.length]; [lia|]. specialize (IH (put d k v)).
        assert (Q : List.length (put d k v) <= S (List.length d)); [|lia]. clear. induction d as [|(a, b) d IH]; cbn [put List.length]; [lia|]. destruct (String.eqb a k); cbn [List.length]; lia. }
      specialize (L us []). cbn [List.length Nat.add] in L. assert (Q : List.length us = List.length w) by (clear -F; induction F; cbn; congruence). cbn [List.length] in *. lia.
    + exact (puts_last us).
Qed.
Theorem thm_upgrade_fails w : ~ Forall (fun kv => upgradable (fst kv) (snd kv)) w -> forall u, upgrade w <> Ok u.
Proof.
  intros H u E. apply H. apply Forall_forall. intros kv Hi. destruct (upgrade_entry (fst kv) (snd kv)) as [e|e] eqn:Q.
  - clear -Q. unfold upgrade_entry in Q. fold (cells_no (fst kv)) in Q. destruct kv as (k, v). cbn [fst snd] in *. split.
    + intros A. apply contains_iff in A. rewrite A in Q. unfold view_permute in Q. destruct (t_shape v) as [|o r] eqn:E; [discriminate|].
      pose proof (cells_pos k) as P. destruct (o * cells_no k =? 0) eqn:Z0; [discriminate|]. apply Nat.eqb_neq in Z0. cbn [orb] in Q.
      destruct (List.length (t_data v) mod (o * cells_no k) =? 0) eqn:M; [|discriminate]. apply Nat.eqb_eq in M. exists o, r, (cells_no k). split; [reflexivity|]. split; [apply cells_no_of|]. split; [nia|].
      exists (List.length (t_data v) / (o * cells_no k)). pose proof (Nat.div_mod (List.length (t_data v)) (o * cells_no k) Z0) as D. rewrite M in D. nia.
    + intros A B. apply contains_no in A. apply contains_iff in B. rewrite A, B in Q. unfold squeeze2 in Q. destruct (t_shape v) as [|a [|b [|c r]]]; try discriminate. cbn. lia.
  - destruct (foldM_err w kv Hi ltac:(eauto) []) as (x & X). unfold upgrade in E. congruence.
Qed.

(** ** the listing *)
Lemma excluded_iff skips n : excluded skips n = true <-> exists s, In s skips /\ occurs s n.
Proof. unfold excluded. rewrite existsb_exists. split; intros (s & H1 & H2); exists s; (split; [exact H1|apply contains_iff; exact H2]). Qed.
Lemma combine_snoc {A} (l : list A) a s : combine (seq s (List.length (l ++ [a]))) (l ++ [a]) = combine (seq s (List.length l)) l ++ [(s + List.length l, a)].
Proof. revert s. induction l as [|b l IH]; intros s; [cbn; rewrite Nat.add_0_r; reflexivity|]. cbn [app List.length seq combine]. rewrite IH. cbn [app]. rewrite <- plus_n_Sm. reflexivity. Qed.
Theorem thm_list_var skips vars rows total : list_var skips vars = (rows, total) -> listed skips vars rows total.
Proof.
  intros E. exists (filter (fun kv => negb (excluded skips (fst kv))) vars). split; [|split; [eexists; reflexivity|]].
  - intros kv. rewrite filter_In, negb_true_iff. split; intros (H1 & H2); (split; [exact H1|]).
    + intros s Hs Ho. assert (T : excluded skips (fst kv) = true) by (apply excluded_iff; eauto). congruence.
    + destruct (excluded skips (fst kv)) eqn:X; [|reflexivity]. apply excluded_iff in X as (s & Hs & Ho). exfalso. exact (H2 s Hs Ho).
  - assert (G : forall vs, fold_left (fun '(rows, total, counter) (kv : string * tensor) => if excluded skips (fst kv) then (rows, total, counter)
        else (rows ++ [(counter, fst kv, t_shape (snd kv), numel (t_shape (snd kv)))], total + numel (t_shape (snd kv)), S counter)) vs ([], 0, 0) =
      let kept := filter (fun kv => negb (excluded skips (fst kv))) vs in
      (map (fun '(i, kv) => (i, fst kv, t_shape (snd kv), fold_right Nat.mul 1 (t_shape (snd kv)))) (combine (seq 0 (List.length kept)) kept),
       list_sum (map (fun kv => fold_right Nat.mul 1 (t_shape (snd kv))) kept), List.length kept)).
    { intros vs. induction vs as [|kv vs IH] using rev_ind; [reflexivity|]. rewrite fold_left_app, IH. cbv zeta. cbn [fold_left]. rewrite filter_app. cbn [filter]. destruct (excluded skips (fst kv)); cbn [negb].
      - rewrite app_nil_r. reflexivity.
      - rewrite combine_snoc, map_app, map_app. cbn [map]. rewrite list_sum_app. unfold numel. f_equal; [f_equal; cbn [list_sum fold_right]; lia|rewrite app_length; cbn; lia]. }
    unfold list_var in E. cbv zeta in E. rewrite G in E. cbv zeta in E. injection E as <- <-. split; reflexivity.
Qed.

(** ** the files of a sample *)
Fixpoint has (c : ascii) (s : string) : bool := match s with EmptyString => false | String x t => Ascii.eqb x c || has c t end.
Lemma has_app c a b : has c (String.append a b) = has c a || has c b.
Proof. induction a as [|x a IH]; [reflexivity|]. cbn [String.append has]. rewrite IH. apply orb_assoc. Qed.
Lemma app_split (a b x y : string) : String.append a b = String.append x y -> String.length a <= String.length x -> exists m, x = String.append a m /\ b = String.append m y.
Proof.
  revert x. induction a as [|c a IH]; intros x E L; [exists x; auto|]. destruct x as [|d x]; [cbn in L; lia|]. cbn [String.append] in E. injection E as <- E. cbn [String.length] in L.
  destruct (IH x E ltac:(lia)) as (m & -> & ->). exists m. auto.
Qed.
Lemma replace_folder old new root rest : old <> EmptyString -> has "/" old = false -> ~ occurs old root -> ~ occurs old rest ->
  replace old new (String.append root (String "/" (String.append old rest))) = String.append root (String "/" (String.append new rest)).
Proof.
  intros H0 Hs Hr Ht.
  assert (S1 : forall u v, String.append u (String "/" v) = String.append (String.append u "/") v) by (intros u v; rewrite sapp_assoc; reflexivity).
  rewrite (S1 root (String.append old rest)), replace_first.
  - rewrite (S1 root (String.append new rest)). f_equal. f_equal. apply replace_none. exact Ht.
  - exact H0.
  - intros a' b' E. destruct (le_lt_dec (String.length (String.append root "/")) (String.length a')) as [L|L]; [exact L|]. exfalso.
    rewrite sapp_len in L. cbn [String.length] in L. symmetry in E. rewrite <- S1 in E.
    destruct (app_split a' (String.append old b') root (String "/" (String.append old rest)) E ltac:(lia)) as (m & -> & E2).
    destruct (le_lt_dec (String.length old) (String.length m)) as [L2|L2].
    + destruct (app_split old b' m _ E2 L2) as (m' & -> & _). apply Hr. exists a', m'. reflexivity.
    + symmetry in E2. destruct (app_split m (String "/" (String.append old rest)) old b' E2 ltac:(lia)) as (m' & E3 & E4). rewrite E3, has_app in Hs. apply orb_false_iff in Hs as (_ & Hs).
      destruct m' as [|c m']; [rewrite E3, sapp_len in L2; cbn in L2; lia|]. cbn [String.append] in E4. injection E4 as <- _. cbn in Hs. discriminate.
Qed.
Theorem thm_sample_files T root rest r : (T = "ply" \/ T = "npz") -> ~ occurs (String.append "points." T) root -> ~ occurs (String.append "points." T) rest ->
  sample_files T (String.append root (String "/" (String.append (String.append "points." T) rest))) r =
  Ok (String.append root (String "/" (String.append "points." (String.append T (String.append rest (String.append "." T))))),
      String.append root (String.append "/renderings" (String.append rest (String.append "/rendering/" (String.append (fmt02 r) ".png"))))).
Proof.
  intros HT Hr Ht. unfold sample_files, image_file. rewrite replace_folder; [|destruct HT as [->| ->]; discriminate|destruct HT as [->| ->]; reflexivity|exact Hr|exact Ht].
  assert (P : point_file T (String.append root (String "/" (String.append (String.append "points." T) rest))) =
    Ok (String.append root (String "/" (String.append "points." (String.append T (String.append rest (String.append "." T))))))).
  { destruct HT as [->| ->]; unfold point_file; cbn [String.eqb Ascii.eqb Bool.eqb]; f_equal; rewrite sapp_assoc; f_equal; cbn [String.append]; do 11 f_equal. }
  rewrite P. cbn [bind]. f_equal. f_equal. rewrite !sapp_assoc. f_equal.
Qed.
Theorem thm_sample_type T name r : T <> "ply" -> T <> "npz" -> sample_files T name r = Err ValueError.
Proof.
  intros H1 H2. unfold sample_files, point_file. rewrite (proj2 (String.eqb_neq _ _) H1), (proj2 (String.eqb_neq _ _) H2). reflexivity.
Qed.

(** The file written by upgrade_ckpt.py. *)
Lemma substring_all s k : String.length s <= k -> substring 0 k s = s.
Proof. revert k. induction s as [|c s IH]; intros [|k] H; cbn in *; try reflexivity; try lia. f_equal. apply IH. lia. Qed.
Lemma substring_app a b : substring 0 (String.length a) (String.append a b) = a.
Proof. induction a as [|c a IH]; cbn; [destruct b; reflexivity|]. f_equal. exact IH. Qed.
Theorem thm_upgrade_file stem ext : String.length ext = 4 -> upgrade_file (String.append stem ext) = String.append stem ".upgrade.pth".
Proof. intros H. unfold upgrade_file. rewrite sapp_len, H. replace (String.length stem + 4 - 4) with (String.length stem) by lia. rewrite substring_app. reflexivity. Qed.
Lemma substring_len s k : k <= String.length s -> String.length (substring 0 k s) = k.
Proof. revert k. induction s as [|c s IH]; intros [|k] H; cbn in *; try reflexivity; try lia. f_equal. apply IH. lia. Qed.
Theorem thm_upgrade_file_new f : upgrade_file f <> f.
Proof.
  intros E. apply (f_equal String.length) in E. unfold upgrade_file in E. rewrite sapp_len, substring_len in E by lia. cbn [String.length] in E. lia.
Qed.
Theorem thm_view a b : a < 10 -> b < 10 -> fmt02 (10 * a + b) = String.append (substring a 1 "0123456789") (substring b 1 "0123456789").
Proof.
  intros A B. assert (G : forallb (fun a => forallb (fun b => String.eqb (fmt02 (10 * a + b)) (String.append (substring a 1 "0123456789") (substring b 1 "0123456789"))) (seq 0 10)) (seq 0 10) = true) by (vm_compute; reflexivity).
  rewrite forallb_forall in G. specialize (G a). rewrite forallb_forall in G. apply String.eqb_eq, G; apply in_seq; lia.
Qed.
