(** Calls by position and keyword. *)
From Coq Require Import String List ZArith Bool Lia.
From Verif Require Import Res Ounet SpecOunet OunetFacts.
Import ListNotations.
Local Open Scope nat_scope.

Section Call.
  Context {V : Type}.
  Implicit Types (m : list (string * V)) (k : string).
  Lemma has_key_in {W} k (m : list (string * W)) : has_key k m = true <-> In k (map fst m).
  Proof.
    unfold has_key. rewrite existsb_exists, in_map_iff. split.
    - intros (p & Hp & E). apply String.eqb_eq in E. exists p. auto.
    - intros (p & E & Hp). exists p. split; [exact Hp|]. apply String.eqb_eq. auto.
  Qed.
  Lemma key_value_app k m (kw : list (string * V)) : key_value k (m ++ kw)%list = match key_value k m with Some v => Some v | None => key_value k kw end.
  Proof. induction m as [|[k' v] m IH]; [reflexivity|]. cbn [app key_value]. destruct (String.eqb k k'); [reflexivity|exact IH]. Qed.
  Lemma key_value_none k m : key_value k m = None <-> ~ In k (map fst m).
  Proof.
    induction m as [|[k' v] m IH]; cbn [key_value map fst In]; [tauto|]. destruct (String.eqb_spec k k') as [->|N].
    - split; [discriminate|]. intros H. exfalso. apply H. left. reflexivity.
    - rewrite IH. split; [intros H [E|E]; [congruence|tauto]|tauto].
  Qed.
  Lemma key_value_in k m v : key_value k m = Some v -> In (k, v) m.
  Proof.
    induction m as [|[k' v'] m IH]; cbn [key_value In]; [discriminate|]. destruct (String.eqb_spec k k') as [->|N]; [intros [= ->]; left; reflexivity|]. intros H. right. apply IH. exact H.
  Qed.
  Lemma given_nth : forall (sig : list (string * option V)) (args : list V) i p, NoDup (map fst sig) -> nth_error sig i = Some p ->
    key_value (fst p) (combine (map fst sig) args) = nth_error args i.
  Proof.
    induction sig as [|[k0 d0] sig IH]; intros args i p Hn E; [destruct i; discriminate|]. cbn [map fst] in *. inversion Hn as [|? ? Hk Hn']; subst. destruct args as [|a args].
    - cbn [combine key_value]. destruct i; reflexivity.
    - cbn [combine key_value]. destruct i as [|i]; cbn [nth_error] in *.
      + injection E as <-. cbn [fst]. rewrite String.eqb_refl. reflexivity.
      + destruct (String.eqb_spec (fst p) k0) as [E0|N].
        * exfalso. apply Hk. rewrite <- E0. apply in_map. eapply nth_error_In; exact E.
        * apply IH; assumption.
  Qed.
  Lemma combine_keys : forall (ks : list string) (args : list V), map fst (combine ks args) = firstn (length args) ks.
  Proof. induction ks as [|k ks IH]; intros [|a args]; cbn [combine map firstn length]; [reflexivity|reflexivity|reflexivity|]. rewrite IH. reflexivity. Qed.
  Lemma mapM_nth {A B} (f : A -> res B) : forall l bs, mapM f l = Ok bs -> length bs = length l /\ forall i a, nth_error l i = Some a -> exists b, nth_error bs i = Some b /\ f a = Ok b.
  Proof.
    induction l as [|a l IH]; intros bs; cbn [mapM]; [intros [= <-]; split; [reflexivity|intros [|i] a; discriminate]|].
    destruct (f a) as [b|] eqn:Ef; cbn [bind]; [|discriminate]. destruct (mapM f l) as [cs|] eqn:Em; cbn [bind]; [|discriminate]. intros [= <-]. destruct (IH cs eq_refl) as [Hl Hn].
    split; [cbn [length]; congruence|]. intros [|i] a' E; cbn [nth_error] in *; [injection E as <-; exists b; auto|apply Hn; exact E].
  Qed.
  Lemma mapM_some {A B} (f : A -> res B) l : (forall a, In a l -> exists b, f a = Ok b) -> exists bs, mapM f l = Ok bs.
  Proof.
    induction l as [|a l IH]; intros H; cbn [mapM]; [eexists; reflexivity|]. destruct (H a (or_introl eq_refl)) as (b & Eb). rewrite Eb. cbn [bind].
    destruct IH as (bs & Ebs); [intros x Hx; apply H; right; exact Hx|]. rewrite Ebs. cbn [bind]. eexists. reflexivity.
  Qed.
  Theorem thm_call (sig : signature V) args kwargs : NoDup (map fst sig) ->
    (call_allowed sig args kwargs -> exists env, bind_call sig args kwargs = Ok env /\ length env = length sig /\
       forall i k dflt, nth_error sig i = Some (k, dflt) -> exists v, nth_error env i = Some (k, v) /\ receives args kwargs i k dflt v) /\
    (~ call_allowed sig args kwargs -> bind_call sig args kwargs = Err TypeError).
  Proof.
    intros Hn. unfold bind_call. set (given := combine (map fst sig) args).
    set (f := fun p : string * option V => match key_value (fst p) (given ++ kwargs)%list, snd p with Some v, _ => Ok (fst p, v) | None, Some v => Ok (fst p, v) | None, None => Err TypeError end).
    assert (Hf : forall p, In p sig -> (exists b, f p = Ok b) \/ f p = Err TypeError).
    { intros p _. unfold f. destruct (key_value _ _); [left; eexists; reflexivity|]. destruct (snd p); [left; eexists; reflexivity|right; reflexivity]. }
    assert (Hkey : forall i p, nth_error sig i = Some p -> key_value (fst p) (given ++ kwargs)%list = match nth_error args i with Some v => Some v | None => key_value (fst p) kwargs end).
    { intros i p E. rewrite key_value_app. unfold given. rewrite (given_nth sig args i p Hn E). reflexivity. }
    assert (Hgiv : forall i p, nth_error sig i = Some p -> (has_key (fst p) given = false <-> length args <= i)).
    { intros i p E. rewrite <- not_true_iff_false, has_key_in. unfold given. rewrite <- key_value_none, (given_nth sig args i p Hn E). apply nth_error_None. }
    assert (Hkw : (forall k, In k (map fst kwargs) -> exists i dflt, length args <= i /\ nth_error sig i = Some (k, dflt)) <->
       forallb (fun kw => has_key (fst kw) sig && negb (has_key (fst kw) given)) kwargs = true).
    { rewrite forallb_forall. split.
      - intros H kw Hk. destruct (H (fst kw)) as (i & dflt & Hi & E); [apply in_map; exact Hk|]. apply andb_true_iff. split.
        + apply has_key_in. apply (in_map fst) in Hk. change (fst kw) with (fst (fst kw, dflt)). apply (in_map fst). eapply nth_error_In; exact E.
        + apply negb_true_iff. apply (Hgiv i (fst kw, dflt) E). exact Hi.
      - intros H k Hk. apply in_map_iff in Hk. destruct Hk as (kw & <- & Hk). specialize (H kw Hk). apply andb_true_iff in H. destruct H as [H1 H2]. apply has_key_in in H1.
        apply in_map_iff in H1. destruct H1 as ([k' dflt] & E & Hp). cbn [fst] in E. subst k'. apply In_nth_error in Hp. destruct Hp as (i & Ei). exists i, dflt. split; [|exact Ei].
        apply (Hgiv i (fst kw, dflt) Ei). apply negb_true_iff. exact H2. }
    destruct (Nat.ltb_spec (length sig) (length args)) as [Hlt|Hle].
    { split; [|reflexivity]. intros [H _]. lia. }
    destruct (forallb _ kwargs) eqn:Eb; cbn [negb].
    2:{ split; [|reflexivity]. intros (_ & H & _). apply Hkw in H. discriminate. }
    split.
    - intros (_ & H1 & H2). destruct (mapM_some f sig) as (env & Ee).
      { intros p Hp. destruct (Hf p Hp) as [H|H]; [exact H|]. exfalso. apply In_nth_error in Hp. destruct Hp as (i & Ei). unfold f in H. rewrite (Hkey i p Ei) in H.
        destruct (nth_error args i) eqn:Ea; [discriminate|]. destruct (key_value (fst p) kwargs) eqn:Ek; [discriminate|]. destruct p as [k [d|]]; cbn [fst snd] in *; [discriminate|].
        apply key_value_none in Ek. apply Ek. apply (H2 i); [apply nth_error_None; exact Ea|exact Ei]. }
      destruct (mapM_nth f sig env Ee) as [Hl Hnth]. exists env. split; [exact Ee|]. split; [exact Hl|]. intros i k dflt Ei. destruct (Hnth i _ Ei) as (b & Eb' & Ef). unfold f in Ef. rewrite (Hkey i _ Ei) in Ef. cbn [fst snd] in Ef.
      unfold receives. destruct (nth_error args i) as [v|] eqn:Ea; [exists v; split; [congruence|left; reflexivity]|]. apply nth_error_None in Ea.
      destruct (key_value k kwargs) as [v|] eqn:Ek; [exists v; split; [congruence|right; left; split; [exact Ea|apply key_value_in; exact Ek]]|].
      destruct dflt as [v|]; [|discriminate]. exists v. split; [congruence|]. right. right. split; [exact Ea|]. split; [apply key_value_none; exact Ek|reflexivity].
    - intros H. destruct (mapM f sig) as [env|e] eqn:Em.
      + exfalso. apply H. split; [exact Hle|]. split; [apply Hkw; reflexivity|]. intros i k Hi Ei. destruct (mapM_nth f sig env Em) as [_ Hnth]. destruct (Hnth i _ Ei) as (b & _ & Ef).
        unfold f in Ef. rewrite (Hkey i _ Ei) in Ef. cbn [fst snd] in Ef. rewrite (proj2 (nth_error_None args i) Hi) in Ef. destruct (key_value k kwargs) as [v|] eqn:Ek; [|discriminate].
        change k with (fst (k, v)). apply in_map. apply key_value_in. exact Ek.
      + apply mapM_err in Em. destruct Em as (p & Hp & Ep). destruct (Hf p Hp) as [(b & Eb')|Ee]; congruence.
  Qed.
End Call.
