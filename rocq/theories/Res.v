(** Exceptions as values.  A Python function that may raise is modelled by a
    function into [res]; the constructor arguments of [Err] name the Python
    exception class. *)
From Coq Require Import List.
Import ListNotations.

Inductive exn : Type :=
| AssertionError | IndexError | TypeError | ValueError | RuntimeError
| ZeroDivisionError | AttributeError | KeyError.

Inductive res (A : Type) : Type :=
| Ok (a : A)
| Err (e : exn).
Arguments Ok {A} a.
Arguments Err {A} e.

Definition bind {A B} (x : res A) (f : A -> res B) : res B :=
  match x with Ok a => f a | Err e => Err e end.

Notation "x <- e ;; k" := (bind e (fun x => k))
  (at level 61, e at next level, right associativity).
Notation "' p <- e ;; k" := (bind e (fun p => k))
  (at level 61, p pattern, e at next level, right associativity).

(** [assert c] raises AssertionError when [c] is false. *)
Definition assert_ (c : bool) : res unit :=
  if c then Ok tt else Err AssertionError.

(** Element-wise application of a function that may raise. *)
Fixpoint mapM {A B} (f : A -> res B) (l : list A) : res (list B) :=
  match l with
  | [] => Ok []
  | a :: t => b <- f a ;; bs <- mapM f t ;; Ok (b :: bs)
  end.

(** A [for] loop over a list with a state, stopping at the first exception. *)
Fixpoint foldM {A S} (f : S -> A -> res S) (s : S) (l : list A) : res S :=
  match l with
  | [] => Ok s
  | a :: t => s' <- f s a ;; foldM f s' t
  end.

Lemma bind_Ok {A B} (a : A) (f : A -> res B) : bind (Ok a) f = f a.
Proof. reflexivity. Qed.

Lemma mapM_Ok {A B} (f : A -> res B) (g : A -> B) (l : list A) :
  (forall a, In a l -> f a = Ok (g a)) -> mapM f l = Ok (map g l).
Proof.
  induction l as [|a t IH]; intros H; [reflexivity|].
  cbn [mapM map]. rewrite (H a (or_introl eq_refl)). cbn [bind].
  rewrite IH; [reflexivity|]. intros x Hx; apply H; right; exact Hx.
Qed.

Lemma mapM_inv {A B} (f : A -> res B) (l : list A) (r : list B) :
  mapM f l = Ok r -> Forall2 (fun a b => f a = Ok b) l r.
Proof.
  revert r; induction l as [|a t IH]; intros r H; cbn [mapM] in H.
  - injection H as <-; constructor.
  - destruct (f a) as [b|e] eqn:Hf; cbn [bind] in H; [|discriminate].
    destruct (mapM f t) as [bs|e] eqn:Hm; cbn [bind] in H; [|discriminate].
    injection H as <-. constructor; [exact Hf|]. apply IH; reflexivity.
Qed.

Lemma mapM_length {A B} (f : A -> res B) (l : list A) (r : list B) :
  mapM f l = Ok r -> length r = length l.
Proof.
  intros H; apply mapM_inv in H. induction H; cbn; congruence.
Qed.

Lemma mapM_ext {A B} (f g : A -> res B) (l : list A) :
  (forall a, In a l -> f a = g a) -> mapM f l = mapM g l.
Proof.
  induction l as [|a t IH]; intros H; [reflexivity|].
  cbn [mapM]. rewrite (H a (or_introl eq_refl)).
  rewrite IH; [reflexivity|]. intros x Hx; apply H; right; exact Hx.
Qed.

Lemma foldM_app {A S} (f : S -> A -> res S) (s : S) (l1 l2 : list A) :
  foldM f s (l1 ++ l2) = (s' <- foldM f s l1 ;; foldM f s' l2).
Proof.
  revert s; induction l1 as [|a t IH]; intros s; [reflexivity|].
  cbn [foldM app]. destruct (f s a) as [s'|e]; cbn [bind]; [apply IH|reflexivity].
Qed.
