(** Samples of a batch in another order: the rows of joined lists. *)
From Coq Require Import String List ZArith Bool QArith Qcanon Permutation Arith Lia FinFun.
From Verif Require Import Res Num Points Octree NnBasic NnInterp Net Spec SpecGeo SpecBuild SpecNeigh SpecMerge SpecNN SpecBatch SpecMove SpecMoveSeg ListFacts MoveNet.
Import ListNotations.
Open Scope Z_scope.

Section Places.
  Local Open Scope nat_scope.
  (** the block and the place in it of row [i] of joined blocks of sizes [ns]; back *)
  Fixpoint locate (ns : list nat) (i : nat) : nat * nat :=
    match ns with
    | [] => (0, i)
    | n :: ns => if i <? n then (0, i) else let '(b, r) := locate ns (i - n) in (S b, r)
    end.
  Fixpoint place (ns : list nat) (b r : nat) : nat :=
    match b, ns with S b, n :: ns => n + place ns b r | _, _ => r end.
  Lemma locate_place ns b r : r < nth b ns 0 -> locate ns (place ns b r) = (b, r).
  Proof.
    revert b. induction ns as [|n ns IH]; intros b H; [destruct b; cbn in H; lia|]. destruct b as [|b]; cbn [nth place locate] in *.
    - destruct (r <? n) eqn:E; [reflexivity|]. apply Nat.ltb_ge in E. lia.
    - destruct (n + place ns b r <? n) eqn:E; [apply Nat.ltb_lt in E; lia|]. replace (n + place ns b r - n) with (place ns b r) by lia. rewrite IH by exact H. reflexivity.
  Qed.
  Lemma place_locate ns i : i < list_sum ns -> exists b r, locate ns i = (b, r) /\ place ns b r = i /\ b < length ns /\ r < nth b ns 0.
  Proof.
    revert i. induction ns as [|n ns IH]; intros i H; [cbn in H; lia|]. cbn [locate]. destruct (i <? n) eqn:E.
    - apply Nat.ltb_lt in E. exists 0, i. cbn. repeat split; lia.
    - apply Nat.ltb_ge in E. change (list_sum (n :: ns)) with (n + list_sum ns) in H. destruct (IH (i - n)) as (b & r & -> & P & L & R); [lia|]. exists (S b), r. cbn [place nth length]. repeat split; try lia.
  Qed.
  Lemma place_lt ns b r : b < length ns -> r < nth b ns 0 -> place ns b r < list_sum ns.
  Proof.
    revert b. induction ns as [|n ns IH]; intros b Hb H; [cbn in Hb; lia|]. change (list_sum (n :: ns)) with (n + list_sum ns). destruct b as [|b]; cbn [nth place length] in *; [lia|]. specialize (IH b). lia.
  Qed.
  Lemma nth_place {A} (l : list (list A)) b r x : nth_error l b = Some x -> r < length x -> nth_error (concat l) (place (map (@length A) l) b r) = nth_error x r.
  Proof.
    revert b. induction l as [|y l IH]; intros b H Hr; [destruct b; discriminate|]. destruct b as [|b]; cbn [nth_error map place concat] in *.
    - injection H as ->. apply nth_error_app1. exact Hr.
    - rewrite nth_error_app2 by lia. replace (length y + place (map (length (A:=A)) l) b r - length y) with (place (map (@length A) l) b r) by lia. apply IH; assumption.
  Qed.
  Lemma concat_length {A} (l : list (list A)) : length (concat l) = list_sum (map (@length A) l).
  Proof. induction l as [|y l IH]; [reflexivity|]. cbn [concat map]. rewrite app_length, IH. reflexivity. Qed.

  Lemma sum_perm (l l' : list nat) : Permutation l l' -> list_sum l' = list_sum l.
  Proof. unfold list_sum. intros H. induction H; cbn [fold_right]; lia. Qed.

  (** where row [i] of joined blocks goes when block [b] becomes block [sigma b] *)
  Definition rows_to (sigma : nat -> nat) (ns ns' : list nat) (i : nat) : nat := let '(b, r) := locate ns i in place ns' (sigma b) r.
  Lemma reordered_nth {A} sigma (l l' : list A) d i : reordered sigma l l' -> i < length l -> nth (sigma i) l' d = nth i l d.
  Proof. intros [_ H] Hi. specialize (H i Hi). rewrite (nth_error_nth' l d Hi) in H. apply nth_error_nth. exact H. Qed.
  Lemma rows_permute sigma ns ns' : permutes sigma (length ns) -> reordered sigma ns ns' -> permutes (rows_to sigma ns ns') (list_sum ns) .
  Proof.
    intros [HS1 HS2] R. assert (Sum : list_sum ns' = list_sum ns).
    { apply sum_perm. exact (reordered_perm sigma ns ns' (conj HS1 HS2) R). }
    split.
    - intros i Hi. unfold rows_to. destruct (place_locate ns i Hi) as (b & r & -> & _ & Lb & Lr). rewrite <- Sum. apply place_lt; [rewrite (proj1 R); auto|]. rewrite (reordered_nth sigma ns ns' 0 b R Lb). exact Lr.
    - intros i j Hi Hj. unfold rows_to. destruct (place_locate ns i Hi) as (b & r & -> & P1 & Lb & Lr), (place_locate ns j Hj) as (c & q & -> & P2 & Lc & Lq). intros H.
      apply (f_equal (locate ns')) in H. rewrite !locate_place in H by (rewrite (reordered_nth sigma ns ns' 0 _ R) by assumption; assumption). injection H as H1 H2. apply HS2 in H1; auto. congruence.
  Qed.
  Lemma reordered_concat {A} sigma (l l' : list (list A)) : permutes sigma (length l) -> reordered sigma l l' ->
    reordered (rows_to sigma (map (@length A) l) (map (@length A) l')) (concat l) (concat l').
  Proof.
    intros HS R. assert (Rn : reordered sigma (map (@length A) l) (map (@length A) l')).
    { destruct R as [L N]. split; [rewrite !map_length; exact L|]. intros i Hi. rewrite map_length in Hi. rewrite !nth_error_map, (N i Hi). reflexivity. }
    pose proof (rows_permute sigma _ _ ltac:(rewrite map_length; exact HS) Rn) as [P1 P2]. split.
    - rewrite !concat_length. destruct (Nat.eq_dec (list_sum (map (@length A) l)) (list_sum (map (@length A) l'))) as [->|]; [reflexivity|]. exfalso.
      pose proof (reordered_perm sigma _ _ ltac:(rewrite map_length; exact HS) Rn) as Pm.
      apply n. symmetry. apply sum_perm. exact Pm.
    - intros i Hi. rewrite concat_length in Hi. unfold rows_to. destruct (place_locate _ i Hi) as (b & r & -> & Pl & Lb & Lr). rewrite map_length in Lb.
      destruct (nth_error l b) as [x|] eqn:Ex; [|apply nth_error_None in Ex; lia]. assert (Ex' : nth_error l' (sigma b) = Some x) by (rewrite (proj2 R) by exact Lb; exact Ex).
      assert (Hr : r < length x). { rewrite (nth_indep _ 0 (length (@nil A))) in Lr by (rewrite map_length; lia). rewrite map_nth, (nth_error_nth _ _ _ Ex) in Lr. exact Lr. }
      rewrite (nth_place l' (sigma b) r x Ex' Hr), <- Pl, (nth_place l b r x Ex Hr). reflexivity.
  Qed.

  (** the rows of [y] in blocks of sizes [ns] *)
  Fixpoint blocks {A} (ns : list nat) (y : list A) : list (list A) :=
    match ns with [] => [] | n :: ns => firstn n y :: blocks ns (skipn n y) end.
  Lemma blocks_concat {A} ns (y : list A) : length y = list_sum ns -> concat (blocks ns y) = y.
  Proof.
    revert y. induction ns as [|n ns IH]; intros y H; cbn [blocks concat]; [destruct y; [reflexivity|discriminate]|]. change (list_sum (n :: ns)) with (n + list_sum ns) in H.
    rewrite IH by (rewrite skipn_length; lia). apply firstn_skipn.
  Qed.
  Lemma blocks_lengths {A} ns (y : list A) : length y = list_sum ns -> map (@length A) (blocks ns y) = ns.
  Proof.
    revert y. induction ns as [|n ns IH]; intros y H; cbn [blocks map]; [reflexivity|]. change (list_sum (n :: ns)) with (n + list_sum ns) in H. rewrite firstn_length, IH by (rewrite skipn_length; lia). f_equal. lia.
  Qed.
  Lemma all_places {A} (l l' : list A) : length l = length l' -> (forall i, i < length l -> nth_error l i = nth_error l' i) -> l = l'.
  Proof.
    revert l'. induction l as [|a l IH]; intros [|b l'] L H; try discriminate; [reflexivity|]. pose proof (H 0 ltac:(cbn; lia)) as H0. cbn in H0. injection H0 as ->. f_equal.
    apply IH; [cbn in L; lia|]. intros i Hi. apply (H (S i)). cbn. lia.
  Qed.
  Lemma reordered_blocks {A} sigma ns ns' (y y' : list A) : permutes sigma (length ns) -> reordered sigma ns ns' -> length y = list_sum ns -> length y' = list_sum ns' ->
    reordered (rows_to sigma ns ns') y y' -> reordered sigma (blocks ns y) (blocks ns' y').
  Proof.
    intros HS Rn Ly Ly' R. assert (Lb : forall ns (z : list A), length (blocks ns z) = length ns) by (intros m; induction m; intros z; cbn; [reflexivity|rewrite IHm; reflexivity]).
    split; [rewrite !Lb; apply Rn|]. intros b Hb. rewrite Lb in Hb.
    destruct (nth_error (blocks ns y) b) as [x|] eqn:Ex; [|apply nth_error_None in Ex; rewrite Lb in Ex; lia].
    destruct (nth_error (blocks ns' y') (sigma b)) as [x'|] eqn:Ex'; [|apply nth_error_None in Ex'; rewrite Lb, (proj1 Rn) in Ex'; pose proof (proj1 HS b Hb); lia].
    assert (Lx : length x = nth b ns 0).
    { rewrite <- (blocks_lengths ns y Ly) at 1. rewrite (nth_indep _ 0 (length (@nil A))) by (rewrite map_length, Lb; exact Hb). rewrite map_nth, (nth_error_nth _ _ _ Ex). reflexivity. }
    assert (Lx' : length x' = nth b ns 0).
    { rewrite <- (reordered_nth sigma ns ns' 0 b Rn Hb). rewrite <- (blocks_lengths ns' y' Ly') at 1. rewrite (nth_indep _ 0 (length (@nil A))) by (rewrite map_length, Lb, (proj1 Rn); apply HS; exact Hb). rewrite map_nth, (nth_error_nth _ _ _ Ex'). reflexivity. }
    f_equal. apply all_places; [lia|]. intros r Hr.
    pose proof (nth_place _ _ r _ Ex ltac:(lia)) as P1. pose proof (nth_place _ _ r _ Ex' ltac:(lia)) as P2.
    rewrite blocks_concat, blocks_lengths in P1, P2 by assumption. rewrite <- P1, <- P2.
    assert (Hp : place ns b r < length y) by (rewrite Ly; apply place_lt; lia).
    pose proof (proj2 R _ Hp) as Q. unfold rows_to in Q. rewrite locate_place in Q by lia. exact Q.
  Qed.
End Places.
