(** Rows of a layer and rows of its parent layer. *)
From Coq Require Import String List ZArith Bool QArith Qcanon Lia.
From Verif Require Import Res Tensor Num Points Octree NnBasic Spec SpecNeigh SpecNN WF ListFacts SumFacts NnFacts KidsFacts WFFacts SearchFacts NeighFacts PadFacts.
Import ListNotations.
Open Scope Z_scope.

Lemma kid_coords B d p c j : (d < 16)%nat -> vkey B d p -> (j < 8)%nat -> nth_error (kids p) j = Some c ->
  parent_cell (coords (S d) c) = coords d p /\ child_no (coords (S d) c) = Z.of_nat j.
Proof.
  intros Hd Hp Hj Hc. destruct (coords d p) as [[[x y] z] b] eqn:E. destruct (coords_key_of B d p x y z b ltac:(lia) Hp E) as (-> & (Hx & Hy & Hz) & _). unfold in_grid in Hx, Hy, Hz.
  rewrite kids_key_of in Hc by exact Hd.
  assert (G : forall i k l, 0 <= i < 2 -> 0 <= k < 2 -> 0 <= l < 2 ->
    parent_cell (coords (S d) (key_of (S d) b (2 * x + i) (2 * y + k) (2 * z + l))) = (x, y, z, b) /\
    child_no (coords (S d) (key_of (S d) b (2 * x + i) (2 * y + k) (2 * z + l))) = 4 * i + 2 * k + l).
  { intros i k l Hi Hk Hl. rewrite coords_of_key; [|lia|].
    - unfold parent_cell, child_no.
      assert (D : forall a e, 0 <= e < 2 -> (2 * a + e) / 2 = a /\ (2 * a + e) mod 2 = e) by (intros; lia).
      destruct (D x i Hi) as [-> ->]. destruct (D y k Hk) as [-> ->]. destruct (D z l Hl) as [-> ->]. split; reflexivity.
    - unfold in_cube, in_grid. rewrite Nat2Z.inj_succ, Z.pow_succ_r by lia. lia. }
  do 8 (destruct j as [|j]; [cbn [map nth_error] in Hc; assert (E8 : c = _) by (symmetry; injection Hc; intros Q; exact Q); rewrite E8; clear Hc E8; apply G; lia|]). lia.
Qed.

Section Tree.
  Variables (o : octree) (L : nat) (K : nat -> list Z) (M : nat -> list bool).
  Hypothesis T : tree_upto o L K M.
  Notation ps d := (sel K M true d).

  Lemma link_sel d : (S d <= L)%nat -> K (S d) = flat_map kids (ps d).
  Proof. intros H. rewrite (t_link _ _ _ _ T d) by lia. rewrite pick_select. reflexivity. Qed.
  Lemma d16 d : (d <= L)%nat -> (d <= 16)%nat.
  Proof. intros. pose proof (t_depth _ _ _ _ T). pose proof (t_L _ _ _ _ T). lia. Qed.
  Lemma kids_rows d : (S d <= L)%nat -> length (K (S d)) = (8 * length (ps d))%nat.
  Proof. intros H. rewrite link_sel by exact H. apply flat_kids_length. Qed.
  Lemma family d r j p : (S d <= L)%nat -> nth_error (ps d) r = Some p -> (j < 8)%nat ->
    exists c, nth_error (K (S d)) (8 * r + j) = Some c /\ parent_cell (coords (S d) c) = coords d p /\ child_no (coords (S d) c) = Z.of_nat j.
  Proof.
    intros Hd Hp Hj. rewrite link_sel by exact Hd. rewrite (nth_error_flat_map kids 8 (ps d)) with (a := p); [|intros; apply kids_length|exact Hp|exact Hj].
    pose proof (kids_nth p j Hj) as E. eexists. split; [exact E|]. apply (kid_coords (batch_size o) d p); [pose proof (d16 (S d) Hd); lia| |exact Hj|exact E].
    pose proof (sel_vkey o L K M T true d ltac:(lia)) as V. rewrite Forall_forall in V. apply V. eapply nth_error_In. exact Hp.
  Qed.
  Lemma family_inv d i c : (S d <= L)%nat -> nth_error (K (S d)) i = Some c ->
    exists r j p, i = (8 * r + j)%nat /\ (j < 8)%nat /\ nth_error (ps d) r = Some p /\
      parent_cell (coords (S d) c) = coords d p /\ child_no (coords (S d) c) = Z.of_nat j.
  Proof.
    intros Hd Hi. assert (Hlt : (i < 8 * length (ps d))%nat) by (rewrite <- kids_rows by exact Hd; apply nth_error_Some; congruence).
    assert (Hr : (i / 8 < length (ps d))%nat) by (apply Nat.div_lt_upper_bound; lia).
    assert (Hj : (i mod 8 < 8)%nat) by (apply Nat.mod_upper_bound; lia).
    destruct (nth_error (ps d) (i / 8)) as [p|] eqn:Ep; [|apply nth_error_None in Ep; lia].
    destruct (family d (i / 8) (i mod 8) p Hd Ep Hj) as (c' & Ec & E1 & E2).
    rewrite <- Nat.div_mod in Ec by lia. rewrite Hi in Ec. injection Ec as <-.
    exists (i / 8)%nat, (i mod 8)%nat, p. repeat split; try assumption. apply Nat.div_mod. lia.
  Qed.
  Lemma parent_row d r r' p p' : (d <= L)%nat -> nth_error (ps d) r = Some p -> nth_error (ps d) r' = Some p' -> coords d p = coords d p' -> r = r' /\ p = p'.
  Proof.
    intros Hd Hp Hp' E. pose proof (sel_vkey o L K M T true d Hd) as V. rewrite Forall_forall in V.
    assert (p = p') by (apply (coords_inj (batch_size o) d); [apply d16; exact Hd|apply V; eapply nth_error_In; eassumption..|exact E]). subst p'.
    split; [|reflexivity]. apply (sorted_nth_inj (ps d) (sel_sorted o L K M T true d Hd) r r' p); assumption.
  Qed.
  (** the row of a (non-empty) node among all nodes of the layer *)
  Lemma sel_full ne d j k : (d <= L)%nat -> nth_error (sel K M ne d) j = Some k ->
    exists i, nth_error (K d) i = Some k /\ (ne = false -> i = j) /\ (ne = true -> nth_error (M d) i = Some true /\ j = count_true (firstn i (M d))).
  Proof.
    intros Hd Hj. destruct ne; [|exists j; cbn [sel] in Hj; repeat split; auto; discriminate]. cbn [sel] in Hj.
    assert (Hin : In k (select (M d) (K d))) by (eapply nth_error_In; exact Hj). apply in_select in Hin. destruct Hin as (i & Hm & Hk).
    exists i. split; [exact Hk|]. split; [discriminate|]. intros _. split; [exact Hm|].
    pose proof (nth_select_pos (M d) (K d) i (t_mask _ _ _ _ T d Hd) Hm) as E. rewrite Hk in E.
    apply (sorted_nth_inj _ (sel_sorted o L K M T true d Hd) j (count_true (firstn i (M d))) k); [exact Hj|exact E].
  Qed.
End Tree.
