(** Consequences of well-formedness, and well-formedness of built octrees. *)
From Coq Require Import List ZArith Bool Lia Sorting.Sorted QArith Qcanon.
From Verif Require Import Res Tensor Key Num Points Octree Spec SpecGeo WF KeyFacts ListFacts KidsFacts
  NumFacts ScatterFacts BuildFacts BuildClosed.
Import ListNotations.
Open Scope Z_scope.

Lemma nflag_count m : nflag m = Z.of_nat (count_true m).
Proof. reflexivity. Qed.

Lemma Forall_select {A} (P : A -> Prop) m (l : list A) : Forall P l -> Forall P (select m l).
Proof.
  intros H. rewrite Forall_forall in *. intros a Ha. apply in_select in Ha.
  destruct Ha as (p & _ & Hp). apply H. eapply nth_error_In; exact Hp.
Qed.

Section Tree.
  Variables (o : octree) (L : nat) (K : nat -> list Z) (M : nat -> list bool).
  Hypothesis T : tree_upto o L K M.
  Let B := batch_size o.

  Lemma tree_keys d : (d <= L)%nat -> sorted (K d) /\ Forall (vkey B d) (K d).
  Proof.
    pose proof (t_depth _ _ _ _ T). pose proof (t_L _ _ _ _ T).
    induction d as [|d IH]; intros Hd.
    - rewrite (t_grid _ _ _ _ T) by lia. split; [apply full_grid_sorted; lia|].
      apply Forall_forall. intros k Hk. apply in_full_grid. exact Hk.
    - rewrite (t_link _ _ _ _ T) by lia. rewrite pick_select.
      destruct IH as [Hs Hv]; [lia|].
      assert (Hv' : Forall (vkey B d) (select (M d) (K d))) by (apply Forall_select; exact Hv).
      split; [apply (flat_kids_sorted B d); [lia|apply sorted_select; exact Hs|exact Hv']|].
      apply flat_kids_vkey; [lia|exact Hv'].
  Qed.

  Lemma tree_sorted d : (d <= L)%nat -> sorted (K d).
  Proof. intros H; apply tree_keys; exact H. Qed.
  Lemma tree_vkey d k : (d <= L)%nat -> In k (K d) -> vkey B d k.
  Proof. intros H Hk. destruct (tree_keys d H) as [_ Hf]. rewrite Forall_forall in Hf. apply Hf; exact Hk. Qed.

  (** layers above full_depth are completely non-empty *)
  Lemma tree_full_mask d : (d < full_depth o)%nat -> (d < L)%nat -> M d = repeat true (length (K d)).
  Proof.
    intros Hf HL.
    pose proof (t_link _ _ _ _ T d HL) as E. rewrite pick_select in E.
    apply (f_equal (@length Z)) in E. rewrite flat_kids_length in E.
    rewrite (t_grid _ _ _ _ T (S d)) in E by lia. rewrite full_grid_length in E.
    pose proof (t_mask _ _ _ _ T d ltac:(lia)) as Hm.
    rewrite select_length in E by exact Hm.
    assert (Hc : count_true (M d) = length (M d)).
    { rewrite Hm, (t_grid _ _ _ _ T d), full_grid_length by lia. cbn [Nat.pow] in E. lia. }
    rewrite <- Hm. clear - Hc. induction (M d) as [|b m IH]; [reflexivity|].
    rewrite count_true_cons in Hc. cbn [length] in *.
    assert (count_true m <= length m)%nat.
    { clear. induction m as [|b m IH]; [cbn; lia|]. rewrite count_true_cons. cbn [length]. destruct b; lia. }
    destruct b; [|lia]. cbn [repeat]. rewrite IH at 1 by lia. reflexivity.
  Qed.

  Lemma tree_get d : (d <= L)%nat -> exists l, get_layer o (Z.of_nat d) = Ok l /\ nth_error (layers o) d = Some l /\
    keys l = Some (K d) /\ children l = Some (number_from 0 (M d)) /\
    nnum l = Z.of_nat (length (K d)) /\ nnum_nempty l = nflag (M d).
  Proof.
    intros H. destruct (t_layer _ _ _ _ T d H) as (l & E & R). exists l.
    split; [apply get_layer_Ok; exact E|]. split; [exact E|exact R].
  Qed.

  Lemma tree_mask d : (d <= L)%nat -> nempty_mask o (Z.of_nat d) = Ok (M d).
  Proof.
    intros H. destruct (tree_get d H) as (l & E & _ & _ & Ec & _). unfold nempty_mask.
    rewrite E. cbn [bind]. rewrite Ec. cbn [need bind]. f_equal. apply number_from_mask. lia.
  Qed.

  Definition sel (ne : bool) (d : nat) : list Z := if ne then select (M d) (K d) else K d.

  Lemma tree_key d ne : (d <= L)%nat -> octree_key o (Z.of_nat d) ne = Ok (sel ne d).
  Proof.
    intros H. destruct (tree_get d H) as (l & E & _ & Ek & _). unfold octree_key.
    rewrite E. cbn [bind]. rewrite Ek. cbn [need bind].
    destruct ne; [|reflexivity]. rewrite tree_mask by exact H. cbn [bind].
    apply mask_get_Ok. apply (t_mask _ _ _ _ T); exact H.
  Qed.

  Lemma sel_sorted ne d : (d <= L)%nat -> sorted (sel ne d).
  Proof. intros H. destruct ne; cbn; [apply sorted_select|]; apply tree_sorted; exact H. Qed.
  Lemma sel_vkey ne d : (d <= L)%nat -> Forall (vkey B d) (sel ne d).
  Proof. intros H. destruct ne; cbn; [apply Forall_select|]; apply tree_keys; exact H. Qed.

  Lemma tree_child_in d k : (d < L)%nat ->
    (In k (K (S d)) <-> vkey B (S d) k /\ In (parent k) (select (M d) (K d))).
  Proof.
    intros H. rewrite (t_link _ _ _ _ T) by exact H. rewrite pick_select.
    pose proof (t_depth _ _ _ _ T). pose proof (t_L _ _ _ _ T).
    apply in_flat_kids; [lia|]. apply Forall_select. apply tree_keys. lia.
  Qed.

  Lemma tree_nempty_len d : (d <= L)%nat -> length (select (M d) (K d)) = count_true (M d).
  Proof. intros H. apply select_length. apply (t_mask _ _ _ _ T); exact H. Qed.

  Lemma tree_len_S d : (d < L)%nat -> length (K (S d)) = (8 * count_true (M d))%nat.
  Proof.
    intros H. rewrite (t_link _ _ _ _ T) by exact H. rewrite pick_select, flat_kids_length, tree_nempty_len by lia.
    reflexivity.
  Qed.
End Tree.

Lemma tree_upto_le o L L' K M : (L' <= L)%nat -> tree_upto o L K M -> tree_upto o L' K M.
Proof.
  intros H T. destruct T. constructor; try assumption; try lia; intros; auto.
  - apply t_layer; lia.
  - apply t_mask; lia.
  - apply t_grid; lia.
  - apply t_link; lia.
Qed.

(** ** built octrees *)
Section Built.
  Variables (normalize : v3 Qc -> v3 Qc) (o : octree) (pc : pcloud Qc).
  Let B := batch_size o. Let full := full_depth o. Let dep := depth o.
  Hypothesis Hf : (full <= dep)%nat.
  Hypothesis H16 : (dep <= 16)%nat.
  Hypothesis HB : Z.of_nat B <= 32768.
  Hypothesis Hlen : length (layers o) = S dep.
  Hypothesis G : good_cloud B pc.

  Definition bK (d : nat) : list Z :=
    if Nat.leb d full then full_grid B d else flat_map kids (NE dep pc (d - 1)).
  Definition bM (d : nat) : list bool :=
    if Nat.ltb d full then map (fun _ => true) (bK d) else map (fun k => memb k (NE dep pc d)) (bK d).

  Lemma bK_ok d : (d <= dep)%nat -> sorted (bK d) /\ Forall (vkey B d) (bK d).
  Proof.
    intros Hd. unfold bK. destruct (Nat.leb_spec d full) as [Hle|Hgt].
    - split; [apply full_grid_sorted; lia|]. apply Forall_forall. intros k; apply in_full_grid.
    - destruct d as [|d]; [lia|]. replace (S d - 1)%nat with d by lia.
      destruct (NE_ok B dep pc d G H16 ltac:(lia)) as [Hs Hv].
      split; [apply (flat_kids_sorted B d); [lia|assumption..]|apply flat_kids_vkey; [lia|assumption]].
  Qed.

  Lemma NE_in_bK d k : (d <= dep)%nat -> In k (NE dep pc d) -> In k (bK d).
  Proof.
    intros Hd Hk. destruct (NE_ok B dep pc d G H16 Hd) as [_ Hv].
    unfold bK. destruct (Nat.leb_spec d full) as [Hle|Hgt].
    - apply in_full_grid. rewrite Forall_forall in Hv. apply Hv; exact Hk.
    - destruct d as [|d]; [lia|]. replace (S d - 1)%nat with d by lia. rewrite NE_parent by lia.
      apply (in_kids_parents B d); [lia|exact Hv|exact Hk].
  Qed.

  Lemma bM_select d : (full <= d <= dep)%nat -> select (bM d) (bK d) = NE dep pc d.
  Proof.
    intros Hd. unfold bM. replace (Nat.ltb d full) with false by (symmetry; apply Nat.ltb_ge; lia).
    destruct (bK_ok d ltac:(lia)) as [Hs _]. destruct (NE_ok B dep pc d G H16 ltac:(lia)) as [Hn _].
    apply sorted_unique; [apply sorted_select; exact Hs|exact Hn|].
    intros k. rewrite in_select_map, memb_In. split; [tauto|]. intros Hk. split; [|exact Hk].
    apply NE_in_bK; [lia|exact Hk].
  Qed.

  Lemma bM_length d : length (bM d) = length (bK d).
  Proof. unfold bM. destruct (Nat.ltb d full); apply map_length. Qed.

  Lemma bM_full d : (d < full)%nat -> bM d = map (fun _ => true) (bK d).
  Proof. intros H. unfold bM. replace (Nat.ltb d full) with true by (symmetry; apply Nat.ltb_lt; exact H). reflexivity. Qed.

  Lemma b_link d : (d < dep)%nat -> bK (S d) = flat_map kids (pick (bM d) (bK d)).
  Proof.
    intros Hd. rewrite pick_select. destruct (Nat.ltb_spec d full) as [Hlt|Hge].
    - rewrite bM_full by exact Hlt. rewrite select_all_true.
      + unfold bK. replace (Nat.leb (S d) full) with true by (symmetry; apply Nat.leb_le; lia).
        replace (Nat.leb d full) with true by (symmetry; apply Nat.leb_le; lia).
        symmetry. apply full_grid_kids. lia.
      + apply map_length.
      + intros b Hb. apply in_map_iff in Hb. destruct Hb as (? & <- & _). reflexivity.
    - rewrite bM_select by lia. unfold bK. replace (Nat.leb (S d) full) with false by (symmetry; apply Nat.leb_gt; lia).
      replace (S d - 1)%nat with d by lia. reflexivity.
  Qed.

  Lemma count_all_true m : (forall b, In b m -> b = true) -> count_true m = length m.
  Proof.
    induction m as [|b m IH]; intros H; [reflexivity|]. rewrite count_true_cons.
    rewrite (H b (or_introl eq_refl)). cbn [length]. rewrite IH; [lia|]. intros; apply H; right; assumption.
  Qed.

  Lemma tree_layer_ok d l : (d <= dep)%nat ->
    let l' := tree_layer B full dep pc d l in
    keys l' = Some (bK d) /\ children l' = Some (number_from 0 (bM d)) /\
    nnum l' = Z.of_nat (length (bK d)) /\ nnum_nempty l' = nflag (bM d).
  Proof.
    intros Hd. cbv zeta. unfold tree_layer.
    destruct (Nat.ltb_spec d full) as [Hlt|Hge].
    - assert (EK : bK d = full_grid B d).
      { unfold bK. replace (Nat.leb d full) with true by (symmetry; apply Nat.leb_le; lia). reflexivity. }
      assert (HT : forall b, In b (map (fun _ : Z => true) (full_grid B d)) -> b = true).
      { intros b Hb. apply in_map_iff in Hb. destruct Hb as (? & <- & _). reflexivity. }
      unfold full_layer. rewrite bM_full, EK by exact Hlt.
      cbn [keys children nnum nnum_nempty set_keys set_children set_nnum set_nnum_nempty].
      rewrite nflag_count, count_all_true, map_length, full_grid_length by exact HT.
      rewrite number_from_all_true by exact HT.
      rewrite map_length, full_grid_length. repeat split; try lia.
      f_equal. rewrite <- (map_id (arange _)) at 1. apply map_ext. intros; lia.
    - assert (Ecnt : nflag (bM d) = zlen (NE dep pc d)).
      { rewrite nflag_count. rewrite <- (select_length (bM d) (bK d)) by apply bM_length.
        rewrite bM_select by lia. reflexivity. }
      destruct (Nat.eqb_spec d full) as [->|Hne].
      + assert (EK : bK full = full_grid B full).
        { unfold bK. rewrite Nat.leb_refl. reflexivity. }
        unfold full_children_layer, full_layer. rewrite Ecnt.
        unfold bM. rewrite Nat.ltb_irrefl, EK.
        cbn [keys children nnum nnum_nempty set_keys set_children set_nnum set_nnum_nempty].
        rewrite full_grid_length. repeat split; lia.
      + unfold sparse_layer. rewrite Ecnt.
        assert (EK : bK d = flat_map kids (parents (NE dep pc d))).
        { unfold bK. replace (Nat.leb d full) with false by (symmetry; apply Nat.leb_gt; lia).
          destruct d as [|d]; [lia|]. rewrite <- NE_parent by lia. replace (S d - 1)%nat with d by lia. reflexivity. }
        unfold bM. replace (Nat.ltb d full) with false by (symmetry; apply Nat.ltb_ge; lia). rewrite EK.
        cbn [keys children nnum nnum_nempty set_keys set_children set_nnum set_nnum_nempty].
        repeat split; reflexivity.
  Qed.

  Lemma signal_layer_tree l :
    keys (signal_layer normalize dep pc l) = keys l /\ children (signal_layer normalize dep pc l) = children l /\
    nnum (signal_layer normalize dep pc l) = nnum l /\ nnum_nempty (signal_layer normalize dep pc l) = nnum_nempty l /\
    neighs (signal_layer normalize dep pc l) = neighs l.
  Proof. unfold signal_layer. destruct (p_normals pc), (p_features pc); cbn; auto. Qed.

  Lemma built_tree : exists o', 
    build_octree normalize o pc = Ok (o', inverse_of (cloud_keys dep pc)) /\
    depth o' = dep /\ full_depth o' = full /\ batch_size o' = B /\ device o' = p_device pc /\
    tree_upto o' dep bK bM /\
    (forall d l, nth_error (layers o) d = Some l -> nth_error (layers o') d = Some (built_layer normalize B full dep pc d l)).
  Proof.
    destruct (build_closed normalize o pc Hf H16 HB Hlen G) as (ls & E & Hl & Hn).
    eexists. split; [exact E|]. cbn [depth full_depth batch_size layers device].
    do 4 (split; [reflexivity|]).
    split.
    - constructor; cbn [depth full_depth batch_size layers]; try assumption; try (fold dep full B; lia).
      + intros d Hd. destruct (nth_error (layers o) d) as [l|] eqn:El.
        2:{ apply nth_error_None in El. fold dep in Hlen. lia. }
        exists (built_layer normalize B full dep pc d l). split; [rewrite Hn, El; reflexivity|].
        pose proof (tree_layer_ok d l Hd) as HT. cbv zeta in HT.
        unfold built_layer. destruct (Nat.eqb d dep); [|exact HT].
        destruct (signal_layer_tree (tree_layer B full dep pc d l)) as (-> & -> & -> & -> & _). exact HT.
      + intros d _. apply bM_length.
      + intros d _ Hd. unfold bK. fold full. replace (Nat.leb d full) with true by (symmetry; apply Nat.leb_le; exact Hd). reflexivity.
      + intros d Hd. apply b_link. exact Hd.
    - intros d l El. rewrite Hn, El. reflexivity.
  Qed.
End Built.
