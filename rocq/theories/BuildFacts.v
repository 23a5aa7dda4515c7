(** build_octree computes the tree of occupied cells. *)
From Coq Require Import List ZArith Bool Lia Sorting.Sorted QArith Qcanon.
From Verif Require Import Res Tensor Key Num Points Octree Spec WF KeyFacts ListFacts KidsFacts.
Import ListNotations.
Open Scope Z_scope.

Ltac Zify.zify_post_hook ::= Z.div_mod_to_equations.

(** ** layer updates *)

Lemma upd_layer_Ok o d f l : nth_error (layers o) d = Some l ->
  upd_layer o d f = Ok (with_layers o (set_nth (layers o) d (f l))).
Proof. intros H. unfold upd_layer. rewrite H. reflexivity. Qed.

Lemma get_layer_Ok o d l : nth_error (layers o) d = Some l -> get_layer o (Z.of_nat d) = Ok l.
Proof. apply tget_Ok. Qed.

Lemma get_layer_pred o d l : nth_error (layers o) d = Some l -> get_layer o (Z.of_nat (S d) - 1) = Ok l.
Proof. intros H. replace (Z.of_nat (S d) - 1) with (Z.of_nat d) by lia. apply tget_Ok; exact H. Qed.

Lemma nth_layers_set o d f l i : nth_error (layers o) d = Some l ->
  nth_error (layers (with_layers o (set_nth (layers o) d (f l)))) i
  = if Nat.eqb i d then Some (f l) else nth_error (layers o) i.
Proof.
  intros H. cbn. apply nth_error_set_nth. apply nth_error_Some. rewrite H; discriminate.
Qed.

(** ** full layers *)

Lemma lor_low k b : 0 <= k < 2 ^ 48 -> 0 <= b < 2 ^ 15 -> Z.lor k (shl64 b 48) = b * 2 ^ 48 + k.
Proof.
  intros Hk Hb. rewrite shl64_exact by lia. rewrite Z.lor_comm. apply lor_shift_add; exact Hk.
Qed.

Lemma flat_map_map {A B C} (f : A -> B) (g : B -> list C) l : flat_map g (map f l) = flat_map (fun a => g (f a)) l.
Proof. induction l; cbn; [reflexivity|]. now f_equal. Qed.

Lemma flat_map_ext_in {A B} (f g : A -> list B) l : (forall a, In a l -> f a = g a) -> flat_map f l = flat_map g l.
Proof.
  induction l as [|a l IH]; intros H; cbn; [reflexivity|].
  rewrite (H a (or_introl eq_refl)), IH; [reflexivity|]. intros; apply H; right; assumption.
Qed.

Lemma full_keys_eq B d : (d <= 16)%nat -> Z.of_nat B <= 32768 ->
  flat_map (fun b => map (fun k => Z.lor k (shl64 b 48)) (arange (8 ^ d))) (arange B) = full_grid B d.
Proof.
  intros Hd HB. unfold full_grid, arange. rewrite flat_map_map.
  apply flat_map_ext_in. intros b Hb. rewrite map_map. apply map_ext_in. intros m Hm.
  apply in_seq in Hb, Hm. pose proof (pow8_lt48 d Hd) as H. rewrite <- pow8_nat in H.
  apply lor_low; lia.
Qed.

(** the layer written by octree_grow_full *)
Definition full_layer (B d : nat) (l : layer) : layer :=
  set_children (set_keys (set_nnum_nempty (set_nnum l (Z.of_nat (8 ^ d) * Z.of_nat B))
    (Z.of_nat (8 ^ d) * Z.of_nat B)) (full_grid B d)) (arange (8 ^ d * B)).

Lemma grow_full_Ok o d l : (d <= full_depth o)%nat -> (d <= 16)%nat -> Z.of_nat (batch_size o) <= 32768 ->
  nth_error (layers o) d = Some l ->
  octree_grow_full o d false = Ok (with_layers o (set_nth (layers o) d (full_layer (batch_size o) d l))).
Proof.
  intros Hf Hd HB Hl. unfold octree_grow_full.
  replace (Nat.leb d (full_depth o)) with true by (symmetry; apply Nat.leb_le; exact Hf).
  cbn [assert_ bind]. rewrite (upd_layer_Ok _ _ _ _ Hl). cbn [bind].
  rewrite full_keys_eq by assumption. reflexivity.
Qed.

Lemma grow_full_loop o n : (n <= full_depth o + 1)%nat -> (n <= List.length (layers o))%nat -> (n <= 17)%nat ->
  Z.of_nat (batch_size o) <= 32768 ->
  exists ls, foldM (fun o d => octree_grow_full o d false) o (seq 0 n) = Ok (with_layers o ls) /\
    List.length ls = List.length (layers o) /\
    forall i, nth_error ls i = match nth_error (layers o) i with
                               | Some l => Some (if Nat.ltb i n then full_layer (batch_size o) i l else l)
                               | None => None end.
Proof.
  induction n as [|n IH]; intros Hn Hlen H17 HB.
  - exists (layers o). destruct o as [dd ff bb vv ls]. split; [reflexivity|]. split; [reflexivity|].
    intros i. cbn [layers]. destruct (nth_error ls i); reflexivity.
  - destruct IH as (ls & E & Hl & Hnth); try lia.
    rewrite seq_S, foldM_app, E. cbn [bind foldM Nat.add].
    destruct (nth_error (layers o) n) as [l|] eqn:El.
    2:{ apply nth_error_None in El. lia. }
    assert (Eln : nth_error ls n = Some l).
    { rewrite Hnth, El. replace (Nat.ltb n n) with false by (symmetry; apply Nat.ltb_ge; lia). reflexivity. }
    rewrite (grow_full_Ok (with_layers o ls) n l) by (cbn; lia || exact HB || exact Eln).
    cbn [bind]. exists (set_nth ls n (full_layer (batch_size o) n l)).
    split; [reflexivity|]. split; [rewrite set_nth_length; exact Hl|].
    intros i. rewrite nth_error_set_nth by lia. rewrite Hnth.
    destruct (Nat.eqb_spec i n) as [->|Hne].
    + rewrite El. replace (Nat.ltb n (S n)) with true by (symmetry; apply Nat.ltb_lt; lia). reflexivity.
    + destruct (nth_error (layers o) i); [|reflexivity].
      replace (Nat.ltb i (S n)) with (Nat.ltb i n); [reflexivity|].
      apply Bool.eq_true_iff_eq. rewrite !Nat.ltb_lt. lia.
Qed.

(** ** one sparse layer *)

Definition unshift (p : Z) : Z := (p / 2 ^ 45) * 2 ^ 48 + p mod 2 ^ 45.

Lemma shiftr3 k : Z.shiftr k 3 = k / 8.
Proof. rewrite Z.shiftr_div_pow2 by lia. reflexivity. Qed.

Lemma unshift_shift B d k : (d < 16)%nat -> vkey B (S d) k -> unshift (k / 8) = parent k.
Proof.
  intros Hd (b & m & Hb & Hm & ->). rewrite pow8_S in Hm. pose proof (pow8_lt45 d Hd).
  rewrite parent_bm by lia. unfold unshift. lia.
Qed.

Lemma unshift_code p b m : 0 <= b < 2 ^ 15 -> 0 <= m < 2 ^ 45 -> p = b * 2 ^ 45 + m ->
  Z.lor (shl64 (Z.shiftr p 45) 48) (Z.land p (Z.shiftl 1 45 - 1)) = unshift p.
Proof.
  intros Hb Hm ->. rewrite land_mask_mod, Z.shiftr_div_pow2 by lia.
  unfold unshift. replace ((b * 2 ^ 45 + m) / 2 ^ 45) with b by lia.
  replace ((b * 2 ^ 45 + m) mod 2 ^ 45) with m by lia.
  rewrite shl64_exact by lia. apply lor_shift_add. lia.
Qed.

Lemma shl3_code B d k : (d < 16)%nat -> Z.of_nat B <= 32768 -> vkey B (S d) k -> shl64 (k / 8) 3 = (k / 8) * 8.
Proof.
  intros Hd HB (b & m & Hb & Hm & ->). rewrite pow8_S in Hm. pose proof (pow8_lt45 d Hd).
  rewrite shl64_exact by lia. reflexivity.
Qed.

Lemma octet_kids B d k : (d < 16)%nat -> Z.of_nat B <= 32768 -> vkey B (S d) k ->
  map (fun j => shl64 (k / 8) 3 + j) (arange 8) = kids (parent k).
Proof.
  intros Hd HB Hk. rewrite (shl3_code B d) by assumption.
  destruct Hk as (b & m & Hb & Hm & ->). rewrite pow8_S in Hm. pose proof (pow8_lt45 d Hd).
  rewrite parent_bm by lia. rewrite kids_bm by lia. apply map_ext. intros j. lia.
Qed.

Lemma nondec_shift B d ne : (d < 16)%nat -> sorted ne -> Forall (vkey B (S d)) ne ->
  nondec (map (fun k => Z.shiftr k 3) ne).
Proof.
  intros Hd Hs _. induction Hs as [|a l Hs IH Ha]; cbn [map]; constructor; [exact IH|].
  apply Forall_forall. intros x Hx. apply in_map_iff in Hx. destruct Hx as (k & <- & Hk).
  rewrite Forall_forall in Ha. specialize (Ha _ Hk). rewrite !shiftr3. lia.
Qed.

Section Step.
  Variables (B d : nat) (ne : list Z).
  Hypothesis Hd : (d < 16)%nat.
  Hypothesis HB : Z.of_nat B <= 32768.
  Hypothesis Hs : sorted ne.
  Hypothesis Hv : Forall (vkey B (S d)) ne.

  Let U := uniq_consec (map (fun k => Z.shiftr k 3) ne).

  Lemma U_sorted : sorted U.
  Proof. apply uniq_consec_sorted. apply (nondec_shift B d); assumption. Qed.

  Lemma in_U p : In p U <-> exists k, In k ne /\ k / 8 = p.
  Proof.
    unfold U. rewrite uniq_consec_In, in_map_iff. split.
    - intros (k & E & H). exists k. rewrite <- shiftr3. auto.
    - intros (k & H & E). exists k. rewrite shiftr3. auto.
  Qed.

  Lemma ne_v k : In k ne -> vkey B (S d) k.
  Proof. rewrite Forall_forall in Hv. apply Hv. Qed.

  Lemma unshift_U : map unshift U = parents ne.
  Proof.
    apply sorted_unique.
    - apply sorted_map; [exact U_sorted|]. intros a b Ha Hb Hlt.
      apply in_U in Ha, Hb. destruct Ha as (k & Hk & <-), Hb as (k' & Hk' & <-).
      apply ne_v in Hk, Hk'. pose proof (pow8_lt45 d Hd).
      destruct Hk as (b & m & Hb & Hm & ->), Hk' as (b' & m' & Hb' & Hm' & ->).
      rewrite pow8_S in Hm, Hm'. unfold unshift.
      replace ((b * 2 ^ 48 + m) / 8) with (b * 2 ^ 45 + m / 8) in * by lia.
      replace ((b' * 2 ^ 48 + m') / 8) with (b' * 2 ^ 45 + m' / 8) in * by lia.
      assert (0 <= m / 8 < 2 ^ 45) by lia. assert (0 <= m' / 8 < 2 ^ 45) by lia.
      set (p := m / 8) in *. set (p' := m' / 8) in *. clearbody p p'.
      replace ((b * 2 ^ 45 + p) / 2 ^ 45) with b by lia.
      replace ((b' * 2 ^ 45 + p') / 2 ^ 45) with b' by lia.
      replace ((b * 2 ^ 45 + p) mod 2 ^ 45) with p by lia.
      replace ((b' * 2 ^ 45 + p') mod 2 ^ 45) with p' by lia. lia.
    - apply parents_sorted.
    - intros p. rewrite in_map_iff, in_parents. split.
      + intros (u & <- & Hu). apply in_U in Hu. destruct Hu as (k & Hk & <-).
        exists k. split; [exact Hk|]. symmetry. apply (unshift_shift B d); [exact Hd|apply ne_v; exact Hk].
      + intros (k & Hk & <-). exists (k / 8).
        split; [apply (unshift_shift B d); [exact Hd|apply ne_v; exact Hk]|]. apply in_U. exists k; auto.
  Qed.

  Lemma next_node_key_batch :
    map (fun p => Z.lor (shl64 (Z.shiftr p 45) 48) (Z.land p (Z.shiftl 1 45 - 1))) U = parents ne.
  Proof.
    rewrite <- unshift_U. apply map_ext_in. intros p Hp. apply in_U in Hp.
    destruct Hp as (k & Hk & <-). apply ne_v in Hk. pose proof (pow8_lt45 d Hd).
    destruct Hk as (b & m & Hb & Hm & ->). rewrite pow8_S in Hm.
    apply (unshift_code _ b (m / 8)); lia.
  Qed.

  Lemma next_node_key_single : B = 1%nat -> U = parents ne.
  Proof.
    intros H1. rewrite <- unshift_U. rewrite <- (map_id U) at 1. apply map_ext_in. intros p Hp.
    apply in_U in Hp. destruct Hp as (k & Hk & <-). apply ne_v in Hk. pose proof (pow8_lt45 d Hd).
    destruct Hk as (b & m & Hb & Hm & ->). rewrite pow8_S in Hm. unfold unshift. lia.
  Qed.

  Lemma step_keys : flat_map (fun p => map (fun j => shl64 p 3 + j) (arange 8)) U = flat_map kids (parents ne).
  Proof.
    rewrite <- unshift_U, flat_map_map. apply flat_map_ext_in. intros p Hp.
    apply in_U in Hp. destruct Hp as (k & Hk & <-).
    rewrite (unshift_shift B d) by (exact Hd || apply ne_v; exact Hk).
    apply (octet_kids B d); [exact Hd|exact HB|apply ne_v; exact Hk].
  Qed.

  Lemma zip_with_nth {A C D} (f : A -> C -> D) l m i a c :
    nth_error l i = Some a -> nth_error m i = Some c -> nth_error (zip_with f l m) i = Some (f a c).
  Proof.
    unfold zip_with. revert m i; induction l as [|x l IH]; intros m i Ha Hc; [destruct i; discriminate|].
    destruct m as [|y m]; [destruct i; discriminate|]. destruct i as [|i]; cbn in *.
    - congruence.
    - apply IH; assumption.
  Qed.

  Lemma zip_with_length {A C D} (f : A -> C -> D) l m : List.length l = List.length m -> List.length (zip_with f l m) = List.length m.
  Proof. intros H. unfold zip_with. rewrite map_length, combine_length, H. apply Nat.min_id. Qed.

  Lemma step_addr :
    let addr := zip_with (fun p k => Z.lor (shl64 p 3) (k mod 8))
                  (consec_inv 0 (map (fun k => Z.shiftr k 3) ne)) ne in
    List.length addr = List.length ne /\
    forall i k a, nth_error ne i = Some k -> nth_error addr i = Some a ->
      0 <= a /\ nth_error (flat_map kids (parents ne)) (Z.to_nat a) = Some k.
  Proof.
    cbv zeta. split.
    - apply zip_with_length. rewrite consec_inv_length, map_length. reflexivity.
    - intros i k a Hi Ha.
      assert (Hi' : (i < List.length ne)%nat) by (apply nth_error_Some; rewrite Hi; discriminate).
      destruct (nth_error (consec_inv 0 (map (fun k => Z.shiftr k 3) ne)) i) as [p|] eqn:Ep.
      2:{ apply nth_error_None in Ep. rewrite consec_inv_length, map_length in Ep. lia. }
      rewrite (zip_with_nth _ _ _ _ _ _ Ep Hi) in Ha. injection Ha as <-.
      assert (Hi3 : nth_error (map (fun k => Z.shiftr k 3) ne) i = Some (k / 8)).
      { rewrite nth_error_map, Hi. cbn [option_map]. rewrite shiftr3. reflexivity. }
      destruct (consec_inv_spec _ 0 i _ _ (Z.le_refl 0) Hi3 Ep) as [Hp0 HpU].
      rewrite Z.sub_0_r in HpU. fold U in HpU.
      assert (Hplt : (Z.to_nat p < List.length U)%nat) by (apply nth_error_Some; rewrite HpU; discriminate).
      (* the number of parents is far below 2^60: they are distinct keys below 2^60 *)
      assert (Hplt2 : p < 2 ^ 60).
      { assert (HUle : forall l lo, sorted l -> (forall x, In x l -> lo <= x < 2 ^ 60) -> lo <= 2 ^ 60 ->
                        Z.of_nat (List.length l) <= 2 ^ 60 - lo).
        { clear. intros l lo H; revert lo; induction H as [|a l Hs IH Ha]; intros lo Hr Hlo; cbn [List.length]; [lia|].
          pose proof (Hr a (or_introl eq_refl)). rewrite Forall_forall in Ha.
          specialize (IH (a + 1)). rewrite Nat2Z.inj_succ.
          assert (Z.of_nat (List.length l) <= 2 ^ 60 - (a + 1)); [|lia].
          apply IH; [|lia]. intros x Hx. specialize (Ha _ Hx). specialize (Hr x (or_intror Hx)). lia. }
        assert (Z.of_nat (List.length U) <= 2 ^ 60 - 0); [|lia].
        apply HUle; [exact U_sorted| |lia].
        intros x Hx. apply in_U in Hx. destruct Hx as (k' & Hk' & <-). apply ne_v in Hk'.
        pose proof (pow8_lt45 d Hd).
        destruct Hk' as (b & m & Hb & Hm & ->). rewrite pow8_S in Hm. lia. }
      assert (Ek : Z.lor (shl64 p 3) (k mod 8) = 8 * p + k mod 8).
      { rewrite shl64_exact by lia.
        apply Z.bits_inj'; intros j Hj. rewrite Z.lor_spec. pose proof (Z.mod_pos_bound k 8 ltac:(lia)) as H8.
        destruct (Z.ltb_spec j 3) as [Hlt|Hge].
        - rewrite testbit_lo by lia. rewrite Z.mul_pow2_bits_low by lia. reflexivity.
        - rewrite testbit_hi by lia. rewrite Z.mul_pow2_bits by lia.
          rewrite (testbit_above (k mod 8) 3 j) by lia. apply orb_false_r. }
      rewrite Ek. split; [lia|].
      assert (Hpar : nth_error (parents ne) (Z.to_nat p) = Some (parent k)).
      { rewrite <- unshift_U, nth_error_map, HpU. cbn [option_map]. f_equal.
        apply (unshift_shift B d); [exact Hd|]. apply ne_v. eapply nth_error_In; exact Hi. }
      replace (Z.to_nat (8 * p + k mod 8)) with (8 * Z.to_nat p + Z.to_nat (k mod 8))%nat by lia.
      rewrite (nth_error_flat_map kids 8 _) with (a := parent k); [|reflexivity|exact Hpar|lia].
      rewrite kids_nth by lia. f_equal.
      assert (Hk : vkey B (S d) k) by (apply ne_v; eapply nth_error_In; exact Hi).
      destruct Hk as (b & m & Hb & Hm & ->). rewrite pow8_S in Hm. pose proof (pow8_lt45 d Hd).
      rewrite parent_bm by lia. rewrite Z2Nat.id by lia.
      replace ((b * 2 ^ 48 + m / 8) / 2 ^ 48) with b by lia.
      replace ((b * 2 ^ 48 + m / 8) mod 2 ^ 48) with (m / 8) by lia. lia.
  Qed.
End Step.

(** the layer written by one iteration of the sparse loop *)
Definition sparse_layer (ne : list Z) (l : layer) : layer :=
  let ks := flat_map kids (parents ne) in
  set_children (set_nnum_nempty (set_nnum (set_keys l ks) (zlen ks)) (zlen ne))
               (number_from 0 (map (fun k => memb k ne) ks)).

Lemma build_step_Ok o ne d l : (d < 16)%nat -> Z.of_nat (batch_size o) <= 32768 ->
  sorted ne -> Forall (vkey (batch_size o) (S d)) ne -> nth_error (layers o) (S d) = Some l ->
  build_step (o, ne) (S d)
  = Ok (with_layers o (set_nth (layers o) (S d) (sparse_layer ne l)), parents ne) /\
  select (map (fun k => memb k ne) (flat_map kids (parents ne))) (flat_map kids (parents ne)) = ne.
Proof.
  intros Hd HB Hs Hv Hl.
  destruct (put_children (flat_map kids (parents ne)) ne
    (zip_with (fun p k => Z.lor (shl64 p 3) (k mod 8))
                  (consec_inv 0 (map (fun k => Z.shiftr k 3) ne)) ne)) as [Hput Hsel].
  - apply (flat_kids_sorted (batch_size o) d); [exact Hd|apply parents_sorted|apply parents_vkey; assumption].
  - exact Hs.
  - apply (step_addr (batch_size o) d); assumption.
  - apply (step_addr (batch_size o) d); assumption.
  - split; [|exact Hsel].
    unfold build_step, unique_consecutive.
    rewrite (step_keys (batch_size o) d) by assumption.
    rewrite Hput. cbn [bind]. rewrite (upd_layer_Ok _ _ _ _ Hl). cbn [bind].
    f_equal. f_equal. cbn [with_layers batch_size].
    destruct (Nat.eqb_spec (batch_size o) 1) as [E1|E1].
    + apply (next_node_key_single (batch_size o) d); assumption.
    + apply (next_node_key_batch (batch_size o) d); assumption.
Qed.

(** non-empty nodes [n] levels above *)
Fixpoint ancestors (n : nat) (ne : list Z) : list Z :=
  match n with O => ne | S n' => parents (ancestors n' ne) end.

Lemma ancestors_S n ne : ancestors (S n) ne = ancestors n (parents ne).
Proof. induction n as [|n IH]; [reflexivity|]. cbn [ancestors] in *. rewrite <- IH. reflexivity. Qed.

Lemma ancestors_vkey B d n ne : (d + n <= 16)%nat -> sorted ne -> Forall (vkey B (d + n)) ne ->
  sorted (ancestors n ne) /\ Forall (vkey B d) (ancestors n ne).
Proof.
  revert ne; induction n as [|n IH]; intros ne Hd Hs Hv.
  - cbn. rewrite Nat.add_0_r in Hv. auto.
  - rewrite ancestors_S. apply IH; [lia|apply parents_sorted|].
    apply parents_vkey; [lia|]. replace (S (d + n)) with (d + S n)%nat by lia. exact Hv.
Qed.

Lemma rev_seq_S a n : rev (seq a (S n)) = (a + n)%nat :: rev (seq a n).
Proof. rewrite seq_S, rev_app_distr. reflexivity. Qed.

Lemma build_loop o full n : forall ne,
  (full + n <= 16)%nat -> Z.of_nat (batch_size o) <= 32768 ->
  (full + n < List.length (layers o))%nat ->
  sorted ne -> Forall (vkey (batch_size o) (full + n)) ne ->
  exists ls,
    foldM build_step (o, ne) (rev (seq (full + 1) n)) = Ok (with_layers o ls, ancestors n ne) /\
    List.length ls = List.length (layers o) /\
    forall i, nth_error ls i
      = match nth_error (layers o) i with
        | Some l => Some (if Nat.ltb full i && Nat.leb i (full + n)
                          then sparse_layer (ancestors (full + n - i) ne) l else l)
        | None => None end.
Proof.
  revert o; induction n as [|n IH]; intros o ne H16 HB Hlen Hs Hv.
  - exists (layers o). destruct o as [dd ff bb vv ls]. split; [reflexivity|]. split; [reflexivity|]. cbn [layers].
    intros i. destruct (nth_error ls i) as [l|]; [|reflexivity].
    replace (Nat.ltb full i && Nat.leb i (full + 0)) with false; [reflexivity|].
    symmetry. apply andb_false_iff. destruct (Nat.ltb_spec full i); [right; apply Nat.leb_gt; lia|left; reflexivity].
  - rewrite rev_seq_S. cbn [foldM].
    replace (full + 1 + n)%nat with (S (full + n)) by lia.
    replace (full + S n)%nat with (S (full + n)) in * by lia.
    destruct (nth_error (layers o) (S (full + n))) as [l|] eqn:El.
    2:{ apply nth_error_None in El. lia. }
    destruct (build_step_Ok o ne (full + n) l) as [-> _]; try assumption; try lia.
    cbn [bind].
    set (o' := with_layers o (set_nth (layers o) (S (full + n)) (sparse_layer ne l))).
    assert (Hn' : forall i, nth_error (layers o') i = if Nat.eqb i (S (full + n)) then Some (sparse_layer ne l) else nth_error (layers o) i).
    { intros i. apply nth_layers_set; exact El. }
    destruct (IH o' (parents ne)) as (ls & E & Hl & Hnth).
    + lia.
    + exact HB.
    + cbn. rewrite set_nth_length. lia.
    + apply parents_sorted.
    + apply parents_vkey; [lia|exact Hv].
    + exists ls. split.
      { rewrite E. rewrite ancestors_S. reflexivity. }
      split; [rewrite Hl; cbn; apply set_nth_length|].
      intros i. rewrite Hnth, Hn'.
      destruct (Nat.eqb_spec i (S (full + n))) as [->|Hne].
      * rewrite El.
        replace (Nat.ltb full (S (full + n)) && Nat.leb (S (full + n)) (full + n)) with false
          by (symmetry; apply andb_false_iff; right; apply Nat.leb_gt; lia).
        replace (Nat.ltb full (S (full + n)) && Nat.leb (S (full + n)) (S (full + n))) with true
          by (symmetry; apply andb_true_iff; split; [apply Nat.ltb_lt; lia|apply Nat.leb_le; lia]).
        rewrite Nat.sub_diag. reflexivity.
      * destruct (nth_error (layers o) i) as [li|]; [|reflexivity].
        destruct (Nat.ltb_spec full i) as [Hfi|Hfi]; cbn [andb]; [|reflexivity].
        destruct (Nat.leb_spec i (full + n)) as [Hle|Hgt].
        -- replace (Nat.leb i (S (full + n))) with true by (symmetry; apply Nat.leb_le; lia).
           replace (S (full + n) - i)%nat with (S (full + n - i)) by lia.
           rewrite ancestors_S. reflexivity.
        -- replace (Nat.leb i (S (full + n))) with false by (symmetry; apply Nat.leb_gt; lia). reflexivity.
Qed.

(** ** children of the layer full_depth *)

Definition full_children_layer (B d : nat) (ne : list Z) (l : layer) : layer :=
  set_nnum_nempty (set_children l (number_from 0 (map (fun k => memb k ne) (full_grid B d)))) (zlen ne).

Lemma map_const_repeat {A C} (c : C) (l : list A) : map (fun _ => c) l = repeat c (List.length l).
Proof. induction l; cbn; [reflexivity|]. now f_equal. Qed.

Lemma full_children_Ok o ne l : (full_depth o <= 16)%nat -> Z.of_nat (batch_size o) <= 32768 ->
  sorted ne -> Forall (vkey (batch_size o) (full_depth o)) ne ->
  nth_error (layers o) (full_depth o) = Some l -> 
  children l = Some (arange (8 ^ full_depth o * batch_size o)) ->
  build_full_children o ne
  = Ok (with_layers o (set_nth (layers o) (full_depth o)
         (full_children_layer (batch_size o) (full_depth o) ne l))) /\
  select (map (fun k => memb k ne) (full_grid (batch_size o) (full_depth o)))
         (full_grid (batch_size o) (full_depth o)) = ne.
Proof.
  intros Hd HB Hs Hv Hl Hc. set (B := batch_size o) in *. set (d := full_depth o) in *.
  rewrite Forall_forall in Hv.
  pose proof (pow8_lt48 d Hd) as H48. pose proof (pow8_pos d) as H8p.
  assert (Hidx : (if Nat.eqb B 1 then ne
                  else map (fun k => Z.lor (shl64 (Z.shiftr k 48) (3 * Z.of_nat d)) (Z.land k (Z.shiftl 1 48 - 1))) ne)
                 = map (fun k => 8 ^ Z.of_nat d * (k / 2 ^ 48) + k mod 2 ^ 48) ne).
  { destruct (Nat.eqb_spec B 1) as [E1|E1].
    - rewrite <- (map_id ne) at 1. apply map_ext_in. intros k Hk.
      destruct (Hv k Hk) as (b & m & Hb & Hm & ->). assert (b = 0) by lia. subst b.
      rewrite Z.div_small, Z.mod_small by lia. lia.
    - apply map_ext_in. intros k Hk.
      destruct (Hv k Hk) as (b & m & Hb & Hm & ->).
      rewrite land_mask_mod, Z.shiftr_div_pow2 by lia.
      replace ((b * 2 ^ 48 + m) / 2 ^ 48) with b by lia.
      replace ((b * 2 ^ 48 + m) mod 2 ^ 48) with m by lia.
      rewrite shl64_exact; [|lia|lia|rewrite <- pow8_pow2; nia].
      rewrite <- pow8_pow2. rewrite (Z.mul_comm (8 ^ Z.of_nat d) b).
      rewrite pow8_pow2 in Hm |- *.
      apply Z.bits_inj'; intros j Hj. rewrite Z.lor_spec.
      destruct (Z.ltb_spec j (3 * Z.of_nat d)) as [Hlt|Hge].
      + rewrite Z.mul_pow2_bits_low by lia. cbn [orb].
        rewrite <- (Z.mod_pow2_bits_low (b * _ + m) (3 * Z.of_nat d) j) by lia.
        rewrite Z.add_comm, Z_mod_plus_full, Z.mod_small by lia. reflexivity.
      + rewrite Z.mul_pow2_bits by lia.
        rewrite (testbit_above m (3 * Z.of_nat d) j) by lia. rewrite orb_false_r.
        replace j with ((j - 3 * Z.of_nat d) + 3 * Z.of_nat d) at 2 by lia.
        rewrite <- Z.shiftr_spec by lia. rewrite Z.shiftr_div_pow2 by lia.
        rewrite Z.add_comm, Z_div_plus_full, Z.div_small by lia. reflexivity. }
  destruct (put_children (full_grid B d) ne (map (fun k => 8 ^ Z.of_nat d * (k / 2 ^ 48) + k mod 2 ^ 48) ne))
    as [Hput Hsel].
  - apply full_grid_sorted; exact Hd.
  - exact Hs.
  - apply map_length.
  - intros i k a Hi Ha. rewrite nth_error_map, Hi in Ha. cbn [option_map] in Ha.
    assert (a = 8 ^ Z.of_nat d * (k / 2 ^ 48) + k mod 2 ^ 48) by congruence. subst a.
    assert (Hk : vkey B d k) by (apply Hv; eapply nth_error_In; exact Hi).
    destruct Hk as (b & m & Hb & Hm & ->).
    replace ((b * 2 ^ 48 + m) / 2 ^ 48) with b by lia.
    replace ((b * 2 ^ 48 + m) mod 2 ^ 48) with m by lia.
    split; [nia|]. rewrite <- pow8_nat in *.
    replace (Z.to_nat (Z.of_nat (8 ^ d) * b + m)) with (8 ^ d * Z.to_nat b + Z.to_nat m)%nat by nia.
    rewrite full_grid_nth by lia. rewrite !Z2Nat.id by lia. reflexivity.
  - split; [|exact Hsel].
    unfold build_full_children. fold d B. rewrite (get_layer_Ok _ _ _ Hl). cbn [bind]. rewrite Hc. cbn [need bind].
    rewrite Hidx, map_const_repeat, arange_length.
    rewrite full_grid_length in Hput. rewrite Hput. cbn [bind].
    apply (upd_layer_Ok _ _ _ _ Hl).
Qed.
