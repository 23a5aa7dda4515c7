(** Neighbourhood tables: the inductive branch, and construct_all_neigh. *)
From Coq Require Import List ZArith Bool Lia Sorting.Sorted Qcanon.
From Verif Require Import Res Tensor Key Num Points Octree Spec WF KeyFacts ListFacts KidsFacts
  BuildFacts WFFacts SearchFacts NeighFacts.
Import ListNotations.
Open Scope Z_scope.

Definition octants : list (Z * Z * Z) := [(0,0,0); (0,0,1); (0,1,0); (0,1,1); (1,0,0); (1,0,1); (1,1,0); (1,1,1)].
Definition lp_of (c o : Z * Z * Z) : Z :=
  let '(i, j, l) := c in let '(dx, dy, dz) := o in
  ((2 + i + dx) / 2) * 9 + ((2 + j + dy) / 2) * 3 + (2 + l + dz) / 2.
Definition lc_of (c o : Z * Z * Z) : Z :=
  let '(i, j, l) := c in let '(dx, dy, dz) := o in
  ((i + dx) mod 2) * 4 + ((j + dy) mod 2) * 2 + (l + dz) mod 2.

Lemma luts : combine lut_parent lut_child = map (fun c => (map (lp_of c) offsets, map (lc_of c) offsets)) octants.
Proof. vm_compute. reflexivity. Qed.

Lemma mapM_map {A B C} (f : B -> res C) (g : A -> B) l : mapM f (map g l) = mapM (fun a => f (g a)) l.
Proof. induction l as [|a l IH]; cbn; [reflexivity|]. rewrite IH. reflexivity. Qed.
Lemma combine_map2 {A B C} (f : A -> B) (g : A -> C) l : combine (map f l) (map g l) = map (fun a => (f a, g a)) l.
Proof. induction l as [|a l IH]; cbn; [reflexivity|]. rewrite IH. reflexivity. Qed.

Lemma in_offsets dx dy dz : In (dx, dy, dz) offsets -> -1 <= dx <= 1 /\ -1 <= dy <= 1 /\ -1 <= dz <= 1.
Proof.
  intros H. assert (F : forallb (fun '(a, b, c) => (-1 <=? a) && (a <=? 1) && (-1 <=? b) && (b <=? 1) && (-1 <=? c) && (c <=? 1)) offsets = true)
    by (vm_compute; reflexivity).
  rewrite forallb_forall in F. specialize (F _ H). cbn beta iota in F. rewrite !andb_true_iff, !Z.leb_le in F. lia.
Qed.
Lemma in_octants i j l : In (i, j, l) octants -> 0 <= i <= 1 /\ 0 <= j <= 1 /\ 0 <= l <= 1.
Proof.
  intros H. assert (F : forallb (fun '(a, b, c) => (0 <=? a) && (a <=? 1) && (0 <=? b) && (b <=? 1) && (0 <=? c) && (c <=? 1)) octants = true)
    by (vm_compute; reflexivity).
  rewrite forallb_forall in F. specialize (F _ H). cbn beta iota in F. rewrite !andb_true_iff, !Z.leb_le in F. lia.
Qed.

Lemma three a : 0 <= a <= 2 -> a = 0 \/ a = 1 \/ a = 2.
Proof. lia. Qed.
Lemma two a : 0 <= a <= 1 -> a = 0 \/ a = 1.
Proof. lia. Qed.

Lemma offsets_get a b c : 0 <= a <= 2 -> 0 <= b <= 2 -> 0 <= c <= 2 ->
  nth_error offsets (Z.to_nat (a * 9 + b * 3 + c)) = Some (a - 1, b - 1, c - 1).
Proof.
  intros Ha Hb Hc. apply three in Ha, Hb, Hc.
  destruct Ha as [->|[->| ->]], Hb as [->|[->| ->]], Hc as [->|[->| ->]]; vm_compute; reflexivity.
Qed.
Lemma octants_get i j l : 0 <= i <= 1 -> 0 <= j <= 1 -> 0 <= l <= 1 ->
  nth_error octants (Z.to_nat (i * 4 + j * 2 + l)) = Some (i, j, l).
Proof.
  intros Ha Hb Hc. apply two in Ha, Hb, Hc.
  destruct Ha as [->| ->], Hb as [->| ->], Hc as [->| ->]; vm_compute; reflexivity.
Qed.

Lemma in_grid_half d x : in_grid (S d) x <-> in_grid d (x / 2).
Proof.
  unfold in_grid. rewrite Nat2Z.inj_succ, Z.pow_succ_r by lia.
  pose proof (Z.div_mod x 2 ltac:(lia)). pose proof (Z.mod_pos_bound x 2 ltac:(lia)). lia.
Qed.
Lemma in_cube_half d x y z : in_cube (S d) x y z <-> in_cube d (x / 2) (y / 2) (z / 2).
Proof. unfold in_cube. rewrite !in_grid_half. reflexivity. Qed.

Lemma coords_kids d b x y z : (d < 16)%nat ->
  kids (key_of d b x y z) = map (fun '(i, j, l) => key_of (S d) b (2 * x + i) (2 * y + j) (2 * z + l)) octants.
Proof. intros H. apply kids_key_of. exact H. Qed.

Lemma kid_nth d b X Y Z : (d < 16)%nat ->
  nth_error (kids (key_of d b (X / 2) (Y / 2) (Z / 2))) (Z.to_nat ((X mod 2) * 4 + (Y mod 2) * 2 + Z mod 2))
  = Some (key_of (S d) b X Y Z).
Proof.
  intros H. rewrite coords_kids by exact H. rewrite nth_error_map.
  pose proof (Z.mod_pos_bound X 2 ltac:(lia)). pose proof (Z.mod_pos_bound Y 2 ltac:(lia)). pose proof (Z.mod_pos_bound Z 2 ltac:(lia)).
  rewrite octants_get by lia. cbn [option_map].
  rewrite <- !Z.div_mod by lia. reflexivity.
Qed.

Section Sparse.
  Variables (B d : nat) (ks : list Z) (m : list bool).
  Hypothesis Hd : (d < 16)%nat.
  Hypothesis Hs : sorted ks.
  Hypothesis Hv : Forall (vkey B d) ks.
  Hypothesis Hm : length m = length ks.
  Notation ks' := (flat_map kids (select m ks)).
  Notation child := (number_from 0 m).

  Lemma entry_ok b x y z c o : In c octants -> In o offsets -> In (key_of d b x y z) (select m ks) -> in_cube d x y z ->
    neigh_entry child (nb_row d ks (key_of d b x y z)) (lp_of c o) (lc_of c o)
    = Ok (let '(i, j, l) := c in let '(dx, dy, dz) := o in
          cellno (S d) ks' b (2 * x + i + dx) (2 * y + j + dy) (2 * z + l + dz)).
  Proof.
    destruct c as [[i j] l], o as [[dx dy] dz]. intros Hc Ho Hk Hcube.
    apply in_octants in Hc. apply in_offsets in Ho.
    set (X := 2 * x + i + dx). set (Y := 2 * y + j + dy). set (Z' := 2 * z + l + dz).
    assert (EX : X / 2 = x + ((2 + i + dx) / 2 - 1)).
    { unfold X. pose proof (Z.div_mod (2 + i + dx) 2 ltac:(lia)). pose proof (Z.mod_pos_bound (2 + i + dx) 2 ltac:(lia)).
      symmetry. apply (Z.div_unique _ _ _ ((2 + i + dx) mod 2)); lia. }
    assert (EY : Y / 2 = y + ((2 + j + dy) / 2 - 1)).
    { unfold Y. pose proof (Z.div_mod (2 + j + dy) 2 ltac:(lia)). pose proof (Z.mod_pos_bound (2 + j + dy) 2 ltac:(lia)).
      symmetry. apply (Z.div_unique _ _ _ ((2 + j + dy) mod 2)); lia. }
    assert (EZ : Z' / 2 = z + ((2 + l + dz) / 2 - 1)).
    { unfold Z'. pose proof (Z.div_mod (2 + l + dz) 2 ltac:(lia)). pose proof (Z.mod_pos_bound (2 + l + dz) 2 ltac:(lia)).
      symmetry. apply (Z.div_unique _ _ _ ((2 + l + dz) mod 2)); lia. }
    assert (EC : lc_of (i, j, l) (dx, dy, dz) = (X mod 2) * 4 + (Y mod 2) * 2 + Z' mod 2).
    { unfold lc_of, X, Y, Z'. replace (2 * x + i + dx) with (i + dx + x * 2) by lia.
      replace (2 * y + j + dy) with (j + dy + y * 2) by lia. replace (2 * z + l + dz) with (l + dz + z * 2) by lia.
      rewrite !Z.mod_add by lia. reflexivity. }
    assert (Hpx : 0 <= (2 + i + dx) / 2 <= 2) by (split; [apply Z.div_pos; lia|apply Z.div_le_upper_bound; lia]).
    assert (Hpy : 0 <= (2 + j + dy) / 2 <= 2) by (split; [apply Z.div_pos; lia|apply Z.div_le_upper_bound; lia]).
    assert (Hpz : 0 <= (2 + l + dz) / 2 <= 2) by (split; [apply Z.div_pos; lia|apply Z.div_le_upper_bound; lia]).
    unfold neigh_entry. unfold lp_of.
    rewrite (tget_nth _ _ (cellno d ks b (X / 2) (Y / 2) (Z' / 2))); [|lia|].
    2:{ unfold nb_row. rewrite coords_of_key by (lia || exact Hcube). rewrite nth_error_map, offsets_get by assumption.
        cbn [option_map]. rewrite EX, EY, EZ. reflexivity. }
    cbn [bind].
    pose proof (cellno_found d ks b (X / 2) (Y / 2) (Z' / 2)) as F. set (np := cellno d ks b (X / 2) (Y / 2) (Z' / 2)) in *. clearbody np.
    assert (Hvs : Forall (vkey B d) (select m ks)) by (apply Forall_select; exact Hv).
    assert (HsS : sorted ks') by (apply (flat_kids_sorted B d); [exact Hd|apply sorted_select; exact Hs|exact Hvs]).
    assert (HP : in_cube (S d) X Y Z' -> In (key_of (S d) b X Y Z') ks' -> In (key_of d b (X / 2) (Y / 2) (Z' / 2)) (select m ks)).
    { intros _ Hin. apply (in_flat_kids B d) in Hin; [|exact Hd|exact Hvs]. destruct Hin as [_ Hin].
      rewrite parent_key_of in Hin by exact Hd. exact Hin. }
    destruct F as [(H0 & Hpc & Hn)|(-> & Hn)].
    - assert (Hlt : (Z.to_nat np < length m)%nat) by (rewrite Hm; apply nth_error_Some; congruence).
      destruct (nth_error m (Z.to_nat np)) as [[|]|] eqn:Em.
      + destruct (number_from_nth ks m 0 (Z.to_nat np) ltac:(lia) Em) as (q & Eq & Esel). specialize (Esel Hm).
        rewrite Hn in Esel.
        rewrite (tget_nth child np (0 + Z.of_nat q)) by assumption. cbn [bind].
        replace (0 + Z.of_nat q <? 0) with false by (symmetry; apply Z.ltb_ge; lia).
        replace (np <? 0) with false by (symmetry; apply Z.ltb_ge; lia). cbn [orb]. f_equal.
        apply cell_found_unique; [exact HsS|]. left. rewrite EC.
        pose proof (Z.mod_pos_bound X 2 ltac:(lia)). pose proof (Z.mod_pos_bound Y 2 ltac:(lia)). pose proof (Z.mod_pos_bound Z' 2 ltac:(lia)).
        split; [lia|]. split; [apply in_cube_half; exact Hpc|].
        replace (Z.to_nat ((0 + Z.of_nat q) * 8 + (X mod 2 * 4 + Y mod 2 * 2 + Z' mod 2)))
          with (8 * q + Z.to_nat (X mod 2 * 4 + Y mod 2 * 2 + Z' mod 2))%nat by lia.
        rewrite (nth_error_flat_map kids 8 _ (fun a _ => kids_length a) q _ _ Esel) by lia.
        apply kid_nth. exact Hd.
      + rewrite (tget_nth child np (-1)) by (try exact H0; apply number_from_nth_false; exact Em). cbn [bind].
        replace (-1 <? 0) with true by reflexivity. cbn [orb]. f_equal.
        apply cell_found_unique; [exact HsS|]. right. split; [reflexivity|]. intros [Hc1 Hin].
        apply (HP Hc1) in Hin. apply in_select in Hin. destruct Hin as (p & Hp1 & Hp2).
        pose proof (sorted_nth_inj _ Hs _ _ _ Hp2 Hn). subst p. congruence.
      + apply nth_error_None in Em. lia.
    - assert (Hne : exists v, tget child (-1) = Ok v).
      { apply in_select in Hk. destruct Hk as (p & Hp1 & _). destruct m as [|mb mt]; [destruct p; discriminate|].
        unfold tget, norm_index, zlen. rewrite number_from_length. cbn [length].
        replace ((0 <=? -1) && (-1 <? Z.of_nat (S (length mt)))) with false by reflexivity.
        replace ((-1 <? 0) && (0 <=? -1 + Z.of_nat (S (length mt)))) with true
          by (symmetry; apply andb_true_intro; split; [reflexivity|apply Z.leb_le; lia]).
        destruct (nth_error (number_from 0 (mb :: mt)) (Z.to_nat (-1 + Z.of_nat (S (length mt))))) eqn:E1; [eauto|].
        apply nth_error_None in E1. rewrite number_from_length in E1. cbn [length] in E1. lia. }
      destruct Hne as [v ->]. cbn [bind]. replace (-1 <? 0) with true by reflexivity. rewrite orb_true_r. f_equal.
      apply cell_found_unique; [exact HsS|]. right. split; [reflexivity|]. intros [Hc1 Hin].
      apply Hn. split; [apply in_cube_half; exact Hc1|]. apply (HP Hc1) in Hin.
      apply in_select in Hin. destruct Hin as (p & _ & Hp2). eapply nth_error_In; exact Hp2.
  Qed.

  Lemma neigh_sparse_Ok : neigh_sparse child (nb_table d ks) = Ok (nb_table (S d) ks').
  Proof.
    unfold neigh_sparse. rewrite number_from_mask by lia.
    rewrite mask_get_Ok by (unfold nb_table; rewrite map_length; exact Hm). cbn [bind].
    unfold nb_table at 1. rewrite select_map, mapM_map.
    rewrite (mapM_Ok _ (fun k => map (nb_row (S d) ks') (kids k))).
    - cbn [bind]. f_equal. unfold nb_table. rewrite map_flat_map, <- flat_map_concat_map. reflexivity.
    - intros k Hk. assert (Hvk : vkey B d k).
      { rewrite Forall_forall in Hv. apply Hv. apply in_select in Hk. destruct Hk as (p & _ & Hp). eapply nth_error_In; exact Hp. }
      destruct (coords d k) as [[[x y] z] b] eqn:Ec.
      destruct (coords_key_of B d k x y z b ltac:(lia) Hvk Ec) as (-> & Hcube & Hb).
      rewrite luts, mapM_map. rewrite coords_kids by exact Hd. rewrite map_map. apply mapM_Ok.
      intros [[i j] l] Hc. rewrite combine_map2, mapM_map.
      assert (Hin : in_cube (S d) (2 * x + i) (2 * y + j) (2 * z + l)).
      { pose proof (in_octants _ _ _ Hc). destruct Hcube as (C1 & C2 & C3). unfold in_cube, in_grid in *.
        rewrite Nat2Z.inj_succ, Z.pow_succ_r by lia. lia. }
      unfold nb_row at 2. rewrite coords_of_key by (lia || exact Hin).
      apply mapM_Ok. intros [[dx dy] dz] Ho. rewrite (entry_ok b x y z _ _ Hc Ho Hk Hcube). reflexivity.
  Qed.
End Sparse.

(** ** construct_neigh and construct_all_neigh on a well-formed octree *)

(** layers a..L hold the correct neighbour table *)
Definition neigh_upto (o : octree) (K : nat -> list Z) (a L : nat) : Prop :=
  forall d l, (a <= d <= L)%nat -> nth_error (layers o) d = Some l -> neighs l = Some (nb_table d (K d)).

Lemma set_neighs_tree l v : keys (set_neighs l v) = keys l /\ children (set_neighs l v) = children l /\
  nnum (set_neighs l v) = nnum l /\ nnum_nempty (set_neighs l v) = nnum_nempty l /\
  l_features (set_neighs l v) = l_features l /\ l_normals (set_neighs l v) = l_normals l /\ l_points (set_neighs l v) = l_points l.
Proof. repeat split; reflexivity. Qed.

Definition put_neigh (o : octree) (d : nat) (v : list (list Z)) : octree :=
  match nth_error (layers o) d with
  | Some l => with_layers o (set_nth (layers o) d (set_neighs l v))
  | None => o
  end.

Lemma put_neigh_nth o d v i : nth_error (layers (put_neigh o d v)) i =
  option_map (fun l => if Nat.eqb i d then set_neighs l v else l) (nth_error (layers o) i).
Proof.
  unfold put_neigh. destruct (nth_error (layers o) d) as [l|] eqn:E.
  - rewrite (nth_layers_set o d (fun l => set_neighs l v)) by exact E. destruct (Nat.eqb_spec i d) as [->|Hne].
    + rewrite E. reflexivity.
    + destruct (nth_error (layers o) i); reflexivity.
  - destruct (Nat.eqb_spec i d) as [->|Hne]; [rewrite E; reflexivity|destruct (nth_error (layers o) i); reflexivity].
Qed.
Lemma put_neigh_params o d v : depth (put_neigh o d v) = depth o /\ full_depth (put_neigh o d v) = full_depth o /\
  batch_size (put_neigh o d v) = batch_size o /\ device (put_neigh o d v) = device o /\
  length (layers (put_neigh o d v)) = length (layers o).
Proof.
  unfold put_neigh. destruct (nth_error (layers o) d); repeat split; try reflexivity.
  unfold with_layers; cbn [layers]. apply set_nth_length.
Qed.

Lemma put_neigh_tree o d v L K M : tree_upto o L K M -> tree_upto (put_neigh o d v) L K M.
Proof.
  intros T. destruct (put_neigh_params o d v) as (P1 & P2 & P3 & P4 & P5). destruct T as [t1 t2 t3 t4 t5 t6 t7 t8 t9].
  constructor; rewrite ?P1, ?P2, ?P3, ?P5; try assumption.
  intros i Hi. destruct (t6 i Hi) as (l & E1 & E2 & E3 & E4 & E5). rewrite put_neigh_nth, E1. cbn [option_map].
  eexists. split; [reflexivity|]. destruct (Nat.eqb i d); auto.
Qed.

Lemma construct_neigh_Ok o L K M d : tree_upto o L K M -> (d <= L)%nat ->
  ((d <= full_depth o)%nat \/ exists d', d = S d' /\ neigh_upto o K d' d') ->
  construct_neigh o d = Ok (put_neigh o d (nb_table d (K d))).
Proof.
  intros T Hd Hprev. pose proof (t_depth _ _ _ _ T) as H16. pose proof (t_L _ _ _ _ T) as HL.
  unfold construct_neigh, put_neigh. destruct (tree_get o L K M T d Hd) as (l & _ & En & _).
  rewrite En. destruct (Nat.leb_spec d (full_depth o)) as [Hf|Hf].
  - rewrite neigh_full_Ok by (try lia; exact (t_batch _ _ _ _ T)). cbn [bind].
    rewrite <- (t_grid _ _ _ _ T d Hd Hf). exact (upd_layer_Ok o _ (fun l => set_neighs l _) l En).
  - destruct Hprev as [Hp|(d' & -> & Hn)]; [lia|].
    destruct (tree_get o L K M T d' ltac:(lia)) as (p & _ & Ep & _ & Ec & _).
    rewrite (get_layer_pred o d' p Ep). cbn [bind]. rewrite Ec. cbn [need bind].
    rewrite (Hn d' p ltac:(lia) Ep). cbn [need bind].
    destruct (tree_keys o L K M T d' ltac:(lia)) as [Hs Hv].
    rewrite (neigh_sparse_Ok (batch_size o)); [|lia|exact Hs|exact Hv|apply (t_mask _ _ _ _ T); lia].
    cbn [bind]. rewrite (t_link _ _ _ _ T) by lia. rewrite pick_select. exact (upd_layer_Ok o _ (fun l => set_neighs l _) l En).
Qed.

Lemma put_neigh_upto o K a d : (a <= S d)%nat -> neigh_upto o K a d ->
  neigh_upto (put_neigh o (S d) (nb_table (S d) (K (S d)))) K a (S d).
Proof.
  intros Ha H i l Hi Hl. rewrite put_neigh_nth in Hl. destruct (nth_error (layers o) i) as [l0|] eqn:E; [|discriminate].
  cbn [option_map] in Hl. injection Hl as <-. destruct (Nat.eqb_spec i (S d)) as [->|Hne]; [reflexivity|].
  apply (H i l0); [lia|exact E].
Qed.

(** everything but the neighbour tables is the same *)
Definition same_but_neighs (l l' : layer) : Prop := exists v, l' = mkLayer (keys l) (children l) v (l_features l)
  (l_normals l) (l_points l) (nnum l) (nnum_nempty l) (batch_nnum l) (batch_nnum_nempty l).
Definition only_neighs (o o' : octree) : Prop :=
  depth o' = depth o /\ full_depth o' = full_depth o /\ batch_size o' = batch_size o /\ device o' = device o /\
  length (layers o') = length (layers o) /\
  forall d l l', nth_error (layers o) d = Some l -> nth_error (layers o') d = Some l' -> same_but_neighs l l'.

Lemma same_refl l : same_but_neighs l l.
Proof. exists (neighs l). destruct l; reflexivity. Qed.
Lemma only_neighs_refl o : only_neighs o o.
Proof. repeat split. intros d l l' H1 H2. replace l' with l by congruence. apply same_refl. Qed.
Lemma only_neighs_trans o o' o'' : only_neighs o o' -> only_neighs o' o'' -> only_neighs o o''.
Proof.
  intros (A1 & A2 & A3 & A4 & A5 & A6) (B1 & B2 & B3 & B4 & B5 & B6). repeat split; try congruence.
  intros d l l'' H1 H2. destruct (nth_error (layers o') d) as [l'|] eqn:E.
  - destruct (A6 d l l' H1 E) as (v & ->). destruct (B6 d _ l'' E H2) as (v' & ->). exists v'. reflexivity.
  - apply nth_error_None in E. assert (d < length (layers o))%nat by (apply nth_error_Some; congruence). lia.
Qed.
Lemma put_neigh_only o d v : only_neighs o (put_neigh o d v).
Proof.
  destruct (put_neigh_params o d v) as (P1 & P2 & P3 & P4 & P5). repeat split; try assumption.
  intros i l l' H1 H2. rewrite put_neigh_nth, H1 in H2. cbn [option_map] in H2. injection H2 as <-.
  destruct (Nat.eqb i d); [exists (Some v); reflexivity|apply same_refl].
Qed.
Lemma only_neighs_tree o o' L K M : only_neighs o o' -> tree_upto o L K M -> tree_upto o' L K M.
Proof.
  intros (A1 & A2 & A3 & A4 & A5 & A6) [t1 t2 t3 t4 t5 t6 t7 t8 t9].
  constructor; rewrite ?A1, ?A2, ?A3, ?A5; try assumption.
  intros i Hi. destruct (t6 i Hi) as (l & E1 & E2 & E3 & E4 & E5).
  destruct (nth_error (layers o') i) as [l'|] eqn:E'.
  - exists l'. split; [reflexivity|]. destruct (A6 i l l' E1 E') as (v & ->). cbn. auto.
  - apply nth_error_None in E'. assert (i < length (layers o))%nat by (apply nth_error_Some; congruence). lia.
Qed.

Lemma all_neigh_loop o L K M a n : tree_upto o L K M -> (a <= 1)%nat -> ((1 <= full_depth o)%nat \/ a = O) ->
  neigh_upto o K a 0 -> (n <= L)%nat ->
  exists o', foldM construct_neigh o (seq 1 n) = Ok o' /\ only_neighs o o' /\ neigh_upto o' K a n.
Proof.
  intros T Ha Hf H0. induction n as [|n IH]; intros Hn.
  - exists o. split; [reflexivity|]. split; [apply only_neighs_refl|exact H0].
  - destruct IH as (o' & E & Ho & Hnb); [lia|]. rewrite seq_S, foldM_app, E. cbn [bind foldM].
    pose proof (only_neighs_tree _ _ _ _ _ Ho T) as T'.
    rewrite (construct_neigh_Ok o' L K M (1 + n)); [|exact T'|lia|].
    + cbn [bind]. eexists. split; [reflexivity|]. split; [eapply only_neighs_trans; [exact Ho|apply put_neigh_only]|].
      apply put_neigh_upto; [lia|exact Hnb].
    + destruct Ho as (_ & Hfd & _). rewrite Hfd. destruct (Nat.leb_spec (1 + n) (full_depth o)) as [Hl|Hl]; [left; exact Hl|].
      right. exists n. split; [reflexivity|]. intros d l Hd. apply Hnb. lia.
Qed.

Lemma tree_all_neigh_from o K M a : tree_upto o (depth o) K M -> (a <= 1)%nat -> ((1 <= full_depth o)%nat \/ a = O) ->
  neigh_upto o K a 0 ->
  exists o', construct_all_neigh o = Ok o' /\ only_neighs o o' /\ tree_upto o' (depth o') K M /\ neigh_upto o' K a (depth o').
Proof.
  intros T Ha Hf H0. destruct (all_neigh_loop o _ K M a (depth o) T Ha Hf H0 (le_n _)) as (o' & E & Ho & Hn).
  exists o'. split; [exact E|]. split; [exact Ho|]. destruct Ho as (Hd & Ho'). rewrite Hd.
  split; [|exact Hn]. eapply only_neighs_tree; [split; [exact Hd|exact Ho']|exact T].
Qed.

Lemma tree_all_neigh o K M : tree_upto o (depth o) K M -> (1 <= full_depth o)%nat ->
  exists o', construct_all_neigh o = Ok o' /\ only_neighs o o' /\ tree_upto o' (depth o') K M /\ neigh_upto o' K 1 (depth o').
Proof.
  intros T Hf. apply (tree_all_neigh_from o K M 1 T); [lia|left; exact Hf|]. intros d l H. lia.
Qed.
