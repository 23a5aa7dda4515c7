(** Neighbourhood tables. *)
From Coq Require Import List ZArith Bool Lia Sorting.Sorted Qcanon.
From Verif Require Import Res Tensor Key Num Points Octree Spec WF KeyFacts ListFacts KidsFacts
  BuildFacts WFFacts SearchFacts.
Import ListNotations.
Open Scope Z_scope.

(** ** closed form of a table *)

Definition inb (d : nat) (x : Z) : bool := (0 <=? x) && (x <? 2 ^ Z.of_nat d).
Definition incubeb (d : nat) (x y z : Z) : bool := inb d x && inb d y && inb d z.
Definition rowno (ks : list Z) (k : Z) : Z := match index_of k ks with Some i => Z.of_nat i | None => -1 end.
(** row number of the cell (x, y, z) of batch element b, -1 if it is not there *)
Definition cellno (d : nat) (ks : list Z) (b x y z : Z) : Z :=
  if incubeb d x y z then rowno ks (key_of d b x y z) else -1.
Definition offsets : list (Z * Z * Z) := range_grid (-1) 1.
Definition nb_row (d : nat) (ks : list Z) (k : Z) : list Z :=
  let '(x, y, z, b) := coords d k in
  map (fun '(dx, dy, dz) => cellno d ks b (x + dx) (y + dy) (z + dz)) offsets.
Definition nb_table (d : nat) (ks : list Z) : list (list Z) := map (nb_row d ks) ks.

Lemma inb_spec d x : inb d x = true <-> in_grid d x.
Proof. unfold inb, in_grid. rewrite andb_true_iff, Z.leb_le, Z.ltb_lt. reflexivity. Qed.
Lemma incubeb_spec d x y z : incubeb d x y z = true <-> in_cube d x y z.
Proof. unfold incubeb, in_cube. rewrite !andb_true_iff, !inb_spec. tauto. Qed.

Lemma offsets_offset : offsets = map offset (seq 0 27).
Proof. vm_compute. reflexivity. Qed.
Lemma offsets_nth o : (o < 27)%nat -> nth_error offsets o = Some (offset o).
Proof. intros H. rewrite offsets_offset, nth_error_map, seq_nth_error by exact H. reflexivity. Qed.

Lemma rowno_found ks k : found ks k (rowno ks k).
Proof.
  unfold rowno, found. destruct (index_of k ks) as [i|] eqn:E.
  - left. rewrite Nat2Z.id. split; [lia|apply index_of_Some; exact E].
  - right. split; [reflexivity|apply index_of_None; exact E].
Qed.

Definition cell_found (d : nat) (ks : list Z) (b x y z e : Z) : Prop :=
  (0 <= e /\ in_cube d x y z /\ nth_error ks (Z.to_nat e) = Some (key_of d b x y z)) \/
  (e = -1 /\ ~ (in_cube d x y z /\ In (key_of d b x y z) ks)).

Lemma cellno_found d ks b x y z : cell_found d ks b x y z (cellno d ks b x y z).
Proof.
  unfold cellno, cell_found. destruct (incubeb d x y z) eqn:E.
  - apply incubeb_spec in E. destruct (rowno_found ks (key_of d b x y z)) as [[H1 H2]|[H1 H2]]; [left|right]; tauto.
  - right. split; [reflexivity|]. intros [H _]. apply incubeb_spec in H. congruence.
Qed.

Lemma cell_found_unique d ks b x y z e : sorted ks -> cell_found d ks b x y z e -> e = cellno d ks b x y z.
Proof.
  intros Hs H. pose proof (cellno_found d ks b x y z) as H'. set (e' := cellno d ks b x y z) in *. clearbody e'.
  destruct H as [(H1 & H2 & H3)|(H1 & H2)], H' as [(H1' & H2' & H3')|(H1' & H2')].
  - pose proof (sorted_nth_inj _ Hs _ _ _ H3 H3'). lia.
  - exfalso. apply H2'. split; [exact H2|eapply nth_error_In; exact H3].
  - exfalso. apply H2. split; [exact H2'|eapply nth_error_In; exact H3'].
  - congruence.
Qed.

Lemma nb_table_correct B d ks : (d <= 16)%nat -> Forall (vkey B d) ks -> neigh_correct d ks (nb_table d ks).
Proof.
  intros Hd Hv. unfold neigh_correct, nb_table. rewrite map_length. split; [reflexivity|].
  intros i row Hr. rewrite nth_error_map in Hr. destruct (nth_error ks i) as [k|] eqn:Ek; [|discriminate].
  cbn [option_map] in Hr. assert (row = nb_row d ks k) by congruence. subst row. clear Hr.
  split.
  - unfold nb_row. destruct (coords d k) as [[[x y] z] b]. rewrite map_length. reflexivity.
  - intros b x y z Hc Hk o e He. assert (k = key_of d b x y z) by congruence. subst k.
    unfold nb_row in He. rewrite coords_of_key in He by assumption.
    rewrite nth_error_map in He. destruct (nth_error offsets o) as [[[dx dy] dz]|] eqn:Eo; [|discriminate].
    cbn [option_map] in He. injection He as <-.
    assert (Ho : (o < 27)%nat) by (change 27%nat with (length offsets); apply nth_error_Some; congruence).
    rewrite offsets_nth in Eo by exact Ho. assert (Eo' : offset o = (dx, dy, dz)) by congruence. rewrite Eo'.
    apply cellno_found.
Qed.

(** ** the direct branch *)

Lemma mask_fill_map {A C} (f : A -> C) (g : A -> bool) v l :
  mask_fill (map f l) (map g l) v = map (fun a => if g a then v else f a) l.
Proof. induction l as [|a l IH]; cbn; [reflexivity|]. rewrite IH. reflexivity. Qed.

Lemma chunk_rows_concat {A} n (rows : list (list A)) : Forall (fun r => length r = n) rows ->
  chunk_rows (length rows) n (concat rows) = rows.
Proof.
  induction 1 as [|r rows Hr H IH]; cbn [length chunk_rows concat]; [reflexivity|].
  rewrite firstn_app, skipn_app, Hr, Nat.sub_diag. rewrite firstn_all2, skipn_all2 by lia.
  cbn [firstn skipn app]. rewrite app_nil_r, IH. reflexivity.
Qed.
Lemma concat_length_const {A} n (rows : list (list A)) : Forall (fun r => length r = n) rows ->
  length (concat rows) = (n * length rows)%nat.
Proof. induction 1 as [|r rows Hr H IH]; cbn [concat length]; [lia|]. rewrite app_length, Hr, IH. lia. Qed.
Lemma view_rows_concat {A} n (rows : list (list A)) : n <> O -> Forall (fun r => length r = n) rows ->
  view_rows n (concat rows) = Ok rows.
Proof.
  intros Hn H. unfold view_rows. rewrite (concat_length_const n) by exact H.
  rewrite Nat.mul_comm, Nat.mod_mul by exact Hn. rewrite Nat.div_mul by exact Hn.
  rewrite (proj2 (Nat.eqb_neq n 0) Hn). cbn [Nat.eqb andb negb]. rewrite chunk_rows_concat by exact H. reflexivity.
Qed.

Lemma map_flat_map {A B C} (f : B -> C) (g : A -> list B) l : map f (flat_map g l) = flat_map (fun a => map f (g a)) l.
Proof. induction l as [|a l IH]; cbn; [reflexivity|]. rewrite map_app, IH. reflexivity. Qed.
Lemma flat_map_flat_map {A B C} (f : B -> list C) (g : A -> list B) l :
  flat_map f (flat_map g l) = flat_map (fun a => flat_map f (g a)) l.
Proof. induction l as [|a l IH]; cbn; [reflexivity|]. rewrite flat_map_app, IH. reflexivity. Qed.

Lemma full_grid_index B d b x y z : (d <= 16)%nat -> 0 <= b < Z.of_nat B -> in_cube d x y z ->
  rowno (full_grid B d) (key_of d b x y z) = b * 8 ^ Z.of_nat d + morton d x y z.
Proof.
  intros Hd Hb Hc. pose proof (morton_range d x y z) as Hm.
  assert (E : nth_error (full_grid B d) (8 ^ d * Z.to_nat b + Z.to_nat (morton d x y z)) = Some (key_of d b x y z)).
  { rewrite full_grid_nth; [|lia|]. 2:{ rewrite <- pow8_nat in Hm. lia. }
    unfold key_of. rewrite !Z2Nat.id by lia. reflexivity. }
  unfold rowno. rewrite (index_of_nth _ _ _ (sorted_NoDup _ (full_grid_sorted B d Hd)) E).
  rewrite Nat2Z.inj_add, Nat2Z.inj_mul, pow8_nat, !Z2Nat.id by lia. ring.
Qed.

Definition full_entry (d : nat) (b x y z : Z) : Z :=
  if incubeb d x y z then b * 8 ^ Z.of_nat d + morton d x y z else -1.
Lemma full_entry_cellno B d b x y z : (d <= 16)%nat -> 0 <= b < Z.of_nat B ->
  cellno d (full_grid B d) b x y z = full_entry d b x y z.
Proof.
  intros Hd Hb. unfold cellno, full_entry. destruct (incubeb d x y z) eqn:E; [|reflexivity].
  apply incubeb_spec in E. apply full_grid_index; assumption.
Qed.

Lemma invalid_incube d x y z :
  ((x <? 0) || (y <? 0) || (z <? 0))
   || ((Z.shiftl 1 (Z.of_nat d) <=? x) || (Z.shiftl 1 (Z.of_nat d) <=? y) || (Z.shiftl 1 (Z.of_nat d) <=? z))
  = negb (incubeb d x y z).
Proof.
  rewrite Z.shiftl_1_l. unfold incubeb, inb. rewrite (Z.ltb_antisym 0 x), (Z.ltb_antisym 0 y), (Z.ltb_antisym 0 z).
  rewrite (Z.leb_antisym x (2 ^ Z.of_nat d)), (Z.leb_antisym y (2 ^ Z.of_nat d)), (Z.leb_antisym z (2 ^ Z.of_nat d)).
  destruct (0 <=? x), (0 <=? y), (0 <=? z), (x <? 2 ^ Z.of_nat d), (y <? 2 ^ Z.of_nat d), (z <? 2 ^ Z.of_nat d); reflexivity.
Qed.

Definition un (d : nat) (m : Z) : Z * Z * Z := (unmorton_x d m, unmorton_y d m, unmorton_z d m).

Lemma neigh_full_Ok B d : (d <= 16)%nat -> Z.of_nat B <= 32768 ->
  neigh_full B d = Ok (nb_table d (full_grid B d)).
Proof.
  intros Hd HB. unfold neigh_full.
  rewrite (mapM_Ok _ (fun m => (unmorton_x d m, unmorton_y d m, unmorton_z d m, 0))).
  2:{ intros m Hm. apply in_arange in Hm. rewrite pow8_nat in Hm.
      rewrite <- (key2xyz_spec 0 m d Hd Hm). reflexivity. }
  cbn [bind].
  set (xyz := flat_map _ (map _ (arange (8 ^ d)))).
  rewrite (mapM_Ok _ (fun '(x, y, z) => morton d x y z)).
  2:{ intros [[x y] z] _. apply xyz2key_morton. exact Hd. }
  cbn [bind].
  assert (Erow : map (fun row => mask_fill row
              (map (fun '(x, y, z) => ((x <? 0) || (y <? 0) || (z <? 0))
                 || ((Z.shiftl 1 (Z.of_nat d) <=? x) || (Z.shiftl 1 (Z.of_nat d) <=? y) || (Z.shiftl 1 (Z.of_nat d) <=? z))) xyz) (-1))
           (map (fun b => map (fun n => n + b * Z.of_nat (8 ^ d)) (map (fun '(x, y, z) => morton d x y z) xyz)) (arange B))
        = map (fun b => concat (map (fun m => nb_row d (full_grid B d) (b * 2 ^ 48 + m)) (arange (8 ^ d)))) (arange B)).
  { rewrite map_map. apply map_ext_in. intros b Hb. apply in_arange in Hb.
    rewrite map_map, mask_fill_map. unfold xyz. rewrite flat_map_map, map_flat_map, flat_map_concat_map. f_equal.
    apply map_ext_in. intros m Hm. apply in_arange in Hm. rewrite pow8_nat in Hm.
    rewrite map_map.
    assert (Ec : coords d (b * 2 ^ 48 + m) = (unmorton_x d m, unmorton_y d m, unmorton_z d m, b)).
    { pose proof (key2xyz_spec b m d Hd Hm) as E1. rewrite (key2xyz_coords B) in E1; [congruence|exact Hd|].
      exists b, m. split; [lia|]. split; [exact Hm|reflexivity]. }
    unfold nb_row. rewrite Ec. apply map_ext. intros [[dx dy] dz].
    rewrite invalid_incube, (full_entry_cellno B) by (assumption || lia). unfold full_entry.
    rewrite pow8_nat.
    destruct (incubeb d _ _ _); cbn [negb]; [ring|reflexivity]. }
  rewrite Erow. rewrite <- flat_map_concat_map.
  replace (flat_map (fun b => concat (map (fun m => nb_row d (full_grid B d) (b * 2 ^ 48 + m)) (arange (8 ^ d)))) (arange B))
    with (concat (nb_table d (full_grid B d))).
  - apply view_rows_concat; [discriminate|]. apply Forall_forall. intros r Hr. unfold nb_table in Hr.
    apply in_map_iff in Hr. destruct Hr as (k & <- & _). unfold nb_row. destruct (coords d k) as [[[x y] z] b].
    rewrite map_length. reflexivity.
  - unfold nb_table. rewrite <- flat_map_concat_map. unfold full_grid at 2. rewrite flat_map_flat_map.
    unfold arange. rewrite flat_map_map. apply flat_map_ext. intros b.
    rewrite flat_map_map, map_map, flat_map_concat_map. reflexivity.
Qed.
