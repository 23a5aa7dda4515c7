(** get_neigh on octrees whose tables have been built. *)
From Coq Require Import List ZArith Bool Lia String Sorting.Sorted Qcanon.
From Verif Require Import Res Tensor Key Num Points Octree Spec SpecNeigh WF KeyFacts ListFacts KidsFacts
  BuildFacts WFFacts SearchFacts NeighFacts NeighSparse.
Import ListNotations.
Open Scope Z_scope.

Definition nb_rowg (d : nat) (targets : list Z) (offs : list (Z * Z * Z)) (k : Z) : list Z :=
  let '(x, y, z, b) := coords d k in
  map (fun '(dx, dy, dz) => cellno d targets b (x + dx) (y + dy) (z + dz)) offs.

Lemma nb_rowg_correct B d centres targets offs : (d <= 16)%nat -> Forall (vkey B d) centres ->
  table_correct d centres targets offs (map (nb_rowg d targets offs) centres).
Proof.
  intros Hd Hv. split; [apply map_length|]. intros r row b x y z Hr Hc Hk.
  rewrite nth_error_map, Hk in Hr. cbn [option_map] in Hr.
  assert (row = nb_rowg d targets offs (key_of d b x y z)) by congruence. subst row. clear Hr.
  unfold nb_rowg. rewrite coords_of_key by assumption. split; [apply map_length|].
  intros j dx dy dz e Hj He. rewrite nth_error_map, Hj in He. cbn [option_map] in He. injection He as <-.
  apply cellno_found.
Qed.

Lemma rowno_remap K M k : sorted K -> List.length M = List.length K ->
  (if 0 <=? rowno K k then tget (number_from 0 M) (rowno K k) else Ok (rowno K k)) = Ok (rowno (select M K) k).
Proof.
  intros Hs Hm. assert (Hs' : sorted (select M K)) by (apply sorted_select; exact Hs).
  destruct (rowno_found K k) as [[H0 Hn]|[E Hn]].
  - rewrite (proj2 (Z.leb_le _ _) H0).
    assert (Hlt : (Z.to_nat (rowno K k) < List.length M)%nat) by (rewrite Hm; apply nth_error_Some; congruence).
    destruct (nth_error M (Z.to_nat (rowno K k))) as [[|]|] eqn:Em.
    + destruct (number_from_nth K M 0 _ ltac:(lia) Em) as (q & Eq & Esel). specialize (Esel Hm). rewrite Hn in Esel.
      rewrite (tget_nth _ _ (0 + Z.of_nat q)) by assumption. f_equal.
      apply (found_unique (select M K) k); [exact Hs'| |apply rowno_found]. left.
      replace (Z.to_nat (0 + Z.of_nat q)) with q by lia. split; [lia|exact Esel].
    + rewrite (tget_nth _ _ (-1)) by (try exact H0; apply number_from_nth_false; exact Em). f_equal.
      apply (found_unique (select M K) k); [exact Hs'| |apply rowno_found]. right. split; [reflexivity|].
      intros Hin. apply in_select in Hin. destruct Hin as (p & Hp1 & Hp2).
      pose proof (sorted_nth_inj _ Hs _ _ _ Hp2 Hn). subst p. congruence.
    + apply nth_error_None in Em. lia.
  - rewrite E. cbn [Z.leb]. change (0 <=? -1) with false. cbn iota. f_equal.
    apply (found_unique (select M K) k); [exact Hs'| |apply rowno_found]. right. split; [reflexivity|].
    intros Hin. apply Hn. apply in_select in Hin. destruct Hin as (p & _ & Hp2). eapply nth_error_In; exact Hp2.
Qed.

Lemma cellno_remap d K M b x y z : sorted K -> List.length M = List.length K ->
  (if 0 <=? cellno d K b x y z then tget (number_from 0 M) (cellno d K b x y z) else Ok (cellno d K b x y z))
  = Ok (cellno d (select M K) b x y z).
Proof.
  intros Hs Hm. unfold cellno. destruct (incubeb d x y z); [apply rowno_remap; assumption|reflexivity].
Qed.

Lemma remap_row d K M offs k : sorted K -> List.length M = List.length K ->
  remap_neigh (number_from 0 M) (nb_rowg d K offs k) = Ok (nb_rowg d (select M K) offs k).
Proof.
  intros Hs Hm. unfold remap_neigh, nb_rowg. destruct (coords d k) as [[[x y] z] b].
  rewrite mapM_map. apply mapM_Ok. intros [[dx dy] dz] _. apply cellno_remap; assumption.
Qed.

Lemma gather_map {A C} (f : A -> C) l idx r : gather l idx = Ok r -> gather (map f l) idx = Ok (map f r).
Proof.
  unfold gather. revert r; induction idx as [|i idx IH]; intros r H; cbn [mapM] in *.
  - injection H as <-. reflexivity.
  - destruct (tget l i) as [a|] eqn:E; [|discriminate]. cbn [bind] in H.
    destruct (mapM (tget l) idx) as [t|] eqn:Et; [|discriminate]. cbn [bind] in H. injection H as <-.
    assert (E' : tget (map f l) i = Ok (f a)).
    { unfold tget, zlen in *. rewrite map_length. destruct (norm_index _ i) as [j|]; [|discriminate].
      rewrite nth_error_map. destruct (nth_error l j); [|discriminate]. cbn. congruence. }
    rewrite E'. cbn [bind]. rewrite (IH _ eq_refl). reflexivity.
Qed.

Lemma gather_row d K offs idx offs' k : gather offs idx = Ok offs' ->
  gather (nb_rowg d K offs k) idx = Ok (nb_rowg d K offs' k).
Proof. intros H. unfold nb_rowg. destruct (coords d k) as [[[x y] z] b]. apply gather_map. exact H. Qed.

(** the columns selected by the look-up tables are the boxes *)
Lemma lookup_box kernel lut : lookup_kernel kernel lut_kernel = Some lut -> gather offsets lut = Ok (box kernel) /\ In kernel kernels.
Proof.
  unfold lut_kernel, lookup_kernel.
  repeat (match goal with |- context [String.eqb ?a ?b] => destruct (String.eqb_spec a b) as [->|_] end;
          [intros [= <-]; split; [vm_compute; reflexivity|cbn; tauto]|]).
  discriminate.
Qed.
Lemma lookup_none kernel : lookup_kernel kernel lut_kernel = None -> kernel <> "333"%string -> ~ In kernel kernels.
Proof.
  unfold lut_kernel, lookup_kernel.
  repeat (match goal with |- context [String.eqb ?a ?b] => destruct (String.eqb_spec a b) as [->|?H] end; [discriminate|]).
  intros _ H' Hin. cbn in Hin. intuition congruence.
Qed.
Lemma box_333 : box "333" = offsets.
Proof. vm_compute. reflexivity. Qed.

Lemma step_from_app {A} n (l1 l2 : list A) s : (List.length l1 <= s)%nat ->
  step_from s n (l1 ++ l2) = step_from (s - List.length l1) n l2.
Proof.
  revert s; induction l1 as [|a l1 IH]; intros s H; cbn [app List.length].
  - rewrite Nat.sub_0_r. reflexivity.
  - destruct s as [|s]; cbn [List.length] in H; [lia|]. cbn [step_from]. rewrite IH by lia. reflexivity.
Qed.
Lemma every_flat_map {A C} n (f : A -> list C) (h : A -> C) (l : list A) : n <> O ->
  (forall a, In a l -> exists t, f a = h a :: t /\ List.length (f a) = n) ->
  every n (flat_map f l) = map h l.
Proof.
  intros Hn H. unfold every. induction l as [|a l IH]; [reflexivity|]. cbn [flat_map map].
  destruct (H a (or_introl eq_refl)) as (t & E & El). rewrite E in El |- *. cbn [List.length] in El.
  cbn [app step_from]. rewrite step_from_app by lia. replace (Nat.pred n - List.length t)%nat with O by lia.
  rewrite IH by (intros a' Ha'; apply H; right; exact Ha'). reflexivity.
Qed.

Lemma every_kids {C} (f : Z -> C) l : every 8 (map f (flat_map kids l)) = map (fun k => f (first_kid k)) l.
Proof.
  rewrite map_flat_map. apply every_flat_map; [discriminate|]. intros k _.
  rewrite map_length, kids_length. unfold kids. cbn [map]. rewrite Z.add_0_r. eauto.
Qed.

Section Get.
  Variables (o : octree) (L : nat) (K : nat -> list Z) (M : nat -> list bool) (a : nat).
  Hypothesis T : tree_upto o L K M.
  Hypothesis N : neigh_upto o K a L.

  (** centres of the rows *)
  Definition centres (d : nat) (stride : Z) (ne : bool) : list Z :=
    if stride =? 1 then sel K M ne d else map first_kid (select (M (Nat.pred d)) (K (Nat.pred d))).

  Lemma get_neigh_Ok d kernel stride ne : (a <= d <= L)%nat -> In kernel kernels ->
    (stride = 1 \/ (stride = 2 /\ (1 <= d)%nat)) ->
    get_neigh o d kernel stride ne = Ok (map (nb_rowg d (sel K M ne d) (box kernel)) (centres d stride ne)).
  Proof.
    intros Hd Hk Hst. destruct (tree_get o L K M T d ltac:(lia)) as (l & El & En & Ek & Ec & _).
    destruct (tree_keys o L K M T d ltac:(lia)) as [Hs Hv].
    assert (HM := t_mask _ _ _ _ T d ltac:(lia)).
    unfold get_neigh. rewrite El. cbn [bind]. rewrite (N d l ltac:(lia) En), Ec. cbn [need bind].
    (* all rows before the kernel selection *)
    assert (E1 : forall cs, (if String.eqb kernel "333" then Ok (map (nb_rowg d (sel K M ne d) offsets) cs)
       else match lookup_kernel kernel lut_kernel with
            | Some lut => mapM (fun row => gather row lut) (map (nb_rowg d (sel K M ne d) offsets) cs)
            | None => Err ValueError end)
       = Ok (map (nb_rowg d (sel K M ne d) (box kernel)) cs)).
    { intros cs. destruct (String.eqb_spec kernel "333") as [->|Hne]; [rewrite box_333; reflexivity|].
      destruct (lookup_kernel kernel lut_kernel) as [lut|] eqn:El'.
      - rewrite mapM_map. apply mapM_Ok. intros k _. apply gather_row. apply lookup_box; exact El'.
      - exfalso. eapply lookup_none; eassumption. }
    change (nb_table d (K d)) with (map (nb_rowg d (K d) offsets) (K d)).
    unfold centres. destruct Hst as [->|[-> Hd1]].
    - change (1 =? 1) with true. cbn iota. destruct ne; cbn [bind].
      + rewrite number_from_mask by lia. rewrite mask_get_Ok by (rewrite map_length; exact HM). cbn [bind].
        rewrite select_map, mapM_map.
        rewrite (mapM_Ok _ (nb_rowg d (select (M d) (K d)) offsets)) by (intros k _; apply remap_row; assumption).
        cbn [bind]. apply E1.
      + apply E1.
    - change (2 =? 1) with false. change (2 =? 2) with true. cbn iota. cbn [bind].
      assert (Eev : every 8 (map (nb_rowg d (K d) offsets) (K d))
                    = map (nb_rowg d (K d) offsets) (map first_kid (select (M (Nat.pred d)) (K (Nat.pred d))))).
      { destruct d as [|d']; [lia|]. rewrite (t_link _ _ _ _ T d' ltac:(lia)) at 2. rewrite pick_select, every_kids, map_map. reflexivity. }
      rewrite Eev. destruct ne; cbn [bind].
      + rewrite mapM_map.
        rewrite (mapM_Ok _ (nb_rowg d (select (M d) (K d)) offsets)) by (intros k _; apply remap_row; assumption).
        cbn [bind]. apply E1.
      + apply E1.
  Qed.

  Lemma first_kid_vkey d k : (S d <= L)%nat -> In k (select (M d) (K d)) -> vkey (batch_size o) (S d) (first_kid k).
  Proof.
    intros Hd Hk. pose proof (t_depth _ _ _ _ T). pose proof (t_L _ _ _ _ T).
    assert (Hv : vkey (batch_size o) d k).
    { apply (tree_vkey o L K M T); [lia|]. apply in_select in Hk. destruct Hk as (p & _ & Hp). eapply nth_error_In; exact Hp. }
    eapply kids_vkey; [|exact Hv|]; [lia|]. unfold kids, first_kid. left. ring.
  Qed.

  Lemma centres_vkey d stride ne : (d <= L)%nat -> (stride = 1 \/ (stride = 2 /\ (1 <= d)%nat)) ->
    Forall (vkey (batch_size o) d) (centres d stride ne).
  Proof.
    intros Hd Hst. unfold centres. destruct Hst as [->|[-> H1]].
    - apply (sel_vkey o L K M T); exact Hd.
    - change (2 =? 1) with false. cbn iota. apply Forall_forall. intros k Hk. apply in_map_iff in Hk.
      destruct Hk as (k0 & <- & Hk0). destruct d as [|d']; [lia|]. apply first_kid_vkey; [exact Hd|exact Hk0].
  Qed.

  Lemma get_neigh_bad_kernel d kernel stride ne : (a <= d <= L)%nat -> ~ In kernel kernels ->
    (stride = 1 \/ (stride = 2 /\ (1 <= d)%nat)) -> get_neigh o d kernel stride ne = Err ValueError.
  Proof.
    intros Hd Hk Hst.
    assert (E3 : get_neigh o d "333" stride ne = Ok (map (nb_rowg d (sel K M ne d) (box "333")) (centres d stride ne)))
      by (apply get_neigh_Ok; [exact Hd|left; reflexivity|exact Hst]).
    unfold get_neigh in *. destruct (get_layer o (Z.of_nat d)) as [l|]; [|discriminate]. cbn [bind] in *.
    match type of E3 with context [bind ?e _] => destruct e as [n1|] end; [|discriminate]. cbn [bind] in *.
    match type of E3 with context [bind ?e _] => destruct e as [n2|] end; [|discriminate]. cbn [bind] in *.
    destruct (String.eqb_spec kernel "333") as [->|Hne]; [exfalso; apply Hk; left; reflexivity|].
    destruct (lookup_kernel kernel lut_kernel) as [lut|] eqn:El; [|reflexivity].
    exfalso. apply Hk. eapply lookup_box. exact El.
  Qed.

  Lemma get_neigh_bad_stride d kernel stride ne : (d <= L)%nat -> stride <> 1 -> stride <> 2 ->
    get_neigh o d kernel stride ne = Err ValueError.
  Proof.
    intros Hd H1 H2. destruct (tree_get o L K M T d Hd) as (l & El & _). unfold get_neigh. rewrite El. cbn [bind].
    rewrite (proj2 (Z.eqb_neq _ _) H1), (proj2 (Z.eqb_neq _ _) H2). reflexivity.
  Qed.
End Get.
