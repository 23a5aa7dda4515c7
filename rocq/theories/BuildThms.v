(** Theorems about build_octree in the vocabulary of the specification files. *)
From Coq Require Import List ZArith Bool Lia Field Sorting.Sorted Sorting.Permutation QArith Qcanon.
From Verif Require Import Res Tensor Key Num Points Octree Spec SpecGeo SpecBuild WF KeyFacts ListFacts KidsFacts
  NumFacts ScatterFacts BuildFacts BuildClosed WFFacts SearchFacts BuildProps OrderFacts.
Import ListNotations.
Open Scope Z_scope.

Lemma in_new dep full bs dev pc : (full <= dep <= 16)%nat -> Z.of_nat bs <= 32768 -> good_cloud bs pc ->
  build_input (octree_new dep full bs dev) pc.
Proof.
  intros H HB G. constructor; cbn [octree_new full_depth depth batch_size layers]; try lia; try exact G.
  rewrite repeat_length. lia.
Qed.

Lemma thm_build_wf normalize o pc : build_input o pc ->
  exists o' idx, build_octree normalize o pc = Ok (o', idx) /\ wf_octree o' /\
    depth o' = depth o /\ full_depth o' = full_depth o /\ batch_size o' = batch_size o /\ device o' = p_device pc.
Proof. intros [H1 H2 H3 H4 H5]. apply build_wf; assumption. Qed.

Lemma thm_occupied normalize o pc d : build_input o pc -> Forall in_box (p_points pc) ->
  (full_depth o <= d <= depth o)%nat ->
  exists o' idx ks cs, build_octree normalize o pc = Ok (o', idx) /\
    octree_key o' (Z.of_nat d) true = Ok ks /\ increasing ks /\
    octree_xyzb o' d true = Ok cs /\ length cs = length ks /\ NoDup cs /\
    forall x y z b, In (x, y, z, b) cs <-> exists p, In (p, b) (located pc) /\ in_cell d x y z p.
Proof. intros [H1 H2 H3 H4 H5] Hb Hd. apply build_occupied; assumption. Qed.

Lemma thm_finest normalize o pc : build_input o pc -> Forall in_box (p_points pc) ->
  exists o' idx ks cs, build_octree normalize o pc = Ok (o', idx) /\
    octree_key o' (Z.of_nat (depth o)) true = Ok ks /\ increasing ks /\
    octree_xyzb o' (depth o) true = Ok cs /\ length cs = length ks /\ NoDup cs /\
    forall x y z b, In (x, y, z, b) cs <-> exists p, In (p, b) (located pc) /\ in_cell (depth o) x y z p.
Proof. intros H Hb. apply thm_occupied; [exact H|exact Hb|]. destruct H. lia. Qed.

Lemma thm_complete normalize o pc d : build_input o pc -> (d <= full_depth o)%nat ->
  exists o' idx cs, build_octree normalize o pc = Ok (o', idx) /\
    octree_xyzb o' d false = Ok cs /\ length cs = (8 ^ d * batch_size o)%nat /\
    (forall x y z b, In (x, y, z, b) cs <-> in_cube d x y z /\ 0 <= b < Z.of_nat (batch_size o)) /\
    ((d < full_depth o)%nat -> octree_xyzb o' d true = Ok cs).
Proof.
  intros [H1 H2 H3 H4 H5] Hd.
  destruct (build_complete normalize o pc H1 H2 H3 H4 H5 d Hd) as (o' & idx & cs & E & E1 & E2 & E3).
  exists o', idx, cs. split; [exact E|]. split; [exact E1|]. split; [exact E2|]. split; [exact E3|].
  intros Hlt. destruct (built_tree normalize o pc H1 H2 H3 H4 H5) as (o'' & E' & Hd' & Hfd & Hbs & _ & T & _).
  rewrite E in E'. assert (o'' = o') by congruence. subst o''.
  rewrite (tree_xyzb o' _ _ _ d false T) in E1 by lia. rewrite (tree_xyzb o' _ _ _ d true T) by lia.
  rewrite <- E1. do 2 f_equal. cbn [sel]. apply select_all_true.
  - apply bM_length.
  - rewrite (tree_full_mask o' _ _ _ T) by lia. intros b Hb. apply repeat_spec in Hb. exact Hb.
Qed.

Lemma thm_point_map normalize o pc : build_input o pc -> Forall in_box (p_points pc) ->
  exists o' idx cs, build_octree normalize o pc = Ok (o', idx) /\
    octree_xyzb o' (depth o) true = Ok cs /\ length idx = length (p_points pc) /\
    forall i p b e, nth_error (p_points pc) i = Some p -> nth_error (point_batches pc) i = Some b ->
      nth_error idx i = Some e ->
      exists x y z, 0 <= e /\ nth_error cs (Z.to_nat e) = Some (x, y, z, b) /\ in_cell (depth o) x y z p.
Proof. intros [H1 H2 H3 H4 H5] Hb. apply build_point_map; assumption. Qed.

Lemma thm_layer o L d : wf_upto o L -> (d <= L)%nat ->
  exists l ks flags, get_layer o (Z.of_nat d) = Ok l /\ keys l = Some ks /\
    increasing ks /\ Forall (valid_key (batch_size o) d) ks /\ length flags = length ks /\
    children l = Some (number_from 0 flags) /\
    octree_key o (Z.of_nat d) true = Ok (pick flags ks) /\
    ((d < L)%nat -> exists l', get_layer o (Z.of_nat (S d)) = Ok l' /\ keys l' = Some (flat_map kids (pick flags ks))).
Proof.
  intros (K & M & T) Hd. destruct (tree_get o L K M T d Hd) as (l & El & _ & Ek & Ec & _ & _).
  exists l, (K d), (M d). split; [exact El|]. split; [exact Ek|].
  destruct (tree_keys o L K M T d Hd) as [Hs Hv].
  split; [exact Hs|]. split; [eapply Forall_impl; [|exact Hv]; intros k Hk; apply vkey_valid; exact Hk|].
  split; [apply (t_mask _ _ _ _ T); exact Hd|]. split; [exact Ec|].
  split; [rewrite pick_select; apply (tree_key o L K M T d true Hd)|].
  intros Hlt. destruct (tree_get o L K M T (S d) Hlt) as (l' & El' & _ & Ek' & _).
  exists l'. split; [exact El'|]. rewrite Ek'. f_equal. apply (t_link _ _ _ _ T). exact Hlt.
Qed.

Lemma thm_counters o L d : wf_upto o L -> (d <= L)%nat ->
  exists l ks cs, get_layer o (Z.of_nat d) = Ok l /\ keys l = Some ks /\ children l = Some cs /\
    nnum l = Z.of_nat (length ks) /\ length cs = length ks /\
    nnum_nempty l = Z.of_nat (length (filter (fun c => 0 <=? c) cs)) /\
    ((d < L)%nat -> exists l', get_layer o (Z.of_nat (S d)) = Ok l' /\ nnum l' = 8 * nnum_nempty l).
Proof.
  intros (K & M & T) Hd. destruct (tree_get o L K M T d Hd) as (l & El & _ & Ek & Ec & En & Ene).
  exists l, (K d), (number_from 0 (M d)). split; [exact El|]. split; [exact Ek|]. split; [exact Ec|]. split; [exact En|].
  split; [rewrite number_from_length; apply (t_mask _ _ _ _ T); exact Hd|].
  split.
  - rewrite Ene. unfold nflag. f_equal.
    rewrite <- (number_from_mask 0 (M d)) at 1 by lia.
    generalize (number_from 0 (M d)). induction l0 as [|c t IH]; [reflexivity|].
    cbn [map filter]. destruct (0 <=? c); cbn [length]; rewrite IH; reflexivity.
  - intros Hlt. destruct (tree_get o L K M T (S d) Hlt) as (l' & El' & _ & _ & _ & En' & _).
    exists l'. split; [exact El'|]. rewrite En', Ene, nflag_count, (tree_len_S o L K M T) by exact Hlt. lia.
Qed.

Lemma rescale_units d p : rescale d p = in_cell_units d p.
Proof.
  destruct p as [[x y] z]. unfold rescale, in_cell_units, v3map. rewrite <- (q2pow_pred d).
  change (qz 1) with 1%Qc. apply f_equal2; [apply f_equal2|]; field; discriminate.
Qed.

Lemma thm_signals normalize o pc : build_input o pc ->
  exists o' idx l, build_octree normalize o pc = Ok (o', idx) /\
    get_layer o' (Z.of_nat (depth o)) = Ok l /\
    (exists pts, l_points l = Some pts /\ Z.of_nat (length pts) = nnum_nempty l /\
       forall e q, nth_error pts e = Some q ->
         q = mean3 (rows_at idx (Z.of_nat e) (map (in_cell_units (depth o)) (p_points pc))) /\
         (0 < length (rows_at idx (Z.of_nat e) (p_points pc)))%nat) /\
    (forall n, p_normals pc = Some n -> exists ns, l_normals l = Some ns /\ Z.of_nat (length ns) = nnum_nempty l /\
       forall e q, nth_error ns e = Some q -> q = normalize (sum3 (rows_at idx (Z.of_nat e) n))) /\
    (forall f, p_features pc = Some f -> exists fs, l_features l = Some fs /\ Z.of_nat (length fs) = nnum_nempty l /\
       forall e q, nth_error fs e = Some q -> q = meanv (width f) (rows_at idx (Z.of_nat e) f)).
Proof.
  intros [H1 H2 H3 H4 H5]. rewrite <- (map_ext _ _ (rescale_units (depth o))). apply build_signals; assumption.
Qed.

Lemma thm_mean_cell normalize o pc : build_input o pc -> Forall in_box (p_points pc) ->
  exists o' idx l pts cs, build_octree normalize o pc = Ok (o', idx) /\
    get_layer o' (Z.of_nat (depth o)) = Ok l /\ l_points l = Some pts /\
    octree_xyzb o' (depth o) true = Ok cs /\ length pts = length cs /\
    forall e qx qy qw x y z b, nth_error pts e = Some (qx, qy, qw) -> nth_error cs e = Some (x, y, z, b) ->
      qfloor qx = x /\ qfloor qy = y /\ qfloor qw = z /\ in_cube (depth o) x y z.
Proof. intros [H1 H2 H3 H4 H5] Hb. apply build_mean_cell; assumption. Qed.

Lemma thm_order normalize o pc order : build_input o pc ->
  Permutation order (seq 0 (length (p_points pc))) ->
  exists o' idx, build_octree normalize o pc = Ok (o', idx) /\
    build_octree normalize o (reorder_cloud order pc) = Ok (o', reorder order idx).
Proof. intros [H1 H2 H3 H4 H5] P. apply build_order; assumption. Qed.

Lemma thm_upper_face normalize o dev py pz pc :
  pc = mkPoints [(qz 1, py, pz)] None None None None 1 None dev ->
  build_input o pc -> (1 <= depth o)%nat -> in_unit py -> in_unit pz ->
  exists o' idx y z, build_octree normalize o pc = Ok (o', idx) /\
    octree_xyzb o' (depth o) true = Ok [(0, y, z, 0)] /\
    in_slab (depth o) y py /\ in_slab (depth o) z pz /\ ~ in_slab (depth o) 0 (qz 1).
Proof.
  intros -> [H1 H2 H3 H4 H5] Hd Hy Hz. apply build_upper_face; try assumption; try lia.
  symmetry. exact (gc_size _ _ H5).
Qed.
