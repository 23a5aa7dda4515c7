(** OctreeUpsample with method "linear": trilinear interpolation at the centres of the
    nodes of the deeper layer, away from the border. *)
From Coq Require Import String List ZArith Bool Lia QArith Qcanon Lqa Field.
From Verif Require Import Res Tensor Key Num Points Octree NnBasic NnConv NnInterp Spec SpecGeo SpecNN SpecInterp WF KeyFacts ListFacts NumFacts ScatterFacts SumFacts NnFacts KidsFacts WFFacts SearchFacts NeighFacts PadFacts PoolFacts Family Finite Unpool InterpFacts UpsampleFacts LinearFacts LinearThms Examples ExampleFacts ConvExamples InterpExamples.

Import ListNotations.
Open Scope Z_scope.

Lemma thm_upsample_linear o d t ne C data : wf_octree o -> (d < t <= depth o)%nat -> shape (node_count o d ne) C data ->
  exists ps cs u, octree_xyzb o d ne = Ok ps /\ octree_xyzb o t ne = Ok cs /\
    octree_upsample "linear" ne C data o d (Some t) = Ok u /\ shape (node_count o t ne) C u /\
    forall j q c, nth_error cs j = Some q -> (c < C)%nat ->
      let '(p, b) := centre (t - d) q in
      interior d p -> at2 u j c = (weighted_sum ps data c p b / (weight_sum ps p b + tiny))%Qc.
Proof.
  intros W Hd Hx. pose proof W as [K [M T]].
  assert (Ec : octree_xyzb o t ne = Ok (map (coords t) (sel K M ne t))) by (apply (tree_xyzb o (depth o) K M); [exact T|lia]).
  set (cs := map (coords t) (sel K M ne t)) in *.
  assert (Hb : Forall batch_in (map (centre (t - d)) cs)).
  { apply Forall_map. apply Forall_forall. intros q Hq. pose proof (cell_bounds o K M T ne t q ltac:(lia) Hq) as B.
    destruct q as [[[x y] z] b]. unfold batch_in, centre. cbn [snd]. pose proof (t_batch _ _ _ _ T). lia. }
  destruct (thm_linear_interior o d ne C data _ W ltac:(lia) Hx Hb) as (ps & u & Ep & Eu & Hu & H).
  exists ps, cs, u. split; [exact Ep|]. split; [exact Ec|]. split; [|split].
  - unfold octree_upsample. destruct (Nat.eqb_spec t d) as [E|_]; [lia|].
    replace (Nat.leb d t) with true by (symmetry; apply Nat.leb_le; lia). cbn [assert_ bind].
    change (String.eqb "linear" "nearest") with false. change (String.eqb "linear" "linear") with true. rewrite andb_false_r, Ec. cbn [bind].
    rewrite <- Eu. f_equal. apply map_ext. intros [[[x y] z] b]. unfold centre, v3map.
    replace (Z.of_nat d - Z.of_nat t) with (- Z.of_nat (t - d)) by lia. rewrite q2pow_neg. reflexivity.
  - rewrite (node_count_sel o (depth o) K M T) by lia. rewrite <- (map_length (coords t)). rewrite map_length in Hu. exact Hu.
  - intros j q c Hj Hc. destruct (centre (t - d) q) as [p b] eqn:E. intros Hi. apply H; [|exact Hi|exact Hc].
    rewrite nth_error_map, Hj. cbn [option_map]. rewrite E. reflexivity.
Qed.

(** At the border the children take part of their value from the opposite side. *)
Lemma ex_up_wrap : exists o d t ne C data data' ps cs u u' j q c,
  wf_octree o /\ (d < t <= depth o)%nat /\ shape (node_count o d ne) C data /\ shape (node_count o d ne) C data' /\
  octree_xyzb o d ne = Ok ps /\ octree_xyzb o t ne = Ok cs /\
  octree_upsample "linear" ne C data o d (Some t) = Ok u /\ octree_upsample "linear" ne C data' o d (Some t) = Ok u' /\
  nth_error cs j = Some q /\ (c < C)%nat /\
  (forall i r, nth_error ps i = Some r -> (0 < trilinear (fst (centre (t - d) q)) (snd (centre (t - d) q)) r)%Qc -> at2 data i c = at2 data' i c) /\
  at2 u j c <> at2 u' j c.
Proof.
  destruct (thm_upsample_linear ex_built2 2 3 false 1 ex_ind ex_wf2) as (ps & cs & u & Ep & Ec & Eu & _).
  { vm_compute. repeat constructor. }
  { replace (node_count ex_built2 2 false) with 128%nat by (vm_compute; reflexivity). apply ones_shape; vm_compute; reflexivity. }
  destruct (thm_upsample_linear ex_built2 2 3 false 1 ex_zero ex_wf2) as (ps' & cs' & u' & _ & _ & Eu' & _).
  { vm_compute. repeat constructor. }
  { replace (node_count ex_built2 2 false) with 128%nat by (vm_compute; reflexivity). apply (shape_repeat 128 1). }
  exists ex_built2, 2%nat, 3%nat, false, 1%nat, ex_ind, ex_zero, (ex_cells ex_built2 2 false), (ex_cells ex_built2 3 false), u, u', 13%nat, (5, 2, 7, 0), 0%nat.
  assert (EN : node_count ex_built2 2 false = 128%nat) by (vm_compute; reflexivity). rewrite EN.
  assert (EC : octree_xyzb ex_built2 2 false = Ok (ex_cells ex_built2 2 false)) by (vm_compute; reflexivity).
  assert (EL : length (ex_cells ex_built2 2 false) = 128%nat) by (vm_compute; reflexivity).
  split; [exact ex_wf2|]. split; [vm_compute; repeat constructor|]. split; [apply ones_shape; assumption|]. split; [apply (shape_repeat 128 1)|]. split; [exact EC|].
  split; [vm_compute; reflexivity|]. split; [exact Eu|]. split; [exact Eu'|]. split; [vm_compute; reflexivity|]. split; [lia|]. split.
  - set (pb := centre (3 - 2) (5, 2, 7, 0)).
    assert (HB : forallb (fun jq => implb (qltb 0 (trilinear (fst pb) (snd pb) (snd jq))) (Qc_eq_bool (at2 ex_ind (fst jq) 0) (at2 ex_zero (fst jq) 0)))
      (combine (seq 0 128) (ex_cells ex_built2 2 false)) = true) by (vm_compute; reflexivity).
    intros j q Hj Hq. rewrite forallb_forall in HB. assert (Hjl : (j < 128)%nat) by (rewrite <- EL; apply nth_error_Some; rewrite Hj; discriminate).
    assert (Hin : In (j, q) (combine (seq 0 128) (ex_cells ex_built2 2 false))).
    { apply (nth_error_In _ j). rewrite (nth_error_nth' _ (O, (0, 0, 0, 0))) by (rewrite combine_length, seq_length, EL; lia). rewrite nth_combine by (rewrite seq_length, EL; reflexivity). rewrite seq_nth by exact Hjl.
      rewrite (Unpool.nth_of_error _ _ _ _ Hj). reflexivity. }
    specialize (HB _ Hin). cbn [fst snd] in HB. apply qltb_lt in Hq. rewrite Hq in HB. cbn [implb] in HB. apply Qc_eq_bool_correct. exact HB.
  - assert (X : match octree_upsample "linear" false 1 ex_ind ex_built2 2 (Some 3%nat), octree_upsample "linear" false 1 ex_zero ex_built2 2 (Some 3%nat) with
      | Ok y, Ok y' => Qc_eq_bool (at2 y 13 0) (at2 y' 13 0) = false | _, _ => False end) by (vm_compute; reflexivity).
    rewrite Eu, Eu' in X. intros E. rewrite E in X. unfold Qc_eq_bool in X. destruct (Qc_eq_dec (at2 u' 13 0) (at2 u' 13 0)); [discriminate|congruence].
Qed.
