(** Cases for the interpolation theorems. *)
From Coq Require Import String List ZArith Bool QArith Qcanon Lia.
From Verif Require Import Res Tensor Num Points Octree NnBasic NnConv NnInterp Spec SpecNN SpecInterp WF PoolFacts SumFacts NnFacts Finite InterpFacts UpsampleFacts LinearFacts LinearThms Examples ExampleFacts ConvExamples.
Import ListNotations.
Open Scope Z_scope.

Definition ones_for (cs : list (Z * Z * Z * Z)) (q : Z * Z * Z * Z) : feat := map (fun q' => [ind (cell_eqb q q')]) cs.
Definition ex_cells (o : octree) (d : nat) (ne : bool) : list (Z * Z * Z * Z) := match octree_xyzb o d ne with Ok cs => cs | Err _ => [] end.
Definition ex_ind : feat := ones_for (ex_cells ex_built2 2 false) (3, 0, 0, 0).
Definition ex_zero : feat := repeat [0%Qc] 128.
Definition qhalf : Qc := Q2Qc (1 # 2).
Definition ex_border : list qpoint := [((Q2Qc (1 # 4), qhalf, qhalf), 0)].
Lemma ones_shape o d ne q n : octree_xyzb o d ne = Ok (ex_cells o d ne) -> length (ex_cells o d ne) = n -> shape n 1 (ones_for (ex_cells o d ne) q).
Proof. intros _ H. unfold ones_for. split; [rewrite map_length; exact H|]. apply Forall_map. apply Forall_forall. reflexivity. Qed.

Lemma ex_wrap : exists o d ne C data data' pts y y' cs i p b c,
  wf_octree o /\ (d <= depth o)%nat /\ shape (node_count o d ne) C data /\ shape (node_count o d ne) C data' /\ octree_xyzb o d ne = Ok cs /\
  octree_linear_pts C data o d pts ne false = Ok y /\ octree_linear_pts C data' o d pts ne false = Ok y' /\
  nth_error pts i = Some (p, b) /\ in_range d p /\ 0 <= b < Z.of_nat (batch_size o) /\ (c < C)%nat /\
  (forall j q, nth_error cs j = Some q -> (0 < trilinear p b q)%Qc -> at2 data j c = at2 data' j c) /\
  at2 y i c <> at2 y' i c.
Proof.
  exists ex_built2, 2%nat, false, 1%nat, ex_ind, ex_zero, ex_border.
  destruct (octree_linear_pts 1 ex_ind ex_built2 2 ex_border false false) as [y|] eqn:Ey; [|vm_compute in Ey; discriminate Ey].
  destruct (octree_linear_pts 1 ex_zero ex_built2 2 ex_border false false) as [y'|] eqn:Ey'; [|vm_compute in Ey'; discriminate Ey'].
  exists y, y', (ex_cells ex_built2 2 false), 0%nat, (Q2Qc (1 # 4), qhalf, qhalf), 0, 0%nat.
  assert (EN : node_count ex_built2 2 false = 128%nat) by (vm_compute; reflexivity). rewrite EN.
  assert (EC : octree_xyzb ex_built2 2 false = Ok (ex_cells ex_built2 2 false)) by (vm_compute; reflexivity).
  assert (EL : length (ex_cells ex_built2 2 false) = 128%nat) by (vm_compute; reflexivity).
  split; [exact ex_wf2|]. split; [vm_compute; lia|]. split; [apply ones_shape; assumption|]. split; [apply (shape_repeat 128 1)|]. split; [exact EC|].
  split; [reflexivity|]. split; [reflexivity|]. split; [reflexivity|]. split; [vm_compute; repeat split; discriminate|]. split; [vm_compute; split; congruence|]. split; [lia|]. split.
  - assert (HB : forallb (fun jq => implb (qltb 0 (trilinear (Q2Qc (1 # 4), qhalf, qhalf) 0 (snd jq))) (Qc_eq_bool (at2 ex_ind (fst jq) 0) (at2 ex_zero (fst jq) 0)))
      (combine (seq 0 128) (ex_cells ex_built2 2 false)) = true) by (vm_compute; reflexivity).
    intros j q Hj Hq. rewrite forallb_forall in HB. assert (Hjl : (j < 128)%nat) by (rewrite <- EL; apply nth_error_Some; rewrite Hj; discriminate).
    assert (Hin : In (j, q) (combine (seq 0 128) (ex_cells ex_built2 2 false))).
    { apply (nth_error_In _ j). rewrite (nth_error_nth' _ (O, (0, 0, 0, 0))) by (rewrite combine_length, seq_length, EL; lia). rewrite nth_combine by (rewrite seq_length, EL; reflexivity). rewrite seq_nth by exact Hjl.
      rewrite (Unpool.nth_of_error _ _ _ _ Hj). reflexivity. }
    specialize (HB _ Hin). cbn [fst snd] in HB. apply qltb_lt in Hq. rewrite Hq in HB. cbn [implb] in HB. apply Qc_eq_bool_correct. exact HB.
  - assert (X : match octree_linear_pts 1 ex_ind ex_built2 2 ex_border false false, octree_linear_pts 1 ex_zero ex_built2 2 ex_border false false with
      | Ok y, Ok y' => Qc_eq_bool (at2 y 0 0) (at2 y' 0 0) = false | _, _ => False end) by (vm_compute; reflexivity).
    rewrite Ey, Ey' in X. intros E. rewrite E in X. unfold Qc_eq_bool in X. destruct (Qc_eq_dec (at2 y' 0 0) (at2 y' 0 0)); [discriminate|congruence].
Qed.

Definition ex_query : list qpoint := [((- (1), - (1), - (1))%Qc, 0)].
Lemma ex_reuse : exists c pts out pts' out' pts'', icall_run true c pts = Ok (out, pts') /\ icall_run true c pts' = Ok (out', pts'') /\ out <> out' /\
  (let '(_, ne, _, C, data, o, d) := c in wf_octree o /\ (d <= depth o)%nat /\ shape (node_count o d ne) C data) /\
  Forall (fun p : qpoint => let '((x, y, z), _) := p in let ok c := (- (1) <= c)%Qc /\ (c < 1)%Qc in ok x /\ ok y /\ ok z) pts.
Proof.
  pose (c := (false, false, false, 1%nat, repeat [1%Qc] 16, ex_built, 5%nat) : icall).
  exists c, ex_query. destruct (icall_run true c ex_query) as [[out pts']|] eqn:E1; [|vm_compute in E1; discriminate E1]. exists out, pts'.
  assert (X : match icall_run true c ex_query with Ok (out, pts') => match icall_run true c pts' with Ok (out', _) => Qc_eq_bool (at2 out 0 0) (at2 out' 0 0) = false | _ => False end | _ => False end) by (vm_compute; reflexivity).
  rewrite E1 in X. destruct (icall_run true c pts') as [[out' pts'']|]; [|destruct X]. exists out', pts''.
  split; [reflexivity|]. split; [reflexivity|]. split; [intros E; rewrite E in X; unfold Qc_eq_bool in X; destruct (Qc_eq_dec (at2 out' 0 0) (at2 out' 0 0)); [discriminate|congruence]|].
  split.
  - split; [exact ex_wf|]. split; [vm_compute; lia|]. replace (node_count ex_built 5 false) with 16%nat by (vm_compute; reflexivity). apply (shape_repeat 16 1).
  - repeat constructor; vm_compute; discriminate.
Qed.

(** An octree of an empty cloud, and one with nodes, of the same depth. *)
From Verif Require Import MergeExamples.
Lemma ex_void_wf : wf_octree ex_void.
Proof. pose proof ex_mergeable as (_ & _ & F & _). rewrite Forall_forall in F. destruct (F ex_void) as (W & _); [vm_compute; auto|]. exact W. Qed.
Definition ex_pts : list qpoint := [((qf 1 2, qf 1 3, qf 0 1), 0); ((qf 16 1, qf 33 2, qf 3 4), 0); ((qf 40 1, qf 0 1, qf 0 1), 0); ((qf 5 1, qf 5 1, qf 5 1), 0)].
