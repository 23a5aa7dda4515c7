(** octree2voxel, stated with coordinates. *)
From Coq Require Import String List ZArith Bool QArith Qcanon Lia.
From Verif Require Import Res Tensor Num Points Octree NnBasic Spec SpecGeo SpecNeigh SpecNN WF ListFacts KidsFacts WFFacts SearchFacts NeighFacts PadFacts.
Import ListNotations.
Open Scope Z_scope.

Lemma thm_voxel o d ne C x : wf_octree o -> (d <= depth o)%nat -> shape (node_count o d ne) C x ->
  exists cs vox, octree_xyzb o d ne = Ok cs /\ length cs = length x /\ NoDup cs /\
    octree2voxel C x o d ne = Ok vox /\ shape (batch_size o * 8 ^ d) C vox /\
    (forall i X Y Z b, nth_error cs i = Some (X, Y, Z, b) ->
       inside d X Y Z = true /\ 0 <= b < Z.of_nat (batch_size o) /\ nth_error vox (vox_row d b X Y Z) = nth_error x i) /\
    (forall X Y Z b, inside d X Y Z = true -> 0 <= b < Z.of_nat (batch_size o) -> ~ In (X, Y, Z, b) cs ->
       nth_error vox (vox_row d b X Y Z) = Some (repeat 0%Qc C)).
Proof.
  intros (K & M & T) Hd Hx. destruct (tree_voxel o (depth o) K M C x d ne T Hd Hx) as (vox & E & S & V1 & V2).
  pose proof (sel_vkey o (depth o) K M T ne d Hd) as Hv. pose proof (t_depth _ _ _ _ T). assert (H16 : (d <= 16)%nat) by lia.
  exists (map (coords d) (sel K M ne d)), vox. split; [apply (tree_xyzb o (depth o)); assumption|].
  split; [rewrite map_length; destruct Hx as [-> _]; symmetry; apply (node_count_sel o (depth o)); assumption|].
  split.
  { apply (NoDup_map_on _ (vkey (batch_size o) d)); [|exact Hv|apply sorted_NoDup, (sel_sorted o (depth o) K M T); exact Hd].
    intros a b Ha Hb. apply (coords_inj (batch_size o)); assumption. }
  split; [exact E|]. split; [exact S|]. split.
  - intros i X Y Z b Hi. rewrite nth_error_map in Hi. destruct (nth_error (sel K M ne d) i) as [k|] eqn:Ek; [|discriminate]. assert (Ec : coords d k = (X, Y, Z, b)) by (cbn [option_map] in Hi; congruence).
    assert (Hk : vkey (batch_size o) d k) by (rewrite Forall_forall in Hv; apply Hv; eapply nth_error_In; exact Ek).
    destruct (coords_key_of _ _ _ _ _ _ _ H16 Hk Ec) as (E1 & E2 & E3). split; [apply inside_in_cube; exact E2|]. split; [exact E3|].
    apply V1; [congruence|exact E2].
  - intros X Y Z b Hin Hb Hn. apply inside_in_cube in Hin. apply V2; [exact Hin|exact Hb|]. intros Hi. apply Hn.
    apply in_map_iff. exists (key_of d b X Y Z). split; [|exact Hi]. apply coords_of_key; assumption.
Qed.
