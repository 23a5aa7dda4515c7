(** Concrete cases for the theorems of P_Ounet.v. *)
From Coq Require Import String List ZArith Bool QArith Qcanon Lia.
From Verif Require Import Res Tensor Num Points Octree NnBasic Features Net Spec SpecGeo SpecBuild WF SpecGrow SpecNeigh SpecNN SpecNet NetFacts NetAe NetBuilt Examples NetExamples Ounet SpecOunet OunetFacts DecodeExamples ShapeExamples.
Import ListNotations.
Open Scope Z_scope.

(** Two octrees with one point each, in opposite corners. *)
Definition ex_corner_cloud (s : Z) : pcloud Qc :=
  let c := Q2Qc (s * 3 # 4) in mkPoints [(c, c, c)] (Some [(qz 0, qz 0, qz 1)]) None None None 1 None 0.
Definition ex_corner (s : Z) : octree :=
  match build_octree (fun v => v) (octree_new 2 1 1 0) (ex_corner_cloud s) with
  | Ok (o, _) => match construct_all_neigh o with Ok o => o | Err _ => o end
  | Err _ => octree_new 2 1 1 0
  end.
Definition ex_convs : ddict (list (list Qc)) := [(2, ex_x 8 2); (1, map (map Qcopp) (ex_x 8 2))].
Lemma ex_corner_ready s : wf_octree (ex_corner s) /\ depth (ex_corner s) = 2%nat /\ full_depth (ex_corner s) = 1%nat /\ layers_ready (ex_corner s) false 0 1 2.
Proof.
  assert (HI : build_input (octree_new 2 1 1 0) (ex_corner_cloud s)).
  { constructor; cbn [full_depth depth batch_size layers octree_new]; try (vm_compute; reflexivity); try lia.
    constructor; cbn [p_points p_normals p_features p_labels p_batch_id p_batch_size ex_corner_cloud]; try lia; try (intros; discriminate).
    intros n [= <-]. reflexivity. }
  destruct (thm_built_ready (fun v => v) (octree_new 2 1 1 0) (ex_corner_cloud s) HI) as (o1 & idx & o2 & E1 & E2 & W & D1 & D2 & D3 & H); [cbn; lia|].
  assert (Eo : o2 = ex_corner s) by (unfold ex_corner; rewrite E1, E2; reflexivity). subst o2. repeat (split; [assumption|]). apply (H false).
Qed.
Lemma ex_convs_in s : s = 1 \/ s = -1 -> forall d, (1 < d <= 2)%nat -> (0 < node_count (ex_corner s) d false)%nat /\
  exists v, dfind ex_convs (Z.of_nat d) = Ok v /\ shape (node_count (ex_corner s) d false) (nth d (a_ch ex_small_ae) O) v.
Proof.
  intros Hs d Hd. assert (d = 2%nat) by lia. subst d. destruct Hs as [-> | ->]; (split; [apply Nat.ltb_lt; vm_compute; reflexivity|]; eexists; split; [reflexivity|apply width_shape; vm_compute; reflexivity]).
Qed.
Lemma ex_convs_code s : s = 1 \/ s = -1 -> exists code, dfind ex_convs 1 = Ok code /\ shape (node_count (ex_corner s) 1 false) 2 code.
Proof. intros [-> | ->]; (eexists; split; [reflexivity|apply width_shape; vm_compute; reflexivity]). Qed.
Lemma ex_apart : forall d ps qs q, (1 < d <= 2)%nat -> octree_xyzb (ex_corner 1) d false = Ok ps -> octree_xyzb (ex_corner (-1)) d false = Ok qs -> In q ps -> In q qs -> False.
Proof.
  intros d ps qs q Hd. assert (d = 2%nat) by lia. subst d. intros E1 E2.
  assert (F1 : ps = match octree_xyzb (ex_corner 1) 2 false with Ok l => l | Err _ => [] end) by (rewrite E1; reflexivity).
  assert (F2 : qs = match octree_xyzb (ex_corner (-1)) 2 false with Ok l => l | Err _ => [] end) by (rewrite E2; reflexivity).
  vm_compute in F1. vm_compute in F2. clear E1 E2. subst. cbn [In]. intros H1 H2.
  repeat destruct H1 as [H1|H1]; try contradiction; subst q; repeat destruct H2 as [H2|H2]; try discriminate; contradiction.
Qed.
Lemma ex_call : NoDup (map fst ae_signature) /\ call_allowed ae_signature [PInt 4; PInt 4] [("feature", PStr "N"); ("depth", PInt 5)]%string /\
  ~ call_allowed ae_signature [PInt 4; PInt 4] [("feature", PStr "N"); ("channel_in", PInt 5)]%string.
Proof.
  split; [|split].
  - cbn. repeat constructor; cbn; intuition discriminate.
  - split; [cbn; lia|]. split.
    + intros k [<-|[<-|[]]]; [exists 4%nat, (Some (PStr "ND"))|exists 2%nat, None]; (split; [cbn; lia|reflexivity]).
    + intros i k Hi E. cbn [length] in Hi. destruct i as [|[|[|[|[|i]]]]]; try lia; cbn in E; try discriminate; [|destruct i; discriminate]. injection E as <-. right. left. reflexivity.
  - intros (_ & H & _). destruct (H "channel_in"%string) as (i & dflt & Hi & E); [right; left; reflexivity|]. cbn [length] in Hi.
    destruct i as [|[|[|[|[|i]]]]]; try lia; cbn in E; try discriminate. destruct i; discriminate.
Qed.
Lemma ex_ou_grow : ae_config ex_small_ae /\ norms_keep 0 ex_constant /\ wf_octree ex_grid_octree /\ a_depth ex_small_ae = depth ex_grid_octree /\
  layers_ready ex_grid_octree false 0 (a_full ex_small_ae) (a_depth ex_small_ae) /\ channel_ok 4 /\ a_code ex_small_ae = nth (a_full ex_small_ae) (a_ch ex_small_ae) O /\
  (a_full ex_small_ae <= full_depth ex_grid_octree)%nat /\ (1 <= batch_size ex_grid_octree)%nat /\
  (forall d, (a_full ex_small_ae < d <= a_depth ex_small_ae)%nat -> (0 < node_count ex_grid_octree d false)%nat) /\
  exists x, get_input_feature 0 ex_grid_octree "ND" false = Ok x /\ shape (node_count ex_grid_octree (a_depth ex_small_ae) false) 4 x.
Proof.
  destruct ex_grid_ready as (W & D1 & D2 & D3 & HL). split; [exact ex_small_ae_ok|]. split; [exact ex_norms_constant|]. split; [exact W|]. split; [vm_compute; reflexivity|]. split; [exact HL|].
  split; [vm_compute; discriminate|]. split; [reflexivity|]. split; [apply Nat.leb_le; vm_compute; reflexivity|]. split; [apply Nat.leb_le; vm_compute; reflexivity|]. split.
  - intros d Hd. cbn in Hd. assert (d = 2%nat) by lia. subst d. apply Nat.ltb_lt. vm_compute. reflexivity.
  - destruct (ok_check (get_input_feature 0 ex_grid_octree "ND" false) (fun x => Nat.eqb (length x) (node_count ex_grid_octree 2 false) && all_width 4 x)) as (x & Ex & Hx); [vm_compute; reflexivity|].
    exists x. split; [exact Ex|apply width_shape; exact Hx].
Qed.
