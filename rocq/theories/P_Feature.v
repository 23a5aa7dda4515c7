(** Properties of the input features. *)
From Coq Require Import String Ascii List ZArith Bool QArith Qcanon Lia.
From Verif Require Import Res Tensor Key Num Points Octree NnBasic NnConv Spec SpecGeo SpecBuild SpecNN WF
  Features SpecFeature FeatureFacts FeatureRange Examples ExampleFacts.
Import ListNotations.
Open Scope Z_scope.

(** C15: local coordinates are in [-1/2,1/2), global ones in [-1,1). *)
Theorem C15_coordinate_range : forall normalize o pc, build_input o pc -> Forall in_box (p_points pc) ->
  exists o' idx xl xp, build_octree normalize o pc = Ok (o', idx) /\
    get_input_feature 0 o' "L" true = Ok xl /\ get_input_feature 0 o' "P" true = Ok xp /\
    shape (node_count o' (depth o) true) 3 xl /\ shape (node_count o' (depth o) true) 3 xp /\
    Forall (Forall (fun c => (- Q2Qc (1 # 2) <= c)%Qc /\ (c < Q2Qc (1 # 2))%Qc)) xl /\
    Forall (Forall (fun c => (qz (-1) <= c)%Qc /\ (c < qz 1)%Qc)) xp.
Proof. exact thm_local_global. Qed.
Print Assumptions C15_coordinate_range.

Example C15_range_case : build_input ex_octree ex_cloud /\ Forall in_box (p_points ex_cloud).
Proof. split; [exact ex_input|]. repeat constructor; vm_compute; try discriminate; reflexivity. Qed.

(** C71: which channels, in which order, with which values, for every string and octree
    holding the signals asked for. *)
Theorem C71_layout : forall CF o s l ns ps fs, wf_octree o -> get_layer o (Z.of_nat (depth o)) = Ok l ->
  length ns = node_count o (depth o) true -> length ps = node_count o (depth o) true -> shape (node_count o (depth o) true) CF fs ->
  Forall (fun p : v3 Qc => let '(x, y, z) := p in (0 <= x)%Qc /\ (0 <= y)%Qc /\ (0 <= z)%Qc) ps ->
  (asks s "N" "n" || asks s "D" "d" = true -> l_normals l = Some ns) ->
  (asks s "D" "d" || asks s "L" "l" || asks s "P" "p" = true -> l_points l = Some ps) ->
  (asks s "F" "f" = true -> l_features l = Some fs) ->
  asks s "N" "n" || asks s "D" "d" || asks s "L" "l" || asks s "P" "p" || asks s "F" "f" = true ->
  exists x y flags, get_input_feature CF o s true = Ok x /\ get_input_feature CF o s false = Ok y /\
    nempty_mask o (Z.of_nat (depth o)) = Ok flags /\
    shape (node_count o (depth o) true) (channels s CF) x /\ shape (node_count o (depth o) false) (channels s CF) y /\
    (forall i n p f, nth_error ns i = Some n -> nth_error ps i = Some p -> nth_error fs i = Some f ->
       nth_error x i = Some (feature_row s (depth o) n p f)) /\
    octree_depad y o (Z.of_nat (depth o)) = Ok x /\
    (forall i, nth_error flags i = Some false -> nth_error y i = Some (repeat 0%Qc (channels s CF))).
Proof. exact thm_layout. Qed.
Print Assumptions C71_layout.

Example C71_case : wf_octree ex_built /\ exists l ns ps fs, get_layer ex_built 5 = Ok l /\
  l_normals l = Some ns /\ l_points l = Some ps /\ l_features l = Some fs /\
  length ns = node_count ex_built 5 true /\ length ps = node_count ex_built 5 true /\ shape (node_count ex_built 5 true) 2 fs /\
  Forall (fun p : v3 Qc => let '(x, y, z) := p in (0 <= x)%Qc /\ (0 <= y)%Qc /\ (0 <= z)%Qc) ps /\
  channels "fDn" 2 = 6%nat.
Proof.
  split; [exact ex_wf|].
  destruct (get_layer ex_built 5) as [l|e] eqn:E; [|vm_compute in E; discriminate].
  vm_compute in E. assert (Eq : forall (A : Type) (x y : A), Ok x = Ok y -> x = y) by congruence. apply Eq in E. subst l.
  do 4 eexists. split; [reflexivity|]. do 3 (split; [reflexivity|]). do 2 (split; [vm_compute; reflexivity|]).
  split; [split; [vm_compute; reflexivity|repeat constructor]|].
  split; [repeat constructor; vm_compute; discriminate|reflexivity].
Qed.

(** The result depends on the set of letters only. *)
Theorem C71_letters : forall CF o s s' ne,
  asks s "N" "n" = asks s' "N" "n" -> asks s "D" "d" = asks s' "D" "d" -> asks s "L" "l" = asks s' "L" "l" ->
  asks s "P" "p" = asks s' "P" "p" -> asks s "F" "f" = asks s' "F" "f" ->
  get_input_feature CF o s ne = get_input_feature CF o s' ne.
Proof. exact thm_layout_letters. Qed.
Print Assumptions C71_letters.

Example C71_letters_case : asks "Ndf" "N" "n" = asks "FFDn" "N" "n" /\ asks "Ndf" "D" "d" = asks "FFDn" "D" "d" /\
  asks "Ndf" "L" "l" = asks "FFDn" "L" "l" /\ asks "Ndf" "P" "p" = asks "FFDn" "P" "p" /\ asks "Ndf" "F" "f" = asks "FFDn" "F" "f" /\
  exists x, get_input_feature 2 ex_built "FFDn" true = Ok x /\ length x = 3%nat.
Proof.
  repeat (split; [reflexivity|]).
  destruct (get_input_feature 2 ex_built "FFDn" true) as [x|e] eqn:E; [|vm_compute in E; discriminate].
  exists x. split; [reflexivity|]. vm_compute in E. assert (Eq : forall (A : Type) (a b : A), Ok a = Ok b -> a = b) by congruence.
  apply Eq in E. subst x. reflexivity.
Qed.

(** A signal that is not there, or a string without any of the letters, raises. *)
Theorem C71_missing : forall CF o s ne l, get_layer o (Z.of_nat (depth o)) = Ok l ->
  (asks s "N" "n" || asks s "D" "d" = true /\ l_normals l = None) \/
  (asks s "D" "d" || asks s "L" "l" || asks s "P" "p" = true /\ l_points l = None) \/
  (asks s "F" "f" = true /\ l_features l = None) \/
  asks s "N" "n" || asks s "D" "d" || asks s "L" "l" || asks s "P" "p" || asks s "F" "f" = false ->
  exists e, get_input_feature CF o s ne = Err e.
Proof. exact thm_layout_missing. Qed.
Print Assumptions C71_missing.

Example C71_missing_case : exists l, get_layer ex_built2 3 = Ok l /\ l_normals l = None /\ get_input_feature 1 ex_built2 "nf" true = Err TypeError.
Proof. eexists. split; [vm_compute; reflexivity|]. split; vm_compute; reflexivity. Qed.

(** The module returns what the method returns. *)
Theorem C71_module : forall CF s ne o, input_feature CF s ne o = get_input_feature CF o s ne.
Proof. exact thm_input_feature. Qed.
Print Assumptions C71_module.

Example C71_module_case : exists x, input_feature 2 "lp" false ex_built = Ok x.
Proof. destruct (input_feature 2 "lp" false ex_built) eqn:E; [eexists; reflexivity|vm_compute in E; discriminate]. Qed.
