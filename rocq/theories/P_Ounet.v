(** Property C96: the completion network. *)
From Coq Require Import String List ZArith Bool QArith Qcanon Lia.
From Verif Require Import Res Tensor Num Points Octree NnBasic Features Net Ounet WF SpecGrow SpecNeigh SpecNN SpecNet SpecMerge SpecOunet NetFacts NetExamples ShapeExamples OunetFacts OunetGrow OunetCall OunetExamples.
Import ListNotations.
Open Scope Z_scope.

(** C96: a call by position and keyword gives every parameter the value it should, exactly
    when it is allowed; else it raises a TypeError. *)
Theorem C96_call : forall V (sig : signature V) args kwargs, NoDup (map fst sig) ->
  (call_allowed sig args kwargs -> exists env, bind_call sig args kwargs = Ok env /\ length env = length sig /\
     forall i k dflt, nth_error sig i = Some (k, dflt) -> exists v, nth_error env i = Some (k, v) /\ receives args kwargs i k dflt v) /\
  (~ call_allowed sig args kwargs -> bind_call sig args kwargs = Err TypeError).
Proof. exact @thm_call. Qed.
Print Assumptions C96_call.
(** C96: whatever the arguments and keywords, constructing an OUNet raises a TypeError (its
    parent knows no parameter code_channel) ... *)
Theorem C96_construct_refuted : forall args kwargs, OUNet_init args kwargs = Err TypeError.
Proof. exact thm_ounet_init. Qed.
Print Assumptions C96_construct_refuted.
(** ... so the completion project has no model for any flags, *)
Theorem C96_completion_refuted : forall channel nout depth full_depth feature,
  completion_get_model channel nout depth full_depth feature = Err TypeError.
Proof. exact thm_completion. Qed.
Print Assumptions C96_completion_refuted.

(** C96: the decoder on a given output octree, with the features of the encoder as
    arguments: one row of logits per node of the output octree, one signal per non-empty
    node, the octree unchanged; where input and output octree share no cell below the full
    layers it decodes exactly like the auto-encoder.
    Missing: the encoder and the construction, which always raise. *)
Theorem C96_decoder_partial : forall g P cout lo convs octree_in octree_out, ae_config g -> norms_keep lo P ->
  wf_octree octree_in -> wf_octree octree_out -> a_depth g = depth octree_in -> a_depth g = depth octree_out ->
  layers_ready octree_out false lo (a_full g) (a_depth g) ->
  (forall d, (a_full g < d <= a_depth g)%nat -> (0 < node_count octree_in d false)%nat /\
     exists v, dfind convs (Z.of_nat d) = Ok v /\ shape (node_count octree_in d false) (nth d (a_ch g) O) v) ->
  forall code, dfind convs (Z.of_nat (a_full g)) = Ok code -> shape (node_count octree_out (a_full g) false) (a_code g) code ->
  exists logits signal, ou_decoder g P cout convs octree_in octree_out false = Ok (logits, signal, octree_out) /\
    (forall d, (a_full g <= d <= a_depth g)%nat -> exists logit, dfind logits (Z.of_nat d) = Ok logit /\ shape (node_count octree_out d false) 2 logit) /\
    shape (node_count octree_out (a_depth g) true) cout signal /\
    ((forall d ps qs q, (a_full g < d <= a_depth g)%nat -> octree_xyzb octree_in d false = Ok ps -> octree_xyzb octree_out d false = Ok qs -> In q ps -> In q qs -> False) ->
     ae_decoder g P cout code octree_out false = Ok (logits, signal, octree_out)).
Proof. exact thm_ou_decoder. Qed.
Print Assumptions C96_decoder_partial.

(** C96: the features of the input octree are used at the output nodes of the same cell
    only: changing them elsewhere changes nothing. *)
Theorem C96_shared_partial : forall g P cout convs convs' octree_in octree_out, wf_octree octree_in -> wf_octree octree_out ->
  a_depth g = depth octree_in -> a_depth g = depth octree_out ->
  dfind convs (Z.of_nat (a_full g)) = dfind convs' (Z.of_nat (a_full g)) ->
  (forall d, (a_full g < d <= a_depth g)%nat -> (0 < node_count octree_in d false)%nat /\
    exists C v v', dfind convs (Z.of_nat d) = Ok v /\ dfind convs' (Z.of_nat d) = Ok v' /\
      shape (node_count octree_in d false) C v /\ shape (node_count octree_in d false) C v' /\
      forall ps qs i q, octree_xyzb octree_in d false = Ok ps -> octree_xyzb octree_out d false = Ok qs ->
        nth_error ps i = Some q -> In q qs -> nth_error v i = nth_error v' i) ->
  ou_decoder g P cout convs octree_in octree_out false = ou_decoder g P cout convs' octree_in octree_out false.
Proof. exact thm_ou_shared. Qed.
Print Assumptions C96_shared_partial.

(** C96: an object, however it is made, cannot be called: its encoder uses a method that
    the class does not have. *)
Theorem C96_encoder_refuted : forall g P cin cout octree_in octree_out update r,
  OUNet_forward g P cin cout no_method octree_in octree_out update <> Ok r.
Proof. exact thm_ou_no_method. Qed.
Print Assumptions C96_encoder_refuted.

(** C96: with a method that gives one row per finest node, without an output octree and for
    every configuration whose code has as many channels as the full layer, the network grows
    an octree: well-formed, with tables and no empty layer, in which exactly the predicted
    nodes are non-empty, with the signals stored at the finest depth; run again on that
    octree, or on any with the same nodes and its neighbourhoods, it gives the same logits
    and signals.
    Missing: the construction, which always raises, and the method. *)
Theorem C96_grow_partial : forall g P cin cout lo get_input octree_in, ae_config g -> norms_keep lo P -> wf_octree octree_in ->
  a_depth g = depth octree_in -> layers_ready octree_in false lo (a_full g) (a_depth g) -> channel_ok cin ->
  a_code g = nth (a_full g) (a_ch g) O -> (a_full g <= full_depth octree_in)%nat -> (1 <= batch_size octree_in)%nat -> (lo <= 8)%nat ->
  (forall d, (a_full g < d <= a_depth g)%nat -> (0 < node_count octree_in d false)%nat) ->
  forall x, get_input octree_in = Ok x -> shape (node_count octree_in (a_depth g) false) cin x ->
  forall update, exists logits signal o, OUNet_forward g P cin cout get_input octree_in None update = Ok (logits, signal, o) /\
    depth o = a_depth g /\ full_depth o = a_full g /\ batch_size o = batch_size octree_in /\ wf_octree o /\
    (forall d, (d <= a_depth g)%nat -> has_neigh o d /\ (0 < node_count o d true)%nat) /\
    (forall d, (a_full g <= d <= a_depth g)%nat -> exists logit flags,
       dfind logits (Z.of_nat d) = Ok logit /\ shape (node_count o d false) 2 logit /\
       nempty_mask o (Z.of_nat d) = Ok flags /\ obeys logit flags) /\
    shape (node_count o (a_depth g) true) cout signal /\
    (exists l, nth_error (layers o) (a_depth g) = Some l /\ l_features l = Some signal) /\
    (forall o2, depth o2 = depth o -> full_depth o2 = full_depth o -> batch_size o2 = batch_size o -> Forall2 same_tree (layers o) (layers o2) ->
       (forall d, (a_full g <= d <= a_depth g)%nat -> has_neigh o2 d) ->
       OUNet_forward g P cin cout get_input octree_in (Some o2) false = Ok (logits, signal, o2)).
Proof. exact thm_ou_forward. Qed.
Print Assumptions C96_grow_partial.

Example C96_case : exists env, AutoEncoder_init [PInt 4; PInt 4; PInt 6] [("feature"%string, PStr "ND")] = Ok env /\
  bind_call ou_signature [PInt 4; PInt 4; PInt 6] [("full_depth"%string, PInt 3)] =
    Ok [("channel_in", PInt 4); ("channel_out", PInt 4); ("depth", PInt 6); ("full_depth", PInt 3); ("feature", PStr "ND")]%string.
Proof. eexists. split; vm_compute; reflexivity. Qed.
Example C96_decoder_case : ae_config ex_small_ae /\ norms_keep 0 ex_constant /\ wf_octree (ex_corner 1) /\ wf_octree (ex_corner (-1)) /\
  layers_ready (ex_corner (-1)) false 0 (a_full ex_small_ae) (a_depth ex_small_ae) /\
  (forall d, (a_full ex_small_ae < d <= a_depth ex_small_ae)%nat -> (0 < node_count (ex_corner 1) d false)%nat /\
     exists v, dfind ex_convs (Z.of_nat d) = Ok v /\ shape (node_count (ex_corner 1) d false) (nth d (a_ch ex_small_ae) O) v) /\
  (exists code, dfind ex_convs 1 = Ok code /\ shape (node_count (ex_corner (-1)) 1 false) 2 code) /\
  (forall d ps qs q, (1 < d <= 2)%nat -> octree_xyzb (ex_corner 1) d false = Ok ps -> octree_xyzb (ex_corner (-1)) d false = Ok qs -> In q ps -> In q qs -> False).
Proof.
  split; [exact ex_small_ae_ok|]. split; [exact ex_norms_constant|]. split; [apply ex_corner_ready|]. split; [apply ex_corner_ready|]. split; [apply ex_corner_ready|].
  split; [apply ex_convs_in; auto|]. split; [apply ex_convs_code; auto|]. exact ex_apart.
Qed.
(** where the octrees share cells the result is not that of the auto-encoder *)
Example C96_skip_case :
  match ou_decoder ex_small_ae ex_params 1 ex_convs (ex_corner 1) (ex_corner 1) false,
        ae_decoder ex_small_ae ex_params 1 (map (map Qcopp) (ex_x 8 2)) (ex_corner 1) false with
  | Ok (l, s, _), Ok (l', s', _) => map (fun p => map (map this) (snd p)) l <> map (fun p => map (map this) (snd p)) l'
  | _, _ => False
  end.
Proof. vm_compute. discriminate. Qed.
Example C96_call_case : NoDup (map fst ae_signature) /\ call_allowed ae_signature [PInt 4; PInt 4] [("feature", PStr "N"); ("depth", PInt 5)]%string /\
  ~ call_allowed ae_signature [PInt 4; PInt 4] [("feature", PStr "N"); ("channel_in", PInt 5)]%string.
Proof. exact ex_call. Qed.
Example C96_grow_case : ae_config ex_small_ae /\ norms_keep 0 ex_constant /\ wf_octree ex_grid_octree /\ a_depth ex_small_ae = depth ex_grid_octree /\
  layers_ready ex_grid_octree false 0 (a_full ex_small_ae) (a_depth ex_small_ae) /\ channel_ok 4 /\ a_code ex_small_ae = nth (a_full ex_small_ae) (a_ch ex_small_ae) O /\
  (a_full ex_small_ae <= full_depth ex_grid_octree)%nat /\ (1 <= batch_size ex_grid_octree)%nat /\
  (forall d, (a_full ex_small_ae < d <= a_depth ex_small_ae)%nat -> (0 < node_count ex_grid_octree d false)%nat) /\
  exists x, (fun o => get_input_feature 0 o "ND" false) ex_grid_octree = Ok x /\ shape (node_count ex_grid_octree (a_depth ex_small_ae) false) 4 x.
Proof. exact ex_ou_grow. Qed.
