(** Model of ocnn/models/ounet.py and projects/completion.py: calls of Python functions by
    position and keyword, the constructor, the decoder with output-guided skip connections. *)
From Coq Require Import String List ZArith Bool QArith Qcanon.
From Verif Require Import Res Tensor Num Octree NnBasic NnConv NnInterp Features Net.
Import ListNotations.
Open Scope string_scope.
Open Scope Z_scope.

(** ** Binding of arguments: a signature is the list of parameters with their defaults.
    More positional arguments than parameters, a parameter given twice, an unknown keyword
    and a missing parameter without default raise a TypeError. *)
Definition signature (V : Type) : Type := list (string * option V).
Definition has_key {V} (k : string) (m : list (string * V)) : bool := existsb (fun p => String.eqb k (fst p)) m.
Fixpoint key_value {V} (k : string) (m : list (string * V)) : option V :=
  match m with [] => None | (k', v) :: m => if String.eqb k k' then Some v else key_value k m end.
Definition bind_call {V} (sig : signature V) (args : list V) (kwargs : list (string * V)) : res (list (string * V)) :=
  if Nat.ltb (List.length sig) (List.length args) then Err TypeError
  else let given := combine (map fst sig) args in
  if negb (forallb (fun kw => has_key (fst kw) sig && negb (has_key (fst kw) given)) kwargs) then Err TypeError
  else mapM (fun p => match key_value (fst p) (given ++ kwargs)%list, snd p with
                      | Some v, _ => Ok (fst p, v)
                      | None, Some v => Ok (fst p, v)
                      | None, None => Err TypeError
                      end) sig.
Definition arg {V} (k : string) (env : list (string * V)) : res V :=
  match key_value k env with Some v => Ok v | None => Err TypeError end.

(** the values that are passed: numbers and strings *)
Inductive pyval : Type := PInt (n : Z) | PStr (s : string).

(** autoencoder.py:28-30: the parameters after self; the defaults *)
Definition ae_signature : signature pyval :=
  [("channel_in", None); ("channel_out", None); ("depth", None); ("full_depth", Some (PInt 2)); ("feature", Some (PStr "ND"))].
(** ounet.py:19-20 *)
Definition ou_signature : signature pyval :=
  [("channel_in", None); ("channel_out", None); ("depth", None); ("full_depth", Some (PInt 2)); ("feature", Some (PStr "ND"))].

(** autoencoder.py:28-69, up to line 37: the attributes that are set from the arguments;
    the construction of the modules is modelled by their use in Net.v *)
Definition AutoEncoder_init (args : list pyval) (kwargs : list (string * pyval)) : res (list (string * pyval)) :=
  env <- bind_call ae_signature args kwargs ;;
  Ok (env ++ [("resblk_num", PInt 2); ("code_channel", PInt 64)])%list.
(** ounet.py:19-23 *)
Definition OUNet_init (args : list pyval) (kwargs : list (string * pyval)) : res (list (string * pyval)) :=
  env <- bind_call ou_signature args kwargs ;;
  channel_in <- arg "channel_in" env ;;
  channel_out <- arg "channel_out" env ;;
  depth <- arg "depth" env ;;
  full_depth <- arg "full_depth" env ;;
  feature <- arg "feature" env ;;
  AutoEncoder_init [channel_in; channel_out; depth; full_depth; feature] [("code_channel", PInt (-1))].
(** projects/completion.py:16-19 *)
Definition completion_get_model (channel nout depth full_depth feature : pyval) : res (list (string * pyval)) :=
  OUNet_init [channel; nout; depth; full_depth] [("feature", feature)].

(** ** The decoder, ounet.py:40-73, with the modules of autoencoder.py:57-69.  [convs] maps
    depths to the features of the input octree (the width of a tensor is that of its first
    row).  The loop body of line 48, then the whole;
    the state is the tensor, the output octree and the logits. *)
Definition ou_dec_step (g : ae_cfg) (P : params) (convs : ddict feat) (octree_in : octree) (update : bool)
    (st : feat * octree * ddict feat) (i : Z) : res (feat * octree * ddict feat) :=
  let '(x, o, logits) := st in
  let d := Z.of_nat (a_full g) + i in
  chs <- dec_channels g ;;
  c <- tget chs d ;;
  x <- (if 0 <? i
        then c' <- tget chs (d - 1) ;;
             x <- deconv_bn_relu P [("upsample", i - 1)] c' c [2%nat] 2 false x o (d - 1) ;;
             conv <- dfind convs d ;;
             skip <- octree_align (List.length (nth 0 conv [])) conv octree_in o (Z.to_nat d) false ;;
             add_feat x skip
        else Ok x) ;;
  x <- res_blocks P [("decoder_blks", i)] c c (a_blocks g) 4 false false x o d ;;
  logit <- head P [("predict", i)] c 64 2 x ;;
  o <- (if update
        then o <- octree_split o (map argmax logit) (Z.to_nat d) ;;
             if d <? Z.of_nat (a_depth g) then octree_grow o (Z.to_nat d + 1) true else Ok o
        else Ok o) ;;
  Ok (x, o, dput logits d logit).
Definition ou_decoder (g : ae_cfg) (P : params) (cout : nat) (convs : ddict feat) (octree_in octree_out : octree) (update : bool)
  : res (ddict feat * feat * octree) :=
  deconv <- dfind convs (Z.of_nat (a_full g)) ;;
  '(x, o, logits) <- foldM (ou_dec_step g P convs octree_in update) (deconv, octree_out, []) (arange (S (a_depth g) - a_full g)) ;;
  chs <- dec_channels g ;;
  c <- tget chs (Z.of_nat (a_depth g)) ;;
  s <- head P [("header", 0)] c 64 cout x ;;
  s <- octree_depad (tanh_ P s) o (Z.of_nat (a_depth g)) ;;
  o <- (if update then store_features o (a_depth g) s else Ok o) ;;
  Ok (logits, s, o).

(** ounet.py:25-38: the loop body is that of the auto-encoder, autoencoder.py:79-83; the
    features of all depths are returned.  [get_input] is the method get_input_feature of the
    object (line 31), which neither OUNet nor AutoEncoder has. *)
Definition ou_encoder (g : ae_cfg) (P : params) (cin : nat) (get_input : octree -> res feat) (o : octree) : res (ddict feat) :=
  x <- get_input o ;;
  c <- tget (a_ch g) (Z.of_nat (a_depth g)) ;;
  x <- conv_bn_relu P [("conv1", 0)] cin c [3%nat] 1 false x o (Z.of_nat (a_depth g)) ;;
  foldM (ae_enc_step g P o) (dput [] (Z.of_nat (a_depth g)) x) (arange (S (a_depth g) - a_full g)).
(** a call of a method that the class does not define *)
Definition no_method (o : octree) : res feat := Err AttributeError.
(** ounet.py:75-84 *)
Definition ou_init_octree (g : ae_cfg) (octree_in : octree) : res octree :=
  init_octree (a_depth g) (a_full g) (batch_size octree_in) (device octree_in).
(** ounet.py:86-94; [None] is an octree_out that is not given *)
Definition OUNet_forward (g : ae_cfg) (P : params) (cin cout : nat) (get_input : octree -> res feat) (octree_in : octree) (octree_out : option octree) (update : bool)
  : res (ddict feat * feat * octree) :=
  '(o, update) <- match octree_out with
                  | None => o <- ou_init_octree g octree_in ;; Ok (o, true)
                  | Some o => Ok (o, update)
                  end ;;
  convs <- ou_encoder g P cin get_input octree_in ;;
  ou_decoder g P cout convs octree_in o update.
