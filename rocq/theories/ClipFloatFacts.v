(** Proofs about clipping in single precision. *)
From Coq Require Import List ZArith Bool Reals Lra Lia QArith Qcanon Qreals.
From Flocq Require Import Core.Core IEEE754.BinarySingleNaN.
From Verif Require Import Res Tensor Num ListFacts Points PointsOps Octree NnInterp SpecGeo SpecBuild Float32 FloatMean SpecSingle FloatFacts BuildFloat SpecNudge NudgeFacts ClipFloat SpecClip32.
Import ListNotations.
Open Scope R_scope.

Lemma ltb_inside lo hi c : is_finite lo = true -> is_finite hi = true -> (Bltb lo c && Bltb c hi = true <-> inside32 lo hi c).
Proof.
  intros Fl Fh. unfold inside32. destruct (is_finite c) eqn:Fc.
  - rewrite andb_true_iff, !Bltb_correct by assumption. split.
    + intros [H1 H2]. split; [reflexivity|]. revert H1 H2. case Rlt_bool_spec; [|discriminate]. case Rlt_bool_spec; [|discriminate]. auto.
    + intros [_ [H1 H2]]. split; apply Rlt_bool_true; assumption.
  - split; [|intros [H _]; discriminate]. destruct c as [s|s| |s m e p]; try discriminate Fc.
    + destruct s; destruct lo as [[]|[]| |[] ml el pl]; try discriminate Fl; destruct hi as [[]|[]| |[] mh eh ph]; try discriminate Fh; cbn; discriminate.
    + destruct lo as [[]|[]| |[] ml el pl]; try discriminate Fl; cbn; discriminate.
Qed.
Lemma inbox_entry lo hi p : is_finite lo = true -> is_finite hi = true ->
  ((let '(x, y, z) := p in (Bltb lo x && Bltb lo y && Bltb lo z) && (Bltb x hi && Bltb y hi && Bltb z hi)) = true <-> point_inside32 lo hi p).
Proof.
  intros Fl Fh. destruct p as [[x y] z]. cbn [point_inside32]. rewrite <- !ltb_inside by assumption. rewrite !andb_true_iff. tauto.
Qed.
Lemma inbox_forall (lo hi : f32) (pc : pcloud f32) : is_finite lo = true -> is_finite hi = true ->
  Forall2 (fun p b => b = true <-> point_inside32 lo hi p) (p_points pc) (inbox_mask (@Bltb 24 128) (lo, lo, lo) (hi, hi, hi) pc).
Proof.
  intros Fl Fh. destruct pc as [pts n f l b bs np dv]. unfold inbox_mask. cbn [p_points]. clear n f l b bs np dv.
  induction pts as [|p l IH]; cbn [map]; constructor; [|exact IH]. apply inbox_entry; assumption.
Qed.
Lemma thm_clip_mask : forall (lo hi : f32) pc, is_finite lo = true -> is_finite hi = true -> aligned32 pc ->
  exists mask q, clip32 lo hi pc = Ok (mask, q) /\ Forall2 (fun p b => b = true <-> point_inside32 lo hi p) (p_points pc) mask /\
    p_points q = select mask (p_points pc) /\ p_normals q = option_map (select mask) (p_normals pc) /\
    p_features q = option_map (select mask) (p_features pc) /\ p_labels q = option_map (select mask) (p_labels pc) /\
    p_batch_id q = option_map (select mask) (p_batch_id pc) /\ p_batch_size q = p_batch_size pc.
Proof.
  intros lo hi pc Fl Fh (An & Af & Al & Ab). unfold clip32. set (m := inbox_mask (@Bltb 24 128) (lo, lo, lo) (hi, hi, hi) pc).
  assert (Lm : length m = length (p_points pc)) by (unfold m, inbox_mask; apply map_length).
  unfold points_getitem. rewrite (mask_get_Ok (p_points pc) m Lm). cbn [bind].
  assert (G : forall A (x : option (list A)), (forall l, x = Some l -> length l = length (p_points pc)) ->
    opt_check (fun r => mask_get r m) x = Ok (option_map (select m) x)).
  { intros A [l|] H; [|reflexivity]. cbn [opt_check option_map]. rewrite mask_get_Ok; [reflexivity|]. rewrite Lm. symmetry. apply H. reflexivity. }
  rewrite (G _ _ An). cbn [bind]. rewrite (G _ _ Af). cbn [bind]. rewrite (G _ _ Al). cbn [bind]. rewrite (G _ _ Ab). cbn [bind].
  exists m. eexists. split; [reflexivity|]. split; [|repeat split].
  apply inbox_forall; assumption.
Qed.
Lemma Forall_select2 {A} (P : A -> Prop) l m : Forall2 (fun p b => b = true <-> P p) l m -> Forall P (select m l).
Proof.
  induction 1 as [|p b l m H F IH]; cbn [select]; [constructor|]. destruct b; [constructor; [apply H; reflexivity|exact IH]|exact IH].
Qed.
Lemma Forall_select {A} (P : A -> Prop) m : forall l, Forall P l -> Forall P (select m l).
Proof.
  induction m as [|b m IH]; intros l H; [constructor|]. destruct l as [|a l]; cbn [select]; [destruct b; constructor|].
  inversion H; subst. destruct b; [constructor; auto|auto].
Qed.
Lemma inside_safe lo hi p : -1 <= B2R lo -> B2R hi <= 1 - / 2 ^ 24 -> point_inside32 lo hi p -> safe_point32 p.
Proof.
  intros Hl Hh. destruct p as [[x y] z]. intros ((Fx & Bx) & (Fy & By) & (Fz & Bz)). cbn [safe_point32]. unfold safe32. repeat split; try assumption; lra.
Qed.
Lemma safe_unit p : safe_point32 p -> point_in_unit32 p.
Proof.
  assert (0 < / 2 ^ 24) by (apply Rinv_0_lt_compat, pow_lt; lra).
  destruct p as [[x y] z]. intros ((Fx & Bx) & (Fy & By) & (Fz & Bz)). cbn [point_in_unit32]. unfold in_unit32. repeat split; try assumption; lra.
Qed.
Lemma thm_clip_build : forall o (lo hi : f32) pc ids, (full_depth o <= depth o <= 16)%nat -> (0 < Z.of_nat (batch_size o) <= 32768)%Z ->
  length (layers o) = S (depth o) -> p_batch_size pc = batch_size o -> length ids = length (p_points pc) ->
  (if Nat.eqb (batch_size o) 1 then ids = repeat 0%Z (length ids)
   else p_batch_id pc = Some ids /\ Forall (fun b => (0 <= b < Z.of_nat (batch_size o))%Z) ids) ->
  aligned32 pc -> is_finite lo = true -> is_finite hi = true -> -1 <= B2R lo -> B2R hi <= 1 - / 2 ^ 24 ->
  exists mask q o32 idx, clip32 lo hi pc = Ok (mask, q) /\ build_tree32 o q = Ok (o32, idx) /\
    let query d := combine (map (rescale32 d) (p_points q)) (select mask ids) in
    search_pts32 o32 (query (depth o)) (depth o) true = Ok idx /\
    forall d, (full_depth o <= d <= depth o)%nat ->
      exists found, search_pts32 o32 (query d) d true = Ok found /\ length found = length (p_points q) /\ Forall (fun j => (0 <= j)%Z) found.
Proof.
  intros o lo hi pc ids Hd HB Hl Hs Hn Hids Ha Fl Fh Bl Bh.
  destruct (thm_clip_mask lo hi pc Fl Fh Ha) as (mask & q & E & HM & Ep & _ & _ & _ & Eb & Es).
  assert (Lm : length mask = length (p_points pc)) by (clear - HM; induction HM; cbn [length]; congruence).
  assert (Hsafe : Forall safe_point32 (p_points q)).
  { rewrite Ep. eapply Forall_impl; [|apply Forall_select2; exact HM]. intros p. apply inside_safe; assumption. }
  assert (Hn' : length (select mask ids) = length (p_points q)) by (rewrite Ep, !select_length by lia; reflexivity).
  assert (Hids' : if Nat.eqb (batch_size o) 1 then select mask ids = repeat 0%Z (length (select mask ids))
     else p_batch_id q = Some (select mask ids) /\ Forall (fun b => (0 <= b < Z.of_nat (batch_size o))%Z) (select mask ids)).
  { destruct (Nat.eqb (batch_size o) 1).
    - assert (HF : Forall (fun b => b = 0%Z) (select mask ids)).
      { apply Forall_select. rewrite Hids. apply Forall_forall. intros b Hb. apply repeat_spec in Hb. exact Hb. }
      clear - HF. induction HF as [|a l H _ IH]; [reflexivity|]. cbn [length repeat]. rewrite H, <- IH. reflexivity.
    - destruct Hids as [Hb HF]. rewrite Eb, Hb. split; [reflexivity|]. apply Forall_select. exact HF. }
  assert (Hi : build_input o (move_points nudge q)).
  { constructor; try lia. constructor; cbn [move_points p_batch_size p_batch_id p_points p_normals p_features]; try discriminate; try lia.
    intros H1. apply Nat.eqb_neq in H1. rewrite H1 in Hids'. exists (select mask ids). rewrite map_length. tauto. }
  destruct (thm_tree32 (fun v => v) o q Hi) as (o' & idx & o32 & _ & E32 & _).
  { eapply Forall_impl; [|exact Hsafe]. apply safe_unit. }
  exists mask, q, o32, idx. split; [exact E|]. split; [exact E32|].
  apply (thm_points_found o q (select mask ids) o32 idx); try assumption. rewrite Es. exact Hs.
Qed.
