(** Proofs about image to shape and the loss of the auto-encoder. *)
From Coq Require Import String List ZArith Bool QArith Qcanon Lia Lqa.
From Verif Require Import Res Tensor Num Points Octree NnBasic NnConv Features Net Utils Dataset Project Spec SpecGeo WF SpecGrow SpecNeigh SpecNN SpecNet SpecBatch SpecMerge SpecProject
  NumFacts ListFacts KidsFacts WFFacts GrowFacts NnFacts PadFacts NetFacts NetAe Decode DecodeBatch MetricFacts ChunkFacts Shape SpecShape.
Import ListNotations.
Open Scope Z_scope.

(** ** view *)
Lemma skip_skip {A} a : forall b (l : list A), skipn a (skipn b l) = skipn (b + a) l.
Proof. intros b. induction b as [|b IH]; intros l; [reflexivity|]. destruct l as [|x l]; [destruct a; reflexivity|]. cbn [skipn Nat.add]. apply IH. Qed.
Lemma cut_segments c n : forall r, cut_rows c n r = segments c n r.
Proof.
  unfold segments. induction n as [|n IH]; intros r; [reflexivity|]. cbn [cut_rows seq map]. rewrite IH, <- seq_shift, map_map. f_equal.
  apply map_ext. intros k. rewrite skip_skip. reflexivity.
Qed.
Lemma cut_app c a b : forall l1 l2, List.length l1 = (a * c)%nat -> cut_rows c (a + b) (l1 ++ l2) = cut_rows c a l1 ++ cut_rows c b l2.
Proof.
  induction a as [|a IH]; intros l1 l2 H; cbn [Nat.mul] in H; [destruct l1; [reflexivity|discriminate]|]. cbn [Nat.add cut_rows app].
  rewrite firstn_app, skipn_app. replace (c - List.length l1)%nat with O by lia. cbn [firstn skipn]. rewrite app_nil_r.
  f_equal. apply IH. rewrite skipn_length. lia.
Qed.
Lemma cut_concat c n : forall x B, shape B (n * c) x -> cut_rows c (B * n) (concat x) = flat_map (segments c n) x.
Proof.
  induction x as [|r x IH]; intros B [HB Hx]; cbn in HB; subst B; [reflexivity|]. inversion Hx as [|? ? Hr Hx']; subst.
  cbn [concat flat_map Nat.mul]. rewrite cut_app by exact Hr. rewrite cut_segments. f_equal. apply IH. split; [reflexivity|exact Hx'].
Qed.
Lemma concat_len {A} k : forall (x : list (list A)), Forall (fun r => List.length r = k) x -> List.length (concat x) = (List.length x * k)%nat.
Proof. induction 1 as [|r x H _ IH]; [reflexivity|]. cbn [concat List.length Nat.mul]. rewrite app_length, IH, H. reflexivity. Qed.
Lemma view_ok c n x B : (1 <= c)%nat -> shape B (c * n) x -> view_rows c x = Ok (flat_map (segments c n) x).
Proof.
  intros Hc Hx. unfold view_rows. cbv zeta. destruct Hx as [HB Hx]. rewrite (concat_len _ _ Hx), HB. rewrite (Nat.mul_comm c n), Nat.mul_assoc.
  rewrite Nat.mod_mul by lia. rewrite Nat.div_mul by lia. replace (Nat.eqb c 0) with false by (symmetry; apply Nat.eqb_neq; lia). cbn [orb negb Nat.eqb].
  f_equal. apply cut_concat. split; [exact HB|]. rewrite Nat.mul_comm. exact Hx.
Qed.
Lemma segments_shape c n r : List.length r = (c * n)%nat -> shape n c (segments c n r).
Proof.
  intros H. unfold segments. split; [rewrite map_length, seq_length; reflexivity|]. apply Forall_forall. intros s Hs. apply in_map_iff in Hs. destruct Hs as (k & <- & Hk).
  apply in_seq in Hk. rewrite firstn_length, skipn_length, H. assert ((k + 1) * c <= n * c)%nat by (apply Nat.mul_le_mono_r; lia). lia.
Qed.
Lemma codes_shape c n x B : shape B (c * n) x -> shape (n * B) c (flat_map (segments c n) x).
Proof.
  intros [HB Hx]. subst B. induction Hx as [|r x Hr Hx IH]; [rewrite Nat.mul_0_r; split; [reflexivity|constructor]|].
  destruct (segments_shape c n r Hr) as [S1 S2]. destruct IH as [I1 I2]. cbn [flat_map List.length]. split; [rewrite app_length, S1, I1; lia|]. apply Forall_app. auto.
Qed.

Theorem thm_image2shape : forall I g P cout lo dev (encoder : list I -> res feat) image x oct, ae_config g -> norms_keep lo P ->
  (1 <= a_code g)%nat -> (1 <= List.length image)%nat -> Z.of_nat (List.length image) <= 32768 -> (lo <= 8 /\ lo <= 8 ^ a_full g * List.length image)%nat ->
  encoder image = Ok x -> shape (List.length image) (a_code g * 8 ^ a_full g) x ->
  exists logits signal o, Image2Shape g P cout dev encoder image oct true = Ok (logits, signal, o) /\
    ae_decode_code g P cout dev (flat_map (segments (a_code g) (8 ^ a_full g)) x) = Ok (logits, signal, o) /\
    depth o = a_depth g /\ full_depth o = a_full g /\ batch_size o = List.length image /\ wf_octree o /\
    (forall d, (d <= a_depth g)%nat -> has_neigh o d /\ (0 < node_count o d true)%nat) /\
    (forall d, (a_full g <= d <= a_depth g)%nat -> exists logit flags,
       dfind logits (Z.of_nat d) = Ok logit /\ shape (node_count o d false) 2 logit /\
       nempty_mask o (Z.of_nat d) = Ok flags /\ obeys logit flags) /\
    shape (node_count o (a_depth g) true) cout signal /\
    exists l, nth_error (layers o) (a_depth g) = Some l /\ l_features l = Some signal.
Proof.
  intros I g P cout lo dev encoder image x oct HC HN Hc HB HB2 Hlo E Hx.
  pose proof (codes_shape _ _ _ _ Hx) as Hs.
  destruct (thm_decode g P cout lo (List.length image) dev HC HN HB HB2 Hlo _ Hs) as (lg & sg & o & Ed & R).
  exists lg, sg, o. split; [|split; [exact Ed|exact R]]. unfold Image2Shape. rewrite E. cbn [bind]. rewrite (view_ok _ _ _ _ Hc Hx). cbn [bind].
  unfold ae_decode_code in Ed. destruct (ae_init_octree g dev _) as [o0|]; [|discriminate]. cbn [bind] in *. exact Ed.
Qed.

Theorem thm_image2shape_fixed : forall I g P cout lo dev (encoder : list I -> res feat) image x o, ae_config g -> norms_keep lo P ->
  (1 <= a_code g)%nat -> wf_octree o -> a_depth g = depth o -> (a_full g <= full_depth o)%nat -> batch_size o = List.length image ->
  layers_ready o false lo (a_full g) (a_depth g) ->
  encoder image = Ok x -> shape (List.length image) (a_code g * 8 ^ a_full g) x ->
  exists logits signal, Image2Shape g P cout dev encoder image (Some o) false = Ok (logits, signal, o) /\
    (forall d, (a_full g <= d <= a_depth g)%nat ->
       exists logit, dfind logits (Z.of_nat d) = Ok logit /\ shape (node_count o d false) 2 logit) /\
    shape (node_count o (a_depth g) true) cout signal.
Proof.
  intros I g P cout lo dev encoder image x o HC HN Hc W Hd Hf Hb HL E Hx. pose proof (codes_shape _ _ _ _ Hx) as Hs.
  assert (Hcnt : node_count o (a_full g) false = (8 ^ a_full g * List.length image)%nat).
  { destruct HC as [H1 _ _ _]. destruct W as (K & M & T). rewrite (node_count_sel o (depth o) K M T) by lia. cbn [sel]. rewrite (t_grid _ _ _ _ T) by lia. rewrite Hb. apply full_grid_length. }
  rewrite <- Hcnt in Hs. unfold Image2Shape. rewrite E. cbn [bind]. rewrite (view_ok _ _ _ _ Hc Hx). cbn [bind].
  apply (thm_decoder_fixed g P cout lo dev o HC HN W Hd HL _ Hs).
Qed.

Theorem thm_image2shape_default : forall I g P cout dev (encoder : list I -> res feat) image, exists e,
  Image2Shape g P cout dev encoder image None false = Err e.
Proof.
  intros. unfold Image2Shape. destruct (encoder image) as [x|e]; [|exists e; reflexivity]. cbn [bind].
  destruct (view_rows _ x) as [c|e]; [|exists e; reflexivity]. cbn [bind]. eexists. reflexivity.
Qed.

(** ** sums and means *)
Lemma sum_nonneg (xs : list Qc) : Forall (fun x => (0 <= x)%Qc) xs -> (0 <= fold_right Qcplus 0 xs)%Qc.
Proof. induction 1 as [|x xs H _ IH]; cbn [fold_right]; [apply Qcle_refl|]. set (t := fold_right Qcplus 0%Qc xs) in *. clearbody t. qclra. Qed.
Lemma sum_zero_all (xs : list Qc) : Forall (fun x => (0 <= x)%Qc) xs -> fold_right Qcplus 0%Qc xs = 0%Qc -> Forall (fun x => x = 0%Qc) xs.
Proof.
  induction 1 as [|x xs H F IH]; cbn [fold_right]; intros E; constructor.
  - pose proof (sum_nonneg xs F) as S. set (t := fold_right Qcplus 0%Qc xs) in *. clearbody t. assert (E2 : (x + t <= 0)%Qc) by (rewrite E; apply Qcle_refl). clear E. apply Qcle_antisym; [qclra|exact H].
  - apply IH. pose proof (sum_nonneg xs F) as S. set (t := fold_right Qcplus 0%Qc xs) in *. clearbody t. assert (E2 : (x + t <= 0)%Qc) by (rewrite E; apply Qcle_refl). clear E. apply Qcle_antisym; [qclra|assumption].
Qed.
Lemma qsq_nonneg t : (0 <= t * t)%Qc.
Proof. destruct (Qclt_le_dec t 0) as [H|H]; [|apply Qcmult_nonneg; exact H]. replace (t * t)%Qc with (- t * - t)%Qc by ring. apply Qcmult_nonneg; qclra. Qed.
Definition sq_dist (a b : vec) : Qc := sq_sum (zip_with Qcminus a b).
Lemma sq_dist_spec : forall a b, sq_dist a b = squared_distance a b.
Proof.
  induction a as [|x a IH]; intros [|y b]; try reflexivity. unfold sq_dist, sq_sum in *. rewrite zip_cons. cbn [map fold_right squared_distance]. rewrite IH. reflexivity.
Qed.
Lemma sq_dist_nonneg a b : (0 <= sq_dist a b)%Qc.
Proof. unfold sq_dist, sq_sum. apply sum_nonneg. apply Forall_forall. intros t Ht. apply in_map_iff in Ht. destruct Ht as (u & <- & _). apply qsq_nonneg. Qed.
Lemma sq_dist_zero : forall a b, List.length a = List.length b -> (sq_dist a b = 0%Qc <-> a = b).
Proof.
  intros a b HL. split.
  - intros E. unfold sq_dist, sq_sum in E. apply sum_zero_all in E; [|apply Forall_forall; intros t Ht; apply in_map_iff in Ht; destruct Ht as (u & <- & _); apply qsq_nonneg].
    revert b HL E. induction a as [|x a IH]; intros [|y b] HL E; cbn in HL; try discriminate; [reflexivity|]. rewrite zip_cons in E. cbn [map] in E. inversion E as [|? ? E1 E2]; subst.
    f_equal; [|apply IH; [lia|exact E2]]. apply Qcmult_integral in E1. assert (x - y = 0)%Qc by tauto. replace x with (x - y + y)%Qc by ring. rewrite H. ring.
  - intros <-. clear HL. unfold sq_dist, sq_sum. induction a as [|x a IH]; [reflexivity|]. rewrite zip_cons. cbn [map fold_right]. rewrite IH. ring.
Qed.
Lemma qn_pos n : (0 < n)%nat -> qn n <> 0%Qc.
Proof. intros H. unfold qn. apply qz_neq0. lia. Qed.
Lemma qmean_some xs : xs <> [] -> exists m, qmean xs = Some m /\ (m * qn (List.length xs) = fold_right Qcplus 0 xs)%Qc.
Proof.
  intros H. assert (N : qn (List.length xs) <> 0%Qc) by (apply qn_pos; destruct xs; [congruence|cbn; lia]).
  exists (fold_right Qcplus 0 xs / qn (List.length xs))%Qc. split; [destruct xs; [congruence|reflexivity]|]. field. exact N.
Qed.
Lemma zip_length {A B C} (f : A -> B -> C) l : forall m, List.length l = List.length m -> List.length (zip_with f l m) = List.length l.
Proof. intros m H. unfold zip_with. rewrite map_length, combine_length. lia. Qed.
Lemma bcast_same {A B D} (f : A -> B -> res D) (h : A -> B -> D) xs ys : List.length xs = List.length ys ->
  (forall a b, In (a, b) (combine xs ys) -> f a b = Ok (h a b)) -> bcast f xs ys = Ok (zip_with h xs ys).
Proof.
  intros HL H. unfold bcast. rewrite HL, Nat.eqb_refl. unfold zip_with. apply mapM_Ok. intros [a b] Hi. apply H. exact Hi.
Qed.
Lemma bcast_row (a b : vec) : List.length a = List.length b -> bcast (fun a b : Qc => Ok (a - b)%Qc) a b = Ok (zip_with Qcminus a b).
Proof. intros HL. apply (bcast_same _ Qcminus); auto. Qed.
Lemma combine_widths n C D (gt s : feat) a b : shape n C gt -> shape n D s -> In (a, b) (combine gt s) -> List.length a = C /\ List.length b = D.
Proof.
  intros [_ G] [_ S] H. rewrite Forall_forall in G, S. split; [apply G; eapply in_combine_l; exact H|apply S; eapply in_combine_r; exact H].
Qed.
Lemma reg_eq gt s n C : shape n C gt -> shape n C s -> reg_loss gt s = Ok (qmean (zip_with sq_dist gt s)).
Proof.
  intros HG HS. unfold reg_loss. rewrite (bcast_same _ (zip_with Qcminus)); [|destruct HG, HS; congruence|].
  - cbn [bind]. unfold zip_with at 1. rewrite map_map. apply f_equal, f_equal. unfold zip_with at 2. apply map_ext. intros [a b]. reflexivity.
  - intros a b H. apply bcast_row. destruct (combine_widths _ _ _ _ _ _ _ HG HS H). congruence.
Qed.
(** one channel against four: it is repeated; other widths raise *)
Lemma reg_one gt s n : shape n 4 gt -> shape n 1 s ->
  reg_loss gt s = Ok (qmean (map (fun '(a, b) => squared_distance a (repeat (nth 0 b 0%Qc) 4)) (combine gt s))).
Proof.
  intros HG HS. unfold reg_loss. rewrite (bcast_same _ (fun a b => zip_with Qcminus a (repeat (nth 0 b 0%Qc) 4))); [|destruct HG, HS; congruence|].
  - cbn [bind]. unfold zip_with at 1. rewrite map_map. apply f_equal, f_equal. apply map_ext. intros [a b]. rewrite <- sq_dist_spec. reflexivity.
  - intros a b H. destruct (combine_widths _ _ _ _ _ _ _ HG HS H) as [Ha Hb].
    destruct a as [|a0 [|a1 [|a2 [|a3 [|]]]]]; try discriminate. destruct b as [|b0 [|]]; try discriminate. reflexivity.
Qed.
Lemma reg_other gt s n c : shape n 4 gt -> shape n c s -> (0 < n)%nat -> c <> 4%nat -> c <> 1%nat -> reg_loss gt s = Err RuntimeError.
Proof.
  intros [G1 G2] [S1 S2] Hn H4 H1. unfold reg_loss. unfold bcast at 1. rewrite G1, S1, Nat.eqb_refl.
  destruct gt as [|a gt]; [cbn in G1; lia|]. destruct s as [|b s]; [cbn in S1; lia|]. cbn [combine mapM]. inversion G2; subst. inversion S2; subst.
  assert (E : bcast (fun a b : Qc => Ok (a - b)%Qc) a b = Err RuntimeError).
  { unfold bcast. replace (Nat.eqb (List.length a) (List.length b)) with false by (symmetry; apply Nat.eqb_neq; congruence).
    destruct a as [|? [|? ?]]; try discriminate. destruct b as [|? [|? ?]]; try reflexivity. exfalso. apply H1. reflexivity. }
  rewrite E. reflexivity.
Qed.
Lemma reg_ok gt s n C : shape n C gt -> shape n C s -> (0 < n)%nat -> exists R, reg_loss gt s = Ok (Some R) /\
  (R * qn n = fold_right Qcplus 0 (zip_with sq_dist gt s))%Qc /\ (0 <= R)%Qc /\ (R = 0%Qc <-> s = gt).
Proof.
  intros HG HS Hn. rewrite (reg_eq gt s n C HG HS). destruct HG as [G1 G2], HS as [S1 S2].
  assert (L : List.length (zip_with sq_dist gt s) = n) by (rewrite zip_length; congruence).
  destruct (qmean_some (zip_with sq_dist gt s)) as (R & -> & E); [intros Z; rewrite Z in L; cbn in L; lia|]. rewrite L in E. exists R. split; [reflexivity|]. split; [exact E|].
  assert (NN : Forall (fun x => (0 <= x)%Qc) (zip_with sq_dist gt s)) by (apply Forall_forall; intros t Ht; unfold zip_with in Ht; apply in_map_iff in Ht; destruct Ht as ([u v] & <- & _); apply sq_dist_nonneg).
  assert (NP : (0 < qn n)%Qc) by (unfold qn; change 0%Qc with (qz 0); apply qz_lt; lia).
  split.
  - apply (proj1 (Qcmult_le_r 0 R _ NP)). rewrite E, Qcmult_0_l. apply sum_nonneg. exact NN.
  - split.
    + intros ->. rewrite Qcmult_0_l in E. symmetry in E. apply sum_zero_all in E; [|exact NN].
      clear - E G1 G2 S1 S2. assert (HL : List.length gt = List.length s) by congruence. clear G1 S1. revert s HL S2 E. induction G2 as [|a gt Ha G IH]; intros [|b s] HL S2 E; cbn in HL; try discriminate; [reflexivity|].
      rewrite zip_cons in E. inversion E as [|? ? E1 E2]; subst. inversion S2; subst. f_equal; [|apply IH; auto]. symmetry. apply (proj1 (sq_dist_zero a b ltac:(congruence))). exact E1.
    + intros ->. assert (Z : fold_right Qcplus 0%Qc (zip_with sq_dist gt gt) = 0%Qc).
      { clear. induction gt as [|a gt IH]; [reflexivity|]. rewrite zip_cons. cbn [fold_right]. rewrite IH. rewrite (proj2 (sq_dist_zero a a eq_refl) eq_refl). ring. }
      rewrite Z in E. apply Qcmult_integral in E. destruct E as [E|E]; [exact E|]. rewrite E in NP. discriminate NP.
Qed.

(** ** keys of the logits *)
Lemma step_keys g P upd s i x o lgs : ae_dec_step g P upd s i = Ok (x, o, lgs) -> map fst lgs = (Z.of_nat (a_full g) + i) :: map fst (snd s).
Proof.
  destruct s as [[x0 o0] l0]. rewrite step_stage. destruct (ae_stage g P x0 o0 i) as [[y lg]|]; [|discriminate]. cbn [bind].
  destruct (if upd then _ else _) as [o1|]; [|discriminate]. cbn [bind]. intros E. assert (Eq : forall A (x y : A), Ok x = Ok y -> x = y) by congruence. apply Eq in E.
  pose proof (f_equal snd E) as E1. cbn [snd] in E1. subst lgs. reflexivity.
Qed.
Lemma fold_keys g P upd : forall m s x o lgs, foldM (ae_dec_step g P upd) s (arange m) = Ok (x, o, lgs) ->
  map fst lgs = rev (map (fun i => Z.of_nat (a_full g) + i) (arange m)) ++ map fst (snd s).
Proof.
  intros m. generalize (arange m). induction l as [|i l IH]; intros s x o lgs E; cbn [foldM] in E.
  - assert (Eq : forall A (x y : A), Ok x = Ok y -> x = y) by congruence. apply Eq in E. subst s. reflexivity.
  - destruct (ae_dec_step g P upd s i) as [[[x1 o1] l1]|] eqn:E1; [|discriminate]. cbn [bind] in E. apply IH in E. rewrite E. cbn [map rev snd].
    rewrite (step_keys _ _ _ _ _ _ _ _ E1), <- app_assoc. reflexivity.
Qed.
Lemma seq_off a n : forall b, map (fun i => Z.of_nat a + Z.of_nat i) (seq b n) = map Z.of_nat (seq (a + b) n).
Proof. induction n as [|n IH]; intros b; [reflexivity|]. cbn [seq map]. rewrite IH. f_equal; [lia|]. f_equal. f_equal. lia. Qed.
Lemma decoder_keys g P cout code o upd lgs s o1 : ae_decoder g P cout code o upd = Ok (lgs, s, o1) ->
  rev (map fst lgs) = map Z.of_nat (seq (a_full g) (S (a_depth g) - a_full g)).
Proof.
  unfold ae_decoder. destruct (foldM _ _ _) as [[[x o2] l2]|] eqn:E; [|discriminate]. cbn [bind].
  destruct (dec_channels g); [|discriminate]. cbn [bind]. destruct (tget _ _); [|discriminate]. cbn [bind]. destruct (head _ _ _ _ _ _); [|discriminate]. cbn [bind].
  destruct (octree_depad _ _ _); [|discriminate]. cbn [bind]. destruct (if upd then _ else _); [|discriminate]. cbn [bind]. intros H.
  assert (Eq : forall A (x y : A), Ok x = Ok y -> x = y) by congruence. apply Eq in H. assert (H1 := f_equal (fun t => fst (fst t)) H). cbn [fst] in H1. subst l2.
  apply fold_keys in E. cbn [snd map] in E. rewrite app_nil_r in E. rewrite E, rev_involutive. unfold arange. rewrite map_map.
  rewrite seq_off, Nat.add_0_r. reflexivity.
Qed.

(** ** the loss *)
Lemma fold_nadd (f : nat -> Qc) l : fold_right nadd (Some 0%Qc) (map (fun d => Some (f d)) l) = Some (fold_right Qcplus 0%Qc (map f l)).
Proof. induction l as [|a l IH]; [reflexivity|]. cbn [map fold_right]. rewrite IH. reflexivity. Qed.
Lemma fold_nadd_app (f : nat -> Qc) l R : fold_right nadd (Some 0%Qc) (map (fun d => Some (f d)) l ++ [Some R]) = Some (fold_right Qcplus 0%Qc (map f l) + R)%Qc.
Proof. induction l as [|a l IH]; [cbn; f_equal; ring|]. cbn [map app fold_right]. rewrite IH. cbn [nadd]. f_equal. ring. Qed.
Lemma agree_spec n lg (flags : list bool) : shape n 2 lg -> List.length flags = n ->
  (map argmax lg = map bit flags <-> Forall2 (fun r b => asks_split r <-> b = true) lg flags).
Proof.
  intros [HL HF] Hn. rewrite <- HL in Hn. clear HL. revert flags Hn. induction HF as [|r lg Hr HF IH]; intros [|b flags] Hn; cbn in Hn; try discriminate; [split; constructor|].
  cbn [map]. specialize (IH flags ltac:(lia)). split.
  - intros E. injection E as E1 E2. constructor; [|apply IH; exact E2]. destruct (argmax2 r Hr) as [[A B]|[A B]]; rewrite A in E1; destruct b; cbn in E1; try discriminate; intuition congruence.
  - intros E. inversion E as [|? ? ? ? E1 E2]; subst. f_equal; [|apply IH; exact E2]. destruct (argmax2 r Hr) as [[A B]|[A B]]; rewrite A; destruct b; cbn; try reflexivity; exfalso; intuition congruence.
Qed.

Section Loss.
  Variables (g : ae_cfg) (P : params) (ce : vec -> Z -> Qc) (cin cout CF lo dev : nat) (feature : string) (o : octree).
  Hypothesis HC : ae_config g.
  Hypothesis HN : norms_keep lo P.
  Hypothesis W : wf_octree o.
  Hypothesis Hdep : a_depth g = depth o.
  Hypothesis HL : layers_ready o false lo (a_full g) (a_depth g).
  Hypothesis Hcin : channel_ok cin.
  Hypothesis Hne : forall d, (a_full g <= d <= a_depth g)%nat -> (0 < node_count o d true)%nat.
  Variable x : feat.
  Hypothesis Hx : get_input_feature CF o feature false = Ok x.
  Hypothesis Hxs : shape (node_count o (a_depth g) false) cin x.
  Variables (logits : ddict feat) (signal gt : feat).
  Hypothesis Hrun : AutoEncoder g P cin cout CF dev feature o false = Ok (logits, signal, o).
  Hypothesis Hgt : get_input_feature CF o "ND" true = Ok gt.
  Hypothesis Hgts : shape (node_count o (a_depth g) true) 4 gt.
  Notation full := (a_full g).
  Notation dep := (a_depth g).

  Lemma run_parts : exists code, ae_encoder g P cin CF feature o = Ok code /\ shape (node_count o full false) (a_code g) code /\
    ae_decoder g P cout code o false = Ok (logits, signal, o).
  Proof.
    destruct (thm_encoder g P cin CF lo feature o HC HN W Hdep HL Hcin x Hx Hxs) as (code & Ec & Hc). exists code. split; [exact Ec|]. split; [exact Hc|].
    unfold AutoEncoder in Hrun. rewrite Ec in Hrun. cbn [bind] in Hrun. exact Hrun.
  Qed.
  Lemma run_shapes : (forall d, (full <= d <= dep)%nat -> exists logit, dfind logits (Z.of_nat d) = Ok logit /\ shape (node_count o d false) 2 logit) /\
    shape (node_count o dep true) cout signal.
  Proof.
    destruct (thm_autoencoder_fixed g P cin cout CF lo dev feature o HC HN W Hdep HL Hcin x Hx Hxs) as (l & s & E & R). rewrite Hrun in E.
    assert (Eq : forall A (x y : A), Ok x = Ok y -> x = y) by congruence. apply Eq in E. assert (E1 := f_equal (fun t => fst (fst t)) E). assert (E2 := f_equal (fun t => snd (fst t)) E).
    cbn [fst snd] in E1, E2. subst l s. exact R.
  Qed.
  Lemma count_le d : (full <= d <= dep)%nat -> exists flags, nempty_mask o (Z.of_nat d) = Ok flags /\ List.length flags = node_count o d false /\ (0 < node_count o d false)%nat.
  Proof.
    intros Hd. specialize (Hne d Hd). destruct W as (K & M & T). exists (M d). split; [apply (tree_mask o (depth o) K M T); lia|].
    rewrite (node_count_sel o (depth o) K M T) in * by lia. cbn [sel] in *. split; [apply (t_mask _ _ _ _ T); lia|].
    destruct (K d) as [|k ks]; [|cbn; lia]. destruct (M d) as [|[|] ?]; cbn in Hne; lia.
  Qed.
  Lemma one_depth d : (full <= d <= dep)%nat -> exists L A logit flags, depth_loss ce o logits (Z.of_nat d) = Ok (Z.of_nat d, Some L, Some A) /\
    dfind logits (Z.of_nat d) = Ok logit /\ nempty_mask o (Z.of_nat d) = Ok flags /\ List.length flags = List.length logit /\
    (L * qn (List.length logit) = fold_right Qcplus 0 (map (fun '(r, b) => ce r (bit b)) (combine logit flags)))%Qc /\
    (exists pred, predicts logit pred /\ (A * qn (List.length logit) = qn (List.length (filter (fun '(p, b) => p =? bit b) (combine pred flags))))%Qc) /\
    (0 <= A)%Qc /\ (A <= 1)%Qc /\ (A = 1%Qc <-> Forall2 (fun r b => asks_split r <-> b = true) logit flags).
  Proof.
    intros Hd. destruct (proj1 run_shapes d Hd) as (lg & El & Hs). destruct (count_le d Hd) as (flags & Ef & Hfl & Hp).
    unfold depth_loss. rewrite El. cbn [bind]. rewrite Ef. cbn [bind]. change (fun b : bool => if b then 1 else 0) with bit.
    assert (HLl : List.length lg = List.length flags) by (destruct Hs; congruence). unfold cross_entropy. rewrite map_length, HLl, Nat.eqb_refl. cbn [negb bind].
    assert (Hz : List.length (zip_with ce lg (map bit flags)) = List.length lg) by (apply zip_length; rewrite map_length; exact HLl).
    destruct (qmean_some (zip_with ce lg (map bit flags))) as (L & EL & SL); [intros Z; rewrite Z in Hz; cbn in Hz; lia|]. rewrite EL. cbn [bind].
    destruct (thm_accuracy lg (map bit flags)) as (A & EA & A1 & A2 & A3 & A4 & _); [rewrite map_length; exact HLl|destruct flags; [cbn in Hfl; lia|discriminate]|].
    rewrite EA. cbn [bind]. exists L, A, lg, flags. split; [reflexivity|]. split; [reflexivity|]. split; [reflexivity|]. split; [congruence|].
    split; [rewrite Hz in SL; rewrite SL; f_equal; unfold zip_with; clear; revert flags; induction lg as [|r lg IH]; intros [|b f]; cbn [combine map]; try reflexivity; f_equal; apply IH|].
    split; [|split; [exact A2|split; [exact A3|rewrite A4; apply (agree_spec _ _ _ Hs Hfl)]]].
    exists (map argmax lg). split.
    - destruct Hs as [_ Hs]. clear - Hs. induction Hs as [|r lg Hr Hs IH]; constructor; [|exact IH]. assert (N : r <> []) by (intros ->; discriminate).
      destruct (argmax_best r N) as [B0 B1]. exists (Z.to_nat (argmax r)). split; [lia|exact B1].
    - rewrite map_length in A1. rewrite HLl, A1. f_equal. clear. generalize (map argmax lg) as p. intros p. revert flags. induction p as [|a p IH]; intros [|b f]; cbn [combine map filter]; try reflexivity.
      cbn [fst snd]. destruct (a =? bit b); cbn [List.length]; rewrite IH; reflexivity.
  Qed.
  Lemma all_depths n : forall b, (full <= b)%nat -> (b + n <= S dep)%nat -> exists L A, mapM (depth_loss ce o logits) (map Z.of_nat (seq b n)) = Ok (map (fun d => (Z.of_nat d, Some (L d), Some (A d))) (seq b n)) /\
    forall d, (b <= d < b + n)%nat -> depth_loss ce o logits (Z.of_nat d) = Ok (Z.of_nat d, Some (L d), Some (A d)).
  Proof.
    induction n as [|n IH]; intros b Hb Hn; [exists (fun _ => 0%Qc), (fun _ => 0%Qc); split; [reflexivity|intros; lia]|].
    destruct (one_depth b ltac:(lia)) as (L & A & _ & _ & E & _). destruct (IH (S b) ltac:(lia) ltac:(lia)) as (L' & A' & E' & F').
    exists (fun d => if Nat.eqb d b then L else L' d), (fun d => if Nat.eqb d b then A else A' d). split.
    - cbn [seq map mapM]. rewrite E. cbn [bind]. rewrite E'. cbn [bind]. rewrite Nat.eqb_refl. f_equal. f_equal. apply map_ext_in. intros d Hd. apply in_seq in Hd.
      replace (Nat.eqb d b) with false by (symmetry; apply Nat.eqb_neq; lia). reflexivity.
    - intros d Hd. destruct (Nat.eqb_spec d b) as [->|N]; [exact E|apply F'; lia].
  Qed.

  Theorem thm_widths :
    (cout <> 4%nat -> cout <> 1%nat -> compute_loss ce CF o logits signal = Err RuntimeError) /\
    (cout = 1%nat -> exists per R total, compute_loss ce CF o logits signal = Ok (per, Some R, total) /\
      (R * qn (List.length gt) = fold_right Qcplus 0 (map (fun '(a, b) => squared_distance a (repeat (nth 0 b 0%Qc) 4)) (combine gt signal)))%Qc).
  Proof.
    destruct run_parts as (code & _ & _ & Ed). destruct (all_depths (S dep - full) full (le_n _) ltac:(destruct HC; lia)) as (L & A & E & F).
    destruct run_shapes as [_ Hs]. pose proof (Hne dep ltac:(destruct HC; lia)) as Hp. split.
    - intros H4 H1. unfold compute_loss. rewrite (decoder_keys _ _ _ _ _ _ _ _ _ Ed), E. cbn [bind]. rewrite Hgt. cbn [bind].
      rewrite (reg_other _ _ _ _ Hgts Hs Hp H4 H1). reflexivity.
    - intros H1. rewrite H1 in Hs. pose proof (reg_one _ _ _ Hgts Hs) as ER.
      assert (HLn : List.length (combine gt signal) = List.length gt) by (rewrite combine_length; destruct Hgts, Hs; lia).
      set (f := fun '(a, b) => squared_distance a (repeat (nth 0 b 0%Qc) 4)) in *.
      destruct (qmean_some (map f (combine gt signal))) as (R & EQ & SR).
      { intros Z. apply (f_equal (@List.length _)) in Z. rewrite map_length, HLn in Z. destruct Hgts as [Z1 _]. cbn in Z. lia. }
      rewrite map_length, HLn in SR. eexists. exists R. eexists. split; [|exact SR].
      unfold compute_loss. rewrite (decoder_keys _ _ _ _ _ _ _ _ _ Ed), E. cbn [bind]. rewrite Hgt. cbn [bind]. rewrite ER. cbn [bind]. rewrite EQ. reflexivity.
  Qed.

  Hypothesis Hc4 : cout = 4%nat.
  Theorem thm_loss : exists L A R, compute_loss ce CF o logits signal = Ok (map (fun d => (Z.of_nat d, Some (L d), Some (A d))) (seq full (S dep - full)), Some R,
      Some (fold_right Qcplus 0 (map L (seq full (S dep - full))) + R)%Qc) /\
    (forall d, (full <= d <= dep)%nat -> exists logit flags, dfind logits (Z.of_nat d) = Ok logit /\ nempty_mask o (Z.of_nat d) = Ok flags /\ List.length flags = List.length logit /\
      (L d * qn (List.length logit) = fold_right Qcplus 0 (map (fun '(r, b) => ce r (bit b)) (combine logit flags)))%Qc /\
      (exists pred, predicts logit pred /\ (A d * qn (List.length logit) = qn (List.length (filter (fun '(p, b) => (p =? bit b)%Z) (combine pred flags))))%Qc) /\
      (0 <= A d)%Qc /\ (A d <= 1)%Qc /\ (A d = 1%Qc <-> Forall2 (fun r b => asks_split r <-> b = true) logit flags)) /\
    (R * qn (List.length gt) = fold_right Qcplus 0 (map (fun '(a, b) => squared_distance a b) (combine gt signal)))%Qc /\ (0 <= R)%Qc /\ (R = 0%Qc <-> signal = gt).
  Proof.
    destruct run_parts as (code & _ & _ & Ed). destruct (all_depths (S dep - full) full (le_n _) ltac:(destruct HC; lia)) as (L & A & E & F).
    destruct (reg_ok gt signal _ _ Hgts (eq_rect _ (fun c => shape _ c _) (proj2 run_shapes) _ Hc4) (Hne dep ltac:(destruct HC; lia))) as (R & ER & R1 & R2 & R3).
    exists L, A, R. split; [|split].
    - unfold compute_loss. rewrite (decoder_keys _ _ _ _ _ _ _ _ _ Ed), E. cbn [bind]. rewrite Hgt. cbn [bind]. rewrite ER. cbn [bind]. rewrite map_map. cbn [fst snd].
      rewrite fold_nadd_app. reflexivity.
    - intros d Hd. destruct (one_depth d Hd) as (L' & A' & lg & flags & E1 & R'). rewrite F in E1 by lia.
      assert (Eq : forall A (x y : A), Ok x = Ok y -> x = y) by congruence. apply Eq in E1. assert (E2 := f_equal (fun t => snd (fst t)) E1). assert (E3 := f_equal snd E1). cbn [fst snd] in E2, E3.
      injection E2 as <-. injection E3 as <-. exists lg, flags. exact R'.
    - split; [destruct Hgts as [-> _]; rewrite R1; f_equal; unfold zip_with; apply map_ext; intros [a b]; apply sq_dist_spec|]. split; [exact R2|exact R3].
  Qed.

  (** All accuracies 1: generation reproduces the octree. *)
  Theorem thm_perfect : a_full g = full_depth o -> (1 <= batch_size o)%nat -> (lo <= 8)%nat ->
    forall per reg total, compute_loss ce CF o logits signal = Ok (per, reg, total) -> Forall (fun p => snd p = Some 1%Qc) per ->
    exists o1, AutoEncoder g P cin cout CF dev feature o true = Ok (logits, signal, o1) /\
      depth o1 = depth o /\ full_depth o1 = full_depth o /\ batch_size o1 = batch_size o /\ Forall2 same_tree (layers o) (layers o1) /\
      exists l, nth_error (layers o1) (depth o) = Some l /\ l_features l = Some signal /\ (reg = Some 0%Qc -> l_features l = Some gt).
  Proof.
    intros Hfull HB Hlo per reg total E HP. destruct run_parts as (code & Ec & Hc & Ed). destruct thm_loss as (L & A & R & E' & HA & _ & _ & HR). rewrite E in E'.
    assert (Eq : forall A (x y : A), Ok x = Ok y -> x = y) by congruence. apply Eq in E'. assert (E1 := f_equal (fun t => fst (fst t)) E'). assert (E2 := f_equal (fun t => snd (fst t)) E'). cbn [fst snd] in E1, E2. subst per reg.
    assert (Hcnt : node_count o full false = (8 ^ full * batch_size o)%nat).
    { destruct HC as [H1 _ _ _]. destruct W as (K & M & T). rewrite (node_count_sel o (depth o) K M T) by lia. cbn [sel]. rewrite (t_grid _ _ _ _ T) by lia. apply full_grid_length. }
    rewrite Hcnt in Hc. assert (Hb : (lo <= 8 ^ full * batch_size o)%nat) by (destruct (HL full ltac:(destruct HC; lia)) as [_ Hb]; lia).
    assert (HB2 : Z.of_nat (batch_size o) <= 32768) by (destruct W as (K & M & T); apply (t_batch _ _ _ _ T)).
    destruct (thm_fixpoint g P cout lo (batch_size o) dev HC HN HB HB2 (conj Hlo Hb) code Hc logits signal o W (eq_sym Hdep) (eq_sym Hfull) eq_refl HL Ed) as (o1 & Eo1 & Q).
    { intros d logit flags Hd El Ef. destruct (HA d Hd) as (lg & fl & El' & Ef' & Hlen & _ & _ & _ & _ & Hone). rewrite El in El'. rewrite Ef in Ef'. apply Eq in El'. apply Eq in Ef'. subst lg fl.
      rewrite Forall_forall in HP. assert (A1 : A d = 1%Qc).
      { specialize (HP (Z.of_nat d, Some (L d), Some (A d))). cbn [snd] in HP. assert (HI : In (Z.of_nat d, Some (L d), Some (A d)) (map (fun d => (Z.of_nat d, Some (L d), Some (A d))) (seq full (S dep - full)))) by (apply in_map_iff; exists d; split; [reflexivity|apply in_seq; lia]).
        specialize (HP HI). congruence. }
      apply Hone in A1. split; [exact Hlen|]. intros i r b Hr Hb'.
      assert (HR' : asks_split r <-> b = true). { clear - A1 Hr Hb'. revert i Hr Hb'. induction A1 as [|? ? ? ? H A1 IH]; intros [|i] Hr Hb'; cbn in *; try discriminate; [injection Hr as <-; injection Hb' as <-; exact H|eapply IH; eassumption]. }
      split; [intros _; tauto|]. intros Hno. exfalso. apply Hno. destruct (count_le d Hd) as (fl & Ef2 & _ & _). rewrite Ef in Ef2. apply Eq in Ef2. subst fl.
      assert (HT : In true flags).
      { specialize (Hne d Hd). destruct W as (K & M & T). rewrite (node_count_sel o (depth o) K M T) in Hne by (destruct HC; lia). cbn [sel] in Hne.
        rewrite (tree_mask o (depth o) K M T) in Ef by lia. apply Eq in Ef. subst flags. clear - Hne. revert Hne. generalize (K d) (M d). intros k m. revert k. induction m as [|[|] m IH]; intros [|a k] H; cbn in *; try lia; auto. right. eapply IH. exact H. }
      clear - A1 HT. induction A1 as [|? ? ? ? H A1 IH]; [destruct HT|]. destruct HT as [->|HT]; [apply Exists_cons_hd; tauto|apply Exists_cons_tl; auto]. }
    destruct Q as (Q1 & Q2 & Q3 & Q4). exists o1. split.
    { unfold AutoEncoder. rewrite Ec. cbn [bind]. unfold ae_decode_code in Eo1. exact Eo1. }
    split; [exact Q1|]. split; [exact Q2|]. split; [exact Q3|]. split; [exact Q4|].
    destruct (thm_decode g P cout lo (batch_size o) dev HC HN HB HB2 (conj Hlo Hb) code Hc) as (l2 & s2 & o2 & E2 & _ & _ & _ & _ & _ & _ & _ & l & Hl & Hf). rewrite Eo1 in E2. apply Eq in E2.
    assert (E3 := f_equal (fun t => snd (fst t)) E2). assert (E4 := f_equal snd E2). cbn [fst snd] in E3, E4. subst s2 o2. exists l. rewrite <- Hdep. split; [exact Hl|]. split; [exact Hf|].
    intros Hz. injection Hz as Hz. apply HR in Hz. rewrite Hf, Hz. reflexivity.
  Qed.
End Loss.
