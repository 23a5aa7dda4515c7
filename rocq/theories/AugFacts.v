(** Proofs about the augmentations of ScanNet. *)
From Coq Require Import String Ascii List ZArith Bool QArith Qcanon Lia Lqa.
From Verif Require Import Res Tensor Num Points Octree PointsOps Spec SpecPoints
  ListFacts NumFacts SumFacts PoolFacts Dataset Project SpecNN SpecProject MetricFacts CropFacts Prep SpecPrep PrepFacts SpecAug.
Import ListNotations.
Open Scope Z_scope.

Lemma channel_zip {A B C} (f : A -> B -> C) k a b : channel k (v3zip f a b) = f (channel k a) (channel k b).
Proof. destruct a as [[? ?] ?], b as [[? ?] ?], k as [|[|k]]; reflexivity. Qed.
Lemma channel_map {A B} (f : A -> B) k a : channel k (v3map f a) = f (channel k a).
Proof. destruct a as [[? ?] ?], k as [|[|k]]; reflexivity. Qed.
Lemma channel_ext {A} (a b : v3 A) : (forall k, channel k a = channel k b) -> a = b.
Proof. destruct a as [[? ?] ?], b as [[? ?] ?]. intros H. pose proof (H 0%nat). pose proof (H 1%nat). pose proof (H 2%nat). cbn in *. congruence. Qed.
Lemma v3le_channel a b : v3le a b <-> forall k, (channel k a <= channel k b)%Qc.
Proof.
  destruct a as [[? ?] ?], b as [[? ?] ?]. split.
  - intros (? & ? & ?) [|[|k]]; assumption.
  - intros H. exact (conj (H 0%nat) (conj (H 1%nat) (H 2%nat))).
Qed.

(** ** Colours *)
Definition up (v : v3 Qc) : v3 Qc := v3map (fun c => (c * qz 255)%Qc) v.
Definition down (v : v3 Qc) : v3 Qc := v3map (fun c => (c / qz 255)%Qc) v.
Lemma n255 : (qz 255 <> 0)%Qc.
Proof. intros E. apply (f_equal this) in E. discriminate E. Qed.
Lemma p255 : (0 < qz 255)%Qc. Proof. reflexivity. Qed.
Lemma up_down v : up (down v) = v.
Proof. apply channel_ext. intros k. unfold up, down. rewrite !channel_map. field. apply n255. Qed.
Lemma up_le a b : v3le (up a) (up b) <-> v3le a b.
Proof.
  rewrite !v3le_channel. split; intros H k; specialize (H k); unfold up in *; rewrite !channel_map in *.
  - apply (Qcmult_le_r _ _ _ p255). exact H.
  - apply Qcmult_le_compat_r; [exact H|discriminate].
Qed.
Lemma up_box lo hi vs : bounding_box lo hi (map up vs) -> bounding_box (down lo) (down hi) vs.
Proof.
  intros [H1 H2]. split.
  - apply Forall_forall. intros v Hv. rewrite Forall_forall in H1. destruct (H1 (up v) (in_map up _ _ Hv)) as [h1 h2]. split; apply (proj1 (up_le _ _)); rewrite up_down; assumption.
  - intros lo' hi' H. assert (G : v3le (up lo') lo /\ v3le hi (up hi')); [|destruct G; split; apply (proj1 (up_le _ _)); rewrite up_down; assumption]. apply H2. apply Forall_forall. intros v' Hv. apply in_map_iff in Hv. destruct Hv as (v & <- & Hv). rewrite Forall_forall in H. destruct (H v Hv). split; apply (proj2 (up_le _ _)); assumption.
Qed.
Lemma clip_clamped v : clamped v (clip255 (v * qz 255) / qz 255)%Qc.
Proof.
  assert (E0 : (0 / qz 255 = 0)%Qc) by (apply Qc_is_canon; reflexivity). assert (E1 : (qz 255 / qz 255 = 1)%Qc) by (apply Qc_is_canon; reflexivity).
  unfold clip255. split; [|split].
  - intros H. replace (qltb (v * qz 255) 0) with true; [exact E0|]. symmetry. apply qltb_lt. rewrite <- (Qcmult_0_l (qz 255)). apply Qcmult_lt_compat_r; [reflexivity|exact H].
  - intros H. assert (H' : (1 * qz 255 < v * qz 255)%Qc) by (apply Qcmult_lt_compat_r; [reflexivity|exact H]). rewrite Qcmult_1_l in H'.
    replace (qltb (v * qz 255) 0) with false; [|symmetry; apply qltb_ge; apply Qclt_le_weak; eapply Qclt_trans; [exact p255|exact H']].
    replace (qltb (qz 255) (v * qz 255)) with true; [exact E1|]. symmetry. apply qltb_lt. exact H'.
  - intros [H1 H2].
    replace (qltb (v * qz 255) 0) with false; [|symmetry; apply qltb_ge; rewrite <- (Qcmult_0_l (qz 255)); apply Qcmult_le_compat_r; [exact H1|discriminate]].
    replace (qltb (qz 255) (v * qz 255)) with false; [field; apply n255|]. symmetry. apply qltb_ge. rewrite <- (Qcmult_1_l (qz 255)) at 2. apply Qcmult_le_compat_r; [exact H2|discriminate].
Qed.
Lemma stepped_clip (b : bool) (P : Prop) s v : (b = true <-> P) -> stepped P s v ((if b then clip255 (v * qz 255 + s * qz 255) else v * qz 255) / qz 255)%Qc.
Proof.
  intros H. split.
  - intros p. apply H in p. rewrite p. rewrite <- Qcmult_plus_distr_l. apply clip_clamped.
  - intros p. destruct b; [exfalso; apply p, H; reflexivity|]. field. apply n255.
Qed.
Lemma stretch b c l h : l <> h -> ((1 - b) * (c * qz 255) + b * ((c * qz 255 - l * qz 255) * (qz 255 / (h * qz 255 - l * qz 255))) = blended b l h c * qz 255)%Qc.
Proof.
  intros N. unfold blended. assert (N1 : (h - l <> 0)%Qc) by (intros E; apply N; symmetry; replace h with (h - l + l)%Qc by ring; rewrite E; ring).
  field. split; [exact N1|]. replace (h * qz 255 - l * qz 255)%Qc with ((h - l) * qz 255)%Qc by ring. intros E. apply Qcmult_integral in E. destruct E as [E|E]; [exact (N1 E)|exact (n255 E)].
Qed.

Lemma max3 (v : v3 Qc) : let '(x, y, z) := v in (forall k, (channel k v <= qmax (qmax x y) z)%Qc) /\ exists k, qmax (qmax x y) z = channel k v.
Proof.
  destruct v as [[x y] z]. destruct (qmax_spec (qmax x y) z) as (m1 & m2 & m3). destruct (qmax_spec x y) as (n1 & n2 & n3). split.
  - intros [|[|k]]; cbn; [eapply Qcle_trans; eassumption|eapply Qcle_trans; eassumption|exact m2].
  - destruct m3 as [-> | ->]; [destruct n3 as [-> | ->]|]; [exists 0%nat|exists 1%nat|exists 2%nat]; reflexivity.
Qed.
Lemma box_attained lo hi vs k : vs <> [] -> bounding_box lo hi vs -> exists v, In v vs /\ channel k v = channel k hi.
Proof.
  intros Hne [H1 H2]. destruct (Exists_dec (fun v => channel k v = channel k hi) vs (fun v => Qc_eq_dec _ _)) as [E|E].
  - apply Exists_exists in E. destruct E as (v & Hv & E). exists v. auto.
  - exfalso. (* every point lies strictly below: the face can be moved *)
    assert (Hm : exists m, (m < channel k hi)%Qc /\ Forall (fun v => (channel k v <= m)%Qc) vs).
    { assert (Hs : Forall (fun v => (channel k v < channel k hi)%Qc) vs).
      { apply Forall_forall. intros v Hv. rewrite Forall_forall in H1. destruct (H1 v Hv) as [_ h]. rewrite v3le_channel in h. specialize (h k). destruct (Qcle_lt_or_eq _ _ h) as [L|L]; [exact L|]. exfalso. apply E. apply Exists_exists. exists v. auto. }
      clear - Hs Hne. induction Hs as [|v vs Hv Hs IH]; [congruence|]. destruct vs as [|v' vs].
      - exists (channel k v). split; [exact Hv|]. constructor; [apply Qcle_refl|constructor].
      - destruct IH as (m & m1 & m2); [discriminate|]. exists (qmax (channel k v) m). destruct (qmax_spec (channel k v) m) as (a & b & c). split; [destruct c as [-> | ->]; assumption|].
        constructor; [exact a|]. eapply Forall_impl; [|exact m2]. intros w Hw. eapply Qcle_trans; [exact Hw|exact b]. }
    destruct Hm as (m & Hm & Hf).
    set (hi' := let '(x, y, z) := hi in match k with O => (m, y, z) | S O => (x, m, z) | _ => (x, y, m) end).
    destruct (H2 lo hi') as [_ h].
    + apply Forall_forall. intros v Hv. rewrite Forall_forall in H1, Hf. destruct (H1 v Hv) as [h1 h2]. specialize (Hf v Hv). split; [exact h1|].
      destruct hi as [[x y] z], v as [[a b] c], k as [|[|k]]; cbn in *; tauto.
    + rewrite v3le_channel in h. specialize (h k). apply (Qcle_not_lt _ _ h). destruct hi as [[x y] z], k as [|[|k]]; exact Hm.
Qed.

Lemma jitter_nth do noise std color i v : nth_error color i = Some v ->
  nth_error (color_jitter do noise std color) i = Some (if qltb do (Q2Qc (95 # 100)) then v3zip (fun n c => option_map (fun c => clip255 (n * (std * qz 255) + c)%Qc) c) (noise i) v else v).
Proof.
  intros H. unfold color_jitter. destruct (qltb do (Q2Qc (95 # 100))); [|exact H]. rewrite nth_error_map.
  assert (E : nth_error (combine (seq 0 (List.length color)) color) i = Some (i, v)); [|etransitivity; [apply f_equal; exact E|reflexivity]].
  change i with (0 + i)%nat at 2. revert i H. generalize 0%nat as k. induction color as [|a l IH]; intros k [|i] H; try discriminate; cbn in *; [injection H as ->; rewrite Nat.add_0_r; reflexivity|].
  rewrite (IH (S k) i H). f_equal. f_equal. lia.
Qed.
Lemma translation_nth do tr ratio color i v : nth_error color i = Some v ->
  nth_error (color_translation do tr ratio color) i =
    Some (if qltb do (Q2Qc (95 # 100)) then v3zip (fun t c => option_map (fun c => clip255 (t + c)%Qc) c) (v3map (fun t => ((t - Q2Qc (1 # 2)) * qz 255 * qz 2 * ratio)%Qc) tr) v else v).
Proof. intros H. unfold color_translation. destruct (qltb do (Q2Qc (95 # 100))); [|exact H]. rewrite nth_error_map. etransitivity; [apply f_equal; exact H|reflexivity]. Qed.

Theorem thm_color : forall g ratio std color, Exists (fun v => exists k, (Q2Qc (1 # 255) < channel k v)%Qc) color ->
  exists lo hi rows, bounding_box lo hi color /\ color_distort g ratio std color = Ok rows /\ List.length rows = List.length color /\
  forall i v k, nth_error color i = Some v -> exists w, nth_error rows i = Some w /\
    (channel k lo = channel k hi -> channel k w = None) /\
    (channel k lo <> channel k hi -> exists t u, channel k w = Some u /\
       stepped (c_do_tr g < Q2Qc (95 # 100))%Qc ((channel k (c_tr g) - Q2Qc (1 # 2)) * qz 2 * ratio)%Qc (blended (c_blend g) (channel k lo) (channel k hi) (channel k v)) t /\
       stepped (c_do_jit g < Q2Qc (95 # 100))%Qc (channel k (c_noise g i) * std)%Qc t u).
Proof.
  intros g ratio std color Hb. apply Exists_exists in Hb. destruct Hb as (v1 & Hv1 & k1 & Hb).
  assert (Hne : map up color <> []) by (destruct color; [destruct Hv1|discriminate]).
  destruct (rows_fold_box _ Hne) as (slo & shi & E1 & E2 & Box).
  exists (down slo), (down shi). unfold color_distort, autocontrast. cbv zeta. change (map (v3map (fun c => (c * qz 255)%Qc)) color) with (map up color). rewrite E1, E2. cbn [bind].
  assert (A : let '(hx, hy, hz) := shi in qltb 1 (qmax (qmax hx hy) hz) = true).
  { pose proof (max3 shi) as M. destruct shi as [[hx hy] hz]. destruct M as [M _]. apply qltb_lt. eapply Qclt_le_trans; [|apply (M k1)].
    destruct Box as [B _]. rewrite Forall_forall in B. destruct (B (up v1) (in_map up _ _ Hv1)) as [_ B']. rewrite v3le_channel in B'. eapply Qclt_le_trans; [|apply (B' k1)].
    unfold up. rewrite channel_map. replace 1%Qc with (Q2Qc (1 # 255) * qz 255)%Qc by (apply Qc_is_canon; reflexivity). apply Qcmult_lt_compat_r; [reflexivity|exact Hb]. }
  set (one := fun c l h : Qc => if Qc_eq_dec (h - l)%Qc 0%Qc then None else Some ((1 - c_blend g) * c + c_blend g * ((c - l) * (qz 255 / (h - l))))%Qc).
  set (f := fun v : v3 Qc => v3zip (fun a b => a b) (v3zip (fun l h c => one c l h) slo shi) v).
  assert (EF : forall T (K : list (v3 cnum) -> res T), (bind (let '(hx, hy, hz) := shi in bind (assert_ (qltb 1 (qmax (qmax hx hy) hz))) (fun _ =>
     Ok (map (fun v => let '(x, y, z) := v in let '(lx, ly, lz) := slo in (one x lx hx, one y ly hy, one z lz hz)) (map up color)))) K) = K (map f (map up color))).
  { intros T K. destruct shi as [[hx hy] hz]. rewrite A. cbn [assert_ bind]. f_equal. apply map_ext. intros [[x y] z]. unfold f. destruct slo as [[lx ly] lz]. reflexivity. }
  rewrite EF. eexists. split; [apply up_box; exact Box|]. split; [reflexivity|]. split.
  { rewrite map_length. unfold color_jitter, color_translation. destruct (qltb (c_do_jit g) _), (qltb (c_do_tr g) _); rewrite ?map_length, ?combine_length, ?seq_length, ?map_length; try reflexivity; lia. }
  intros i v k Hi.
  assert (H0 : nth_error (map f (map up color)) i = Some (f (up v))) by (rewrite !nth_error_map, Hi; reflexivity).
  pose proof (jitter_nth (c_do_jit g) (c_noise g) std _ _ _ (translation_nth (c_do_tr g) (c_tr g) ratio _ _ _ H0)) as HJ.
  eexists. split; [rewrite nth_error_map, HJ; reflexivity|]. clear HJ H0. rewrite channel_map.
  set (tb := qltb (c_do_tr g) (Q2Qc (95 # 100))). set (jb := qltb (c_do_jit g) (Q2Qc (95 # 100))).
  assert (EC : forall X, channel k (f (up v)) = X ->
     channel k (if jb then v3zip (fun n c => option_map (fun c => clip255 (n * (std * qz 255) + c)%Qc) c) (c_noise g i) (if tb then v3zip (fun t c => option_map (fun c => clip255 (t + c)%Qc) c) (v3map (fun t => ((t - Q2Qc (1 # 2)) * qz 255 * qz 2 * ratio)%Qc) (c_tr g)) (f (up v)) else f (up v)) else if tb then v3zip (fun t c => option_map (fun c => clip255 (t + c)%Qc) c) (v3map (fun t => ((t - Q2Qc (1 # 2)) * qz 255 * qz 2 * ratio)%Qc) (c_tr g)) (f (up v)) else f (up v))
     = option_map (fun c => let c := (if tb then clip255 ((channel k (c_tr g) - Q2Qc (1 # 2)) * qz 255 * qz 2 * ratio + c) else c)%Qc in (if jb then clip255 (channel k (c_noise g i) * (std * qz 255) + c) else c)%Qc) X).
  { intros X <-. destruct jb, tb; rewrite ?channel_zip, ?channel_map; destruct (channel k (f (up v))); reflexivity. }
  assert (Ef : channel k (f (up v)) = one (channel k v * qz 255)%Qc (channel k slo) (channel k shi)).
  { unfold f, up. rewrite !channel_zip, channel_map. reflexivity. }
  rewrite (EC _ Ef). clear EC Ef. unfold down. rewrite !channel_map.
  set (l := (channel k slo / qz 255)%Qc). set (h := (channel k shi / qz 255)%Qc).
  assert (El : channel k slo = (l * qz 255)%Qc) by (unfold l; field; apply n255). assert (Eh : channel k shi = (h * qz 255)%Qc) by (unfold h; field; apply n255).
  rewrite El, Eh. clearbody l h. unfold one. split.
  - intros ->. destruct (Qc_eq_dec _ _) as [_|N]; [reflexivity|]. exfalso. apply N. ring.
  - intros N. destruct (Qc_eq_dec _ _) as [E|_].
    { exfalso. replace (h * qz 255 - l * qz 255)%Qc with ((h - l) * qz 255)%Qc in E by ring. apply Qcmult_integral in E. destruct E as [E|E]; [|exact (n255 E)]. apply N. symmetry. replace h with (h - l + l)%Qc by ring. rewrite E. ring. }
    rewrite (stretch _ _ _ _ N). cbn [option_map]. set (bl := blended (c_blend g) l h (channel k v)).
    set (t := ((if tb then clip255 (bl * qz 255 + ((channel k (c_tr g) - Q2Qc (1 # 2)) * qz 2 * ratio) * qz 255) else bl * qz 255) / qz 255)%Qc).
    exists t. eexists. split; [reflexivity|]. split.
    + apply stepped_clip. unfold tb. symmetry. apply (conj (proj2 (qltb_lt _ _)) (proj1 (qltb_lt _ _))).
    + replace (if tb then clip255 ((channel k (c_tr g) - Q2Qc (1 # 2)) * qz 255 * qz 2 * ratio + bl * qz 255)%Qc else (bl * qz 255)%Qc) with (t * qz 255)%Qc.
      * match goal with |- stepped _ _ _ ?u => replace u with ((if jb then clip255 (t * qz 255 + (channel k (c_noise g i) * std) * qz 255) else t * qz 255) / qz 255)%Qc end.
        -- apply stepped_clip. unfold jb. symmetry. apply (conj (proj2 (qltb_lt _ _)) (proj1 (qltb_lt _ _))).
        -- destruct jb; [|reflexivity]. f_equal. f_equal. ring.
      * unfold t. destruct tb; [|field; apply n255].
        replace ((channel k (c_tr g) - Q2Qc (1 # 2)) * qz 255 * qz 2 * ratio + bl * qz 255)%Qc with (bl * qz 255 + (channel k (c_tr g) - Q2Qc (1 # 2)) * qz 2 * ratio * qz 255)%Qc by ring. field. apply n255.
Qed.

Lemma clamped_unit v w : clamped v w -> (0 <= w <= 1)%Qc.
Proof.
  intros (H1 & H2 & H3). destruct (Qclt_le_dec v 0) as [L|L]; [rewrite (H1 L); split; discriminate|]. destruct (Qclt_le_dec 1 v) as [L'|L']; [rewrite (H2 L'); split; discriminate|]. rewrite (H3 (conj L L')). auto.
Qed.
Lemma stepped_unit (P : Prop) s v w : {P} + {~ P} -> stepped P s v w -> (0 <= v <= 1)%Qc -> (0 <= w <= 1)%Qc.
Proof. intros [p|p] [H1 H2] Hv; [eapply clamped_unit; apply H1; exact p|rewrite (H2 p); exact Hv]. Qed.
Lemma blended_unit b l h c : (0 <= b <= 1)%Qc -> (l <= c <= h)%Qc -> l <> h -> (0 <= l)%Qc -> (h <= 1)%Qc -> (0 <= blended b l h c <= 1)%Qc.
Proof.
  intros [b1 b2] [c1 c2] N Hl Hh. assert (L : (l < h)%Qc) by (destruct (Qcle_lt_or_eq _ _ (Qcle_trans _ _ _ c1 c2)) as [L|L]; [exact L|congruence]).
  assert (P : (0 < h - l)%Qc) by qclra. unfold blended. set (r := ((c - l) / (h - l))%Qc).
  assert (R1 : (0 <= r)%Qc) by (apply le_div; [exact P|rewrite Qcmult_0_l; qclra]). assert (R2 : (r <= 1)%Qc) by (apply div_le; [exact P|rewrite Qcmult_1_l; qclra]). clearbody r.
  assert (B1 : (0 * r <= b * r)%Qc) by (apply Qcmult_le_compat_r; assumption). assert (B2 : (b * r <= b * 1)%Qc) by (rewrite !(Qcmult_comm b); apply Qcmult_le_compat_r; assumption).
  assert (Hc0 : (0 <= c)%Qc) by (eapply Qcle_trans; [exact Hl|exact c1]). assert (Hc1 : (c <= 1)%Qc) by (eapply Qcle_trans; [exact c2|exact Hh]). assert (Hb : (0 <= 1 - b)%Qc) by qclra.
  assert (B3 : (0 * c <= (1 - b) * c)%Qc) by (apply Qcmult_le_compat_r; assumption). assert (B4 : ((1 - b) * c <= (1 - b) * 1)%Qc) by (rewrite !(Qcmult_comm (1 - b)); apply Qcmult_le_compat_r; assumption).
  rewrite ?Qcmult_0_l, ?Qcmult_1_r in *. set (u := ((1 - b) * c)%Qc) in *. set (w := (b * r)%Qc) in *. clearbody u w. split; qclra.
Qed.
Lemma box_unique lo hi lo' hi' vs : bounding_box lo hi vs -> bounding_box lo' hi' vs -> lo = lo' /\ hi = hi'.
Proof.
  intros [H1 H2] [H3 H4]. destruct (H2 _ _ H3) as [a b]. destruct (H4 _ _ H1) as [c d]. rewrite v3le_channel in *. split; apply channel_ext; intros k; apply Qcle_antisym; auto.
Qed.

Theorem thm_color_range : forall g ratio std color rows, (0 <= c_blend g <= 1)%Qc -> Forall (fun v => forall k, (0 <= channel k v <= 1)%Qc) color ->
  color_distort g ratio std color = Ok rows -> Forall (fun w => forall k u, channel k w = Some u -> (0 <= u <= 1)%Qc) rows.
Proof.
  intros g ratio std color rows Hb Hc E.
  assert (Hx : Exists (fun v => exists k, (Q2Qc (1 # 255) < channel k v)%Qc) color).
  { unfold color_distort, autocontrast in E. change (map (v3map (fun c => (c * qz 255)%Qc)) color) with (map up color) in E. destruct color as [|v0 vs]; [discriminate|].
    destruct (rows_fold_box (map up (v0 :: vs)) ltac:(discriminate)) as (slo & shi & E1 & E2 & Box). cbv zeta in E. rewrite E1, E2 in E. cbn [bind] in E.
    pose proof (max3 shi) as M. destruct shi as [[hx hy] hz] eqn:Es. destruct (qltb 1 (qmax (qmax hx hy) hz)) eqn:L; [|discriminate]. apply qltb_lt in L. destruct M as [_ [k Ek]]. rewrite Ek in L.
    destruct (box_attained slo (hx, hy, hz) (map up (v0 :: vs)) k ltac:(discriminate) Box) as (v' & Hv & Ev). apply in_map_iff in Hv. destruct Hv as (v & <- & Hv). apply Exists_exists. exists v. split; [exact Hv|]. exists k.
    rewrite <- Ev in L. unfold up in L. rewrite channel_map in L. apply (Qcmult_lt_r _ _ _ p255). replace (Q2Qc (1 # 255) * qz 255)%Qc with 1%Qc by (apply Qc_is_canon; reflexivity). exact L. }
  destruct (thm_color g ratio std color Hx) as (lo & hi & rows' & Box & E' & Len & H). rewrite E in E'. injection E' as <-.
  apply Forall_forall. intros w Hw k u Hu. apply In_nth_error in Hw. destruct Hw as [i Hi]. destruct (nth_error color i) as [v|] eqn:Ev; [|apply nth_error_None in Ev; assert (nth_error rows i <> None) by congruence; apply nth_error_Some in H0; lia].
  destruct (H i v k Ev) as (w' & Hw' & N1 & N2). rewrite Hi in Hw'. injection Hw' as <-.
  destruct (Qc_eq_dec (channel k lo) (channel k hi)) as [Eq|Ne]; [rewrite (N1 Eq) in Hu; discriminate|]. destruct (N2 Ne) as (t & u' & Hu' & S1 & S2). rewrite Hu in Hu'. injection Hu' as <-.
  assert (dec : forall a b, {(a < b)%Qc} + {~ (a < b)%Qc}) by (intros a b; destruct (Qclt_le_dec a b) as [L|L]; [left; exact L|right; apply Qcle_not_lt; exact L]).
  eapply stepped_unit; [apply dec|exact S2|]. eapply stepped_unit; [apply dec|exact S1|].
  pose proof Box as [B1 B2]. rewrite Forall_forall in B1, Hc. destruct (B1 v (nth_error_In _ _ Ev)) as [h1 h2]. rewrite v3le_channel in h1, h2.
  apply blended_unit; [exact Hb|auto|exact Ne| |].
  - destruct (B2 (0, 0, 0)%Qc hi) as [q _]; [|rewrite v3le_channel in q; specialize (q k); destruct k as [|[|k]]; exact q].
    apply Forall_forall. intros x Hx'. split; [|apply B1; exact Hx']. rewrite v3le_channel. intros k'. replace (channel k' (0, 0, 0)%Qc) with 0%Qc by (destruct k' as [|[|k']]; reflexivity). apply Hc. exact Hx'.
  - destruct (B2 lo (1, 1, 1)%Qc) as [_ q]; [|rewrite v3le_channel in q; specialize (q k); destruct k as [|[|k]]; exact q].
    apply Forall_forall. intros x Hx'. split; [apply B1; exact Hx'|]. rewrite v3le_channel. intros k'. replace (channel k' (1, 1, 1)%Qc) with 1%Qc by (destruct k' as [|[|k']]; reflexivity). apply Hc. exact Hx'.
Qed.
Theorem thm_color_dark : forall g ratio std color, Forall (fun v => forall k, (channel k v <= Q2Qc (1 # 255))%Qc) color ->
  color_distort g ratio std color = Err (if Nat.eqb (List.length color) 0 then ValueError else AssertionError).
Proof.
  intros g ratio std color Hc. destruct color as [|v0 vs]; [reflexivity|]. unfold color_distort, autocontrast. cbv zeta. change (map (v3map (fun c => (c * qz 255)%Qc)) (v0 :: vs)) with (map up (v0 :: vs)).
  destruct (rows_fold_box (map up (v0 :: vs)) ltac:(discriminate)) as (slo & shi & E1 & E2 & Box). rewrite E1, E2. cbn [bind].
  pose proof (max3 shi) as M. destruct shi as [[hx hy] hz] eqn:Es. destruct M as [_ [k Ek]]. destruct (box_attained slo (hx, hy, hz) (map up (v0 :: vs)) k ltac:(discriminate) Box) as (v' & Hv & Ev). apply in_map_iff in Hv. destruct Hv as (v & <- & Hv).
  replace (qltb 1 (qmax (qmax hx hy) hz)) with false; [reflexivity|]. symmetry. apply qltb_ge. rewrite Ek, <- Ev. unfold up. rewrite channel_map. replace 1%Qc with (Q2Qc (1 # 255) * qz 255)%Qc by (apply Qc_is_canon; reflexivity). apply Qcmult_le_compat_r; [|discriminate]. rewrite Forall_forall in Hc. apply Hc. exact Hv.
Qed.
