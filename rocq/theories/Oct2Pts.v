(** Points from the signal of an octree. *)
From Coq Require Import String List ZArith Bool QArith Qcanon Lia Lqa Field Sorting.Sorted.
From Verif Require Import Res Tensor Key Num Points Octree PointsOps NnBasic Utils Dataset Net Project Spec WF SpecNN SpecProject SpecEval NumFacts KeyFacts ListFacts KidsFacts BuildFacts WFFacts SearchFacts NnFacts ConvFacts PadFacts MetricFacts EvalFacts SpecNet NetAe.
Import ListNotations.
Open Scope Z_scope.

Lemma select_combine {A B} (f : A -> bool) (a : list A) : forall l : list B, List.length a = List.length l ->
  select (map f a) l = map snd (filter (fun p => f (fst p)) (combine a l)).
Proof. induction a as [|x a IH]; intros [|y l] H; cbn in H; try discriminate; [reflexivity|]. cbn [map select combine filter fst snd]. destruct (f x); cbn [map snd]; rewrite IH by lia; reflexivity. Qed.

Lemma sorted_prefix lo bs : StronglySorted Z.le bs -> Forall (fun b => lo <= b) bs ->
  exists c bs', bs = repeat lo c ++ bs' /\ StronglySorted Z.le bs' /\ Forall (fun b => lo + 1 <= b) bs'.
Proof.
  induction 1 as [|b bs HS IH HB]; intros HF; [exists O, []; repeat constructor|]. apply Forall_cons_iff in HF. destruct HF as (F1 & F2). destruct (Z.eq_dec b lo) as [->|N].
  - destruct (IH F2) as (c & bs' & -> & A & B). exists (S c), bs'. auto.
  - exists O, (b :: bs). split; [reflexivity|]. split; [constructor; assumption|]. constructor; [lia|]. eapply Forall_impl; [|exact HB]. cbn. lia.
Qed.
Lemma count_app a b : count_true (a ++ b) = (count_true a + count_true b)%nat.
Proof. unfold count_true. rewrite filter_app, app_length. reflexivity. Qed.
Lemma map_eqb_repeat i lo c : map (Z.eqb i) (repeat lo c) = repeat (i =? lo) c.
Proof. induction c as [|c IH]; [reflexivity|]. cbn [repeat map]. rewrite IH. reflexivity. Qed.
Lemma count_repeat b c : count_true (repeat b c) = if b then c else O.
Proof. destruct b; induction c as [|c IH]; try reflexivity; cbn [repeat]; rewrite count_true_cons, IH; reflexivity. Qed.
Lemma count_none i bs : Forall (fun b => i < b) bs -> count_true (map (Z.eqb i) bs) = O.
Proof. induction 1 as [|b bs H _ IH]; [reflexivity|]. cbn [map]. rewrite count_true_cons, IH. destruct (Z.eqb_spec i b); [lia|reflexivity]. Qed.
Lemma select_repeat_t {A} c : forall (l : list A) m, (c <= List.length l)%nat -> select (repeat true c ++ m) l = firstn c l ++ select m (skipn c l).
Proof. induction c as [|c IH]; intros l m H; [reflexivity|]. destruct l as [|a l]; cbn in H; [lia|]. cbn [repeat app select firstn skipn]. rewrite IH by lia. reflexivity. Qed.
Lemma select_repeat_f {A} c : forall (l : list A) m, (c <= List.length l)%nat -> select (repeat false c ++ m) l = select m (skipn c l).
Proof. induction c as [|c IH]; intros l m H; [reflexivity|]. destruct l as [|a l]; cbn in H; [lia|]. cbn [repeat app select skipn]. apply IH. lia. Qed.
Lemma select_none {A} i bs : Forall (fun b => i < b) bs -> forall l : list A, select (map (Z.eqb i) bs) l = [].
Proof.
  induction 1 as [|b bs H _ IH]; intros l; destruct l as [|a l]; cbn [map select]; try reflexivity.
  all: destruct (Z.eqb_spec i b); [lia|]; reflexivity || apply IH.
Qed.

Lemma split_sorted {A} n : forall lo bs (l : list A), List.length l = List.length bs -> StronglySorted Z.le bs -> Forall (fun b => lo <= b < lo + Z.of_nat n) bs ->
  split_rows l (map (fun i => count_true (map (Z.eqb (lo + Z.of_nat i)) bs)) (seq 0 n)) = map (fun i => select (map (Z.eqb (lo + Z.of_nat i)) bs) l) (seq 0 n) /\
  fold_right Nat.add O (map (fun i => count_true (map (Z.eqb (lo + Z.of_nat i)) bs)) (seq 0 n)) = List.length l.
Proof.
  induction n as [|n IH]; intros lo bs l HL HS HF.
  - destruct bs as [|b bs]; [|apply Forall_cons_iff in HF; lia]. destruct l; [split; reflexivity|discriminate].
  - destruct (sorted_prefix lo bs HS) as (c & bs' & -> & S' & F'); [eapply Forall_impl; [|exact HF]; cbn; lia|].
    rewrite app_length, repeat_length in HL. cbn [seq]. rewrite <- seq_shift. cbn [map]. rewrite !map_map. cbn [split_rows fold_right].
    assert (N0 : lo + Z.of_nat 0 = lo) by lia. rewrite N0. rewrite map_app, map_eqb_repeat, Z.eqb_refl, count_app, count_repeat.
    rewrite (count_none lo) by (eapply Forall_impl; [|exact F']; cbn; lia). rewrite Nat.add_0_r.
    assert (X : forall i, map (Z.eqb (lo + Z.of_nat (S i))) (repeat lo c ++ bs') = repeat false c ++ map (Z.eqb (lo + 1 + Z.of_nat i)) bs').
    { intros i. rewrite map_app, map_eqb_repeat. replace (lo + Z.of_nat (S i) =? lo) with false by (symmetry; apply Z.eqb_neq; lia). replace (lo + 1 + Z.of_nat i) with (lo + Z.of_nat (S i)) by lia. reflexivity. }
    destruct (IH (lo + 1) bs' (skipn c l)) as (I1 & I2).
    + rewrite skipn_length. lia.
    + exact S'.
    + apply Forall_app in HF. destruct HF as (_ & HF). rewrite Forall_forall in *. intros b Hb. specialize (HF b Hb). specialize (F' b Hb). cbn in *. lia.
    + rewrite (map_ext (fun x => count_true (map (Z.eqb (lo + Z.of_nat (S x))) (repeat lo c ++ bs'))) (fun i => count_true (map (Z.eqb (lo + 1 + Z.of_nat i)) bs'))) by (intros i; rewrite X, count_app, count_repeat; reflexivity).
      rewrite (map_ext (fun x => select (map (Z.eqb (lo + Z.of_nat (S x))) (repeat lo c ++ bs')) l) (fun i => select (map (Z.eqb (lo + 1 + Z.of_nat i)) bs') (skipn c l))) by (intros i; rewrite X; apply select_repeat_f; lia).
      rewrite I1, I2. split; [f_equal|rewrite skipn_length; lia]. rewrite select_repeat_t by lia. rewrite select_none by (eapply Forall_impl; [|exact F']; cbn; lia). symmetry. apply app_nil_r.
Qed.
Lemma sorted_batches ks : sorted ks -> StronglySorted Z.le (map (fun k => k / 2 ^ 48) ks).
Proof.
  intros H. induction H as [|k ks HS IH HF]; [constructor|]. cbn [map]. constructor; [exact IH|]. apply Forall_map. eapply Forall_impl; [|exact HF]. intros a Ha. cbn in Ha. apply Z.div_le_mono; lia.
Qed.
Lemma batch_range B d ks : (d <= 16)%nat -> Forall (vkey B d) ks -> Forall (fun b => 0 <= b < 0 + Z.of_nat B) (map (fun k => k / 2 ^ 48) ks).
Proof.
  intros Hd H. apply Forall_map. eapply Forall_impl; [|exact H]. intros k (b & m & Hb & Hm & ->). pose proof (pow8_lt48 d Hd). replace ((b * 2 ^ 48 + m) / 2 ^ 48) with b by (symmetry; rewrite Z.div_add_l by lia; rewrite Z.div_small by lia; lia). lia.
Qed.

Lemma axis_eq d x e n : ((qz x + Q2Qc (1 # 2) + e * n) / q2pow (Z.of_nat d - 1) - 1 = (qz x + Q2Qc (1 # 2)) * (qz 2 / qz (2 ^ Z.of_nat d)) - 1 + e * (qz 2 / qz (2 ^ Z.of_nat d)) * n)%Qc.
Proof.
  rewrite <- (q2pow_pred d). pose proof (q2pow_pos (Z.of_nat d - 1)) as P. assert (N : q2pow (Z.of_nat d - 1) <> 0%Qc) by (intros E; rewrite E in P; discriminate P). generalize dependent (q2pow (Z.of_nat d - 1)). intros q P N.
  generalize (Q2Qc (1 # 2)) as h. intros h. field. split; [discriminate|exact N].
Qed.

Theorem thm_octree2pts nrm o l signal : wf_octree o -> nth_error (layers o) (depth o) = Some l -> l_features l = Some signal ->
  shape (node_count o (depth o) true) 4 signal ->
  exists cs pieces, octree_xyzb o (depth o) true = Ok cs /\ List.length cs = List.length signal /\
    octree2pts nrm o = Ok pieces /\ List.length pieces = batch_size o /\
    (forall i, (i < batch_size o)%nat -> nth_error pieces i =
       Some (map (fun cr => pt_of nrm (depth o) (fst cr) (snd cr)) (filter (fun cr => snd (fst cr) =? Z.of_nat i) (combine cs signal)))) /\
    fold_right Nat.add O (map (@List.length _) pieces) = node_count o (depth o) true.
Proof.
  intros (K & M & T) Hl Hf (S1 & S2). set (d := depth o) in *. pose proof (t_depth _ _ _ _ T) as D16. fold d in D16, T.
  pose proof (tree_xyzb o d K M d true T (le_n _)) as EX. pose proof (tree_batch_id o d K M d true T (le_n _)) as EB. pose proof (sel_sorted o d K M T true d (le_n _)) as SS. pose proof (sel_vkey o d K M T true d (le_n _)) as SV.
  pose proof (node_count_sel o d K M T d true (le_n _)) as EC. set (ks := sel K M true d) in *. exists (map (coords d) ks).
  assert (LK : List.length ks = List.length signal) by congruence.
  set (pts := zip_with (fun c r => pt_of nrm d c r) (map (coords d) ks) signal).
  assert (LP : List.length pts = List.length ks) by (unfold pts; rewrite zip_length; rewrite map_length; congruence).
  destruct (split_sorted (batch_size o) 0 (map (fun k => k / 2 ^ 48) ks) pts) as (P1 & P2).
  { rewrite LP, map_length. reflexivity. } { apply sorted_batches. exact SS. } { apply (batch_range _ d); [exact D16|exact SV]. }
  exists (map (fun i => select (map (Z.eqb (0 + Z.of_nat i)) (map (fun k => k / 2 ^ 48) ks)) pts) (seq 0 (batch_size o))).
  assert (EP : octree2pts nrm o = Ok (map (fun i => select (map (Z.eqb (0 + Z.of_nat i)) (map (fun k => k / 2 ^ 48) ks)) pts) (seq 0 (batch_size o)))).
  { unfold octree2pts. fold d. rewrite (get_layer_Ok _ _ _ Hl). cbn [bind]. rewrite Hf. cbn [need bind].
    rewrite (mapM_Ok _ (fun r => (nrm (nth 0 r 0%Qc, nth 1 r 0%Qc, nth 2 r 0%Qc), nth 3 r 0%Qc))).
    2:{ intros r Hr. rewrite Forall_forall in S2. specialize (S2 r Hr). do 5 (destruct r as [|? r]; try discriminate S2). reflexivity. }
    cbn [bind]. rewrite EX. cbn [bind]. rewrite !map_length, LK, Nat.eqb_refl. cbn [negb]. rewrite EB. cbn [bind].
    assert (EZ : zip_with (fun '(x, y, z, _) '(n, e) => (v3zip (fun c nc => (c + Q2Qc (1 # 2) + e * nc) / q2pow (Z.of_nat d - 1) - 1)%Qc (qz x, qz y, qz z) n, n)) (map (coords d) ks) (map (fun r => (nrm (nth 0 r 0%Qc, nth 1 r 0%Qc, nth 2 r 0%Qc), nth 3 r 0%Qc)) signal) = pts).
    { unfold pts. clear. revert signal. generalize (map (coords d) ks) as cs. induction cs as [|c cs IH]; intros [|r signal]; try reflexivity. cbn [map]. rewrite !zip_cons, IH. f_equal.
      unfold pt_of. cbv zeta. destruct c as (((x, y), z), b). destruct (nrm _) as ((nx, ny), nz). cbn [v3zip offset_point cell_centre]. rewrite !axis_eq. reflexivity. }
    rewrite EZ. unfold tsplit. unfold arange. rewrite map_map. change (fun x : nat => count_true (map (Z.eqb (Z.of_nat x)) (map (fun k => k / 2 ^ 48) ks))) with (fun x : nat => count_true (map (Z.eqb (0 + Z.of_nat x)) (map (fun k => k / 2 ^ 48) ks))).
    rewrite P2, Nat.eqb_refl, P1. reflexivity. }
  split; [exact EX|]. split; [rewrite map_length; exact LK|]. split; [exact EP|]. split; [rewrite map_length, seq_length; reflexivity|]. split.
  - intros i Hi. rewrite (nth_error_map_seq (fun i => select _ pts)) by exact Hi. f_equal. rewrite map_map.
    transitivity (select (map (fun c => snd c =? Z.of_nat i) (map (coords d) ks)) pts); [f_equal; rewrite map_map; apply map_ext; intros k; cbn [coords snd]; rewrite Z.eqb_sym; reflexivity|].
    rewrite select_combine by (rewrite map_length; congruence). unfold pts, zip_with. generalize (map (coords d) ks) as cs. intros cs. clear. revert signal. induction cs as [|c cs IH]; intros [|r signal]; try reflexivity.
    cbn [combine map filter fst snd]. destruct (snd c =? Z.of_nat i); cbn [map fst snd]; rewrite IH; reflexivity.
  - rewrite <- S1, <- LK, <- LP, <- P2. f_equal. rewrite map_map. apply map_ext. intros i. apply select_length. rewrite !map_length. congruence.
Qed.

(** ** geometry of the points *)
Lemma edge_pos d : (0 < qz 2 / qz (2 ^ Z.of_nat d))%Qc.
Proof. assert (P : (0 < qz (2 ^ Z.of_nat d))%Qc) by (rewrite <- qz_0; apply qz_lt; apply Z.pow_pos_nonneg; lia). unfold Qcdiv. apply (Qcmult_lt_r _ _ _ P). replace (0 * qz (2 ^ Z.of_nat d))%Qc with 0%Qc by ring. replace (qz 2 * / qz (2 ^ Z.of_nat d) * qz (2 ^ Z.of_nat d))%Qc with (qz 2) by (field; intros E; rewrite E in P; discriminate P). reflexivity. Qed.
Lemma abs_mul e n r : (- r <= e)%Qc -> (e <= r)%Qc -> (-(1) <= n)%Qc -> (n <= 1)%Qc -> (- r <= e * n)%Qc /\ (e * n <= r)%Qc.
Proof.
  intros H1 H2 H3 H4. assert (A : (0 <= (r - e) * (1 + n))%Qc) by (apply Qcmult_nonneg; qclra). assert (B : (0 <= (r + e) * (1 - n))%Qc) by (apply Qcmult_nonneg; qclra).
  assert (C : (0 <= (r + e) * (1 + n))%Qc) by (apply Qcmult_nonneg; qclra). assert (D : (0 <= (r - e) * (1 - n))%Qc) by (apply Qcmult_nonneg; qclra).
  replace ((r - e) * (1 + n))%Qc with (r + r * n - e - e * n)%Qc in A by ring. replace ((r + e) * (1 - n))%Qc with (r - r * n + e - e * n)%Qc in B by ring.
  replace ((r + e) * (1 + n))%Qc with (r + r * n + e + e * n)%Qc in C by ring. replace ((r - e) * (1 - n))%Qc with (r - r * n - e + e * n)%Qc in D by ring. set (p := (e * n)%Qc) in *. set (q := (r * n)%Qc) in *. split; qclra.
Qed.
Theorem thm_offset_near d c n e r : (- r <= e)%Qc -> (e <= r)%Qc -> (let '(x, y, z) := n in within 1 x 0 /\ within 1 y 0 /\ within 1 z 0) ->
  let '(x, y, z) := offset_point d c n e in let '(cx, cy, cz) := cell_centre d c in
  let t := (r * (qz 2 / qz (2 ^ Z.of_nat d)))%Qc in within t x cx /\ within t y cy /\ within t z cz.
Proof.
  intros H1 H2 Hn. destruct c as (((x, y), z), b), n as ((nx, ny), nz). cbn [offset_point cell_centre]. pose proof (edge_pos d) as P. set (E := (qz 2 / qz (2 ^ Z.of_nat d))%Qc) in *.
  assert (A : forall m a, within 1 m 0 -> within (r * E) (a + e * E * m) a).
  { intros m a (M1 & M2). destruct (abs_mul e m r H1 H2) as (B1 & B2); [qclra|qclra|]. unfold within. replace (a + e * E * m - a)%Qc with (e * m * E)%Qc by ring. replace (- (r * E))%Qc with ((- r) * E)%Qc by ring. split; apply Qcmult_le_compat_r; try assumption; apply qlt_le; exact P. }
  cbv zeta. destruct Hn as (N1 & N2 & N3). split; [|split]; apply A; assumption.
Qed.
(** The point lies in the plane with normal [n] through [avg] when the displacement is
    that of the plane from the centre of the cell, in edges. *)
Theorem thm_offset_plane d c n avg e : dot3 n n = 1%Qc ->
  (e * (qz 2 / qz (2 ^ Z.of_nat d)) = dot3 (v3zip Qcminus avg (cell_centre d c)) n)%Qc ->
  dot3 (v3zip Qcminus (offset_point d c n e) avg) n = 0%Qc.
Proof.
  intros Hn He. unfold offset_point. destruct (cell_centre d c) as ((cx, cy), cz), n as ((nx, ny), nz), avg as ((ax, ay), az). cbv zeta. rewrite He. unfold dot3, v3zip in *. 
  set (s := ((ax - cx) * nx + (ay - cy) * ny + (az - cz) * nz)%Qc). transitivity (s * (nx * nx + ny * ny + nz * nz) - s)%Qc; [unfold s; ring|]. rewrite Hn. ring.
Qed.

Theorem thm_decode_points g P lo B dev nrm code : ae_config g -> norms_keep lo P -> (1 <= B)%nat -> Z.of_nat B <= 32768 ->
  (lo <= 8 /\ lo <= 8 ^ a_full g * B)%nat -> shape (8 ^ a_full g * B) (a_code g) code ->
  exists logits signal o cs pieces, ae_decode_code g P 4 dev code = Ok (logits, signal, o) /\
    octree_xyzb o (a_depth g) true = Ok cs /\ List.length cs = List.length signal /\
    octree2pts nrm o = Ok pieces /\ List.length pieces = B /\
    (forall i, (i < B)%nat -> nth_error pieces i =
       Some (map (fun cr => pt_of nrm (a_depth g) (fst cr) (snd cr)) (filter (fun cr => snd (fst cr) =? Z.of_nat i) (combine cs signal)))) /\
    fold_right Nat.add O (map (@List.length _) pieces) = node_count o (a_depth g) true.
Proof.
  intros HC HN HB HB2 Hlo Hs. destruct (thm_decode g P 4 lo B dev HC HN HB HB2 Hlo code Hs) as (lg & sg & o & E & D1 & D2 & D3 & W & _ & _ & SS & l & L1 & L2).
  rewrite <- D1 in SS, L1. destruct (thm_octree2pts nrm o l sg W L1 L2 SS) as (cs & pieces & H). rewrite D1, D3 in H. exists lg, sg, o, cs, pieces. split; [exact E|exact H].
Qed.
