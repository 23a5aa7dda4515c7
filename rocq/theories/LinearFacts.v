(** Trilinear interpolation. *)
From Coq Require Import String List ZArith Bool Lia QArith Qcanon Lqa Field.
From Verif Require Import Res Tensor Key Num Points Octree NnBasic NnConv NnInterp Spec SpecGeo SpecNN SpecInterp WF KeyFacts ListFacts NumFacts ScatterFacts SumFacts NnFacts KidsFacts WFFacts SearchFacts PadFacts PoolFacts Family Finite Unpool InterpFacts UpsampleFacts.
Import ListNotations.
Open Scope Z_scope.

(** ** the sparse product *)
Definition mterm (data : feat) (i : Z) (c : nat) (e : Z * Z * Qc) : Qc :=
  let '(r, j, w) := e in if r =? i then (w * nth c (nth (Z.to_nat j) data []) 0)%Qc else 0%Qc.
Lemma sparse_row C data i mat : forall acc, length acc = C -> Forall (fun r => length r = C) data ->
  Forall (fun e : Z * Z * Qc => 0 <= snd (fst e) < zlen data) mat ->
  exists row, foldM (fun acc e => let '(r, j, w) := e in if r =? i then row <- tget data j ;; Ok (vadd acc (vscale w row)) else Ok acc) acc mat = Ok row /\
    length row = C /\ forall c, (c < C)%nat -> nth c row 0%Qc = (nth c acc 0 + qsum_list (map (mterm data i c) mat))%Qc.
Proof.
  induction mat as [|[[r j] w] mat IH]; intros acc Ha Hd Hm.
  - exists acc. split; [reflexivity|]. split; [exact Ha|]. intros c _. cbn [map qsum_list fold_right]. ring.
  - apply Forall_cons_iff in Hm. destruct Hm as [Hj Hm]. cbn [fst snd] in Hj. cbn [foldM]. destruct (Z.eqb_spec r i) as [->|Hr].
    + rewrite (tget_nth data j []) by exact Hj. cbn [bind].
      assert (Hl : length (nth (Z.to_nat j) data []) = C) by (rewrite Forall_forall in Hd; apply Hd; apply nth_In; unfold zlen in Hj; lia).
      assert (Hs : length (vscale w (nth (Z.to_nat j) data [])) = C) by (unfold vscale; rewrite map_length; exact Hl).
      destruct (IH (vadd acc (vscale w (nth (Z.to_nat j) data [])))) as (row & E & Hlr & H); [rewrite vadd_len by lia; exact Ha|exact Hd|exact Hm|].
      exists row. split; [exact E|]. split; [exact Hlr|]. intros c Hc. rewrite H by exact Hc. rewrite vadd_nth by lia. cbn [map qsum_list fold_right mterm]. rewrite Z.eqb_refl.
      unfold vscale. rewrite (nth_map_lt _ _ _ 0%Qc) by lia. fold (qsum_list (map (mterm data i c) mat)). ring.
    + destruct (IH acc Ha Hd Hm) as (row & E & Hlr & H). exists row. split; [exact E|]. split; [exact Hlr|]. intros c Hc. rewrite H by exact Hc. cbn [map qsum_list fold_right mterm].
      destruct (Z.eqb_spec r i); [congruence|]. fold (qsum_list (map (mterm data i c) mat)). ring.
Qed.
Lemma nth_arange n i : (i < n)%nat -> nth i (arange n) 0 = Z.of_nat i.
Proof. intros H. unfold arange. rewrite (nth_map_lt _ _ _ O) by (rewrite seq_length; exact H). rewrite seq_nth by exact H. reflexivity. Qed.
Lemma arange_len n : length (arange n) = n.
Proof. unfold arange. rewrite map_length, seq_length. reflexivity. Qed.
Lemma sparse_mm_Ok n C mat data : Forall (fun r => length r = C) data ->
  Forall (fun e : Z * Z * Qc => 0 <= snd (fst e) < zlen data) mat ->
  exists y, sparse_mm n C mat data = Ok y /\ shape n C y /\ forall i c, (i < n)%nat -> (c < C)%nat -> at2 y i c = qsum_list (map (mterm data (Z.of_nat i) c) mat).
Proof.
  intros Hd Hm. unfold sparse_mm.
  set (rowof := fun i => match foldM (fun acc e => let '(r, j, w) := e in if r =? i then row <- tget data j ;; Ok (vadd acc (vscale w row)) else Ok acc) (vzero C) mat with Ok r => r | Err _ => [] end).
  assert (H : forall i, foldM (fun acc e => let '(r, j, w) := e in if r =? i then row <- tget data j ;; Ok (vadd acc (vscale w row)) else Ok acc) (vzero C) mat = Ok (rowof i) /\ length (rowof i) = C /\
    forall c, (c < C)%nat -> nth c (rowof i) 0%Qc = qsum_list (map (mterm data i c) mat)).
  { intros i. unfold rowof. destruct (sparse_row C data i mat (vzero C) (repeat_length _ _) Hd Hm) as (row & E & Hl & H). rewrite E. split; [reflexivity|]. split; [exact Hl|].
    intros c Hc. rewrite H by exact Hc. unfold vzero. rewrite nth_repeat_lt by exact Hc. ring. }
  exists (map rowof (arange n)). split; [apply mapM_Ok; intros i _; apply H|]. split.
  - split; [rewrite map_length; apply arange_len|]. apply Forall_map. apply Forall_forall. intros i _. apply H.
  - intros i c Hi Hc. unfold at2. rewrite (nth_map_lt _ _ _ 0) by (rewrite arange_len; exact Hi). rewrite nth_arange by exact Hi. apply H. exact Hc.
Qed.

Lemma select_combine {A B} v : forall (l : list A) (m : list B), length l = length m -> combine (select v l) (select v m) = select v (combine l m).
Proof.
  induction v as [|b v IH]; intros [|a l] [|c m] H; cbn [length] in H; try discriminate; try reflexivity; destruct b; try reflexivity; cbn [select combine]; rewrite IH by lia; reflexivity.
Qed.
Lemma qsum_select {A} (F : A -> Qc) dflt v : forall l, length v = length l ->
  qsum_list (map F (select v l)) = sum_n (length l) (fun m => if nth m v false then F (nth m l dflt) else 0%Qc).
Proof.
  induction v as [|b v IH]; intros [|a l] H; cbn [length] in H; try discriminate; [reflexivity|].
  cbn [length]. rewrite sum_S. cbn [nth]. rewrite <- (IH l) by lia. destruct b; cbn [select map qsum_list fold_right]; [reflexivity|]. fold (qsum_list (map F (select v l))). ring.
Qed.
Lemma nth_blocks {A B} (f : A -> list B) (l : list A) k i j da db : (forall a, In a l -> length (f a) = k) -> (i < length l)%nat -> (j < k)%nat ->
  nth (i * k + j) (flat_map f l) db = nth j (f (nth i l da)) db.
Proof.
  intros Hf Hi Hj. rewrite flat_map_concat_map. rewrite (nth_concat db (length l) k) by (exact Hi || exact Hj || (split; [apply map_length|apply Forall_map; apply Forall_forall; exact Hf])).
  rewrite (nth_map_lt _ _ _ da) by exact Hi. reflexivity.
Qed.
Lemma blocks_len {A B} (f : A -> list B) (l : list A) k : (forall a, In a l -> length (f a) = k) -> length (flat_map f l) = (length l * k)%nat.
Proof.
  intros Hf. induction l as [|a l IH]; [reflexivity|]. cbn [flat_map length]. rewrite app_length, (Hf a) by (left; reflexivity). rewrite IH by (intros b Hb; apply Hf; right; exact Hb). lia.
Qed.

(** ** the general form of the result *)
Definition corner_of (p : qpoint) (g : Z * Z * Z) : Z * Z * Z * Z :=
  let '(v, b) := p in let '(x, y, z) := base_of v in let '(gx, gy, gz) := g in (x + gx, y + gy, z + gz, b).
Definition cell_pt (q : Z * Z * Z * Z) : qpoint := let '(x, y, z, b) := q in ((qz x, qz y, qz z), b).
Definition g0 : Z * Z * Z := (0, 0, 0).
Definition corners (pts : list qpoint) : list qpoint := flat_map (fun p => map (fun g => cell_pt (corner_of p g)) corner_grid) pts.
Definition p0 : qpoint := ((0, 0, 0)%Qc, 0).

Lemma linear_form o d ne bc C data pts idx : check_rows data o d ne = Ok tt -> Forall (fun r => length r = C) data ->
  search_pts o (corners pts) d ne = Ok idx -> length idx = length (corners pts) ->
  (forall m, -1 < nth m idx (-1) -> 0 <= nth m idx (-1) < zlen data) ->
  exists y, octree_linear_pts C data o d pts ne bc = Ok y /\ shape (length pts) C y /\
    forall i c, (i < length pts)%nat -> (c < C)%nat ->
      let T f := sum_n 8 (fun k => let g := nth k corner_grid g0 in let e := nth (i * 8 + k) idx (-1) in let p := nth i pts p0 in
        if (-1 <? e) && (negb bc || in_bound d (fst (cell_pt (corner_of p g)))) then (corner_weight (fst p) g * f e)%Qc else 0%Qc) in
      at2 y i c = (T (fun e => nth c (nth (Z.to_nat e) data []) 0%Qc) / (T (fun _ => 1%Qc) + tiny))%Qc.
Proof.
  intros Hck Hdc Es Hlen Hrange. set (n := length pts).
  assert (Hcl : length (corners pts) = (n * 8)%nat) by (apply blocks_len; intros; reflexivity).
  set (ids := flat_map (fun i => repeat i 8) (arange n)). assert (Hidl : length ids = (n * 8)%nat) by (unfold ids; rewrite (blocks_len _ _ 8) by (intros; apply repeat_length); rewrite arange_len; reflexivity).
  set (ws := flat_map (fun p : qpoint => map (corner_weight (fst p)) corner_grid) pts). assert (Hwl : length ws = (n * 8)%nat) by (apply blocks_len; intros; reflexivity).
  set (valid := valid_mask idx bc (map (fun p : qpoint => in_bound d (fst p)) (corners pts))).
  assert (Hvl : length valid = (n * 8)%nat). { unfold valid, valid_mask. destruct bc; [apply zip_len; rewrite map_length; lia|rewrite map_length; lia]. }
  assert (Hnv : forall m, (m < n * 8)%nat -> nth m valid false = (-1 <? nth m idx (-1)) && (negb bc || in_bound d (fst (nth m (corners pts) p0)))).
  { intros m Hm. unfold valid, valid_mask. destruct bc; cbn [negb orb].
    - unfold zip_with. rewrite (nth_map_lt _ _ _ (false, false)) by (rewrite combine_length, !map_length; lia). rewrite nth_combine by (rewrite !map_length; lia). cbn [fst snd].
      rewrite (nth_map_lt _ _ _ (-1)) by lia. rewrite (nth_map_lt _ _ _ p0) by lia. reflexivity.
    - rewrite (nth_map_lt _ _ _ (-1)) by lia. rewrite andb_true_r. reflexivity. }
  assert (Hmg : forall (A : Type) (l : list A), length l = (n * 8)%nat -> mask_get l valid = Ok (select valid l)).
  { intros A l Hl. unfold mask_get. replace (Nat.eqb (length valid) (length l)) with true by (symmetry; apply Nat.eqb_eq; lia). reflexivity. }
  set (E := combine (combine ids idx) ws). assert (HEl : length E = (n * 8)%nat) by (unfold E; rewrite !combine_length; lia).
  assert (HEn : forall m, nth m E (0, -1, 0%Qc) = (nth m ids 0, nth m idx (-1), nth m ws 0%Qc)).
  { intros m. unfold E. rewrite nth_combine by (rewrite combine_length; lia). rewrite nth_combine by lia. reflexivity. }
  assert (Emat : combine (combine (select valid ids) (select valid idx)) (select valid ws) = select valid E).
  { unfold E. rewrite select_combine by lia. apply select_combine. rewrite combine_length. lia. }
  assert (HFm : forall (X : Type) (dat : list (list X)), length dat = length data -> Forall (fun e : Z * Z * Qc => 0 <= snd (fst e) < zlen dat) (select valid E)).
  { intros X dat Hdl. apply Forall_forall. intros e He. apply in_select in He. destruct He as (m & Hv & He).
    assert (Hm : (m < n * 8)%nat) by (rewrite <- HEl; apply nth_error_Some; rewrite He; discriminate).
    apply (nth_of_error _ _ _ (0, -1, 0%Qc)) in He. rewrite HEn in He. subst e. cbn [fst snd]. unfold zlen. rewrite Hdl. apply Hrange.
    apply (nth_of_error _ _ _ false) in Hv. rewrite Hnv in Hv by exact Hm. apply andb_true_iff in Hv. destruct Hv as [Hv _]. apply Z.ltb_lt in Hv. exact Hv. }
  destruct (sparse_mm_Ok n C (select valid E) data Hdc (HFm _ data eq_refl)) as (out & Eo & Ho & HO).
  destruct (sparse_mm_Ok n 1 (select valid E) (map (fun _ => [1%Qc]) data)) as (nrm & En & Hn & HNn).
  { apply Forall_map. apply Forall_forall. reflexivity. } { apply HFm. apply map_length. }
  exists (zip_with (fun r w => map (fun v => v / (nth 0 w 0 + eps12))%Qc r) out nrm). split.
  { unfold octree_linear_pts. rewrite Hck. cbn [bind].
    assert (EQ1 : flat_map (fun '(p, b) => let '(x, y, z) := base_of p in map (fun '(gx, gy, gz) => ((qz (x + gx), qz (y + gy), qz (z + gz)), b)) corner_grid) pts = corners pts).
    { unfold corners. apply flat_map_ext. intros [v b]. unfold corner_of. destruct (base_of v) as [[x y] z]. apply map_ext. intros [[gx gy] gz]. reflexivity. }
    assert (EQ2 : flat_map (fun '(p, _) => map (corner_weight p) corner_grid) pts = ws).
    { unfold ws. apply flat_map_ext. intros [v b]. reflexivity. }
    rewrite EQ1, EQ2. rewrite Es. cbn [bind]. fold valid. fold n. fold ids. rewrite !Hmg by lia. cbn [bind]. rewrite Emat. rewrite Eo. cbn [bind]. rewrite En. reflexivity. }
  destruct Ho as [Ho1 Ho2]. destruct Hn as [Hn1 Hn2]. split.
  { split; [apply zip_len; assumption|]. apply Forall_forall. intros r Hr. unfold zip_with in Hr. apply in_map_iff in Hr. destruct Hr as ([r' w] & <- & Hin). cbn [fst snd]. rewrite map_length.
    apply in_combine_l in Hin. rewrite Forall_forall in Ho2. apply Ho2. exact Hin. }
  intros i c Hi Hc T. unfold at2, zip_with. rewrite (nth_map_lt _ _ _ ([], [])) by (rewrite combine_length; fold n in Hi; lia). rewrite nth_combine by lia. cbn [fst snd].
  assert (Hol : length (nth i out []) = C) by (rewrite Forall_forall in Ho2; apply Ho2; apply nth_In; fold n in Hi; lia).
  rewrite (nth_map_lt _ _ _ 0%Qc) by lia. fold (at2 out i c). fold (at2 nrm i 0). rewrite HO, HNn by (assumption || lia).
  assert (HT : forall dat cc, qsum_list (map (mterm dat (Z.of_nat i) cc) (select valid E)) = T (fun e => nth cc (nth (Z.to_nat e) dat []) 0%Qc)).
  { intros dat cc. rewrite (qsum_select _ (0, -1, 0%Qc)) by lia. rewrite HEl, sum_mul. rewrite (sum_one n i) by
      (exact Hi || (intros i' Hi' Hne; apply sum_zero; intros k Hk; destruct (nth (i' * 8 + k) valid false); [|reflexivity]; rewrite HEn; unfold mterm, ids;
        rewrite (nth_blocks _ _ 8 i' k 0) by (intros; try apply repeat_length; rewrite ?arange_len; assumption); rewrite nth_repeat_lt by exact Hk; rewrite nth_arange by exact Hi';
        destruct (Z.eqb_spec (Z.of_nat i') (Z.of_nat i)); [lia|reflexivity])).
    unfold T. apply sum_ext. intros k Hk. fold n in Hi. rewrite Hnv by nia. unfold corners at 1. rewrite (nth_blocks _ _ 8 i k p0) by (reflexivity || assumption).
    rewrite (nth_map_lt _ _ _ g0) by exact Hk. cbv zeta. destruct ((-1 <? nth (i * 8 + k) idx (-1)) && _); [|reflexivity].
    rewrite HEn. unfold mterm, ids. rewrite (nth_blocks _ _ 8 i k 0) by (intros; try apply repeat_length; rewrite ?arange_len; assumption).
    rewrite nth_repeat_lt by exact Hk. rewrite nth_arange by exact Hi. rewrite Z.eqb_refl.
    unfold ws. rewrite (nth_blocks _ _ 8 i k p0) by (reflexivity || assumption). rewrite (nth_map_lt _ _ _ g0) by exact Hk. reflexivity. }
  rewrite !HT. replace eps12 with tiny by reflexivity. do 2 f_equal. unfold T. apply sum_ext. intros k Hk. cbv zeta.
  destruct (-1 <? nth (i * 8 + k) idx (-1)) eqn:Eb; cbn [andb]; [|reflexivity]. apply Z.ltb_lt in Eb. apply Hrange in Eb.
  rewrite (nth_map_lt _ _ _ []) by (unfold zlen in Eb; lia). cbn [nth]. reflexivity.
Qed.

(** ** the eight corners carry the trilinear weights *)
Definition ind (b : bool) : Qc := if b then 1%Qc else 0%Qc.
Definition frq (c : Qc) : Qc := ((c - half) - qz (qfloor (c - half)))%Qc.
Lemma frq_range c : (0 <= frq c)%Qc /\ (frq c < 1)%Qc.
Proof. unfold frq. destruct (proj1 (qfloor_spec (c - half)%Qc _) eq_refl) as [H1 H2]. rewrite qz_add, qz_1 in H2. split; qclra. Qed.
Lemma hat_corner x X : hat x X = ((1 - frq x) * ind (X =? qfloor (x - half)%Qc) + frq x * ind (X =? qfloor (x - half)%Qc + 1))%Qc.
Proof.
  pose proof (frq_range x) as [F1 F2]. assert (Ex : x = (frq x + qz (qfloor (x - half)) + half)%Qc) by (unfold frq; ring).
  set (f := qfloor (x - half)%Qc) in *. set (r := frq x) in *. unfold hat. change (Q2Qc (1 # 2)) with half.
  assert (Et : (x - (qz X + half))%Qc = (r + (qz f - qz X))%Qc) by (rewrite Ex; ring). rewrite Et.
  destruct (Z.eqb_spec X f) as [->|N1]; [destruct (Z.eqb_spec f (f + 1)); [lia|]|destruct (Z.eqb_spec X (f + 1)) as [->|N2]]; cbn [ind].
  - replace (r + (qz f - qz f))%Qc with r by ring. destruct (Qclt_le_dec r 0) as [H|H]; [exfalso; qclra|]. destruct (Qclt_le_dec r 1); [ring|exfalso; qclra].
  - rewrite qz_add, qz_1. replace (r + (qz f - (qz f + 1)))%Qc with (r - 1)%Qc by ring. destruct (Qclt_le_dec (r - 1) 0) as [H|H]; [|exfalso; qclra].
    destruct (Qclt_le_dec (- (r - 1)) 1) as [H'|H']; [ring|]. assert (r = 0%Qc) as -> by (apply Qcle_antisym; qclra). ring.
  - destruct (Z.lt_ge_cases X f) as [HX|HX].
    + assert (HX' : (qz (X + 1) <= qz f)%Qc) by (apply qz_le; lia). rewrite qz_add, qz_1 in HX'. destruct (Qclt_le_dec (r + (qz f - qz X)) 0) as [H|H]; [exfalso; qclra|].
      destruct (Qclt_le_dec (r + (qz f - qz X)) 1); [exfalso; qclra|ring].
    + assert (HX' : (qz (f + 2) <= qz X)%Qc) by (apply qz_le; lia). rewrite qz_add, qz_2 in HX'. destruct (Qclt_le_dec (r + (qz f - qz X)) 0) as [H|H]; [|exfalso; qclra].
      destruct (Qclt_le_dec (- (r + (qz f - qz X))) 1); [exfalso; qclra|ring].
Qed.
Lemma hat_nonneg x X : (0 <= hat x X)%Qc.
Proof.
  unfold hat. generalize (if Qclt_le_dec (x - (qz X + Q2Qc (1 # 2))) 0 then (- (x - (qz X + Q2Qc (1 # 2))))%Qc else (x - (qz X + Q2Qc (1 # 2)))%Qc). intros a. destruct (Qclt_le_dec a 1) as [H|H]; [qclra|apply Qcle_refl].
Qed.

Definition cw (g : Z) (fr : Qc) : Qc := if g =? 0 then (1 - fr)%Qc else fr.
Lemma qabs_nonneg q : (0 <= q)%Qc -> qabs q = q.
Proof. intros H. unfold qabs. unfold qleb. rewrite (proj2 (Qle_bool_iff 0%Qc q)) by exact H. reflexivity. Qed.
Lemma qabs_opp q : (0 <= q)%Qc -> qabs (- q)%Qc = q.
Proof.
  intros H. unfold qabs. destruct (qleb 0 (- q)) eqn:E; [|ring]. unfold qleb in E. apply Qle_bool_iff in E. assert (E' : (0 <= - q)%Qc) by exact E.
  assert (q = 0%Qc) as -> by (apply Qcle_antisym; qclra). reflexivity.
Qed.
Lemma corner_weight_prod x y z gx gy gz : (gx = 0 \/ gx = 1) -> (gy = 0 \/ gy = 1) -> (gz = 0 \/ gz = 1) ->
  corner_weight (x, y, z) (gx, gy, gz) = (cw gx (frq x) * cw gy (frq y) * cw gz (frq z))%Qc.
Proof.
  intros Hx Hy Hz. unfold corner_weight, frac_of, v3map. fold (frq x) (frq y) (frq z).
  pose proof (frq_range x) as [X1 X2]. pose proof (frq_range y) as [Y1 Y2]. pose proof (frq_range z) as [Z1 Z2].
  assert (Hn : (0 <= cw gx (frq x) * cw gy (frq y) * cw gz (frq z))%Qc).
  { assert (C : forall g q, (0 <= q)%Qc -> (q < 1)%Qc -> (0 <= cw g q)%Qc) by (intros g q A B; unfold cw; destruct (g =? 0); qclra). repeat apply Qcmult_nonneg; apply C; assumption. }
  generalize dependent (frq x); intros a. generalize dependent (frq y); intros b. generalize dependent (frq z); intros c.
  intros _ _ _ _ _ _ Hn.
  assert (E : ((1 - qz gx - a) * (1 - qz gy - b) * (1 - qz gz - c) = cw gx a * cw gy b * cw gz c)%Qc \/ ((1 - qz gx - a) * (1 - qz gy - b) * (1 - qz gz - c) = - (cw gx a * cw gy b * cw gz c))%Qc).
  { destruct Hx as [-> | ->], Hy as [-> | ->], Hz as [-> | ->]; unfold cw; cbn [Z.eqb]; rewrite ?qz_0, ?qz_1; ((left; ring) || (right; ring)). }
  destruct E as [-> | ->]; [apply qabs_nonneg|apply qabs_opp]; exact Hn.
Qed.
Definition cell_eqb (a b : Z * Z * Z * Z) : bool :=
  let '(x, y, z, k) := a in let '(x', y', z', k') := b in (x' =? x) && (y' =? y) && (z' =? z) && (k' =? k).
Lemma cell_eqb_spec a b : reflect (a = b) (cell_eqb a b).
Proof.
  destruct a as [[[x y] z] k], b as [[[x' y'] z'] k']. unfold cell_eqb. apply iff_reflect. rewrite !andb_true_iff, !Z.eqb_eq. split; [intros [= -> -> -> ->]; tauto|intros [[[-> ->] ->] ->]; reflexivity].
Qed.
Lemma tri_sum p b q : qsum_list (map (fun g => if cell_eqb (corner_of (p, b) g) q then corner_weight p g else 0%Qc) corner_grid) = trilinear p b q.
Proof.
  destruct p as [[x y] z], q as [[[X Y] Z_] b']. unfold trilinear.
  assert (E : forall gx gy gz, (gx = 0 \/ gx = 1) -> (gy = 0 \/ gy = 1) -> (gz = 0 \/ gz = 1) ->
    (if cell_eqb (corner_of (x, y, z, b) (gx, gy, gz)) (X, Y, Z_, b') then corner_weight (x, y, z) (gx, gy, gz) else 0%Qc) =
    (ind (Z.eqb b' b) * (cw gx (frq x) * ind (X =? qfloor (x - half)%Qc + gx)) * (cw gy (frq y) * ind (Y =? qfloor (y - half)%Qc + gy)) * (cw gz (frq z) * ind (Z_ =? qfloor (z - half)%Qc + gz)))%Qc).
  { intros gx gy gz Hx Hy Hz. rewrite corner_weight_prod by assumption. unfold corner_of, base_of, v3map, cell_eqb.
    destruct (X =? _), (Y =? _), (Z_ =? _), (b' =? b); cbn [andb ind]; ring. }
  change corner_grid with [(0,0,0);(0,0,1);(0,1,0);(0,1,1);(1,0,0);(1,0,1);(1,1,0);(1,1,1)]. cbn [map qsum_list fold_right].
  rewrite !E by (auto). rewrite !hat_corner, !Z.add_0_r. unfold cw. cbn [Z.eqb]. destruct (Z.eqb b' b); cbn [ind]; ring.
Qed.

(** ** C54 *)
Lemma corner_batch pts : Forall batch_in pts -> Forall batch_in (corners pts).
Proof.
  intros H. unfold corners. apply Forall_forall. intros q Hq. apply in_flat_map in Hq. destruct Hq as (p & Hp & Hq). apply in_map_iff in Hq. destruct Hq as (g & <- & _).
  rewrite Forall_forall in H. specialize (H p Hp). destruct p as [v b]. unfold batch_in, cell_pt, corner_of in *. destruct (base_of v) as [[x y] z], g as [[gx gy] gz]. exact H.
Qed.
Definition corner_sum (o : octree) (d : nat) (ne bc : bool) (data : feat) (p : qpoint) (es : nat -> Z) (f : Z -> Qc) : Qc :=
  sum_n 8 (fun k => let g := nth k corner_grid g0 in let e := es k in
    if (-1 <? e) && (negb bc || in_bound d (fst (cell_pt (corner_of p g)))) then (corner_weight (fst p) g * f e)%Qc else 0%Qc).
Lemma linear_rows o d ne C data pts : wf_octree o -> (d <= depth o)%nat -> shape (node_count o d ne) C data -> Forall batch_in pts ->
  exists K M es, tree_upto o (depth o) K M /\
    (forall i k, (i < length pts)%nat -> (k < 8)%nat -> found (sel K M ne d) (pkey d (cell_pt (corner_of (nth i pts p0) (nth k corner_grid g0)))) (es i k)) /\
    forall bc, exists y, octree_linear_pts C data o d pts ne bc = Ok y /\ shape (length pts) C y /\
      forall i c, (i < length pts)%nat -> (c < C)%nat ->
        at2 y i c = (corner_sum o d ne bc data (nth i pts p0) (es i) (fun e => at2 data (Z.to_nat e) c) / (corner_sum o d ne bc data (nth i pts p0) (es i) (fun _ => 1%Qc) + tiny))%Qc.
Proof.
  intros [K [M T]] Hd Hx Hb. exists K, M.
  destruct (tree_search_pts o (depth o) K M T d ne (corners pts) Hd (corner_batch pts Hb)) as (idx & Es & Hl & Hf).
  assert (Hcl : length (corners pts) = (length pts * 8)%nat) by (apply blocks_len; intros; reflexivity).
  exists (fun i k => nth (i * 8 + k) idx (-1)). split; [exact T|]. split.
  - intros i k Hi Hk. apply (Hf (i * 8 + k)%nat).
    + rewrite <- (nth_map_lt (fun g => cell_pt (corner_of (nth i pts p0) g)) corner_grid k g0 p0) by exact Hk. rewrite <- (nth_blocks (fun p => map (fun g => cell_pt (corner_of p g)) corner_grid) pts 8 i k p0) by (reflexivity || assumption).
      fold (corners pts). apply nth_error_nth'. nia.
    + apply nth_error_nth'. nia.
  - intros bc. apply (linear_form o d ne bc C data pts idx); [apply (tree_check o (depth o) K M T); [exact Hd|apply Hx]|apply Hx|exact Es|exact Hl|].
    intros m Hm. destruct (nth_error idx m) as [e|] eqn:Ee; [|rewrite nth_overflow in Hm by (apply nth_error_None; exact Ee); lia].
    rewrite (nth_of_error _ _ _ (-1) Ee) in *. destruct (nth_error (corners pts) m) as [p|] eqn:Ep.
    + apply (found_row o (depth o) K M T d ne (pkey d p) e C data Hd Hx (Hf m p e Ep Ee)). lia.
    + exfalso. apply nth_error_None in Ep. assert (m < length idx)%nat by (apply nth_error_Some; rewrite Ee; discriminate). lia.
Qed.
Lemma cell_pt_range d q : in_range d (fst (cell_pt q)) <-> let '(x, y, z, b) := q in in_cube d x y z.
Proof.
  destruct q as [[[x y] z] b]. unfold cell_pt, in_range, in_cube, in_grid. cbn [fst]. rewrite <- !qz_0, !qz_le, !qz_lt. tauto.
Qed.
Lemma cell_pt_key d q : pkey d (cell_pt q) = let '(x, y, z, b) := q in key_of d b x y z.
Proof. destruct q as [[[x y] z] b]. unfold cell_pt, pkey. rewrite !qtrunc_qz. reflexivity. Qed.

Lemma corner_sum_cells o K M d ne data p es f : tree_upto o (depth o) K M -> (d <= depth o)%nat ->
  (forall k, (k < 8)%nat -> found (sel K M ne d) (pkey d (cell_pt (corner_of p (nth k corner_grid g0)))) (es k)) ->
  let cs := map (coords d) (sel K M ne d) in
  corner_sum o d ne true data p es (fun e => f (Z.to_nat e)) = sum_n (length cs) (fun j => trilinear (fst p) (snd p) (nth j cs (0, 0, 0, 0)%Z) * f j)%Qc.
Proof.
  intros T Hd Hf cs. unfold corner_sum.
  transitivity (sum_n 8 (fun k => sum_n (length cs) (fun j => (if cell_eqb (corner_of p (nth k corner_grid g0)) (nth j cs (0, 0, 0, 0)%Z) then corner_weight (fst p) (nth k corner_grid g0) else 0) * f j)%Qc)).
  - apply sum_ext. intros k Hk. cbv zeta. set (q := corner_of p (nth k corner_grid g0)). specialize (Hf k Hk). fold q in Hf. cbn [negb orb].
    destruct (in_bound d (fst (cell_pt q))) eqn:Eb.
    + rewrite andb_true_r. apply in_bound_spec, cell_pt_range in Eb. rewrite cell_pt_key in Hf. destruct q as [[[x y] z] b] eqn:Eq.
      destruct (found_cell o (depth o) K M T d ne b x y z (es k) Hd Eb Hf) as [G1 G2]. fold cs in G1, G2.
      destruct (in_dec cell_dec (x, y, z, b) cs) as [Hin|Hin].
      * apply In_nth_error in Hin. destruct Hin as [j Hj]. rewrite (G1 j Hj). destruct (Z.ltb_spec (-1) (Z.of_nat j)); [|lia]. rewrite Nat2Z.id.
        assert (Hjl : (j < length cs)%nat) by (apply nth_error_Some; rewrite Hj; discriminate).
        symmetry. rewrite (sum_one _ j) by (exact Hjl || (intros j' Hj' Hne; destruct (cell_eqb_spec (x, y, z, b) (nth j' cs (0, 0, 0, 0))) as [E|E]; [|ring]; exfalso; apply Hne;
          pose proof (coords_NoDup o K M T ne d Hd) as N; cbv beta in N; fold cs in N; rewrite NoDup_nth_error in N; apply N; [exact Hj'|]; rewrite Hj; rewrite E; apply nth_error_nth'; exact Hj')).
        rewrite (nth_of_error _ _ _ _ Hj). destruct (cell_eqb_spec (x, y, z, b) (x, y, z, b)); [reflexivity|congruence].
      * rewrite (G2 Hin). cbn [Z.ltb Z.compare]. symmetry. apply sum_zero. intros j Hj. destruct (cell_eqb_spec (x, y, z, b) (nth j cs (0, 0, 0, 0))) as [E|E]; [|ring]. exfalso. apply Hin. rewrite E. apply nth_In. exact Hj.
    + rewrite andb_false_r. symmetry. apply sum_zero. intros j Hj. destruct (cell_eqb_spec q (nth j cs (0, 0, 0, 0))) as [E|E]; [|ring]. exfalso.
      assert (Hin : In q cs) by (rewrite E; apply nth_In; exact Hj). pose proof (cell_bounds o K M T ne d q Hd Hin) as B. assert (in_bound d (fst (cell_pt q)) = true); [|congruence].
      apply in_bound_spec, cell_pt_range. destruct q as [[[x y] z] b]. apply B.
  - rewrite (sum_swap 8). apply sum_ext. intros j Hj. rewrite sum_scale_r. f_equal. destruct p as [v b]. cbn [fst snd]. rewrite <- tri_sum.
    rewrite (qsum_list_sum _ _ g0). reflexivity.
Qed.
Lemma thm_linear o d ne C data pts : wf_octree o -> (d <= depth o)%nat -> shape (node_count o d ne) C data -> Forall batch_in pts ->
  exists cs y, octree_xyzb o d ne = Ok cs /\ octree_linear_pts C data o d pts ne true = Ok y /\ shape (length pts) C y /\
    forall i p b c, nth_error pts i = Some (p, b) -> (c < C)%nat -> at2 y i c = (weighted_sum cs data c p b / (weight_sum cs p b + tiny))%Qc.
Proof.
  intros W Hd Hx Hb. destruct (linear_rows o d ne C data pts W Hd Hx Hb) as (K & M & es & T & Hf & H). destruct (H true) as (y & Ey & Hy & Hr).
  exists (map (coords d) (sel K M ne d)), y. split; [apply (tree_xyzb o (depth o) K M); assumption|]. split; [exact Ey|]. split; [exact Hy|].
  intros i p b c Hi Hc. assert (Hil : (i < length pts)%nat) by (apply nth_error_Some; rewrite Hi; discriminate). rewrite Hr by assumption.
  specialize (Hf i). rewrite (nth_of_error _ _ _ p0 Hi) in *. pose proof (fun k => Hf k Hil) as Hf'. unfold weighted_sum, weight_sum.
  pose proof (corner_sum_cells o K M d ne data (p, b) (es i) (fun j => at2 data j c) T Hd Hf') as E1. pose proof (corner_sum_cells o K M d ne data (p, b) (es i) (fun _ => 1%Qc) T Hd Hf') as E2. cbv zeta beta in E1, E2. cbn [fst snd] in E1, E2. rewrite E1, E2.
  do 2 f_equal. apply sum_ext. intros j Hj. ring.
Qed.
