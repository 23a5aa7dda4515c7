(** How far UNet looks: interpolation, the whole network, and clouds. *)
From Coq Require Import String List ZArith Bool QArith Qcanon Lia Permutation Lqa.
From Verif Require Import Res Tensor Key Num NumFacts Points Octree NnBasic NnConv NnInterp Features Net Spec SpecGeo SpecBuild SpecNeigh SpecNN SpecInterp SpecNet SpecBatch SpecMove SpecMoveSeg SpecStructure SpecLocal
  WF ListFacts WFFacts SumFacts NnFacts ConvOct Deconv BuildThms BuildClosed BuildProps SearchFacts InterpFacts LinearThms NetFacts NetLoops NetSeg NetBatch MoveFacts MoveNet MoveBuild MoveSeg MoveInterp DecodeBatch MoveUnet StructureFacts LocalFacts LocalUnet.
Import ListNotations.
Open Scope Z_scope.

(** ** interpolation *)
Definition beside (p q : cell) : Prop :=
  let '(x, y, z, b) := p in let '(x', y', z', b') := q in b' = b /\ -1 <= x' - x <= 1 /\ -1 <= y' - y <= 1 /\ -1 <= z' - z <= 1.
Definition besideb (p q : cell) : bool :=
  let '(x, y, z, b) := p in let '(x', y', z', b') := q in
  (b' =? b) && ((-1 <=? x' - x) && (x' - x <=? 1)) && ((-1 <=? y' - y) && (y' - y <=? 1)) && ((-1 <=? z' - z) && (z' - z <=? 1)).
Lemma besideb_iff p q : besideb p q = true <-> beside p q.
Proof. destruct p as [[[x y] z] b], q as [[[x' y'] z'] b']. cbn [besideb beside]. rewrite !andb_true_iff, Z.eqb_eq, !Z.leb_le. tauto. Qed.
Lemma hat_far x X : ~ -1 <= X - qfloor x <= 1 -> hat x X = 0%Qc.
Proof.
  intros H. destruct (proj1 (qfloor_spec x (qfloor x)) eq_refl) as [A B]. rewrite qz_add in B. change (qz 1) with 1%Qc in B. unfold hat. cbv zeta. set (f := qfloor x) in *.
  assert (E : (Q2Qc (1 # 2) <= 1)%Qc) by (vm_compute; discriminate).
  assert (Hh : (0 < Q2Qc (1 # 2))%Qc) by (vm_compute; reflexivity). set (h := Q2Qc (1 # 2)) in *. clearbody h.
  assert (C : X <= f - 2 \/ f + 2 <= X) by lia. destruct C as [C|C].
  - pose proof (proj2 (qz_le X (f - 2)) C) as Q. rewrite qz_sub in Q. change (qz 2) with (1 + 1)%Qc in Q. clearbody f. destruct (Qclt_le_dec (x - (qz X + h)) 0) as [L|L]; [exfalso; clear -A Q Hh E L; qclra|].
    destruct (Qclt_le_dec (x - (qz X + h)) 1) as [L1|L1]; [exfalso; clear -A Q Hh E L1; qclra|reflexivity].
  - pose proof (proj2 (qz_le (f + 2) X) C) as Q. rewrite qz_add in Q. change (qz 2) with (1 + 1)%Qc in Q. clearbody f. destruct (Qclt_le_dec (x - (qz X + h)) 0) as [L|L]; [|exfalso; clear -B Q Hh E L; qclra].
    destruct (Qclt_le_dec (- (x - (qz X + h))) 1) as [L1|L1]; [exfalso; clear -B Q Hh E L1; qclra|reflexivity].
Qed.
Lemma trilinear_far p b q : besideb (cell_at p b) q = false -> trilinear p b q = 0%Qc.
Proof.
  destruct p as [[x y] z], q as [[[X Y] Z0] b']. cbn [cell_at besideb trilinear]. intros H. destruct (b' =? b); [|reflexivity]. cbn [andb] in H.
  assert (G : forall u U, ((-1 <=? U - qfloor u) && (U - qfloor u <=? 1))%bool = false -> hat u U = 0%Qc).
  { intros u U E. apply hat_far. intros [A B]. apply Z.leb_le in A, B. rewrite A, B in E. discriminate E. }
  destruct ((-1 <=? X - qfloor x) && (X - qfloor x <=? 1))%bool eqn:E1; [|rewrite (G x X E1); ring]. cbn [andb] in H.
  destruct ((-1 <=? Y - qfloor y) && (Y - qfloor y <=? 1))%bool eqn:E2; [|rewrite (G y Y E2); ring]. cbn [andb] in H. rewrite (G z Z0 H). ring.
Qed.

Lemma local_interp o o' ne (lin : bool) C d x x' (pts pts' : list qpoint) i j p b (near : cell -> Prop) : wf_octree o -> wf_octree o' -> (d <= depth o)%nat -> (d <= depth o')%nat ->
  L o o' ne near d C x x' -> nodes_agree o o' ne d near -> nth_error pts i = Some (p, b) -> nth_error pts' j = Some (p, b) ->
  (forall q, (if lin then beside (cell_at (in_cell_units d p) b) q else q = cell_at (in_cell_units d p) b) -> near q) ->
  Forall (askable lin d) pts -> Forall (askable lin d) pts' ->
  exists y q y' q', interp lin ne C x o (Z.of_nat d) pts = Ok (y, q) /\ interp lin ne C x' o' (Z.of_nat d) pts' = Ok (y', q') /\ shape (length pts) C y /\ shape (length pts') C y' /\ nth_error y i = nth_error y' j.
Proof.
  intros HW HW' Hd Hd' HL HN Ei Ej Hz HA HA'. pose proof HL as (Hx & Hx' & _). rewrite !interp_units. set (u := to_units d).
  destruct (cells_of o d ne HW Hd) as (cs & Ec & L1 & N1 & _). destruct (cells_of o' d ne HW' Hd') as (cs' & Ec' & L2 & N2 & _).
  assert (B1 : Forall (fun p => -32768 <= snd p < 32768) (map u pts)) by (apply Forall_map; eapply Forall_impl; [|exact HA]; intros p1 [H _]; exact H).
  assert (B2 : Forall (fun p => -32768 <= snd p < 32768) (map u pts')) by (apply Forall_map; eapply Forall_impl; [|exact HA']; intros p1 [H _]; exact H).
  assert (Ui : nth_error (map u pts) i = Some (in_cell_units d p, b)) by (rewrite nth_error_map, Ei; reflexivity).
  assert (Uj : nth_error (map u pts') j = Some (in_cell_units d p, b)) by (rewrite nth_error_map, Ej; reflexivity).
  assert (Li : (i < length pts)%nat) by (apply nth_error_Some; congruence). assert (Lj : (j < length pts')%nat) by (apply nth_error_Some; congruence).
  rewrite Forall_forall in HA. destruct (HA _ (nth_error_In _ _ Ei)) as [_ HAp]. cbn [fst] in HAp. set (c := cell_at (in_cell_units d p) b) in *.
  destruct lin.
  - destruct (thm_linear_interior o d ne C x (map u pts) HW Hd Hx B1) as (k1 & y & E1 & Ey & Sy & Hy). rewrite Ec in E1. injection E1 as <-.
    destruct (thm_linear_interior o' d ne C x' (map u pts') HW' Hd' Hx' B2) as (k2 & y' & E2 & Ey' & Sy' & Hy'). rewrite Ec' in E2. injection E2 as <-.
    rewrite map_length in Sy, Sy'. eexists y, _, y', _. rewrite Ey, Ey'. cbn [bind]. split; [reflexivity|]. split; [reflexivity|]. split; [exact Sy|]. split; [exact Sy'|].
    rewrite (nth_error_nth' y []) by (rewrite (proj1 Sy); exact Li). rewrite (nth_error_nth' y' []) by (rewrite (proj1 Sy'); exact Lj). f_equal.
    apply nth_ext with 0%Qc 0%Qc; [rewrite (shape_nth _ _ _ _ Sy Li), (shape_nth _ _ _ _ Sy' Lj); reflexivity|]. intros k Hk. rewrite (shape_nth _ _ _ _ Sy Li) in Hk. change (at2 y i k = at2 y' j k).
    pose proof (border_interior d p HAp) as HI. rewrite (Hy i _ b k Ui HI Hk), (Hy' j _ b k Uj HI Hk).
    assert (G : forall f f' : nat -> Qc, (forall r r' q, nth_error cs r = Some q -> nth_error cs' r' = Some q -> near q -> f r = f' r') ->
      sum_n (length cs) (fun r => trilinear (in_cell_units d p) b (nth r cs (0, 0, 0, 0)%Z) * f r)%Qc = sum_n (length cs') (fun r => trilinear (in_cell_units d p) b (nth r cs' (0, 0, 0, 0)%Z) * f' r)%Qc).
    { intros f f' Hf. apply (sum_near cs cs' (besideb c)); try assumption.
      - intros r q Hr Hn. rewrite (nth_error_nth _ _ (0, 0, 0, 0) Hr), (trilinear_far _ _ _ Hn). ring.
      - intros r q Hr Hn. rewrite (nth_error_nth _ _ (0, 0, 0, 0) Hr), (trilinear_far _ _ _ Hn). ring.
      - intros q Hq. apply besideb_iff in Hq. apply (HN cs cs' q Ec Ec'), Hz, Hq.
      - intros r r' q Hr Hr' Hq. apply besideb_iff in Hq. rewrite (nth_error_nth _ _ (0, 0, 0, 0) Hr), (nth_error_nth _ _ (0, 0, 0, 0) Hr'). f_equal. apply (Hf r r' q Hr Hr'), Hz, Hq. }
    assert (SW : weighted_sum cs x k (in_cell_units d p) b = weighted_sum cs' x' k (in_cell_units d p) b).
    { unfold weighted_sum. apply G. intros r r' q Hr Hr' Hq. apply (L_entry o o' ne near d C x x' cs cs' r r' q); assumption. }
    assert (SV : weight_sum cs (in_cell_units d p) b = weight_sum cs' (in_cell_units d p) b).
    { unfold weight_sum. pose proof (G (fun _ => 1%Qc) (fun _ => 1%Qc) ltac:(reflexivity)) as H1.
      assert (O1 : forall n (f : nat -> Qc), sum_n n (fun r => f r * 1)%Qc = sum_n n f) by (intros n f; apply sum_ext; intros; ring). rewrite !O1 in H1. exact H1. }
    rewrite SW, SV. reflexivity.
  - destruct (thm_nearest o d ne false C x (map u pts) HW Hd Hx B1) as (k1 & y & E1 & Ey & Sy & Hy). rewrite Ec in E1. injection E1 as <-.
    destruct (thm_nearest o' d ne false C x' (map u pts') HW' Hd' Hx' B2) as (k2 & y' & E2 & Ey' & Sy' & Hy'). rewrite Ec' in E2. injection E2 as <-.
    rewrite map_length in Sy, Sy'. eexists y, _, y', _. rewrite Ey, Ey'. cbn [bind]. split; [reflexivity|]. split; [reflexivity|]. split; [exact Sy|]. split; [exact Sy'|].
    pose proof (box_range d p HAp) as HI. destruct (Hy i _ b Ui) as [G _]. destruct (Hy' j _ b Uj) as [G' _]. destruct (G HI) as [G1 G2]. destruct (G' HI) as [G1' G2']. clear G G'. fold c in G1, G2, G1', G2'.
    pose proof (HN cs cs' c Ec Ec' (Hz c eq_refl)) as Hq. destruct (in_dec MoveFacts.cell_dec c cs) as [Hin|Hn].
    + pose proof (proj1 Hq Hin) as Hin'. apply In_nth_error in Hin as (r & Hr). apply In_nth_error in Hin' as (r' & Hr'). rewrite (G1 r Hr), (G1' r' Hr').
      destruct HL as (_ & _ & Hc). apply (Hc cs cs' r r' c); try assumption. apply Hz. reflexivity.
    + rewrite (G2 Hn). symmetry. apply G2'. intros H. apply Hn, Hq, H.
Qed.

(** the cells of a point *)
Lemma slab_floor d x c : in_slab d x c -> qfloor ((c + qz 1) / qz 2 * qz (2 ^ Z.of_nat d)) = x.
Proof.
  intros H. apply qfloor_spec. apply slab_scaled in H.
  replace ((c + qz 1) / qz 2 * qz (2 ^ Z.of_nat d))%Qc with ((c + 1) * q2pow (Z.of_nat d - 1))%Qc; [exact H|].
  pose proof (rescale_units d (c, c, c)) as E. unfold rescale, in_cell_units in E. cbn [v3map] in E. congruence.
Qed.
Lemma cell_at_units d x y z p b : in_cell d x y z p -> cell_at (in_cell_units d p) b = (x, y, z, b).
Proof. destruct p as [[px py] pz]. intros (A & B & C). unfold in_cell_units. cbn [v3map cell_at]. apply quad; try reflexivity; apply slab_floor; assumption. Qed.
Lemma query_zone (lin : bool) m cx cy cz b d dep p q : (dep = m + d)%nat -> in_box p -> in_cell dep cx cy cz p ->
  (if lin then beside (cell_at (in_cell_units d p) b) q else q = cell_at (in_cell_units d p) b) -> within dep (cx, cy, cz, b) ((if lin then 2 else 1) * 2 ^ Z.of_nat m - 1) d q.
Proof.
  intros -> HB HC H. pose proof (cell_above d m cx cy cz b p HB HC) as G. cbn [above] in G. destruct G as [G _]. rewrite (cell_at_units d _ _ _ p b G) in H.
  unfold within. cbv zeta. replace (m + d - d)%nat with m by lia. pose proof (side_pos m) as Hp. set (h := 2 ^ Z.of_nat m) in *. clearbody h. clear G HC HB.
  assert (D : forall c, c / h * h <= c /\ c < c / h * h + h) by (intros c; pose proof (Z.div_mod c h ltac:(lia)); pose proof (Z.mod_pos_bound c h Hp); lia).
  pose proof (D cx). pose proof (D cy). pose proof (D cz). destruct q as [[[x y] z] b']. destruct lin.
  - cbn [beside] in H. destruct H as (-> & A & B & C). split; [reflexivity|].
    assert (K : forall t c, -1 <= t - c / h <= 1 -> c / h * h - h <= t * h <= c / h * h + h).
    { intros t c Ht. assert (t = c / h - 1 \/ t = c / h \/ t = c / h + 1) as [-> | [-> | ->]] by lia; rewrite ?Z.mul_sub_distr_r, ?Z.mul_add_distr_r; lia. }
    pose proof (K x cx A). pose proof (K y cy B). pose proof (K z cz C). lia.
  - inversion H; subst. split; [reflexivity|]. lia.
Qed.

(** ** the head, row by row *)
Lemma head_rows P p ci ch co : eval_mode P -> exists f, forall x, Forall (fun r => length r = ci) x -> head P p ci ch co x = Ok (map f x) /\ Forall (fun r => length r = co) (map f x).
Proof.
  intros HP. unfold head, conv1x1_bn_relu. destruct (linear_rows P (p ++ [("0"%string, 0)]) ci ch false) as (f & Fl & Hf). destruct (proj1 HP (p ++ [("0"%string, 0)]) ch) as (f2 & Hf2).
  destruct (linear_rows P (p ++ [("1"%string, 0)]) ch co true) as (f3 & Fl3 & Hf3).
  exists (fun r => f3 (nth 0 (relu [f2 (f r)]) [])). intros x F. rewrite (Hf x F). cbn [bind].
  assert (F1 : Forall (fun r => length r = ch) (map f x)) by (apply Forall_map; eapply Forall_impl; [|exact F]; exact Fl). destruct (Hf2 (map f x) F1) as [-> F2]. cbn [bind].
  assert (F3 : Forall (fun r => length r = ch) (relu (map f2 (map f x)))) by (apply (relu_shape (length (map f2 (map f x)))); split; [reflexivity|exact F2]).
  rewrite (Hf3 _ F3). assert (E : map f3 (relu (map f2 (map f x))) = map (fun r => f3 (nth 0 (relu [f2 (f r)]) [])) x) by (unfold relu; rewrite !map_map; apply map_ext; intros r; reflexivity).
  rewrite E. split; [reflexivity|]. rewrite <- E. apply Forall_map. eapply Forall_impl; [|exact F3]. exact Fl3.
Qed.

(** ** the network *)
Theorem thm_local_unet o o' ne g P cin cout lin dep x x' pts pts' i j p cx cy cz b : wf_octree o -> wf_octree o' -> unet_config g -> eval_mode P ->
  (length (u_enc_blk g) < dep)%nat -> (dep <= depth o)%nat -> (dep <= depth o')%nat -> channel_ok cin ->
  layers_ready o ne 0 (dep - length (u_enc_blk g)) dep -> layers_ready o' ne 0 (dep - length (u_enc_blk g)) dep ->
  shape (node_count o dep ne) cin x -> shape (node_count o' dep ne) cin x' ->
  nth_error pts i = Some (p, b) -> nth_error pts' j = Some (p, b) -> in_box p -> in_cell dep cx cy cz p ->
  Forall (askable lin (dep - length (u_enc_blk g) + length (u_dec_blk g))) pts -> Forall (askable lin (dep - length (u_enc_blk g) + length (u_dec_blk g))) pts' ->
  let near := within dep (cx, cy, cz, b) (unet_reach g + query_reach lin g) in
  (forall d, (dep - length (u_enc_blk g) <= d <= dep)%nat -> nodes_agree o o' ne d (near d) /\ (ne = false -> nodes_agree o o' true d (near d))) ->
  features_agree o o' ne dep (near dep) x x' ->
  exists y q y' q', UNet g P cin cout lin ne x o (Z.of_nat dep) pts = Ok (y, q) /\ UNet g P cin cout lin ne x' o' (Z.of_nat dep) pts' = Ok (y', q') /\
    shape (length pts) cout y /\ shape (length pts') cout y' /\ nth_error y i = nth_error y' j.
Proof.
  intros HW HW' G HP He Hd Hd' Hc HR HR' Sx Sx' Ei Ej HB HC HA HA' near HN HF.
  pose proof (uc_enc g G) as Hl. pose proof (uc_dec g G) as Hl2. pose proof (uc_stages g G) as Hst. unfold UNet. set (es := length (u_enc_blk g)) in *. set (ds := length (u_dec_blk g)) in *.
  replace (Z.of_nat dep - zlen (u_enc_blk g)) with (Z.of_nat (dep - es)) by (unfold zlen; fold es; lia).
  replace (Z.of_nat (dep - es) + zlen (u_dec_blk g)) with (Z.of_nat (dep - es + ds)) by (unfold zlen; fold ds; lia).
  destruct (W_backbone o o' ne dep (cx, cy, cz, b) (unet_reach g + query_reach lin g) (dep - es) HW HW' P HP Hd Hd') with (g := g) (cin := cin) (x := x) (x' := x') as (m & m' & y & y' & E1 & E1' & E2 & E2' & HY); try assumption.
  - intros d H1 _. apply HR. lia.
  - intros d H1 _. apply HR'. lia.
  - exact (le_n _).
  - split; [exact Sx|]. split; [exact Sx'|exact HF].
  - fold es ds in E2, E2', HY. rewrite E1, E1'. cbn [bind]. rewrite E2, E2'. cbn [bind]. change (-1) with (- Z.of_nat 1). rewrite (tget_neg _ 1 O) by lia. cbn [bind]. replace (length (u_dec_ch g) - 1)%nat with ds by (fold ds in Hl2; lia).
    replace (unet_reach g + query_reach lin g - unet_reach g) with (query_reach lin g) in HY by lia.
    assert (NN : nodes_agree o o' ne (dep - es + ds) (within dep (cx, cy, cz, b) (query_reach lin g) (dep - es + ds))).
    { destruct (HN (dep - es + ds)%nat ltac:(lia)) as [H _]. intros cs cs' q A B D. apply (H cs cs' q A B). apply (within_mono dep (cx, cy, cz, b) (query_reach lin g)); [|exact D].
      assert (1 <= unet_reach g); [|lia].
      unfold unet_reach. pose proof (enc_mono (block_reach g) (u_enc_blk g) 0 es ltac:(unfold block_reach; destruct (u_basic g); lia) ltac:(lia)) as M1. pose proof (dec_mono (block_reach g) (u_dec_blk g) es 0 ds ltac:(unfold block_reach; destruct (u_basic g); lia) ltac:(lia)) as M2.
      unfold es, ds in M1, M2. rewrite firstn_all in M1, M2. cbn [firstn enc_reach dec_reach] in M1, M2. lia. }
    destruct (local_interp o o' ne lin (nth ds (u_dec_ch g) O) (dep - es + ds) y y' pts pts' i j p b _ HW HW' ltac:(lia) ltac:(lia) HY NN Ei Ej) as (z & q & z' & q' & E3 & E3' & Sz & Sz' & Hz); try assumption.
    { intros q Hq. unfold query_reach. fold es ds. apply (query_zone lin (es - ds) cx cy cz b (dep - es + ds) dep p); try assumption. lia. }
    rewrite E3, E3'. cbn [bind].
    destruct (head_rows P [("header"%string, 0)] (nth ds (u_dec_ch g) O) (u_head g) cout HP) as (f & Hf). destruct (Hf z (proj2 Sz)) as [F1 F2]. destruct (Hf z' (proj2 Sz')) as [F1' F2']. rewrite F1, F1'. cbn [bind].
    exists (map f z), q, (map f z'), q'. split; [reflexivity|]. split; [reflexivity|]. split; [split; [rewrite map_length; apply Sz|exact F2]|]. split; [split; [rewrite map_length; apply Sz'|exact F2']|].
    rewrite !nth_error_map, Hz. reflexivity.
Qed.

(** ** clouds *)
Lemma within_down dep c r d q e : (d <= dep)%nat -> within dep c r d q -> above (dep - d) e = q -> within dep c r dep e.
Proof.
  destruct c as [[[cx cy] cz] cb], q as [[[x y] z] b], e as [[[ex ey] ez] eb]. unfold within, above. cbv zeta. rewrite Nat.sub_diag. intros Hd (Hb & A & B & C) E. pose proof (side_pos (dep - d)) as Hp. set (h := 2 ^ Z.of_nat (dep - d)) in *. clearbody h.
  inversion E; subst. change (2 ^ Z.of_nat 0) with 1.
  assert (D : forall t, t / h * h <= t /\ t < t / h * h + h) by (intros t; pose proof (Z.div_mod t h ltac:(lia)); pose proof (Z.mod_pos_bound t h Hp); lia).
  pose proof (D ex). pose proof (D ey). pose proof (D ez). lia.
Qed.
Lemma within_parent dep c r d q : (S d <= dep)%nat -> within dep c r (S d) q -> within dep c (r + 2 ^ Z.of_nat (dep - S d)) d (parent_cell q).
Proof.
  destruct c as [[[cx cy] cz] cb], q as [[[x y] z] b]. unfold within, parent_cell. cbv zeta. intros Hd. rewrite (side_up dep d Hd). pose proof (side_pos (dep - S d)) as Hp. set (h := 2 ^ Z.of_nat (dep - S d)) in *. clearbody h. intros (Hb & A & B & C). split; [exact Hb|].
  assert (D : forall t, t / 2 * 2 * h = t * h \/ t / 2 * 2 * h = t * h - h).
  { intros t. pose proof (Z.div_mod t 2 ltac:(lia)) as E. pose proof (Z.mod_pos_bound t 2 ltac:(lia)) as E'. assert (K : t / 2 * 2 = t \/ t / 2 * 2 = t - 1) by lia. destruct K as [-> | ->]; [left; reflexivity|right; rewrite Z.mul_sub_distr_r; lia]. }
  rewrite !Z.mul_assoc. pose proof (D x). pose proof (D y). pose proof (D z). lia.
Qed.
Theorem thm_local_nodes normalize o pc pc' c r : build_input o pc -> build_input o pc' -> Forall in_box (p_points pc) -> Forall in_box (p_points pc') ->
  (forall q, within (depth o) c r (depth o) q -> (has_point pc (depth o) q <-> has_point pc' (depth o) q)) ->
  exists o1 idx o1' idx', build_octree normalize o pc = Ok (o1, idx) /\ build_octree normalize o pc' = Ok (o1', idx') /\
    forall d, (d <= depth o)%nat -> nodes_agree o1 o1' true d (within (depth o) c r d) /\ nodes_agree o1 o1' false d (within (depth o) c (r - 2 ^ Z.of_nat (depth o - d)) d).
Proof.
  intros HB HB' HI HI' HQ. destruct (thm_build_wf normalize o pc HB) as (o1 & idx & E & W & D1 & D2 & D3 & _). destruct (thm_build_wf normalize o pc' HB') as (o1' & idx' & E' & W' & D1' & D2' & D3' & _).
  exists o1, idx, o1', idx'. split; [exact E|]. split; [exact E'|].
  assert (T1 : forall d, (d <= depth o)%nat -> nodes_agree o1 o1' true d (within (depth o) c r d)).
  { intros d Hd cs cs' q Ec Ec' Hn. destruct (Nat.lt_ge_cases d (full_depth o)) as [Hlt|Hge].
    - destruct (thm_complete normalize o pc d HB ltac:(lia)) as (a1 & a2 & c1 & A1 & _ & _ & A2 & A3). assert (a1 = o1) by congruence. subst a1. specialize (A3 Hlt). assert (c1 = cs) by congruence. subst c1.
      destruct (thm_complete normalize o pc' d HB' ltac:(lia)) as (b1 & b2 & c1 & B1 & _ & _ & B2 & B3). assert (b1 = o1') by congruence. subst b1. specialize (B3 Hlt). assert (c1 = cs') by congruence. subst c1.
      destruct q as [[[x y] z] b]. rewrite A2, B2. tauto.
    - destruct (built_cells normalize o pc d HB HI ltac:(lia)) as (a1 & a2 & c1 & A1 & A2 & A3). assert (a1 = o1) by congruence. subst a1. assert (c1 = cs) by congruence. subst c1.
      destruct (built_cells normalize o pc' d HB' HI' ltac:(lia)) as (b1 & b2 & c1 & B1 & B2 & B3). assert (b1 = o1') by congruence. subst b1. assert (c1 = cs') by congruence. subst c1.
      rewrite A3, B3. rewrite (occupied_above pc d (depth o - d) q HI), (occupied_above pc' d (depth o - d) q HI'). replace (depth o - d + d)%nat with (depth o) by lia.
      split; intros (e & He & Er); exists e; (split; [|exact Er]); apply (HQ e (within_down _ _ _ d q e Hd Hn Er)); exact He. }
  intros d Hd. split; [apply T1, Hd|]. intros cs cs' q Ec Ec' Hn. destruct d as [|d].
  - destruct (thm_complete normalize o pc 0 HB ltac:(lia)) as (a1 & a2 & c1 & A1 & A0 & _ & A2 & _). assert (a1 = o1) by congruence. subst a1. assert (c1 = cs) by congruence. subst c1.
    destruct (thm_complete normalize o pc' 0 HB' ltac:(lia)) as (b1 & b2 & c1 & B1 & B0 & _ & B2 & _). assert (b1 = o1') by congruence. subst b1. assert (c1 = cs') by congruence. subst c1.
    destruct q as [[[x y] z] b]. rewrite A2, B2. tauto.
  - destruct W as (K & M & T). destruct W' as (K' & M' & T'). pose proof (T1 d ltac:(lia) _ _ (parent_cell q) (tree_xyzb o1 _ K M d true T ltac:(lia)) (tree_xyzb o1' _ K' M' d true T' ltac:(lia))) as TT.
    rewrite (all_cells o1 d _ cs q (ex_intro _ K (ex_intro _ M T)) ltac:(lia) (tree_xyzb o1 _ K M d true T ltac:(lia)) Ec).
    rewrite (all_cells o1' d _ cs' q (ex_intro _ K' (ex_intro _ M' T')) ltac:(lia) (tree_xyzb o1' _ K' M' d true T' ltac:(lia)) Ec'). apply TT.
    pose proof (within_parent _ _ _ _ _ Hd Hn) as P. apply (within_mono _ _ _ _ _ _ (Z.eq_le_incl _ _ (Z.sub_add _ _)) P).
Qed.
