(** The gradients of convolutions on a moved shape are the moved gradients. *)
From Coq Require Import String List ZArith Bool QArith Qcanon Lia Permutation.
From Verif Require Import Res Tensor Key Num NumFacts Points Octree NnBasic NnConv Net Spec SpecGeo SpecNeigh SpecNN SpecMove
  WF ListFacts SumFacts NnFacts ConvFacts ConvOct Deconv DwGroup NetBatch MoveFacts MoveNet ShuffleFacts ShuffleMerge GradFacts GradBatch.
Import ListNotations.
Local Open Scope nat_scope.

Lemma reordered_at2 sigma x x' i c : reordered sigma x x' -> i < length x -> at2 x' (sigma i) c = at2 x i c.
Proof. intros R Hi. unfold at2. rewrite (reordered_nth sigma x x' [] i R Hi). reflexivity. Qed.
Lemma nth_seq0 N i : i < N -> nth_error (seq 0 N) i = Some i.
Proof. intros H. rewrite (nth_error_nth' (seq 0 N) 0) by (rewrite seq_length; exact H). rewrite seq_nth by exact H. reflexivity. Qed.
Lemma reordered_seq {A} sigma N (f f' : nat -> A) : permutes sigma N -> (forall i, i < N -> f' (sigma i) = f i) -> reordered sigma (map f (seq 0 N)) (map f' (seq 0 N)).
Proof.
  intros [H1 H2] H. split; [rewrite !map_length, seq_length; reflexivity|]. rewrite map_length, seq_length. intros i Hi. rewrite !nth_error_map.
  rewrite (nth_seq0 N i Hi), (nth_seq0 N (sigma i) (H1 i Hi)). cbn [option_map]. f_equal. apply H. exact Hi.
Qed.
Lemma reordered_tab sigma N C f f' : permutes sigma N -> (forall i c, i < N -> c < C -> f' (sigma i) c = f i c) -> reordered sigma (tabulate N C f) (tabulate N C f').
Proof. intros HS H. apply reordered_seq; [exact HS|]. intros i Hi. apply map_ext_in. intros c Hc. apply in_seq in Hc. apply H; lia. Qed.
Lemma sum_perm_n sigma N (f f' : nat -> Qc) : permutes sigma N -> (forall i, i < N -> f' (sigma i) = f i) -> sum_n N f' = sum_n N f.
Proof.
  intros HS H. pose proof (reordered_seq sigma N f f' HS H) as R.
  assert (E : forall g, sum_n N g = lsum (fun v => v) (map g (seq 0 N))).
  { intros g. rewrite lsum_map. rewrite <- (lsum_nth (fun a => g a) 0 (seq 0 N)), seq_length. apply sum_ext. intros i Hi. rewrite seq_nth by exact Hi. reflexivity. }
  rewrite !E. symmetry. apply lsum_perm. apply (reordered_perm sigma); [rewrite map_length, seq_length; exact HS|exact R].
Qed.
Lemma inner_reordered sigma N C x x' y y' : permutes sigma N -> length x = N -> length y = N -> reordered sigma x x' -> reordered sigma y y' -> inner N C x' y' = inner N C x y.
Proof.
  intros HS Lx Ly Rx Ry. unfold inner. apply (sum_perm_n sigma N _ _ HS). intros i Hi. apply sum_ext. intros c _. rewrite (reordered_at2 sigma x x'), (reordered_at2 sigma y y') by (assumption || lia). reflexivity.
Qed.
Lemma unit2_reordered sigma N C i c : permutes sigma N -> i < N -> reordered sigma (unit2 N C i c) (unit2 N C (sigma i) c).
Proof.
  intros HS Hi. apply reordered_tab; [exact HS|]. intros k b Hk _. destruct (Nat.eqb_spec k i) as [->|Hn]; [rewrite Nat.eqb_refl; reflexivity|].
  destruct (Nat.eqb_spec (sigma k) (sigma i)) as [E|_]; [|reflexivity]. apply HS in E; [contradiction|exact Hk|exact Hi].
Qed.
Lemma unit3_reordered tau K a b k c j : permutes tau K -> k < K -> reordered tau (unit3 K a b k c j) (unit3 K a b (tau k) c j).
Proof.
  intros HS Hk. apply reordered_seq; [exact HS|]. intros i Hi. destruct (Nat.eqb_spec i k) as [->|Hn]; [rewrite Nat.eqb_refl; reflexivity|].
  destruct (Nat.eqb_spec (tau i) (tau k)) as [E|_]; [|reflexivity]. apply HS in E; [contradiction|exact Hi|exact Hk].
Qed.
Lemma add3_reordered tau K a b W W' V V' : permutes tau K -> length W = K -> length V = K -> reordered tau W W' -> reordered tau V V' -> reordered tau (add3 K a b W V) (add3 K a b W' V').
Proof.
  intros HS LW LV RW RV. apply reordered_seq; [exact HS|]. intros k Hk. unfold at3. rewrite (reordered_nth tau W W' [] k RW) by lia. rewrite (reordered_nth tau V V' [] k RV) by lia. reflexivity.
Qed.

Section Moved.
  Variables (N M K C1 C2 a b : nat) (pi rho tau : nat -> nat) (F F' : feat -> list feat -> res feat).
  Hypothesis HP : permutes pi N.
  Hypothesis HR : permutes rho M.
  Hypothesis HT : permutes tau K.
  (** [F'] on moved inputs and turned weights gives the moved result of [F]; [pi] places the rows of
      the input and [rho] those of the result *)
  Definition equivariant : Prop := forall x x' W W' y y', shape N C1 x -> shape N C1 x' -> shape3 K a b W -> shape3 K a b W' ->
    reordered pi x x' -> reordered tau W W' -> F x W = Ok y -> F' x' W' = Ok y' -> shape M C2 y /\ reordered rho y y'.
  Hypothesis HE : equivariant.
  Lemma grad_moved x x' W W' g g' gd gd' gw gw' : shape3 K a b W -> shape3 K a b W' -> reordered pi x x' -> reordered tau W W' -> reordered rho g g' ->
    is_grad N M C1 C2 K a b F x W g gd gw -> is_grad N M C1 C2 K a b F' x' W' g' gd' gw' ->
    reordered pi gd gd' /\ reordered tau gw gw'.
  Proof.
    intros SW SW' Rx RW Rg (Sx & Sg & Sgd & Sgw & y & Ey & Sy & Dx & DW) (Sx' & Sg' & Sgd' & Sgw' & y' & Ey' & Sy' & Dx' & DW').
    destruct (HE x x' W W' y y' Sx Sx' SW SW' Rx RW Ey Ey') as [_ Ry].
    assert (DI : forall z z', shape M C2 z -> reordered rho z z' -> inner M C2 g' (sub2 M C2 z' y') = inner M C2 g (sub2 M C2 z y)).
    { intros z z' Sz Rz. apply (inner_reordered rho); [exact HR|apply Sg|apply tabulate_shape|exact Rg|]. apply reordered_tab; [exact HR|]. intros i c Hi _.
      rewrite (reordered_at2 rho z z' i c Rz) by (rewrite (proj1 Sz); exact Hi). rewrite (reordered_at2 rho y y' i c Ry) by (rewrite (proj1 Sy); exact Hi). reflexivity. }
    split.
    - split; [rewrite (proj1 Sgd), (proj1 Sgd'); reflexivity|]. rewrite (proj1 Sgd). intros i Hi.
      assert (Hi' : pi i < N) by (apply HP; exact Hi).
      rewrite (nth_error_nth' gd []) by (rewrite (proj1 Sgd); exact Hi). rewrite (nth_error_nth' gd' []) by (rewrite (proj1 Sgd'); exact Hi'). f_equal.
      apply nth_ext with 0%Qc 0%Qc; [rewrite (shape_nth _ _ _ _ Sgd Hi), (shape_nth _ _ _ _ Sgd' Hi'); reflexivity|].
      intros c Hc. rewrite (shape_nth _ _ _ _ Sgd' Hi') in Hc. change (at2 gd' (pi i) c = at2 gd i c).
      destruct (Dx (unit2 N C1 i c) (tabulate_shape _ _ _)) as (z & Ez & Iz). destruct (Dx' (unit2 N C1 (pi i) c) (tabulate_shape _ _ _)) as (z' & Ez' & Iz').
      rewrite (inner_comm2 N C1), inner_unit in Iz by assumption. rewrite (inner_comm2 N C1), inner_unit in Iz' by assumption.
      rewrite <- Iz, <- Iz'. assert (Ra : reordered pi (add2 N C1 x (unit2 N C1 i c)) (add2 N C1 x' (unit2 N C1 (pi i) c))).
      2: { destruct (HE _ _ W W' z z' (add2_shape _ _ _ _) (add2_shape _ _ _ _) SW SW' Ra RW Ez Ez') as [Sz Rz]. apply DI; assumption. }
      apply reordered_tab; [exact HP|]. intros k e Hk _. rewrite (reordered_at2 pi x x' k e Rx) by (rewrite (proj1 Sx); exact Hk).
      rewrite (reordered_at2 pi _ _ k e (unit2_reordered pi N C1 i c HP Hi)) by (unfold unit2; rewrite (proj1 (tabulate_shape _ _ _)); exact Hk). reflexivity.
    - split; [rewrite (proj1 Sgw), (proj1 Sgw'); reflexivity|]. rewrite (proj1 Sgw). intros k Hk.
      assert (Hk' : tau k < K) by (apply HT; exact Hk).
      rewrite (nth_error_nth' gw []) by (rewrite (proj1 Sgw); exact Hk). rewrite (nth_error_nth' gw' []) by (rewrite (proj1 Sgw'); exact Hk'). f_equal.
      destruct Sgw as [Lw Fw], Sgw' as [Lw' Fw']. rewrite Forall_forall in Fw, Fw'.
      apply (shape_ext a b); [apply Fw', nth_In; lia|apply Fw, nth_In; lia|]. intros c j Hc Hj. change (at3 gw' (tau k) c j = at3 gw k c j).
      destruct (DW (unit3 K a b k c j) (unit3_shape _ _ _ _ _ _)) as (z & Ez & Iz). destruct (DW' (unit3 K a b (tau k) c j) (unit3_shape _ _ _ _ _ _)) as (z' & Ez' & Iz').
      rewrite inner3_unit in Iz, Iz' by assumption. rewrite <- Iz, <- Iz'.
      assert (Ra : reordered tau (add3 K a b W (unit3 K a b k c j)) (add3 K a b W' (unit3 K a b (tau k) c j))).
      2: { destruct (HE x x' _ _ z z' Sx Sx' (add3_shape _ _ _ _ _) (add3_shape _ _ _ _ _) Rx Ra Ez Ez') as [Sz Rz]. apply DI; assumption. }
      apply add3_reordered; [exact HT|apply SW|apply unit3_shape|exact RW|apply unit3_reordered; assumption].
  Qed.
End Moved.

(** the place of every offset after the turn *)
Lemma turned_places turn kernel W W' : (forall v w, turn v = turn w -> v = w) -> NoDup (box kernel) -> length W = length (box kernel) -> length W' = length (box kernel) ->
  turned turn kernel W W' -> exists tau, permutes tau (length (box kernel)) /\ (forall k, k < length (box kernel) -> nth_error (box kernel) (tau k) = option_map turn (nth_error (box kernel) k)).
Proof.
  intros Ht Hn L L' H. set (B := box kernel) in *.
  assert (G : forall k, exists k', k < length B -> nth_error B k' = option_map turn (nth_error B k)).
  { intros k. destruct (nth_error B k) as [v|] eqn:E; [|exists 0; intros Hk; apply nth_error_None in E; lia]. destruct (H k v E) as (k' & E' & _). exists k'. intros _. exact E'. }
  assert (Fn : forall n, exists f : nat -> nat, forall k, k < n -> k < length B -> nth_error B (f k) = option_map turn (nth_error B k)).
  { induction n as [|n (f & Hf)]; [exists (fun k => k); lia|]. destruct (G n) as (k' & Hk'). exists (fun k => if Nat.eqb k n then k' else f k). intros k Hk Hb.
    destruct (Nat.eqb_spec k n) as [->|]; [apply Hk'; exact Hb|apply Hf; lia]. }
  destruct (Fn (length B)) as (tau & Htau). exists tau. split; [|intros k Hk; apply Htau; exact Hk]. split.
  - intros k Hk. specialize (Htau k Hk Hk). apply nth_error_Some. rewrite Htau. destruct (nth_error B k) eqn:E; [discriminate|apply nth_error_None in E; lia].
  - intros i j Hi Hj E. pose proof (Htau i Hi Hi) as A1. pose proof (Htau j Hj Hj) as A2. rewrite E in A1. rewrite A1 in A2. clear A1.
    destruct (nth_error B i) as [u|] eqn:Ei; [|apply nth_error_None in Ei; lia]. destruct (nth_error B j) as [v|] eqn:Ej; [|apply nth_error_None in Ej; lia].
    cbn [option_map] in A2. injection A2 as A2. apply Ht in A2. subst v. apply (proj1 (NoDup_nth_error B) Hn i j Hi). congruence.
Qed.
Lemma turned_reordered turn kernel W W' tau : NoDup (box kernel) -> length W = length (box kernel) -> length W' = length (box kernel) -> permutes tau (length (box kernel)) ->
  (forall k, k < length (box kernel) -> nth_error (box kernel) (tau k) = option_map turn (nth_error (box kernel) k)) ->
  (turned turn kernel W W' <-> reordered tau W W').
Proof.
  intros Hn L L' HS Ht. split.
  - intros H. split; [congruence|]. rewrite L. intros k Hk. destruct (nth_error (box kernel) k) as [v|] eqn:E; [|apply nth_error_None in E; lia].
    destruct (H k v E) as (k' & E' & Ew). pose proof (Ht k Hk) as E2. rewrite E in E2. cbn [option_map] in E2.
    assert (k' = tau k); [|subst; exact Ew]. apply (proj1 (NoDup_nth_error _) Hn); [apply nth_error_Some; congruence|congruence].
  - intros [_ H] k v E. assert (Hk : k < length (box kernel)) by (apply nth_error_Some; congruence). exists (tau k). split; [rewrite (Ht k Hk), E; reflexivity|]. apply H. lia.
Qed.

Section Grads.
  Variables (e : nat) (s : nat -> Z * Z * Z * Z -> Z * Z * Z * Z) (turn : Z * Z * Z -> Z * Z * Z) (o o' : octree) (ne : bool) (renum : Z -> Z).
  Hypothesis HM : motion_to renum e s turn.
  Hypothesis HO : moved e s o o'.
  Hypothesis HW : wf_octree o.
  Hypothesis HW' : wf_octree o'.
  Lemma row_places d : lowest ne e <= d <= depth o -> exists pi, permutes pi (node_count o d ne) /\ node_count o' d ne = node_count o d ne /\
    forall A (x x' : list A), length x = node_count o d ne -> length x' = node_count o d ne -> (carried ne s o o' d x x' <-> reordered pi x x').
  Proof.
    intros Hd. destruct (cells e s turn o o' ne (lowest ne e) (lowest_ok ne e) HM HO HW HW' d Hd) as (cs & cs' & E1 & E2 & L1 & L2 & N1 & N2 & Hc).
    pose proof (count_eq e s turn o o' ne (lowest ne e) (lowest_ok ne e) HM HO HW HW' d Hd) as Ec. rewrite Ec in L2.
    assert (G : forall i, exists j, i < length cs -> nth_error cs' j = option_map (s d) (nth_error cs i)).
    { intros i. destruct (nth_error cs i) as [q|] eqn:E; [|exists 0; intros Hi; apply nth_error_None in E; lia].
      assert (Hq : In (s d q) cs') by (apply Hc; eapply nth_error_In; exact E). apply In_nth_error in Hq. destruct Hq as (j & Hj). exists j. intros _. exact Hj. }
    assert (Fn : forall n, exists f : nat -> nat, forall k, k < n -> k < length cs -> nth_error cs' (f k) = option_map (s d) (nth_error cs k)).
    { induction n as [|n (f & Hf)]; [exists (fun k => k); lia|]. destruct (G n) as (k' & Hk'). exists (fun k => if Nat.eqb k n then k' else f k). intros k Hk Hb.
      destruct (Nat.eqb_spec k n) as [->|]; [apply Hk'; exact Hb|apply Hf; lia]. }
    destruct (Fn (length cs)) as (pi & Hpi). exists pi. rewrite L1 in Hpi.
    assert (HS : permutes pi (node_count o d ne)).
    { split.
      - intros i Hi. specialize (Hpi i Hi Hi). rewrite <- L2. apply nth_error_Some. rewrite Hpi. destruct (nth_error cs i) eqn:E; [discriminate|apply nth_error_None in E; lia].
      - intros i j Hi Hj E. pose proof (Hpi i Hi Hi) as A1. pose proof (Hpi j Hj Hj) as A2. rewrite E in A1. rewrite A1 in A2. clear A1.
        destruct (nth_error cs i) as [u|] eqn:Ei; [|apply nth_error_None in Ei; lia]. destruct (nth_error cs j) as [v|] eqn:Ej; [|apply nth_error_None in Ej; lia].
        cbn [option_map] in A2. assert (A3 : s d u = s d v) by congruence. apply (mo_inj _ _ _ _ HM) in A3; [|destruct (lowest_ok ne e); lia]. subst v.
        apply (proj1 (NoDup_nth_error cs) N1 i j); [lia|congruence]. }
    split; [exact HS|]. split; [exact Ec|]. intros A x x' Lx Lx'. split.
    - intros H. split; [congruence|]. rewrite Lx. intros i Hi. symmetry. destruct (nth_error cs i) as [q|] eqn:E; [|apply nth_error_None in E; lia].
      apply (H cs cs' i (pi i) q E1 E2 E). rewrite (Hpi i Hi Hi), E. reflexivity.
    - intros [_ H] a a' i j q A1 A2 Hi Hj. rewrite E1 in A1. assert (a = cs) by congruence. subst a. rewrite E2 in A2. assert (a' = cs') by congruence. subst a'.
      assert (Li : i < node_count o d ne) by (rewrite <- L1; apply nth_error_Some; congruence). rewrite <- (H i ltac:(lia)). f_equal.
      apply (proj1 (NoDup_nth_error cs') N2); [rewrite L2; apply HS; exact Li|]. rewrite (Hpi i Li Li), Hi, Hj. reflexivity.
  Qed.

  Variables (d : nat) (ks : list nat) (kernel : string) (mb : Z).
  Hypothesis Hd : lowest ne e <= d.
  Hypothesis R : conv_ready o d kernel 1.
  Hypothesis R' : conv_ready o' d kernel 1.
  Hypothesis Hk : In (ks, kernel) kernel_sizes.
  Notation K := (length (box kernel)).
  Notation N := (node_count o d ne).
  Lemma nodup_k : NoDup (box kernel). Proof. apply box_nodup. apply (kernel_in ks). exact Hk. Qed.
  Lemma d_in : lowest ne e <= d <= depth o. Proof. destruct R as (_ & H & _). lia. Qed.
  Section Places.
    Variables (pi tau : nat -> nat).
    Hypothesis HP : permutes pi N.
    Hypothesis HN : node_count o' d ne = N.
    Hypothesis HC : forall A (x x' : list A), length x = N -> length x' = N -> (carried ne s o o' d x x' <-> reordered pi x x').
    Hypothesis HT : permutes tau K.
    Hypothesis Htau : forall k, k < K -> nth_error (box kernel) (tau k) = option_map turn (nth_error (box kernel) k).
    Lemma conv_equivariant ci co : (Z.of_nat K * Z.of_nat ci <= mb)%Z -> equivariant N N K ci co ci co pi pi tau
      (fun x W => conv_forward (mkCfg ci co ks 1 ne mb true) o d x W) (fun x W => conv_forward (mkCfg ci co ks 1 ne mb true) o' d x W).
    Proof.
      intros Hmb x x' W W' y y' Sx Sx' SW SW' Rx RW Ey Ey'.
      assert (G : forall oo z V v, conv_forward (mkCfg ci co ks 1 ne mb true) oo d z V = Ok v -> OctreeConv (mkCfg ci co ks 1 ne mb true) false V None z oo d = Ok v).
      { intros oo z V v E. unfold OctreeConv. destruct (ksize_ok ks kernel ci co 1 ne mb true Hk) as [_ ->]. cbn [bind]. rewrite E. reflexivity. }
      destruct (move_conv e s turn o o' ne (lowest ne e) (lowest_ok ne e) HM HO HW HW' d ks kernel ci co mb x x' W W' None Hd R R' Hk Sx) as (v & v' & A1 & A2 & A3 & A4 & A5).
      - rewrite HN. exact Sx'.
      - apply HC; [apply Sx|apply Sx'|exact Rx].
      - exact SW.
      - exact SW'.
      - apply (turned_reordered turn kernel W W' tau nodup_k (proj1 SW) (proj1 SW') HT Htau). exact RW.
      - exact I.
      - exact Hmb.
      - rewrite (G _ _ _ _ Ey) in A1. rewrite (G _ _ _ _ Ey') in A2. apply Eq in A1. apply Eq in A2. subst v v'. rewrite HN in A4. split; [exact A3|]. apply HC; [apply A3|apply A4|exact A5].
    Qed.
    Lemma conv_grads ci co x x' W W' g g' : (Z.of_nat K * Z.of_nat ci <= mb)%Z -> shape N ci x -> shape N ci x' -> shape3 K ci co W -> shape3 K ci co W' -> shape N co g -> shape N co g' ->
      reordered pi x x' -> reordered tau W W' -> reordered pi g g' -> exists gd gw gd' gw',
      conv_backward (mkCfg ci co ks 1 ne mb true) o d x W g = Ok (gd, gw) /\ conv_backward (mkCfg ci co ks 1 ne mb true) o' d x' W' g' = Ok (gd', gw') /\
      shape N ci gd /\ shape N ci gd' /\ shape3 K ci co gw /\ shape3 K ci co gw' /\ reordered pi gd gd' /\ reordered tau gw gw'.
    Proof.
      intros Hmb Sx Sx' SW SW' Sg Sg' Rx RW Rg.
      destruct (thm_conv_grad o d ks kernel 1 ne ci co mb x W g R Hk Sx SW Sg Hmb) as (y & gd & gw & A1 & A2 & A3 & A4 & A5 & A6 & A7).
      destruct (thm_conv_grad o' d ks kernel 1 ne ci co mb x' W' g' R' Hk) as (y' & gd' & gw' & B1 & B2 & B3 & B4 & B5 & B6 & B7); [rewrite HN; exact Sx'|exact SW'|cbn; rewrite HN; exact Sg'|exact Hmb|].
      change (out_count o d 1 ne) with N in *. change (out_count o' d 1 ne) with (node_count o' d ne) in *. rewrite HN in B3, B4, B6, B7.
      exists gd, gw, gd', gw'. split; [exact A2|]. split; [exact B2|]. do 4 (split; [assumption|]).
      apply (grad_moved N N K ci co ci co pi pi tau _ _ HP HP HT (conv_equivariant ci co Hmb) x x' W W' g g' gd gd' gw gw' SW SW' Rx RW Rg).
      - repeat (split; [assumption|]). exists y. repeat (split; [assumption|]). assumption.
      - repeat (split; [assumption|]). exists y'. repeat (split; [assumption|]). assumption.
    Qed.
    Lemma dw_equivariant C : (Z.of_nat K * Z.of_nat C <= mb)%Z -> equivariant N N K C C 1 C pi pi tau
      (fun x W => dwconv_forward (mkCfg C C ks 1 ne mb true) o d x W) (fun x W => dwconv_forward (mkCfg C C ks 1 ne mb true) o' d x W).
    Proof.
      intros Hmb x x' W W' y y' Sx Sx' SW SW' Rx RW Ey Ey'.
      destruct (dwconv_forward_Ok o d kernel 1 ne C ks mb x W R Hk Hmb Sx SW) as [E1 _].
      destruct (dwconv_forward_Ok o' d kernel 1 ne C ks mb x' W' R' Hk Hmb ltac:(rewrite HN; exact Sx') SW') as [E2 _].
      rewrite E1 in Ey. rewrite E2 in Ey'. apply (conv_equivariant C C Hmb x x' _ _ y y' Sx Sx' (diagonal_shape _ _ _) (diagonal_shape _ _ _) Rx) with (2 := Ey) (3 := Ey').
      apply reordered_seq; [exact HT|]. intros k Hkk. apply tabulate_ext. intros c c' _ _. unfold at3. rewrite (reordered_nth tau W W' [] k RW) by (rewrite (proj1 SW); exact Hkk). reflexivity.
    Qed.
    Lemma dw_grads C x x' W W' g g' : (Z.of_nat K * Z.of_nat C <= mb)%Z -> shape N C x -> shape N C x' -> shape3 K 1 C W -> shape3 K 1 C W' -> shape N C g -> shape N C g' ->
      reordered pi x x' -> reordered tau W W' -> reordered pi g g' -> exists gd gw gd' gw',
      dwconv_backward (mkCfg C C ks 1 ne mb true) o d x W g = Ok (gd, gw) /\ dwconv_backward (mkCfg C C ks 1 ne mb true) o' d x' W' g' = Ok (gd', gw') /\
      shape N C gd /\ shape N C gd' /\ shape3 K 1 C gw /\ shape3 K 1 C gw' /\ reordered pi gd gd' /\ reordered tau gw gw'.
    Proof.
      intros Hmb Sx Sx' SW SW' Sg Sg' Rx RW Rg.
      destruct (thm_dw_grad o d ks kernel 1 ne C mb x W g R Hk Sx SW Sg Hmb) as (y & gd & gw & A1 & A2 & A3 & A4 & A5 & A6 & A7).
      destruct (thm_dw_grad o' d ks kernel 1 ne C mb x' W' g' R' Hk) as (y' & gd' & gw' & B1 & B2 & B3 & B4 & B5 & B6 & B7); [rewrite HN; exact Sx'|exact SW'|cbn; rewrite HN; exact Sg'|exact Hmb|].
      change (out_count o d 1 ne) with N in *. change (out_count o' d 1 ne) with (node_count o' d ne) in *. rewrite HN in B3, B4, B6, B7.
      exists gd, gw, gd', gw'. split; [exact A2|]. split; [exact B2|]. do 4 (split; [assumption|]).
      apply (grad_moved N N K C C 1 C pi pi tau _ _ HP HP HT (dw_equivariant C Hmb) x x' W W' g g' gd gd' gw gw' SW SW' Rx RW Rg).
      - repeat (split; [assumption|]). exists y. repeat (split; [assumption|]). assumption.
      - repeat (split; [assumption|]). exists y'. repeat (split; [assumption|]). assumption.
    Qed.
    Lemma deconv_equivariant ci co : (Z.of_nat K * Z.of_nat ci <= mb)%Z -> equivariant N N K co ci ci co pi pi tau
      (fun y W => deconv_forward (mkCfg co ci ks 1 ne mb false) o d y W) (fun y W => deconv_forward (mkCfg co ci ks 1 ne mb false) o' d y W).
    Proof.
      intros Hmb y y' W W' z z' Sy Sy' SW SW' Ry RW Ez Ez'. set (x := tabulate N ci (fun _ _ => 0%Qc)). assert (Sx : shape N ci x) by apply tabulate_shape.
      destruct (deconv_is_gd o d ks kernel 1 ne ci co mb x y W R Hk Hmb Sx Sy SW) as (v & gw & A1 & A2 & A3).
      destruct (deconv_is_gd o' d ks kernel 1 ne ci co mb x y' W' R' Hk Hmb) as (v' & gw' & B1 & B2 & B3); [cbn; rewrite HN; exact Sx|cbn; rewrite HN; exact Sy'|exact SW'|].
      assert (v = z) by (apply Eq; rewrite <- A1; exact Ez). assert (v' = z') by (apply Eq; rewrite <- B1; exact Ez'). subst v v'.
      destruct (conv_grads ci co x x W W' y y' Hmb Sx Sx SW SW' Sy Sy') as (gd & gw1 & gd' & gw1' & D1 & D2 & D3 & D4 & _ & _ & D7 & _); [apply reordered_tab; [exact HP|reflexivity]|exact RW|exact Ry|].
      change (up d 1) with d in A3, B3. rewrite A3 in D1. rewrite B3 in D2. assert (P1 : forall (a b : feat) (c e : list feat), Ok (a, c) = Ok (b, e) -> a = b) by (intros; congruence).
      apply P1 in D1. apply P1 in D2. subst gd gd'. split; assumption.
    Qed.
    Lemma deconv_grads ci co y y' W W' g g' : (Z.of_nat K * Z.of_nat ci <= mb)%Z -> shape N co y -> shape N co y' -> shape3 K ci co W -> shape3 K ci co W' -> shape N ci g -> shape N ci g' ->
      reordered pi y y' -> reordered tau W W' -> reordered pi g g' -> exists gd gw gd' gw',
      deconv_backward (mkCfg co ci ks 1 ne mb false) o d y W g = Ok (gd, gw) /\ deconv_backward (mkCfg co ci ks 1 ne mb false) o' d y' W' g' = Ok (gd', gw') /\
      shape N co gd /\ shape N co gd' /\ shape3 K ci co gw /\ shape3 K ci co gw' /\ reordered pi gd gd' /\ reordered tau gw gw'.
    Proof.
      intros Hmb Sx Sx' SW SW' Sg Sg' Rx RW Rg.
      destruct (thm_deconv_grad o d ks kernel 1 ne ci co mb y W g R Hk Sx SW Sg Hmb) as (z & gd & gw & A1 & A2 & A3 & A4 & A5 & A6 & A7).
      destruct (thm_deconv_grad o' d ks kernel 1 ne ci co mb y' W' g' R' Hk) as (z' & gd' & gw' & B1 & B2 & B3 & B4 & B5 & B6 & B7); [cbn; rewrite HN; exact Sx'|exact SW'|cbn; rewrite HN; exact Sg'|exact Hmb|].
      change (up d 1) with d in *. change (out_count o d 1 ne) with N in *. change (out_count o' d 1 ne) with (node_count o' d ne) in *. rewrite HN in B3, B4, B6, B7.
      exists gd, gw, gd', gw'. split; [exact A2|]. split; [exact B2|]. do 4 (split; [assumption|]).
      apply (grad_moved N N K co ci ci co pi pi tau _ _ HP HP HT (deconv_equivariant ci co Hmb) y y' W W' g g' gd gd' gw gw' SW SW' Rx RW Rg).
      - repeat (split; [assumption|]). exists z. repeat (split; [assumption|]). assumption.
      - repeat (split; [assumption|]). exists z'. repeat (split; [assumption|]). assumption.
    Qed.
  End Places.

  Theorem thm_moved_conv_grad ci co x x' W W' g g' : (Z.of_nat K * Z.of_nat ci <= mb)%Z ->
    shape N ci x -> shape (node_count o' d ne) ci x' -> carried ne s o o' d x x' ->
    shape3 K ci co W -> shape3 K ci co W' -> turned turn kernel W W' ->
    shape N co g -> shape (node_count o' d ne) co g' -> carried ne s o o' d g g' ->
    exists gd gw gd' gw', conv_backward (mkCfg ci co ks 1 ne mb true) o d x W g = Ok (gd, gw) /\ conv_backward (mkCfg ci co ks 1 ne mb true) o' d x' W' g' = Ok (gd', gw') /\
      shape N ci gd /\ shape (node_count o' d ne) ci gd' /\ shape3 K ci co gw /\ shape3 K ci co gw' /\
      carried ne s o o' d gd gd' /\ turned turn kernel gw gw'.
  Proof.
    intros Hmb Sx Sx' Cx SW SW' TW Sg Sg' Cg. destruct (row_places d d_in) as (pi & HP & HN & HC).
    destruct (turned_places turn kernel W W' (turn_inj e s turn ne (lowest ne e) (lowest_ok ne e) HM) nodup_k (proj1 SW) (proj1 SW') TW) as (tau & HT & Htau). rewrite HN in Sx', Sg' |- *.
    destruct (conv_grads pi tau HP HN HC HT Htau ci co x x' W W' g g' Hmb Sx Sx' SW SW' Sg Sg') as (gd & gw & gd' & gw' & A1 & A2 & A3 & A4 & A5 & A6 & A7 & A8).
    - apply HC; [apply Sx|apply Sx'|exact Cx].
    - apply (turned_reordered turn kernel W W' tau nodup_k (proj1 SW) (proj1 SW') HT Htau). exact TW.
    - apply HC; [apply Sg|apply Sg'|exact Cg].
    - exists gd, gw, gd', gw'. do 6 (split; [assumption|]). split; [apply HC; [apply A3|apply A4|exact A7]|].
      apply (turned_reordered turn kernel gw gw' tau nodup_k (proj1 A5) (proj1 A6) HT Htau). exact A8.
  Qed.

  Theorem thm_moved_dwconv_grad C x x' W W' g g' : (Z.of_nat K * Z.of_nat C <= mb)%Z ->
    shape N C x -> shape (node_count o' d ne) C x' -> carried ne s o o' d x x' ->
    shape3 K 1 C W -> shape3 K 1 C W' -> turned turn kernel W W' ->
    shape N C g -> shape (node_count o' d ne) C g' -> carried ne s o o' d g g' ->
    exists gd gw gd' gw', dwconv_backward (mkCfg C C ks 1 ne mb true) o d x W g = Ok (gd, gw) /\ dwconv_backward (mkCfg C C ks 1 ne mb true) o' d x' W' g' = Ok (gd', gw') /\
      shape N C gd /\ shape (node_count o' d ne) C gd' /\ shape3 K 1 C gw /\ shape3 K 1 C gw' /\
      carried ne s o o' d gd gd' /\ turned turn kernel gw gw'.
  Proof.
    intros Hmb Sx Sx' Cx SW SW' TW Sg Sg' Cg. destruct (row_places d d_in) as (pi & HP & HN & HC).
    destruct (turned_places turn kernel W W' (turn_inj e s turn ne (lowest ne e) (lowest_ok ne e) HM) nodup_k (proj1 SW) (proj1 SW') TW) as (tau & HT & Htau). rewrite HN in Sx', Sg' |- *.
    destruct (dw_grads pi tau HP HN HC HT Htau C x x' W W' g g' Hmb Sx Sx' SW SW' Sg Sg') as (gd & gw & gd' & gw' & A1 & A2 & A3 & A4 & A5 & A6 & A7 & A8).
    - apply HC; [apply Sx|apply Sx'|exact Cx].
    - apply (turned_reordered turn kernel W W' tau nodup_k (proj1 SW) (proj1 SW') HT Htau). exact TW.
    - apply HC; [apply Sg|apply Sg'|exact Cg].
    - exists gd, gw, gd', gw'. do 6 (split; [assumption|]). split; [apply HC; [apply A3|apply A4|exact A7]|].
      apply (turned_reordered turn kernel gw gw' tau nodup_k (proj1 A5) (proj1 A6) HT Htau). exact A8.
  Qed.

  Theorem thm_moved_deconv_grad ci co x x' W W' g g' : (Z.of_nat K * Z.of_nat ci <= mb)%Z ->
    shape N co x -> shape (node_count o' d ne) co x' -> carried ne s o o' d x x' ->
    shape3 K ci co W -> shape3 K ci co W' -> turned turn kernel W W' ->
    shape N ci g -> shape (node_count o' d ne) ci g' -> carried ne s o o' d g g' ->
    exists gd gw gd' gw', deconv_backward (mkCfg co ci ks 1 ne mb false) o d x W g = Ok (gd, gw) /\ deconv_backward (mkCfg co ci ks 1 ne mb false) o' d x' W' g' = Ok (gd', gw') /\
      shape N co gd /\ shape (node_count o' d ne) co gd' /\ shape3 K ci co gw /\ shape3 K ci co gw' /\
      carried ne s o o' d gd gd' /\ turned turn kernel gw gw'.
  Proof.
    intros Hmb Sx Sx' Cx SW SW' TW Sg Sg' Cg. destruct (row_places d d_in) as (pi & HP & HN & HC).
    destruct (turned_places turn kernel W W' (turn_inj e s turn ne (lowest ne e) (lowest_ok ne e) HM) nodup_k (proj1 SW) (proj1 SW') TW) as (tau & HT & Htau). rewrite HN in Sx', Sg' |- *.
    destruct (deconv_grads pi tau HP HN HC HT Htau ci co x x' W W' g g' Hmb Sx Sx' SW SW' Sg Sg') as (gd & gw & gd' & gw' & A1 & A2 & A3 & A4 & A5 & A6 & A7 & A8).
    - apply HC; [apply Sx|apply Sx'|exact Cx].
    - apply (turned_reordered turn kernel W W' tau nodup_k (proj1 SW) (proj1 SW') HT Htau). exact TW.
    - apply HC; [apply Sg|apply Sg'|exact Cg].
    - exists gd, gw, gd', gw'. do 6 (split; [assumption|]). split; [apply HC; [apply A3|apply A4|exact A7]|].
      apply (turned_reordered turn kernel gw gw' tau nodup_k (proj1 A5) (proj1 A6) HT Htau). exact A8.
  Qed.

  Theorem thm_moved_deconv ci co y y' W W' : (Z.of_nat K * Z.of_nat ci <= mb)%Z ->
    shape N co y -> shape (node_count o' d ne) co y' -> carried ne s o o' d y y' ->
    shape3 K ci co W -> shape3 K ci co W' -> turned turn kernel W W' ->
    exists z z', deconv_forward (mkCfg co ci ks 1 ne mb false) o d y W = Ok z /\ deconv_forward (mkCfg co ci ks 1 ne mb false) o' d y' W' = Ok z' /\
      shape N ci z /\ shape (node_count o' d ne) ci z' /\ carried ne s o o' d z z'.
  Proof.
    intros Hmb Sx Sx' Cx SW SW' TW. destruct (row_places d d_in) as (pi & HP & HN & HC).
    destruct (turned_places turn kernel W W' (turn_inj e s turn ne (lowest ne e) (lowest_ok ne e) HM) nodup_k (proj1 SW) (proj1 SW') TW) as (tau & HT & Htau). rewrite HN in Sx' |- *.
    destruct (deconv_Ok o d kernel 1 ne ci co ks mb y W R Hk (or_introl Hmb) Sx SW) as (t & z & _ & _ & _ & A1 & A2 & _).
    destruct (deconv_Ok o' d kernel 1 ne ci co ks mb y' W' R' Hk (or_introl Hmb) ltac:(cbn; rewrite HN; exact Sx') SW') as (t' & z' & _ & _ & _ & B1 & B2 & _).
    change (up d 1) with d in *. rewrite HN in B2. exists z, z'. do 4 (split; [assumption|]). apply HC; [apply A2|apply B2|].
    refine (proj2 (deconv_equivariant pi tau HP HN HC HT Htau ci co Hmb y y' W W' z z' Sx Sx' SW SW' _ _ A1 B1)).
    - apply HC; [apply Sx|apply Sx'|exact Cx].
    - apply (turned_reordered turn kernel W W' tau nodup_k (proj1 SW) (proj1 SW') HT Htau). exact TW.
  Qed.
End Grads.
