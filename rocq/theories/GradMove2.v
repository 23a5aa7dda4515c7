(** The gradients of convolutions of stride 2 on a moved shape are the moved gradients. *)
From Coq Require Import String List ZArith Bool QArith Qcanon Lia Permutation.
From Verif Require Import Res Tensor Key Num NumFacts Points Octree NnBasic NnConv Net Spec SpecGeo SpecNeigh SpecNN SpecMove SpecMoveSeg
  WF ListFacts SumFacts SearchFacts WFFacts NnFacts PadFacts ConvFacts ConvOct Deconv DwGroup NetBatch MoveFacts MoveNet MoveBuild MoveSeg ShuffleFacts ShuffleMerge GradFacts GradBatch GradMove.
Import ListNotations.
Local Open Scope nat_scope.

Section Grads2.
  Variables (e : nat) (s : nat -> Z * Z * Z * Z -> Z * Z * Z * Z) (turn : Z * Z * Z -> Z * Z * Z) (o o' : octree) (ne : bool) (renum : Z -> Z).
  Hypothesis HM : motion_to renum e s turn.
  Hypothesis HF : keeps_first e s.
  Hypothesis HO : moved e s o o'.
  Hypothesis HW : wf_octree o.
  Hypothesis HW' : wf_octree o'.

  (** rows of all nodes with those of the empty ones left out *)
  Lemma carried_depad d (p p' y y' : feat) : (lowest false e <= d <= depth o)%nat -> octree_depad p o (Z.of_nat d) = Ok y -> octree_depad p' o' (Z.of_nat d) = Ok y' ->
    length p = node_count o d false -> length p' = node_count o' d false -> carried false s o o' d p p' -> carried true s o o' d y y'.
  Proof.
    intros Hd E E' L L' H a a' i j q A A' Hi Hj. pose proof HO as (D & _).
    destruct (cells e s turn o o' false (lowest false e) (lowest_ok false e) HM HO HW HW' d Hd) as (cs & cs' & E1 & E2 & _ & _ & _ & _ & Hc).
    assert (Hq : forall u t b k r, wf_octree u -> (d <= depth u)%nat -> octree_xyzb u d true = Ok t -> octree_xyzb u d false = Ok b -> nth_error t k = Some r -> In r b).
    { intros u t b k r (K & M & T) Hu F1 F2 F3. rewrite (tree_xyzb u (depth u) K M) in F1, F2 by (assumption || lia). injection F1 as <-. injection F2 as <-. cbn [sel] in *.
      apply nth_error_In in F3. apply in_map_iff in F3. destruct F3 as (k0 & <- & Hk0). apply in_map. apply in_select in Hk0. destruct Hk0 as (i0 & _ & Hk0). eapply nth_error_In. exact Hk0. }
    destruct (In_nth_error cs q (Hq o a cs i q HW ltac:(lia) A E1 Hi)) as (i2 & Hi2). destruct (In_nth_error cs' (s d q) (Hq o' a' cs' j (s d q) HW' ltac:(lia) A' E2 Hj)) as (j2 & Hj2).
    destruct (thm_pad_depad o d 0 0%Qc HW ltac:(lia)) as (fl & Ef & _). destruct (thm_pad_depad o' d 0 0%Qc HW' ltac:(lia)) as (fl' & Ef' & _).
    destruct (padded_rows o d fl p y a cs i2 q HW ltac:(lia) Ef E L A E1 Hi2) as [G _]. destruct (padded_rows o' d fl' p' y' a' cs' j2 (s d q) HW' ltac:(lia) Ef' E' L' A' E2 Hj2) as [G' _].
    rewrite <- (G i Hi), <- (G' j Hj). apply (H cs cs' i2 j2 q); assumption.
  Qed.

  Variables (d : nat) (ks : list nat) (kernel : string) (mb : Z).
  Hypothesis Hd : lowest ne e <= d.
  Hypothesis R : conv_ready o (S d) kernel 2.
  Hypothesis R' : conv_ready o' (S d) kernel 2.
  Hypothesis Hk : In (ks, kernel) kernel_sizes.
  Notation K := (length (box kernel)).
  Notation N := (node_count o (S d) ne).
  Notation M := (node_count o d true).
  Lemma out2 u : out_count u (S d) 2 ne = node_count u d true.
  Proof. unfold out_count. cbn [Z.eqb Pos.eqb]. f_equal. lia. Qed.
  Lemma d_in2 : lowest ne e <= S d <= depth o. Proof. destruct R as (_ & H & _). lia. Qed.
  Lemma d_in1 : lowest true e <= d <= depth o. Proof. destruct R as (_ & H & _). pose proof (proj1 (lowest_ok ne e)). cbn [lowest]. unfold lowest in *. destruct ne; lia. Qed.
  Lemma conv_to_octree ci co u x W y : conv_ready u (S d) kernel 2 -> (Z.of_nat K * Z.of_nat ci <= mb)%Z -> shape (node_count u (S d) ne) ci x -> shape3 K ci co W ->
    conv_forward (mkCfg ci co ks 2 ne mb true) u (S d) x W = Ok y -> shape (node_count u d true) co y /\ exists p, OctreeConv (mkCfg ci co ks 2 ne mb true) false W None x u (S d) = Ok p /\
      (ne = true -> p = y) /\ (ne = false -> octree_depad p u (Z.of_nat d) = Ok y /\ length p = node_count u d false).
  Proof.
    intros Q Hmb Sx SW Ey. destruct (conv_forward_Ok u (S d) kernel 2 ne ci co ks mb x W Q Hk (or_introl Hmb) Sx SW) as (t & _ & _ & Hl & F).
    rewrite F in Ey. assert (E1 : cv ci co x W t = y) by (apply Eq; exact Ey). assert (Sy : shape (node_count u d true) co y) by (rewrite <- E1, <- out2, <- Hl; apply cv_shape).
    split; [exact Sy|]. destruct Q as (U & Hdu & _). destruct (thm_pad_depad u d co 0%Qc U ltac:(lia)) as (fl & _ & P1 & P2 & P3).
    unfold OctreeConv. destruct (ksize_ok ks kernel ci co 2 ne mb true Hk) as [_ ->]. cbn [bind]. rewrite F, E1. cbn [bind add_bias c_stride c_nempty c_out Z.eqb Pos.eqb andb].
    replace (Z.of_nat (S d) - 1)%Z with (Z.of_nat d) by lia. destruct ne; cbn [negb].
    - exists y. split; [reflexivity|]. split; [reflexivity|discriminate].
    - destruct (P2 y Sy) as (p & Ep & Sp & Dp & _). exists p. split; [exact Ep|]. split; [discriminate|]. intros _. split; [exact Dp|apply Sp].
  Qed.

  Section Places2.
    Variables (pi rho tau : nat -> nat).
    Hypothesis HP : permutes pi N.
    Hypothesis HN : node_count o' (S d) ne = N.
    Hypothesis HC : forall A (x x' : list A), length x = N -> length x' = N -> (carried ne s o o' (S d) x x' <-> reordered pi x x').
    Hypothesis HQ : permutes rho M.
    Hypothesis HL : node_count o' d true = M.
    Hypothesis HD : forall A (x x' : list A), length x = M -> length x' = M -> (carried true s o o' d x x' <-> reordered rho x x').
    Hypothesis HT : permutes tau K.
    Hypothesis Htau : forall k, k < K -> nth_error (box kernel) (tau k) = option_map turn (nth_error (box kernel) k).
    Lemma nodup_k2 : NoDup (box kernel). Proof. apply box_nodup. apply (kernel_in ks). exact Hk. Qed.
    Lemma conv2_equivariant ci co : (Z.of_nat K * Z.of_nat ci <= mb)%Z -> equivariant N M K ci co ci co pi rho tau
      (fun x W => conv_forward (mkCfg ci co ks 2 ne mb true) o (S d) x W) (fun x W => conv_forward (mkCfg ci co ks 2 ne mb true) o' (S d) x W).
    Proof.
      intros Hmb x x' W W' y y' Sx Sx' SW SW' Rx RW Ey Ey'.
      destruct (conv_to_octree ci co o x W y R Hmb Sx SW Ey) as (Sy & p & P1 & P2 & P3).
      destruct (conv_to_octree ci co o' x' W' y' R' Hmb ltac:(rewrite HN; exact Sx') SW' Ey') as (Sy' & p' & P1' & P2' & P3').
      destruct (move_conv2 e s turn o o' ne (lowest ne e) (lowest_ok ne e) HM HF HO HW HW' d ks kernel ci co mb x x' W W' None Hd R R' Hk) as (v & v' & A1 & A2 & A3 & A4 & A5).
      - split; [exact Sx|]. split; [rewrite HN; exact Sx'|]. apply HC; [apply Sx|apply Sx'|exact Rx].
      - exact SW.
      - exact SW'.
      - apply (turned_reordered turn kernel W W' tau nodup_k2 (proj1 SW) (proj1 SW') HT Htau). exact RW.
      - exact I.
      - exact Hmb.
      - rewrite P1 in A1. rewrite P1' in A2. apply Eq in A1. apply Eq in A2. subst v v'. split; [exact Sy|]. rewrite HL in Sy'. apply HD; [apply Sy|apply Sy'|].
        pose proof d_in1 as DI. destruct (bool_dec ne true) as [En|En].
        + rewrite (P2 En), (P2' En) in A5. rewrite En in A5. exact A5.
        + apply not_true_is_false in En. destruct (P3 En) as [D1 L1]. destruct (P3' En) as [D2 L2]. rewrite En in A5. apply (carried_depad d p p' y y'); try assumption. rewrite <- En. lia.
    Qed.
    Lemma conv2_grads ci co x x' W W' g g' : (Z.of_nat K * Z.of_nat ci <= mb)%Z -> shape N ci x -> shape N ci x' -> shape3 K ci co W -> shape3 K ci co W' -> shape M co g -> shape M co g' ->
      reordered pi x x' -> reordered tau W W' -> reordered rho g g' -> exists gd gw gd' gw',
      conv_backward (mkCfg ci co ks 2 ne mb true) o (S d) x W g = Ok (gd, gw) /\ conv_backward (mkCfg ci co ks 2 ne mb true) o' (S d) x' W' g' = Ok (gd', gw') /\
      shape N ci gd /\ shape N ci gd' /\ shape3 K ci co gw /\ shape3 K ci co gw' /\ reordered pi gd gd' /\ reordered tau gw gw'.
    Proof.
      intros Hmb Sx Sx' SW SW' Sg Sg' Rx RW Rg.
      destruct (thm_conv_grad o (S d) ks kernel 2 ne ci co mb x W g R Hk Sx SW ltac:(rewrite out2; exact Sg) Hmb) as (y & gd & gw & A1 & A2 & A3 & A4 & A5 & A6 & A7).
      destruct (thm_conv_grad o' (S d) ks kernel 2 ne ci co mb x' W' g' R' Hk) as (y' & gd' & gw' & B1 & B2 & B3 & B4 & B5 & B6 & B7); [rewrite HN; exact Sx'|exact SW'|rewrite out2, HL; exact Sg'|exact Hmb|].
      rewrite out2 in A3, A6, A7, B3, B6, B7. rewrite HL in B3, B6, B7. rewrite HN in B4, B6.
      exists gd, gw, gd', gw'. split; [exact A2|]. split; [exact B2|]. do 4 (split; [assumption|]).
      apply (grad_moved N M K ci co ci co pi rho tau _ _ HP HQ HT (conv2_equivariant ci co Hmb) x x' W W' g g' gd gd' gw gw' SW SW' Rx RW Rg).
      - repeat (split; [assumption|]). exists y. repeat (split; [assumption|]). assumption.
      - repeat (split; [assumption|]). exists y'. repeat (split; [assumption|]). assumption.
    Qed.
    Lemma dw2_equivariant C : (Z.of_nat K * Z.of_nat C <= mb)%Z -> equivariant N M K C C 1 C pi rho tau
      (fun x W => dwconv_forward (mkCfg C C ks 2 ne mb true) o (S d) x W) (fun x W => dwconv_forward (mkCfg C C ks 2 ne mb true) o' (S d) x W).
    Proof.
      intros Hmb x x' W W' y y' Sx Sx' SW SW' Rx RW Ey Ey'.
      destruct (dwconv_forward_Ok o (S d) kernel 2 ne C ks mb x W R Hk Hmb Sx SW) as [E1 _].
      destruct (dwconv_forward_Ok o' (S d) kernel 2 ne C ks mb x' W' R' Hk Hmb ltac:(rewrite HN; exact Sx') SW') as [E2 _].
      rewrite E1 in Ey. rewrite E2 in Ey'. apply (conv2_equivariant C C Hmb x x' _ _ y y' Sx Sx' (diagonal_shape _ _ _) (diagonal_shape _ _ _) Rx) with (2 := Ey) (3 := Ey').
      apply reordered_seq; [exact HT|]. intros k Hkk. apply tabulate_ext. intros c c' _ _. unfold at3. rewrite (reordered_nth tau W W' [] k RW) by (rewrite (proj1 SW); exact Hkk). reflexivity.
    Qed.
    Lemma dw2_grads C x x' W W' g g' : (Z.of_nat K * Z.of_nat C <= mb)%Z -> shape N C x -> shape N C x' -> shape3 K 1 C W -> shape3 K 1 C W' -> shape M C g -> shape M C g' ->
      reordered pi x x' -> reordered tau W W' -> reordered rho g g' -> exists gd gw gd' gw',
      dwconv_backward (mkCfg C C ks 2 ne mb true) o (S d) x W g = Ok (gd, gw) /\ dwconv_backward (mkCfg C C ks 2 ne mb true) o' (S d) x' W' g' = Ok (gd', gw') /\
      shape N C gd /\ shape N C gd' /\ shape3 K 1 C gw /\ shape3 K 1 C gw' /\ reordered pi gd gd' /\ reordered tau gw gw'.
    Proof.
      intros Hmb Sx Sx' SW SW' Sg Sg' Rx RW Rg.
      destruct (thm_dw_grad o (S d) ks kernel 2 ne C mb x W g R Hk Sx SW ltac:(rewrite out2; exact Sg) Hmb) as (y & gd & gw & A1 & A2 & A3 & A4 & A5 & A6 & A7).
      destruct (thm_dw_grad o' (S d) ks kernel 2 ne C mb x' W' g' R' Hk) as (y' & gd' & gw' & B1 & B2 & B3 & B4 & B5 & B6 & B7); [rewrite HN; exact Sx'|exact SW'|rewrite out2, HL; exact Sg'|exact Hmb|].
      rewrite out2 in A3, A6, A7, B3, B6, B7. rewrite HL in B3, B6, B7. rewrite HN in B4, B6.
      exists gd, gw, gd', gw'. split; [exact A2|]. split; [exact B2|]. do 4 (split; [assumption|]).
      apply (grad_moved N M K C C 1 C pi rho tau _ _ HP HQ HT (dw2_equivariant C Hmb) x x' W W' g g' gd gd' gw gw' SW SW' Rx RW Rg).
      - repeat (split; [assumption|]). exists y. repeat (split; [assumption|]). assumption.
      - repeat (split; [assumption|]). exists y'. repeat (split; [assumption|]). assumption.
    Qed.
    Lemma deconv2_equivariant ci co : (Z.of_nat K * Z.of_nat ci <= mb)%Z -> equivariant M N K co ci ci co rho pi tau
      (fun y W => deconv_forward (mkCfg co ci ks 2 ne mb false) o d y W) (fun y W => deconv_forward (mkCfg co ci ks 2 ne mb false) o' d y W).
    Proof.
      intros Hmb y y' W W' z z' Sy Sy' SW SW' Ry RW Ez Ez'. set (x := tabulate N ci (fun _ _ => 0%Qc)). assert (Sx : shape N ci x) by apply tabulate_shape.
      destruct (deconv_is_gd o d ks kernel 2 ne ci co mb x y W R Hk Hmb Sx) as (v & gw & A1 & A2 & A3); [change (up d 2) with (S d); rewrite out2; exact Sy|exact SW|].
      destruct (deconv_is_gd o' d ks kernel 2 ne ci co mb x y' W' R' Hk Hmb) as (v' & gw' & B1 & B2 & B3); [change (up d 2) with (S d); rewrite HN; exact Sx|change (up d 2) with (S d); rewrite out2, HL; exact Sy'|exact SW'|].
      assert (v = z) by (apply Eq; rewrite <- A1; exact Ez). assert (v' = z') by (apply Eq; rewrite <- B1; exact Ez'). subst v v'.
      destruct (conv2_grads ci co x x W W' y y' Hmb Sx Sx SW SW' Sy Sy') as (gd & gw1 & gd' & gw1' & D1 & D2 & D3 & D4 & _ & _ & D7 & _); [apply reordered_tab; [exact HP|reflexivity]|exact RW|exact Ry|].
      change (up d 2) with (S d) in A3, B3. rewrite A3 in D1. rewrite B3 in D2. assert (P1 : forall (a b : feat) (c e : list feat), Ok (a, c) = Ok (b, e) -> a = b) by (intros; congruence).
      apply P1 in D1. apply P1 in D2. subst gd gd'. split; assumption.
    Qed.
    Lemma deconv2_grads ci co y y' W W' g g' : (Z.of_nat K * Z.of_nat ci <= mb)%Z -> shape M co y -> shape M co y' -> shape3 K ci co W -> shape3 K ci co W' -> shape N ci g -> shape N ci g' ->
      reordered rho y y' -> reordered tau W W' -> reordered pi g g' -> exists gd gw gd' gw',
      deconv_backward (mkCfg co ci ks 2 ne mb false) o d y W g = Ok (gd, gw) /\ deconv_backward (mkCfg co ci ks 2 ne mb false) o' d y' W' g' = Ok (gd', gw') /\
      shape M co gd /\ shape M co gd' /\ shape3 K ci co gw /\ shape3 K ci co gw' /\ reordered rho gd gd' /\ reordered tau gw gw'.
    Proof.
      intros Hmb Sx Sx' SW SW' Sg Sg' Rx RW Rg.
      destruct (thm_deconv_grad o d ks kernel 2 ne ci co mb y W g R Hk) as (z & gd & gw & A1 & A2 & A3 & A4 & A5 & A6 & A7); [change (up d 2) with (S d); rewrite out2; exact Sx|exact SW|exact Sg|exact Hmb|].
      destruct (thm_deconv_grad o' d ks kernel 2 ne ci co mb y' W' g' R' Hk) as (z' & gd' & gw' & B1 & B2 & B3 & B4 & B5 & B6 & B7); [change (up d 2) with (S d); rewrite out2, HL; exact Sx'|exact SW'|change (up d 2) with (S d); rewrite HN; exact Sg'|exact Hmb|].
      change (up d 2) with (S d) in *. rewrite out2 in A4, A6, B4, B6. rewrite HL in B4, B6. rewrite HN in B3, B6, B7.
      exists gd, gw, gd', gw'. split; [exact A2|]. split; [exact B2|]. do 4 (split; [assumption|]).
      apply (grad_moved M N K co ci ci co rho pi tau _ _ HQ HP HT (deconv2_equivariant ci co Hmb) y y' W W' g g' gd gd' gw gw' SW SW' Rx RW Rg).
      - repeat (split; [assumption|]). exists z. repeat (split; [assumption|]). assumption.
      - repeat (split; [assumption|]). exists z'. repeat (split; [assumption|]). assumption.
    Qed.
  End Places2.

  Theorem thm_moved_conv2_grad ci co x x' W W' g g' : (Z.of_nat K * Z.of_nat ci <= mb)%Z ->
    shape N ci x -> shape (node_count o' (S d) ne) ci x' -> carried ne s o o' (S d) x x' ->
    shape3 K ci co W -> shape3 K ci co W' -> turned turn kernel W W' ->
    shape M co g -> shape (node_count o' d true) co g' -> carried true s o o' d g g' ->
    exists gd gw gd' gw', conv_backward (mkCfg ci co ks 2 ne mb true) o (S d) x W g = Ok (gd, gw) /\ conv_backward (mkCfg ci co ks 2 ne mb true) o' (S d) x' W' g' = Ok (gd', gw') /\
      shape N ci gd /\ shape (node_count o' (S d) ne) ci gd' /\ shape3 K ci co gw /\ shape3 K ci co gw' /\
      carried ne s o o' (S d) gd gd' /\ turned turn kernel gw gw'.
  Proof.
    intros Hmb Sx Sx' Cx SW SW' TW Sg Sg' Cg. destruct (row_places e s turn o o' ne renum HM HO HW HW' (S d) d_in2) as (pi & HP & HN & HC).
    destruct (row_places e s turn o o' true renum HM HO HW HW' d d_in1) as (rho & HQ & HL & HD).
    destruct (turned_places turn kernel W W' (turn_inj e s turn ne (lowest ne e) (lowest_ok ne e) HM) nodup_k2 (proj1 SW) (proj1 SW') TW) as (tau & HT & Htau). rewrite HN in Sx' |- *. rewrite HL in Sg'.
    destruct (conv2_grads pi rho tau HP HN HC HQ HL HD HT Htau ci co x x' W W' g g' Hmb Sx Sx' SW SW' Sg Sg') as (gd & gw & gd' & gw' & A1 & A2 & A3 & A4 & A5 & A6 & A7 & A8).
    - apply HC; [apply Sx|apply Sx'|exact Cx].
    - apply (turned_reordered turn kernel W W' tau nodup_k2 (proj1 SW) (proj1 SW') HT Htau). exact TW.
    - apply HD; [apply Sg|apply Sg'|exact Cg].
    - exists gd, gw, gd', gw'. do 6 (split; [assumption|]). split; [apply HC; [apply A3|apply A4|exact A7]|].
      apply (turned_reordered turn kernel gw gw' tau nodup_k2 (proj1 A5) (proj1 A6) HT Htau). exact A8.
  Qed.

  Theorem thm_moved_dwconv2_grad C x x' W W' g g' : (Z.of_nat K * Z.of_nat C <= mb)%Z ->
    shape N C x -> shape (node_count o' (S d) ne) C x' -> carried ne s o o' (S d) x x' ->
    shape3 K 1 C W -> shape3 K 1 C W' -> turned turn kernel W W' ->
    shape M C g -> shape (node_count o' d true) C g' -> carried true s o o' d g g' ->
    exists gd gw gd' gw', dwconv_backward (mkCfg C C ks 2 ne mb true) o (S d) x W g = Ok (gd, gw) /\ dwconv_backward (mkCfg C C ks 2 ne mb true) o' (S d) x' W' g' = Ok (gd', gw') /\
      shape N C gd /\ shape (node_count o' (S d) ne) C gd' /\ shape3 K 1 C gw /\ shape3 K 1 C gw' /\
      carried ne s o o' (S d) gd gd' /\ turned turn kernel gw gw'.
  Proof.
    intros Hmb Sx Sx' Cx SW SW' TW Sg Sg' Cg. destruct (row_places e s turn o o' ne renum HM HO HW HW' (S d) d_in2) as (pi & HP & HN & HC).
    destruct (row_places e s turn o o' true renum HM HO HW HW' d d_in1) as (rho & HQ & HL & HD).
    destruct (turned_places turn kernel W W' (turn_inj e s turn ne (lowest ne e) (lowest_ok ne e) HM) nodup_k2 (proj1 SW) (proj1 SW') TW) as (tau & HT & Htau). rewrite HN in Sx' |- *. rewrite HL in Sg'.
    destruct (dw2_grads pi rho tau HP HN HC HQ HL HD HT Htau C x x' W W' g g' Hmb Sx Sx' SW SW' Sg Sg') as (gd & gw & gd' & gw' & A1 & A2 & A3 & A4 & A5 & A6 & A7 & A8).
    - apply HC; [apply Sx|apply Sx'|exact Cx].
    - apply (turned_reordered turn kernel W W' tau nodup_k2 (proj1 SW) (proj1 SW') HT Htau). exact TW.
    - apply HD; [apply Sg|apply Sg'|exact Cg].
    - exists gd, gw, gd', gw'. do 6 (split; [assumption|]). split; [apply HC; [apply A3|apply A4|exact A7]|].
      apply (turned_reordered turn kernel gw gw' tau nodup_k2 (proj1 A5) (proj1 A6) HT Htau). exact A8.
  Qed.

  Theorem thm_moved_deconv2_grad ci co x x' W W' g g' : (Z.of_nat K * Z.of_nat ci <= mb)%Z ->
    shape M co x -> shape (node_count o' d true) co x' -> carried true s o o' d x x' ->
    shape3 K ci co W -> shape3 K ci co W' -> turned turn kernel W W' ->
    shape N ci g -> shape (node_count o' (S d) ne) ci g' -> carried ne s o o' (S d) g g' ->
    exists gd gw gd' gw', deconv_backward (mkCfg co ci ks 2 ne mb false) o d x W g = Ok (gd, gw) /\ deconv_backward (mkCfg co ci ks 2 ne mb false) o' d x' W' g' = Ok (gd', gw') /\
      shape M co gd /\ shape (node_count o' d true) co gd' /\ shape3 K ci co gw /\ shape3 K ci co gw' /\
      carried true s o o' d gd gd' /\ turned turn kernel gw gw'.
  Proof.
    intros Hmb Sx Sx' Cx SW SW' TW Sg Sg' Cg. destruct (row_places e s turn o o' ne renum HM HO HW HW' (S d) d_in2) as (pi & HP & HN & HC).
    destruct (row_places e s turn o o' true renum HM HO HW HW' d d_in1) as (rho & HQ & HL & HD).
    destruct (turned_places turn kernel W W' (turn_inj e s turn ne (lowest ne e) (lowest_ok ne e) HM) nodup_k2 (proj1 SW) (proj1 SW') TW) as (tau & HT & Htau). rewrite HN in Sg'. rewrite HL in Sx' |- *.
    destruct (deconv2_grads pi rho tau HP HN HC HQ HL HD HT Htau ci co x x' W W' g g' Hmb Sx Sx' SW SW' Sg Sg') as (gd & gw & gd' & gw' & A1 & A2 & A3 & A4 & A5 & A6 & A7 & A8).
    - apply HD; [apply Sx|apply Sx'|exact Cx].
    - apply (turned_reordered turn kernel W W' tau nodup_k2 (proj1 SW) (proj1 SW') HT Htau). exact TW.
    - apply HC; [apply Sg|apply Sg'|exact Cg].
    - exists gd, gw, gd', gw'. do 6 (split; [assumption|]). split; [apply HD; [apply A3|apply A4|exact A7]|].
      apply (turned_reordered turn kernel gw gw' tau nodup_k2 (proj1 A5) (proj1 A6) HT Htau). exact A8.
  Qed.
End Grads2.
