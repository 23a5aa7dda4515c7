(** pad, depad and voxel grids. *)
From Coq Require Import String List ZArith Bool QArith Qcanon Lia.
From Verif Require Import Res Tensor Num NumFacts Points Octree NnBasic Spec SpecNeigh SpecNN WF ListFacts ScatterFacts SumFacts NnFacts
  KeyFacts KidsFacts BuildFacts WFFacts SearchFacts NeighFacts.
Import ListNotations.
Open Scope Z_scope.

Lemma fill_length {A} m : forall (l vals : list A), length (fill m l vals) = length l.
Proof.
  induction m as [|b m IH]; intros [|a l] vals; try reflexivity; [destruct b; reflexivity|].
  destruct b; cbn [fill]; [destruct vals|]; cbn [length]; rewrite IH; reflexivity.
Qed.
Lemma select_fill {A} m : forall (l vals : list A), length m = length l -> count_true m = length vals -> select m (fill m l vals) = vals.
Proof.
  induction m as [|b m IH]; intros l vals Hl Hc.
  - destruct vals; [reflexivity|discriminate].
  - destruct l as [|a l]; [discriminate|]. cbn in Hl. rewrite count_true_cons in Hc. destruct b; cbn [fill].
    + destruct vals as [|v vals]; [discriminate|]. cbn [select]. f_equal. apply IH; cbn in Hc; lia.
    + cbn [select]. apply IH; lia.
Qed.
Lemma fill_false {A} m : forall (l vals : list A) i, length m = length l -> nth_error m i = Some false -> nth_error (fill m l vals) i = nth_error l i.
Proof.
  induction m as [|b m IH]; intros l vals i Hl Hi; [destruct i; discriminate|]. destruct l as [|a l]; [discriminate|]. cbn in Hl.
  destruct i as [|i]; cbn in Hi.
  - injection Hi as ->. reflexivity.
  - destruct b; cbn [fill]; [destruct vals|]; cbn [nth_error]; apply IH; lia || exact Hi.
Qed.
Lemma fill_select {A} m : forall (l y : list A) i, length m = length l -> length m = length y -> nth_error m i = Some true ->
  nth_error (fill m l (select m y)) i = nth_error y i.
Proof.
  induction m as [|b m IH]; intros l y i Hl Hy Hi; [destruct i; discriminate|]. destruct l as [|a l]; [discriminate|]. destruct y as [|c y]; [discriminate|].
  cbn in Hl, Hy. destruct i as [|i]; cbn in Hi.
  - injection Hi as ->. reflexivity.
  - destruct b; cbn [select fill nth_error]; apply IH; lia || exact Hi.
Qed.
(** position of a flagged row among the flagged rows *)
Lemma fill_true {A} m : forall (l vals : list A) i, length m = length l -> count_true m = length vals -> nth_error m i = Some true ->
  nth_error (fill m l vals) i = nth_error vals (count_true (firstn i m)).
Proof.
  induction m as [|b m IH]; intros l vals i Hl Hc Hi; [destruct i; discriminate|]. destruct l as [|a l]; [discriminate|].
  cbn in Hl. rewrite count_true_cons in Hc. destruct i as [|i]; cbn in Hi.
  - injection Hi as ->. cbn [fill firstn]. destruct vals; [discriminate|]. reflexivity.
  - cbn [firstn]. rewrite count_true_cons. destruct b; cbn [fill].
    + destruct vals as [|v vals]; [discriminate|]. cbn [nth_error Nat.add]. apply IH; cbn in Hc; lia || exact Hi.
    + cbn [nth_error Nat.add]. apply IH; lia || exact Hi.
Qed.
Lemma nth_select_pos {A} m : forall (l : list A) i, length m = length l -> nth_error m i = Some true ->
  nth_error (select m l) (count_true (firstn i m)) = nth_error l i.
Proof.
  induction m as [|b m IH]; intros l i Hl Hi; [destruct i; discriminate|]. destruct l as [|a l]; [discriminate|]. cbn in Hl.
  destruct i as [|i]; cbn in Hi.
  - injection Hi as ->. reflexivity.
  - cbn [firstn]. rewrite count_true_cons. destruct b; cbn [select nth_error Nat.add]; apply IH; lia || exact Hi.
Qed.
Lemma fill_Forall {A} (P : A -> Prop) m : forall l vals, Forall P l -> Forall P vals -> Forall P (fill m l vals).
Proof.
  induction m as [|b m IH]; intros l vals Hl Hv; [destruct l; exact Hl|]. destruct l as [|a l]; [destruct b; exact Hl|].
  inversion Hl; subst. destruct b; cbn [fill].
  - destruct vals as [|v vals]; [constructor; [assumption|apply IH; assumption]|]. inversion Hv; subst. constructor; [assumption|apply IH; assumption].
  - constructor; [assumption|apply IH; assumption].
Qed.

(** ** counts *)
Section Tree.
  Variables (o : octree) (L : nat) (K : nat -> list Z) (M : nat -> list bool).
  Hypothesis T : tree_upto o L K M.

  Lemma node_count_sel d ne : (d <= L)%nat -> node_count o d ne = length (sel K M ne d).
  Proof.
    intros Hd. destruct (tree_get o L K M T d Hd) as (l & _ & E & _ & _ & E1 & E2). unfold node_count. rewrite E.
    destruct ne; cbn [sel].
    - rewrite E2, nflag_count, (tree_nempty_len o L K M T) by exact Hd. lia.
    - rewrite E1. lia.
  Qed.
  Lemma layer_counts d : (d <= L)%nat -> exists l, get_layer o (Z.of_nat d) = Ok l /\ nth_error (layers o) d = Some l /\
    nnum l = Z.of_nat (node_count o d false) /\ nnum_nempty l = Z.of_nat (node_count o d true).
  Proof.
    intros Hd. destruct (tree_get o L K M T d Hd) as (l & E0 & E & _ & _ & E1 & E2). exists l. split; [exact E0|]. split; [exact E|].
    rewrite !node_count_sel by exact Hd. cbn [sel]. rewrite (tree_nempty_len o L K M T) by exact Hd. rewrite E1, E2, nflag_count. split; reflexivity.
  Qed.
  Lemma mask_len d : (d <= L)%nat -> length (M d) = node_count o d false /\ count_true (M d) = node_count o d true.
  Proof.
    intros Hd. rewrite !node_count_sel by exact Hd. cbn [sel]. rewrite (tree_nempty_len o L K M T) by exact Hd.
    split; [apply (t_mask _ _ _ _ T); exact Hd|reflexivity].
  Qed.

  Lemma tree_pad {A} C (x : list (list A)) d v : (d <= L)%nat -> length x = node_count o d true ->
    octree_pad C x o (Z.of_nat d) v = Ok (fill (M d) (repeat (repeat v C) (node_count o d false)) x).
  Proof.
    intros Hd Hx. destruct (layer_counts d Hd) as (l & El & _ & En & _). destruct (mask_len d Hd) as [Hm Hc]. unfold octree_pad.
    rewrite (tree_mask o L K M T) by exact Hd. cbn [bind]. rewrite El. cbn [bind]. unfold full_rows. rewrite En.
    replace (Z.of_nat (node_count o d false) <? 0) with false by (symmetry; apply Z.ltb_ge; lia). cbn [bind]. rewrite Nat2Z.id.
    unfold mask_put. rewrite repeat_length, Hm, Nat.eqb_refl. cbn [negb]. rewrite Hc, Hx, Nat.eqb_refl. reflexivity.
  Qed.
  Lemma tree_depad {A} (y : list A) d : (d <= L)%nat -> length y = node_count o d false ->
    octree_depad y o (Z.of_nat d) = Ok (select (M d) y).
  Proof.
    intros Hd Hy. unfold octree_depad. rewrite (tree_mask o L K M T) by exact Hd. cbn [bind]. apply mask_get_Ok.
    rewrite Hy. apply mask_len. exact Hd.
  Qed.
End Tree.

Lemma thm_pad_depad {A} o d C (v : A) : wf_octree o -> (d <= depth o)%nat ->
  exists flags, nempty_mask o (Z.of_nat d) = Ok flags /\ length flags = node_count o d false /\
    (forall x, shape (node_count o d true) C x ->
       exists y, octree_pad C x o (Z.of_nat d) v = Ok y /\ shape (node_count o d false) C y /\ octree_depad y o (Z.of_nat d) = Ok x /\
         forall i, nth_error flags i = Some false -> nth_error y i = Some (repeat v C)) /\
    (forall y, shape (node_count o d false) C y ->
       exists x y', octree_depad y o (Z.of_nat d) = Ok x /\ shape (node_count o d true) C x /\ octree_pad C x o (Z.of_nat d) v = Ok y' /\
         length y' = length y /\
         forall i, (nth_error flags i = Some true -> nth_error y' i = nth_error y i) /\
                   (nth_error flags i = Some false -> nth_error y' i = Some (repeat v C))).
Proof.
  intros (K & M & T) Hd. exists (M d). destruct (mask_len o _ K M T d Hd) as [Hm Hc]. split; [apply (tree_mask o _ K M T); exact Hd|]. split; [exact Hm|].
  assert (R : shape (node_count o d false) C (repeat (repeat v C) (node_count o d false))) by apply shape_repeat.
  assert (Rn : forall i, nth_error (M d) i = Some false -> nth_error (repeat (repeat v C) (node_count o d false)) i = Some (repeat v C)).
  { intros i Hi. apply nth_error_repeat. rewrite <- Hm. apply nth_error_Some. congruence. }
  split.
  - intros x [Hx1 Hx2]. rewrite (tree_pad o _ K M T) by assumption. eexists. split; [reflexivity|]. split; [|split].
    + split; [rewrite fill_length, repeat_length; reflexivity|]. apply fill_Forall; [apply R|exact Hx2].
    + rewrite (tree_depad o _ K M T) by (rewrite ?fill_length, ?repeat_length; trivial). rewrite select_fill; [reflexivity|rewrite repeat_length; exact Hm|congruence].
    + intros i Hi. rewrite fill_false by (rewrite ?repeat_length; assumption). apply Rn. exact Hi.
  - intros y [Hy1 Hy2]. rewrite (tree_depad o _ K M T) by assumption.
    assert (Hs : length (select (M d) y) = node_count o d true) by (rewrite select_length by congruence; exact Hc).
    exists (select (M d) y). rewrite (tree_pad o _ K M T) by assumption. eexists. split; [reflexivity|]. split; [|split; [reflexivity|split]].
    + split; [exact Hs|]. apply Forall_select. exact Hy2.
    + rewrite fill_length, repeat_length. congruence.
    + intros i. split; intros Hi; [apply fill_select; rewrite ?repeat_length; congruence|].
      rewrite fill_false by (rewrite ?repeat_length; assumption). apply Rn. exact Hi.
Qed.

(** ** octree2voxel *)
Lemma norm_index_in n i : 0 <= i < n -> norm_index n i = Some (Z.to_nat i).
Proof.
  intros H. unfold norm_index. rewrite (proj2 (Z.leb_le 0 i)) by lia. rewrite (proj2 (Z.ltb_lt i n)) by lia. reflexivity.
Qed.
Definition vaddr (d : nat) (c : Z * Z * Z * Z) : Z :=
  let '(x, y, z, b) := c in let p := 2 ^ Z.of_nat d in ((b * p + x) * p + y) * p + z.
Definition vox_ok (d B : nat) (c : Z * Z * Z * Z) : Prop :=
  let '(x, y, z, b) := c in in_cube d x y z /\ 0 <= b < Z.of_nat B.
Lemma div_mod_pair p a b r s : 0 <= r < p -> 0 <= s < p -> a * p + r = b * p + s -> a = b /\ r = s.
Proof. intros Hr Hs E. assert (a = b) by nia. subst. lia. Qed.
Lemma vaddr_inj d B c c' : vox_ok d B c -> vox_ok d B c' -> vaddr d c = vaddr d c' -> c = c'.
Proof.
  destruct c as [[[x y] z] b], c' as [[[x' y'] z'] b']. unfold vox_ok, vaddr, in_cube, in_grid. set (p := 2 ^ Z.of_nat d).
  intros ((Hx & Hy & Hz) & Hb) ((Hx' & Hy' & Hz') & Hb') E.
  apply div_mod_pair in E; [|assumption..]. destruct E as [E ->]. apply div_mod_pair in E; [|assumption..]. destruct E as [E ->].
  apply div_mod_pair in E; [|assumption..]. destruct E as [-> ->]. reflexivity.
Qed.
Lemma vaddr_bound d B c : vox_ok d B c -> 0 <= vaddr d c < Z.of_nat B * 2 ^ Z.of_nat d * 2 ^ Z.of_nat d * 2 ^ Z.of_nat d.
Proof.
  destruct c as [[[x y] z] b]. unfold vox_ok, vaddr, in_cube, in_grid. set (p := 2 ^ Z.of_nat d).
  intros ((Hx & Hy & Hz) & Hb).
  assert (H1 : 0 <= b * p + x < Z.of_nat B * p) by nia. assert (H2 : 0 <= (b * p + x) * p + y < Z.of_nat B * p * p) by nia. nia.
Qed.
Lemma vox_addr_Ok d B c : vox_ok d B c -> vox_addr (Z.of_nat B) (Z.shiftl 1 (Z.of_nat d)) c = Ok (vaddr d c).
Proof.
  destruct c as [[[x y] z] b]. unfold vox_ok, vaddr, vox_addr, in_cube, in_grid. rewrite Z.shiftl_1_l. set (p := 2 ^ Z.of_nat d).
  intros ((Hx & Hy & Hz) & Hb). rewrite !norm_index_in by assumption. rewrite !Z2Nat.id by lia. reflexivity.
Qed.
Lemma vox_row_vaddr d x y z b : vox_row d b x y z = Z.to_nat (vaddr d (x, y, z, b)).
Proof. reflexivity. Qed.
Lemma inside_in_cube d x y z : inside d x y z = true <-> in_cube d x y z.
Proof. unfold inside, in_cube, in_grid. rewrite !andb_true_iff, !Z.leb_le, !Z.ltb_lt. tauto. Qed.

Lemma NoDup_map_on {A B} (f : A -> B) (P : A -> Prop) l : (forall a b, P a -> P b -> f a = f b -> a = b) -> Forall P l -> NoDup l -> NoDup (map f l).
Proof.
  intros Hf HP Hn. induction Hn as [|a l Ha Hn IH]; [constructor|]. inversion HP; subst. cbn [map]. constructor; [|apply IH; assumption].
  intros Hin. apply in_map_iff in Hin. destruct Hin as (b & E & Hb). apply Ha. rewrite Forall_forall in H2.
  apply Hf in E; [subst; exact Hb|apply H2; exact Hb|assumption].
Qed.

Lemma tree_voxel o L K M C data d ne : tree_upto o L K M -> (d <= L)%nat -> shape (node_count o d ne) C data ->
  exists vox, octree2voxel C data o d ne = Ok vox /\
    shape (batch_size o * 8 ^ d) C vox /\
    (forall i x y z b, nth_error (sel K M ne d) i = Some (key_of d b x y z) -> in_cube d x y z ->
       nth_error vox (vox_row d b x y z) = nth_error data i) /\
    (forall x y z b, in_cube d x y z -> 0 <= b < Z.of_nat (batch_size o) -> ~ In (key_of d b x y z) (sel K M ne d) ->
       nth_error vox (vox_row d b x y z) = Some (vzero C)).
Proof.
  intros T Hd [Hn Hc]. pose proof (t_depth _ _ _ _ T). pose proof (t_L _ _ _ _ T).
  set (ks := sel K M ne d). assert (Hv : Forall (vkey (batch_size o) d) ks) by (apply (sel_vkey o L K M T); exact Hd).
  assert (Hok : Forall (vox_ok d (batch_size o)) (map (coords d) ks)).
  { apply Forall_map. eapply Forall_impl; [|exact Hv]. intros k Hk. destruct (coords d k) as [[[x y] z] b] eqn:E.
    destruct (coords_key_of (batch_size o) d k x y z b ltac:(lia) Hk E) as (_ & H1 & H2). split; assumption. }
  assert (Hnd : NoDup (map (coords d) ks)).
  { apply (NoDup_map_on _ (vkey (batch_size o) d)); [|exact Hv|apply sorted_NoDup, (sel_sorted o L K M T); exact Hd].
    intros a b Ha Hb. apply (coords_inj (batch_size o)); [lia|assumption..]. }
  assert (Hnd2 : NoDup (map (vaddr d) (map (coords d) ks))).
  { apply (NoDup_map_on _ (vox_ok d (batch_size o))); [|exact Hok|exact Hnd]. intros a b. apply vaddr_inj. }
  rewrite (node_count_sel o L K M T) in Hn by exact Hd. fold ks in Hn.
  unfold octree2voxel. rewrite (tree_xyzb o L K M) by assumption. fold ks. cbn [bind].
  rewrite (mapM_Ok _ (vaddr d)) by (intros c Hc'; apply vox_addr_Ok; rewrite Forall_forall in Hok; apply Hok; exact Hc'). cbn [bind].
  rewrite Z.shiftl_1_l.
  set (N := Z.of_nat (batch_size o) * 2 ^ Z.of_nat d * 2 ^ Z.of_nat d * 2 ^ Z.of_nat d).
  assert (HN : Z.to_nat N = (batch_size o * 8 ^ d)%nat).
  { unfold N. apply Nat2Z.inj. rewrite Z2Nat.id by (pose proof (Z.pow_nonneg 2 (Z.of_nat d)); nia). rewrite Nat2Z.inj_mul, pow8_nat.
    change 8 with (2 * 2 * 2) at 1. rewrite !Z.pow_mul_l. ring. }
  assert (HN0 : 0 <= N) by (unfold N; pose proof (Z.pow_nonneg 2 (Z.of_nat d)); nia).
  destruct (index_put_spec (map (vaddr d) (map (coords d) ks)) (repeat (vzero C) (Z.to_nat N)) data) as (vox & E1 & E2 & E3 & E4).
  { rewrite !map_length. symmetry. exact Hn. } { exact Hnd2. }
  { intros a Ha. apply in_map_iff in Ha. destruct Ha as (c & <- & Hc'). unfold zlen. rewrite repeat_length, Z2Nat.id by exact HN0. apply vaddr_bound.
    rewrite Forall_forall in Hok. apply Hok. exact Hc'. }
  exists vox. split; [exact E1|].
  assert (Eput : forall i x y z b, nth_error ks i = Some (key_of d b x y z) -> in_cube d x y z -> nth_error vox (vox_row d b x y z) = nth_error data i).
  { intros i x y z b Hi Hin. destruct (nth_error data i) as [v|] eqn:Ev.
    - rewrite vox_row_vaddr. apply (E3 i); [|exact Ev]. rewrite !nth_error_map, Hi. cbn [option_map]. rewrite coords_of_key by (lia || assumption). reflexivity.
    - exfalso. apply nth_error_None in Ev. assert (i < length ks)%nat by (apply nth_error_Some; congruence). lia. }
  assert (Erest : forall p, ~ In (Z.of_nat p) (map (vaddr d) (map (coords d) ks)) -> (p < Z.to_nat N)%nat -> nth_error vox p = Some (vzero C)).
  { intros p Hp Hlt. rewrite E4 by exact Hp. apply nth_error_repeat. exact Hlt. }
  rewrite repeat_length in E2. split; [|split].
  - split; [lia|]. apply Forall_forall. intros r Hr. apply In_nth_error in Hr. destruct Hr as (p & Hp).
    assert (Hlt : (p < Z.to_nat N)%nat) by (rewrite <- E2; apply nth_error_Some; congruence).
    destruct (in_dec Z.eq_dec (Z.of_nat p) (map (vaddr d) (map (coords d) ks))) as [Hin|Hnin].
    + apply In_nth_error in Hin. destruct Hin as (i & Hi).
      assert (Hlt' : (i < length data)%nat). { rewrite Hn. assert (i < length (map (vaddr d) (map (coords d) ks)))%nat by (apply nth_error_Some; congruence). rewrite !map_length in H1. exact H1. }
      destruct (nth_error data i) as [v|] eqn:Ev; [|apply nth_error_None in Ev; lia].
      pose proof (E3 i _ v Hi Ev) as E. rewrite Nat2Z.id, Hp in E. injection E as ->. rewrite Forall_forall in Hc. apply Hc. eapply nth_error_In; exact Ev.
    + rewrite Erest in Hp by assumption. injection Hp as <-. apply repeat_length.
  - exact Eput.
  - intros x y z b Hin Hb Hnot. rewrite vox_row_vaddr. assert (Hva : vox_ok d (batch_size o) (x, y, z, b)) by (split; assumption).
    pose proof (vaddr_bound _ _ _ Hva) as Hbd. apply Erest.
    + rewrite Z2Nat.id by lia. intros Hin'. apply in_map_iff in Hin'. destruct Hin' as (c & E & Hc').
      apply (vaddr_inj d (batch_size o)) in E; [|rewrite Forall_forall in Hok; apply Hok; exact Hc'|exact Hva]. subst c.
      apply in_map_iff in Hc'. destruct Hc' as (k & Ek & Hk). apply Hnot.
      rewrite Forall_forall in Hv. destruct (coords_key_of (batch_size o) d k x y z b ltac:(lia) (Hv _ Hk) Ek) as (<- & _). exact Hk.
    + fold N in Hbd. lia.
Qed.
