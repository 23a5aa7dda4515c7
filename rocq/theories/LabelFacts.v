(** Label tables of the datasets. *)
From Coq Require Import String List ZArith Bool QArith Qcanon Lia.
From Verif Require Import Res Tensor Num Octree NnBasic Utils Dataset Net Project SpecNN SpecProject NumFacts ListFacts NnFacts MetricFacts.
Import ListNotations.
Open Scope Z_scope.

Definition find_pos (c : Z) (l : list Z) : option nat :=
  (fix go (i : nat) (l : list Z) := match l with [] => None | a :: t => if c =? a then Some i else go (S i) t end) O l.
Definition table (b : bool) : list Z := map (fun c => match find_pos (Z.of_nat c) (class_ids b) with Some i => Z.of_nat i | None => 0 end) (seq 0 (Z.to_nat 2048)).
Lemma label_dict_table b : label_dict b = Ok (table b).
Proof. destruct b; vm_compute; reflexivity. Qed.
Definition row_ok (t ids : list Z) (c : Z) : bool :=
  let v := nth (Z.to_nat c) t (-1) in (0 <=? v) && (v <? zlen ids) && (nth (Z.to_nat v) ids (-1) =? (if existsb (Z.eqb c) ids then c else 0)) && ((v =? 0) || existsb (Z.eqb c) ids).
Definition rows_ok (t ids : list Z) : bool := forallb (row_ok t ids) (map Z.of_nat (seq 0 (Z.to_nat 2048))).
Lemma table_ok b : rows_ok (table b) (class_ids b) = true.
Proof. destruct b; vm_compute; reflexivity. Qed.

Lemma rows_spec t ids c : rows_ok t ids = true -> List.length t = Z.to_nat 2048 -> 0 <= c < 2048 ->
  exists v, nth_error t (Z.to_nat c) = Some v /\ 0 <= v < zlen ids /\
  (In c ids -> nth_error ids (Z.to_nat v) = Some c) /\ (~ In c ids -> v = 0).
Proof.
  intros T L Hc. unfold rows_ok in T. rewrite forallb_forall in T. specialize (T c).
  assert (Hin : In c (map Z.of_nat (seq 0 (Z.to_nat 2048)))). { apply in_map_iff. exists (Z.to_nat c). split; [lia|]. apply in_seq. lia. }
  specialize (T Hin). clear Hin. unfold row_ok in T. cbv zeta in T.
  exists (nth (Z.to_nat c) t (-1)). rewrite !andb_true_iff in T. destruct T as (((T1 & T2) & T3) & T4). apply Z.leb_le in T1. apply Z.ltb_lt in T2. apply Z.eqb_eq in T3.
  split; [apply nth_error_nth'; rewrite L; lia|]. split; [lia|]. pose proof (memb_In c ids) as M. unfold memb in M. split.
  - intros Hin. apply M in Hin. rewrite Hin in T3. rewrite <- T3 at 2. apply nth_error_nth'. unfold zlen in T2. lia.
  - intros N. apply orb_prop in T4. destruct T4 as [E|E]; [apply Z.eqb_eq in E; exact E|]. apply M in E. contradiction.
Qed.
Lemma table_len b : List.length (table b) = Z.to_nat 2048.
Proof. unfold table. rewrite map_length, seq_length. reflexivity. Qed.
Lemma table_at b c : 0 <= c < 2048 -> exists v, nth_error (table b) (Z.to_nat c) = Some v /\ 0 <= v < zlen (class_ids b) /\
  (In c (class_ids b) -> nth_error (class_ids b) (Z.to_nat v) = Some c) /\ (~ In c (class_ids b) -> v = 0).
Proof. exact (rows_spec (table b) (class_ids b) c (table_ok b) (table_len b)). Qed.

Theorem thm_scannet_labels b labels : Forall (fun c => 0 <= c < 2048) labels ->
  exists new, new_labels b labels = Ok new /\ Forall2 (fun c v => 0 <= v < zlen (class_ids b) /\
     (In c (class_ids b) -> nth_error (class_ids b) (Z.to_nat v) = Some c) /\ (~ In c (class_ids b) -> v = 0)) labels new /\
   forall prob, map argmax prob = new -> old_labels b prob = Ok (map (fun c => if existsb (Z.eqb c) (class_ids b) then c else 0) labels).
Proof.
  intros HF. unfold new_labels. rewrite label_dict_table. cbn [bind]. unfold gather. exists (map (fun c => nth (Z.to_nat c) (table b) 0) labels). split; [|split].
  - apply mapM_Ok. intros c Hc. rewrite Forall_forall in HF. specialize (HF c Hc). apply NnFacts.tget_nth. unfold zlen. rewrite table_len. lia.
  - induction HF as [|c labels Hc _ IH]; [constructor|]. cbn [map]. constructor; [|exact IH]. destruct (table_at b c Hc) as (v & Hv & A). apply nth_error_nth with (d := 0) in Hv. rewrite Hv. exact A.
  - intros prob EP. unfold old_labels, gather. rewrite EP. rewrite (mapM_Ok _ (fun v => nth (Z.to_nat v) (class_ids b) 0)).
    + rewrite map_map. f_equal. apply map_ext_in. intros c Hc. rewrite Forall_forall in HF. specialize (HF c Hc). destruct (table_at b c HF) as (v & Hv & A & B & D). apply nth_error_nth with (d := 0) in Hv. rewrite Hv.
      pose proof (memb_In c (class_ids b)) as M. unfold memb in M. destruct (existsb (Z.eqb c) (class_ids b)) eqn:E.
      * apply nth_error_nth. apply B. apply M. reflexivity.
      * rewrite D; [destruct b; reflexivity|]. intros H. apply M in H. discriminate H.
    + intros v Hv. apply in_map_iff in Hv. destruct Hv as (c & <- & Hc). rewrite Forall_forall in HF. specialize (HF c Hc). destruct (table_at b c HF) as (v & Hv & A & _). apply nth_error_nth with (d := 0) in Hv. rewrite Hv. unfold ilabel_dict. apply NnFacts.tget_nth. exact A.
Qed.

(** ** SemanticKITTI *)
Lemma map_table : exists t, get_label_map = Ok t /\ List.length t = 260%nat /\ forallb (fun v => (0 <=? v) && (v <=? 19)) t = true /\
  forallb (fun iv => nth (Z.to_nat (fst iv)) t (-1) =? snd iv) kitti_table = true /\
  forallb (fun i => existsb (fun iv => fst iv =? i) kitti_table || (nth (Z.to_nat i) t (-1) =? 0)) (arange 260) = true.
Proof.
  destruct get_label_map as [t|] eqn:E; [|vm_compute in E; discriminate E]. exists t. split; [reflexivity|]. vm_compute in E. assert (Eq : forall A (x y : A), Ok x = Ok y -> x = y) by congruence. apply Eq in E. subst t. repeat split; vm_compute; reflexivity.
Qed.
Lemma class_range l : 0 <= kitti_class l <= 19.
Proof. unfold kitti_class. destruct (find _ kitti_table) as [iv|] eqn:E; [|lia]. apply find_some in E. destruct E as (E & _). assert (T : forallb (fun iv => (0 <=? snd iv) && (snd iv <=? 19)) kitti_table = true) by reflexivity. rewrite forallb_forall in T. specialize (T iv E). apply andb_prop in T. lia. Qed.
Theorem thm_kitti labels : Forall (fun l => Z.land l 65535 < 260) labels ->
  kitti_labels labels = Ok (map (fun l => kitti_class (l mod 65536)) labels) /\ Forall (fun c => 0 <= c <= 19) (map (fun l => kitti_class (l mod 65536)) labels).
Proof.
  intros HF. destruct map_table as (t & E & L & _ & T2 & T3). split.
  - unfold kitti_labels. rewrite E. cbn [bind]. unfold gather. rewrite (mapM_Ok _ (fun i => nth (Z.to_nat i) t 0)).
    + rewrite map_map. f_equal. apply map_ext_in. intros l Hl. rewrite Forall_forall in HF. specialize (HF l Hl). change 65535 with (Z.ones 16) in *. rewrite Z.land_ones in * by lia. change (2 ^ 16) with 65536 in *.
      set (i := l mod 65536) in *. assert (0 <= i) by (apply Z.mod_pos_bound; lia). unfold kitti_class. rewrite (nth_indep t 0 (-1)) by lia. destruct (find (fun iv => fst iv =? i) kitti_table) as [iv|] eqn:F.
      * apply find_some in F. destruct F as (F1 & F2). apply Z.eqb_eq in F2. rewrite forallb_forall in T2. specialize (T2 iv F1). apply Z.eqb_eq in T2. rewrite <- F2. exact T2.
      * rewrite forallb_forall in T3. specialize (T3 i ltac:(apply in_arange; lia)). apply orb_prop in T3. destruct T3 as [T3|T3]; [|apply Z.eqb_eq in T3; exact T3]. apply existsb_exists in T3. destruct T3 as (iv & I1 & I2). apply (find_none _ _ F) in I1. congruence.
    + intros i Hi. apply in_map_iff in Hi. destruct Hi as (l & <- & Hl). rewrite Forall_forall in HF. specialize (HF l Hl). apply NnFacts.tget_nth. unfold zlen. rewrite L. split; [apply Z.land_nonneg; lia|lia].
  - apply Forall_forall. intros c Hc. apply in_map_iff in Hc. destruct Hc as (l & <- & _). apply class_range.
Qed.
Theorem thm_kitti_bad labels l : In l labels -> 260 <= Z.land l 65535 -> kitti_labels labels = Err IndexError.
Proof.
  intros Hin Hl. destruct map_table as (t & E & L & _). unfold kitti_labels. rewrite E. cbn [bind]. unfold gather.
  assert (D : forall i, 0 <= i -> (exists v, tget t i = Ok v) \/ tget t i = Err IndexError).
  { intros i Hi. unfold tget. destruct (norm_index (zlen t) i) as [j|]; [|right; reflexivity]. destruct (nth_error t j); eauto. }
  induction labels as [|a labels IH]; [destruct Hin|]. cbn [map mapM]. destruct Hin as [->|Hin].
  - replace (tget t (Z.land l 65535)) with (@Err Z IndexError); [reflexivity|]. symmetry. unfold tget, norm_index, zlen. rewrite L. cbv zeta. destruct (Z.leb_spec 0 (Z.land l 65535)); [|lia].
    repeat match goal with |- context [?a <? ?b] => destruct (Z.ltb_spec a b); try lia | |- context [?a <=? ?b] => destruct (Z.leb_spec a b); try lia end; reflexivity.
  - destruct (D (Z.land a 65535)) as [(v & Ev)|Ev]; [apply Z.land_nonneg; lia| |]; rewrite Ev; cbn [bind]; [|reflexivity]. rewrite (IH Hin). reflexivity.
Qed.
