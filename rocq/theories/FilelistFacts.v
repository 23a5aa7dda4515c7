(** Facts on file lists. *)
From Coq Require Import String Ascii List ZArith Bool QArith Qcanon Qround Sorted Permutation Lia Lqa.
From Verif Require Import Res Num NumFacts Tools SpecTools ToolsFacts Files FilesFacts PlyFacts Filelist SpecFilelist.
Import ListNotations.
Local Open Scope string_scope.
Local Open Scope list_scope.
Local Open Scope nat_scope.

(** ** Order *)
Lemma sorted_filter P l : StronglySorted before l -> StronglySorted before (filter P l).
Proof.
  induction 1 as [|x l H IH F]; cbn [filter]; [constructor|]. destruct (P x); [|exact IH]. constructor; [exact IH|].
  rewrite Forall_forall in *. intros y Hy. apply filter_In in Hy. apply F. tauto.
Qed.
Lemma same_sorted l m : StronglySorted before l -> StronglySorted before m -> (forall x, In x l <-> In x m) -> l = m.
Proof.
  intros L M H. apply sorted_unique; [exact L|exact M|]. apply NoDup_Permutation; [apply sorted_nodup; exact L|apply sorted_nodup; exact M|exact H].
Qed.
Lemma sorted_filter_is P Q l files : NoDup l -> in_order P l files -> (forall x, Q x = true <-> P x) -> filter Q (sorted_names l) = files.
Proof.
  intros N (S1 & S2) E. apply same_sorted; [apply sorted_filter, sorted_sorted; exact N|exact S1|].
  intro x. rewrite filter_In, S2, E. split; intros (A & B); (split; [|exact B]).
  - apply (Permutation_in x (sorted_perm l)). exact A.
  - apply (Permutation_in x (Permutation_sym (sorted_perm l))). exact A.
Qed.
Lemma suffix_iff s suf : ends_with s suf = true <-> has_suffix suf s.
Proof. split; [apply ends_split|]. intros (b & ->). apply ends_app. Qed.

(** ** Shares *)
Lemma qceil_spec x k : (qceil x <= k)%Z <-> (x <= qz k)%Qc.
Proof.
  unfold qceil. assert (F : (qz (qfloor (- x)) <= - x)%Qc /\ (- x < qz (qfloor (- x) + 1))%Qc) by (apply qfloor_spec; reflexivity).
  destruct F as (F1 & F2). set (f := qfloor (- x)) in *. clearbody f. rewrite qz_add, qz_1 in F2.
  split; intro H.
  - assert (H' : (- k <= f)%Z) by lia. apply qz_le in H'. rewrite qz_opp in H'. set (a := qz f) in *. set (b := qz k) in *. clearbody a b. qclra.
  - assert (L : (qz (- k) < qz (f + 1))%Qc). { rewrite qz_opp, qz_add, qz_1. set (a := qz f) in *. set (b := qz k) in *. clearbody a b. qclra. }
    apply Qclt_not_le in L. destruct (Z_le_gt_dec (f + 1) (- k)) as [G|G]; [|lia]. apply qz_le in G. contradiction.
Qed.
Definition share fl ratio n : nat := Z.to_nat (qceil (fl (qz (Z.of_nat n) * ratio)%Qc)).
Lemma qz_nonneg n : (0 <= qz (Z.of_nat n))%Qc.
Proof. rewrite <- qz_0. apply qz_le. lia. Qed.
Lemma share_le fl ratio n : rounds fl -> (ratio <= 1)%Qc -> (Z.of_nat n <= 2 ^ 53)%Z -> share fl ratio n <= n.
Proof.
  intros (M & E) R Hn. unfold share. assert (H : (qceil (fl (qz (Z.of_nat n) * ratio)%Qc) <= Z.of_nat n)%Z); [|lia].
  apply qceil_spec. apply Qcle_trans with (fl (qz (Z.of_nat n))); [apply M|rewrite E by lia; apply Qcle_refl]. rewrite Qcmult_comm. rewrite <- (Qcmult_1_l (qz (Z.of_nat n))) at 2.
  apply Qcmult_le_compat_r; [exact R|apply qz_nonneg].
Qed.
Lemma share_quota fl ratio quota n : is_quota fl ratio quota -> share fl ratio n = quota n.
Proof.
  intro Q. destruct (Q n) as (Q1 & Q2). unfold share. apply Nat.le_antisymm.
  - apply qceil_spec in Q1. lia.
  - apply Q2. apply qceil_spec. lia.
Qed.
Lemma quota_exists fl ratio : is_quota fl ratio (share fl ratio).
Proof.
  intro n. unfold share. split; [apply qceil_spec; lia|]. intros m H. apply qceil_spec in H. lia.
Qed.
Lemma share_one fl n : rounds fl -> (Z.of_nat n <= 2 ^ 53)%Z -> share fl 1 n = n.
Proof.
  intros R Hn. apply Nat.le_antisymm; [apply share_le; [exact R|apply Qcle_refl|exact Hn]|].
  destruct R as (M & E). destruct (quota_exists fl 1 n) as (Q & _). rewrite Qcmult_1_r, E in Q by lia. apply (proj1 (qz_le _ _)) in Q. lia.
Qed.
Lemma share_mono fl a b n : rounds fl -> (a <= b)%Qc -> share fl a n <= share fl b n.
Proof.
  intros (M & _) H. destruct (quota_exists fl a n) as (_ & Q). apply Q. destruct (quota_exists fl b n) as (Q' & _).
  eapply Qcle_trans; [|exact Q']. apply M. rewrite !(Qcmult_comm (qz (Z.of_nat n))). apply Qcmult_le_compat_r; [exact H|apply qz_nonneg].
Qed.
Lemma share_pos fl r n : rounds fl -> (0 < r)%Qc -> fl r = r -> 0 < n -> 0 < share fl r n.
Proof.
  intros (M & E) R F Hn. destruct (quota_exists fl r n) as (Q & _). destruct (share fl r n); [|lia]. exfalso.
  assert (H : (r <= qz (Z.of_nat n) * r)%Qc).
  { rewrite <- (Qcmult_1_l r) at 1. apply Qcmult_le_compat_r; [rewrite <- qz_1; apply qz_le; lia|apply Qclt_le_weak; exact R]. }
  apply M in H. rewrite F in H. pose proof (Qcle_trans _ _ _ H Q) as X. change (qz (Z.of_nat 0)) with 0%Qc in X. apply Qcle_not_lt in X. contradiction.
Qed.

(** ** ModelNet *)
Lemma mapM_firstn {A B} (l : list A) (g : A -> B) e : forall m, m <= List.length l ->
  mapM (fun i => match nth_error l i with Some x => Ok (g x) | None => Err e end) (seq 0 m) = Ok (map g (firstn m l)).
Proof.
  assert (G : forall l (pre : list A) m, m <= List.length l ->
    mapM (fun i => match nth_error (pre ++ l) i with Some x => Ok (g x) | None => Err e end) (seq (List.length pre) m) = Ok (map g (firstn m l))).
  { clear l. induction l as [|x l IH]; intros pre m H; [destruct m; [reflexivity|simpl in H; lia]|]. destruct m as [|m]; [reflexivity|].
    cbn [seq mapM firstn map]. rewrite nth_error_app2 by lia. rewrite Nat.sub_diag. cbn [nth_error bind].
    specialize (IH (pre ++ [x]) m). rewrite <- app_assoc in IH. cbn [app] in IH. rewrite app_length in IH. cbn [List.length] in IH. rewrite Nat.add_1_r in IH.
    rewrite IH by (simpl in H; lia). reflexivity. }
  intros m H. exact (G l [] m H).
Qed.
Lemma join3 a b c : join (join a b) c = path3 a b c.
Proof. unfold join, path3. rewrite app_assoc_s. reflexivity. Qed.
Definition sub_name (train : bool) : string := if train then "train" else "test".
Section Modelnet.
Variables (fl : Qc -> Qc) (root : list string) (inside : string -> list string) (train : bool) (suffix : string).
Hypothesis R : rounds fl.
Hypothesis N40 : List.length root = 40.
Hypothesis ND : NoDup root.
Hypothesis NI : forall d, NoDup (inside d) /\ small (inside d).
Variables (folders : list string) (names : string -> list string).
Hypothesis HF : in_order (fun _ => True) root folders.
Hypothesis HN : forall f, In f folders -> in_order (has_suffix suffix) (inside (String.append f (String "/" (sub_name train)))) (names f).

Lemma folders_are : sorted_names root = folders.
Proof.
  assert (E : filter (fun _ => true) (sorted_names root) = folders) by (apply (sorted_filter_is (fun _ => True) _ root); [exact ND|exact HF|tauto]).
  rewrite <- E. clear. induction (sorted_names root); [reflexivity|]. cbn [filter]. f_equal. assumption.
Qed.
Lemma folders_len : List.length folders = 40.
Proof. rewrite <- folders_are, <- N40. apply Permutation_length, sorted_perm. Qed.
Lemma names_small f : In f folders -> (Z.of_nat (List.length (names f)) <= 2 ^ 53)%Z.
Proof.
  intro Hf. destruct (HN f Hf) as (S1 & S2). destruct (NI (String.append f (String "/" (sub_name train)))) as (_ & S3). unfold small in S3.
  assert (L : List.length (names f) <= List.length (inside (String.append f (String "/" (sub_name train))))).
  { apply NoDup_incl_length; [apply sorted_nodup; exact S1|]. intros x Hx. apply S2 in Hx. tauto. }
  lia.
Qed.
Definition folder_part ratio (kf : nat * string) : list (string * nat) :=
  map (fun x => (path3 (snd kf) (sub_name train) x, fst kf)) (firstn (share fl ratio (List.length (names (snd kf)))) (names (snd kf))).
Lemma category_ok ratio k f : (ratio <= 1)%Qc -> In f folders -> category_files fl inside train suffix ratio (k, f) = Ok (folder_part ratio (k, f)).
Proof.
  intros Hr Hf. unfold category_files. cbn [fst snd]. fold (sub_name train).
  assert (E : filter (fun x => ends_with x suffix) (sorted_names (inside (join f (sub_name train)))) = names f).
  { apply (sorted_filter_is (has_suffix suffix)); [apply NI|exact (HN f Hf)|intro x; apply suffix_iff]. }
  rewrite E. fold (share fl ratio (List.length (names f))). rewrite mapM_firstn.
  - unfold folder_part. cbn [fst snd]. f_equal. apply map_ext. intro x. rewrite join3. reflexivity.
  - apply share_le; [exact R|exact Hr|apply names_small; exact Hf].
Qed.
Lemma filelist_ok ratio : (ratio <= 1)%Qc ->
  get_filelist fl root inside train suffix ratio =
  Ok (map fst (flat_map (folder_part ratio) (combine (seq 0 40) folders)), map snd (flat_map (folder_part ratio) (combine (seq 0 40) folders))).
Proof.
  intro Hr. unfold get_filelist. rewrite folders_are, folders_len. cbn [Nat.eqb assert_ bind].
  rewrite (mapM_total _ (folder_part ratio)).
  - cbn [bind]. rewrite flat_map_concat_map. reflexivity.
  - intros (k, f) H. apply category_ok; [exact Hr|]. apply in_combine_r in H. exact H.
Qed.
Lemma thm_modelnet ratio quota : (ratio <= 1)%Qc -> is_quota fl ratio quota ->
  get_filelist fl root inside train suffix ratio =
  Ok (flat_map (fun f => map (path3 f (sub_name train)) (firstn (quota (List.length (names f))) (names f))) folders,
      flat_map (fun kf => repeat (fst kf) (quota (List.length (names (snd kf))))) (combine (seq 0 40) folders)).
Proof.
  intros Hr Q. rewrite (filelist_ok ratio Hr). f_equal. apply f_equal2.
  - pose proof folders_len as L. clear - Q L.
    assert (G : forall s, map fst (flat_map (folder_part ratio) (combine (seq s (List.length folders)) folders)) =
      flat_map (fun f => map (path3 f (sub_name train)) (firstn (quota (List.length (names f))) (names f))) folders).
    { clear L. induction folders as [|f fs IH]; intro s; [reflexivity|]. cbn [List.length seq combine flat_map]. rewrite map_app, IH. f_equal.
      unfold folder_part. cbn [fst snd]. rewrite map_map, (share_quota fl ratio quota _ Q). reflexivity. }
    rewrite <- L. apply G.
  - assert (G : forall l, incl (map snd l) folders -> map snd (flat_map (folder_part ratio) l) = flat_map (fun kf => repeat (fst kf) (quota (List.length (names (snd kf))))) l).
    { induction l as [|(k, f) l IH]; intro H; [reflexivity|]. cbn [flat_map]. rewrite map_app, IH by (intros x Hx; apply H; right; exact Hx). f_equal.
      unfold folder_part. cbn [fst snd]. rewrite map_map, (share_quota fl ratio quota _ Q). cbn [snd fst].
      assert (LE : quota (List.length (names f)) <= List.length (names f)).
      { rewrite <- (share_quota fl ratio quota _ Q). apply share_le; [exact R|exact Hr|]. apply names_small. apply H. left. reflexivity. }
      rewrite <- (firstn_length_le (names f) LE) at 2. clear. induction (firstn (quota (List.length (names f))) (names f)); [reflexivity|]. cbn [map List.length repeat]. f_equal. assumption. }
    apply G. intros f Hf. apply in_map_iff in Hf. destruct Hf as ((k, f') & <- & Hf). apply in_combine_r in Hf. exact Hf.
Qed.
End Modelnet.

Lemma firstn_in_le {A} (x : A) l a b : a <= b -> In x (firstn a l) -> In x (firstn b l).
Proof. intros H I. rewrite <- (firstn_skipn a (firstn b l)). rewrite firstn_firstn, Nat.min_l by exact H. apply in_app_iff. left. exact I. Qed.
Lemma combine_split_l {A B} (l : list (A * B)) : combine (map fst l) (map snd l) = l.
Proof. induction l as [|(a, b) l IH]; [reflexivity|]. cbn [map combine fst snd]. rewrite IH. reflexivity. Qed.
Lemma order_exists P Q l : NoDup l -> (forall x, Q x = true <-> P x) -> in_order P l (filter Q (sorted_names l)).
Proof.
  intros N E. split; [apply sorted_filter, sorted_sorted; exact N|]. intro x. rewrite filter_In, E. split; intros (A & B); (split; [|exact B]).
  - apply (Permutation_in x (sorted_perm l)). exact A.
  - apply (Permutation_in x (Permutation_sym (sorted_perm l))). exact A.
Qed.
Section Ratios.
Variables (fl : Qc -> Qc) (root : list string) (inside : string -> list string) (train : bool) (suffix : string).
Hypothesis R : rounds fl.
Hypothesis N40 : List.length root = 40.
Hypothesis ND : NoDup root.
Hypothesis NI : forall d, NoDup (inside d) /\ small (inside d).
Let folders := sorted_names root.
Let names f := filter (fun x => ends_with x suffix) (sorted_names (inside (String.append f (String "/" (sub_name train))))).
Lemma ratios_ok ratio : (ratio <= 1)%Qc -> exists l, get_filelist fl root inside train suffix ratio = Ok (map fst l, map snd l) /\
  l = flat_map (folder_part fl train names ratio) (combine (seq 0 40) folders).
Proof.
  intro Hr. eexists. split; [|reflexivity]. apply (filelist_ok fl root inside train suffix R N40 ND NI folders names); [| |exact Hr].
  - unfold folders. replace (sorted_names root) with (filter (fun _ => true) (sorted_names root)).
    + apply order_exists; [exact ND|tauto].
    + clear. induction (sorted_names root); [reflexivity|]. cbn [filter]. f_equal. assumption.
  - intros f Hf. apply order_exists; [apply NI|intro x; apply suffix_iff].
Qed.
Lemma thm_ratio a b l1 c1 l2 c2 : (a <= b)%Qc -> (b <= 1)%Qc ->
  get_filelist fl root inside train suffix a = Ok (l1, c1) -> get_filelist fl root inside train suffix b = Ok (l2, c2) ->
  incl (combine l1 c1) (combine l2 c2).
Proof.
  intros Hab Hb E1 E2. destruct (ratios_ok a) as (m1 & F1 & G1); [eapply Qcle_trans; eassumption|]. destruct (ratios_ok b Hb) as (m2 & F2 & G2).
  rewrite F1 in E1. injection E1 as <- <-. rewrite F2 in E2. injection E2 as <- <-. rewrite !combine_split_l, G1, G2.
  intros (x, k) H. apply in_flat_map in H. destruct H as ((k', f) & Hf & H). apply in_flat_map. exists (k', f). split; [exact Hf|].
  unfold folder_part in *. apply in_map_iff in H. destruct H as (y & <- & Hy). apply in_map_iff. exists y. split; [reflexivity|].
  revert Hy. apply firstn_in_le. apply share_mono; assumption.
Qed.
Lemma folder_index f : In f root -> exists k, In (k, f) (combine (seq 0 40) folders).
Proof.
  intro H. assert (I : In f folders) by (apply (Permutation_in f (Permutation_sym (sorted_perm root))); exact H).
  assert (L : List.length folders = 40) by (unfold folders; rewrite <- N40; apply Permutation_length, sorted_perm).
  apply In_nth_error in I. destruct I as (k & Hk). exists k. rewrite <- L. clear - Hk.
  assert (G : forall l s k, nth_error l k = Some f -> In (s + k, f) (combine (seq s (List.length l)) l)).
  { induction l as [|x l IH]; intros s m H; [destruct m; discriminate H|]. destruct m as [|m]; cbn [nth_error] in H; cbn [List.length seq combine].
    - injection H as ->. left. f_equal. lia.
    - right. replace (s + S m) with (S s + m) by lia. apply IH. exact H. }
  exact (G folders 0 k Hk).
Qed.
Lemma thm_all f x : In f root -> In x (inside (String.append f (String "/" (sub_name train)))) -> has_suffix suffix x ->
  exists l c, get_filelist fl root inside train suffix 1 = Ok (l, c) /\ In (path3 f (sub_name train) x) l.
Proof.
  intros Hf Hx Hs. destruct (ratios_ok 1) as (m & F & G); [apply Qcle_refl|]. exists (map fst m), (map snd m). split; [exact F|].
  destruct (folder_index f Hf) as (k & Hk). rewrite G. apply in_map_iff. exists (path3 f (sub_name train) x, k). split; [reflexivity|].
  apply in_flat_map. exists (k, f). split; [exact Hk|]. unfold folder_part. cbn [fst snd]. apply in_map_iff. exists x. split; [reflexivity|].
  assert (Ix : In x (names f)).
  { apply filter_In. split; [|apply suffix_iff; exact Hs]. apply (Permutation_in x (Permutation_sym (sorted_perm _))). exact Hx. }
  rewrite share_one; [rewrite firstn_all; exact Ix|exact R|].
  destruct (NI (String.append f (String "/" (sub_name train)))) as (N1 & N2). unfold small in N2.
  assert (L : List.length (names f) <= List.length (inside (String.append f (String "/" (sub_name train))))).
  { rewrite <- (Permutation_length (sorted_perm (inside (String.append f (String "/" (sub_name train)))))). unfold names. clear.
    induction (sorted_names (inside (f ++ String "/" (sub_name train))%string)) as [|y l IH]; [constructor|]. cbn [filter]. destruct (ends_with y suffix); cbn [List.length]; lia. }
  lia.
Qed.
Lemma thm_some ratio f x : (0 < ratio)%Qc -> (ratio <= 1)%Qc -> fl ratio = ratio ->
  In f root -> In x (inside (String.append f (String "/" (sub_name train)))) -> has_suffix suffix x ->
  exists l c y, get_filelist fl root inside train suffix ratio = Ok (l, c) /\ In (path3 f (sub_name train) y) l.
Proof.
  intros R0 R1 RF Hf Hx Hs. destruct (ratios_ok ratio R1) as (m & F & G). exists (map fst m), (map snd m).
  destruct (folder_index f Hf) as (k & Hk).
  assert (Ix : In x (names f)).
  { apply filter_In. split; [|apply suffix_iff; exact Hs]. apply (Permutation_in x (Permutation_sym (sorted_perm _))). exact Hx. }
  assert (P : 0 < share fl ratio (List.length (names f))).
  { apply share_pos; [exact R|exact R0|exact RF|]. destruct (names f); [destruct Ix|simpl; lia]. }
  remember (names f) as nf eqn:En. destruct nf as [|y nf]; [destruct Ix|]. exists y. split; [exact F|]. rewrite G. apply in_map_iff. exists (path3 f (sub_name train) y, k). split; [reflexivity|].
  apply in_flat_map. exists (k, f). split; [exact Hk|]. unfold folder_part. cbn [fst snd]. apply in_map_iff. exists y. split; [reflexivity|].
  rewrite <- En. destruct (share fl ratio (List.length (y :: nf))); [lia|]. left. reflexivity.
Qed.
End Ratios.
Lemma thm_not40 fl root inside train suffix ratio : List.length root <> 40 -> get_filelist fl root inside train suffix ratio = Err AssertionError.
Proof.
  intro H. unfold get_filelist. rewrite (Permutation_length (sorted_perm root)). destruct (Nat.eqb_spec (List.length root) 40) as [E|E]; [contradiction|reflexivity].
Qed.

(** ** Sums of lists that come from different folders *)
Lemma fold_app {A B} (g : A -> list B) l : forall acc, fold_left (fun t c => t ++ g c) l acc = acc ++ flat_map g l.
Proof. induction l as [|a l IH]; intro acc; cbn [fold_left flat_map]; [symmetry; apply app_nil_r|]. rewrite IH, app_assoc. reflexivity. Qed.
Lemma NoDup_flat {A B} (g : A -> list B) l : NoDup l -> (forall a, In a l -> NoDup (g a)) -> (forall a b x, In a l -> In b l -> In x (g a) -> In x (g b) -> a = b) -> NoDup (flat_map g l).
Proof.
  induction l as [|a l IH]; intros N G D; cbn [flat_map]; [constructor|]. inversion N as [|? ? N1 N2]; subst.
  assert (I : NoDup (flat_map g l)).
  { apply IH; [exact N2|intros b Hb; apply G; right; exact Hb|]. intros b c x Hb Hc. apply D; right; assumption. }
  assert (X : forall x, In x (g a) -> ~ In x (flat_map g l)).
  { intros x Hx Hy. apply in_flat_map in Hy. destruct Hy as (b & Hb & Hy). assert (a = b) by (apply (D a b x); [left; reflexivity|right; exact Hb|exact Hx|exact Hy]). subst b. contradiction. }
  assert (Ga : NoDup (g a)) by (apply G; left; reflexivity).
  revert Ga X. clear - I. induction (g a) as [|y m IH]; intros Gm X; cbn [app]; [exact I|]. inversion Gm as [|? ? G1 G2]; subst. constructor.
  - rewrite in_app_iff. intros [H|H]; [contradiction|]. apply (X y); [left; reflexivity|exact H].
  - apply IH; [exact G2|]. intros z Hz. apply X. right. exact Hz.
Qed.
Lemma app_inj a : forall b c, String.append a b = String.append a c -> b = c.
Proof. induction a as [|x a IH]; intros b c H; [exact H|]. cbn [String.append] in H. injection H as H. apply IH. exact H. Qed.
Lemma app_inj_r b : forall a c, String.append a b = String.append c b -> a = c.
Proof.
  assert (L : forall s t, list_ascii_of_string (String.append s t) = list_ascii_of_string s ++ list_ascii_of_string t).
  { intros s t. induction s as [|c s IH]; simpl; [reflexivity|rewrite IH; reflexivity]. }
  intros a c H. apply (f_equal list_ascii_of_string) in H. rewrite !L in H. apply app_inv_tail in H.
  rewrite <- (string_of_list_ascii_of_string a), <- (string_of_list_ascii_of_string c), H. reflexivity.
Qed.

(** ** SemanticKITTI *)
Lemma fold_velodyne i : kitti_folder (two i) = velodyne i.
Proof. unfold kitti_folder, velodyne, join. rewrite app_assoc_s. reflexivity. Qed.
Lemma kitti_flat inside seqs : kitti_lines inside seqs =
  flat_map (fun s => map (fun x => String.append (join (kitti_folder s) x) " 0") (sorted_names (inside (kitti_folder s)))) seqs.
Proof.
  unfold kitti_lines. rewrite (fold_app (fun s => map (join (kitti_folder s)) (sorted_names (inside (kitti_folder s))))). cbn [app].
  induction seqs as [|s seqs IH]; [reflexivity|]. cbn [flat_map]. rewrite map_app, map_map, IH. reflexivity.
Qed.
Lemma kitti_line i x : String.append (join (kitti_folder (two i)) x) " 0" = scan_line i x.
Proof. rewrite fold_velodyne. unfold join, scan_line. rewrite !app_assoc_s. reflexivity. Qed.
Lemma kitti_nums inside is_ : kitti_lines inside (map two is_) = flat_map (fun i => map (scan_line i) (sorted_names (inside (velodyne i)))) is_.
Proof.
  rewrite kitti_flat. rewrite flat_map_concat_map, map_map, <- flat_map_concat_map. induction is_ as [|i l IH]; [reflexivity|]. cbn [flat_map]. rewrite IH. f_equal.
Qed.
Lemma scan_inj i j x y : i < 100 -> j < 100 -> scan_line i x = scan_line j y -> i = j /\ x = y.
Proof.
  intros Hi Hj H. unfold scan_line, velodyne in H. rewrite !app_assoc_s in H. apply app_inj in H.
  unfold two in H. cbn [String.append] in H.
  assert (H1 := f_equal (fun s => match s with String c _ => c | EmptyString => "0"%char end) H). cbv beta iota in H1.
  assert (H2 := f_equal (fun s => match s with String _ (String c _) => c | _ => "0"%char end) H). cbv beta iota in H2.
  assert (H3 : String.append x " 0" = String.append y " 0") by (injection H as _ _ H3; exact H3).
  assert (E : i = j).
  { unfold digit in H1, H2. apply (f_equal nat_of_ascii) in H1, H2.
    assert (i / 10 < 10) by (apply Nat.div_lt_upper_bound; lia). assert (j / 10 < 10) by (apply Nat.div_lt_upper_bound; lia).
    assert (i mod 10 < 10) by (apply Nat.mod_upper_bound; lia). assert (j mod 10 < 10) by (apply Nat.mod_upper_bound; lia).
    rewrite !nat_ascii_embedding in H1, H2 by lia. pose proof (Nat.div_mod i 10 ltac:(lia)). pose proof (Nat.div_mod j 10 ltac:(lia)). lia. }
  split; [exact E|]. apply (app_inj_r " 0"). exact H3.
Qed.
Lemma thm_kitti inside : (forall d, NoDup (inside d)) ->
  exists tr va te, kitti_lists inside = [("train", tr); ("val", va); ("test", te); ("train_val", tr ++ va)] /\
    NoDup (tr ++ va ++ te) /\
    (forall l, In l tr <-> exists i x, i <= 10 /\ i <> 8 /\ In x (inside (velodyne i)) /\ l = scan_line i x) /\
    (forall l, In l va <-> exists x, In x (inside (velodyne 8)) /\ l = scan_line 8 x) /\
    (forall l, In l te <-> exists i x, 11 <= i <= 21 /\ In x (inside (velodyne i)) /\ l = scan_line i x).
Proof.
  intro N. set (g := fun i => map (scan_line i) (sorted_names (inside (velodyne i)))).
  exists (flat_map g [0; 1; 2; 3; 4; 5; 6; 7; 9; 10]), (flat_map g [8]), (flat_map g (seq 11 11)).
  assert (M : forall is_ l, In l (flat_map g is_) <-> exists i x, In i is_ /\ In x (inside (velodyne i)) /\ l = scan_line i x).
  { intros is_ l. rewrite in_flat_map. split.
    - intros (i & Hi & H). apply in_map_iff in H. destruct H as (x & <- & Hx). exists i, x. repeat split; [exact Hi|]. apply (Permutation_in x (sorted_perm _)). exact Hx.
    - intros (i & x & Hi & Hx & ->). exists i. split; [exact Hi|]. apply in_map. apply (Permutation_in x (Permutation_sym (sorted_perm _))). exact Hx. }
  split; [|split; [|split; [|split]]].
  - unfold kitti_lists, kitti_split. cbn [map fst snd].
    change ["00"; "01"; "02"; "03"; "04"; "05"; "06"; "07"; "09"; "10"] with (map two [0; 1; 2; 3; 4; 5; 6; 7; 9; 10]).
    change ["08"] with (map two [8]). change ["11"; "12"; "13"; "14"; "15"; "16"; "17"; "18"; "19"; "20"; "21"] with (map two (seq 11 11)).
    rewrite <- map_app, !kitti_nums. fold g. rewrite flat_map_app. reflexivity.
  - rewrite <- !flat_map_app. apply NoDup_flat.
    + simpl. repeat (constructor; [simpl; intuition discriminate|]). constructor.
    + intros i _. unfold g. apply FinFun.Injective_map_NoDup; [|apply (Permutation_NoDup (Permutation_sym (sorted_perm _))); apply N].
      intros x y H. unfold scan_line in H. apply app_inj in H. injection H as H. apply (app_inj_r " 0"). exact H.
    + intros i j l Hi Hj Li Lj. apply in_map_iff in Li, Lj. destruct Li as (x & <- & _). destruct Lj as (y & E & _).
      assert (B : forall k, In k ([0; 1; 2; 3; 4; 5; 6; 7; 9; 10] ++ [8] ++ seq 11 11) -> k < 100) by (simpl; intros k Hk; intuition lia).
      symmetry. apply (scan_inj j i y x); [apply B; exact Hj|apply B; exact Hi|exact E].
  - intro l. rewrite M. split.
    + intros (i & x & Hi & H). exists i, x. simpl in Hi. split; [intuition lia|]. split; [intuition lia|exact H].
    + intros (i & x & Hi & H8 & H). exists i, x. split; [simpl; lia|exact H].
  - intro l. rewrite M. split.
    + intros (i & x & [<-|[]] & H). exists x. exact H.
    + intros (x & H). exists 8, x. split; [left; reflexivity|exact H].
  - intro l. rewrite M. split.
    + intros (i & x & Hi & H). exists i, x. apply in_seq in Hi. split; [lia|exact H].
    + intros (i & x & Hi & H). exists i, x. split; [apply in_seq; lia|exact H].
Qed.

(** ** image2shape.py *)
Lemma i2s_quota fl n : rounds8 fl -> (Z.of_nat n <= 2 ^ 49)%Z -> i2s_num fl n = 4 * n / 5.
Proof.
  intros (M & E) Hn. unfold i2s_num. set (q := (4 * Z.of_nat n / 5)%Z).
  pose proof (Z.div_mod (4 * Z.of_nat n) 5 ltac:(lia)) as D. fold q in D. pose proof (Z.mod_pos_bound (4 * Z.of_nat n) 5 ltac:(lia)) as B.
  set (r := (4 * Z.of_nat n mod 5)%Z) in *. clearbody r.
  assert (Hq : (0 <= q <= 2 ^ 49)%Z) by (clear M E; lia).
  assert (L : (qz q <= fl (qz (Z.of_nat n) * f08))%Qc).
  { assert (X : fl (qz (8 * q) / qz 8)%Qc = (qz (8 * q) / qz 8)%Qc) by (apply E; lia).
    assert (Y : (qz (8 * q) / qz 8 = qz q)%Qc) by (rewrite qz_mul; field; discriminate). rewrite Y in X. rewrite <- X at 1. apply M.
    apply Qcle_trans with (qz (Z.of_nat n) * (qz 4 / qz 5))%Qc.
    - assert (Z1 : (qz q * qz 5 <= qz (Z.of_nat n) * qz 4)%Qc) by (rewrite <- !qz_mul; apply qz_le; lia).
      replace (qz q) with (qz q * qz 5 * / qz 5)%Qc by (field; discriminate).
      replace (qz (Z.of_nat n) * (qz 4 / qz 5))%Qc with (qz (Z.of_nat n) * qz 4 * / qz 5)%Qc by (field; discriminate).
      apply Qcmult_le_compat_r; [exact Z1|vm_compute; discriminate].
    - rewrite !(Qcmult_comm (qz (Z.of_nat n))). apply Qcmult_le_compat_r; [vm_compute; discriminate|apply qz_nonneg]. }
  assert (U : (fl (qz (Z.of_nat n) * f08) <= qz (8 * q + 7) / qz 8)%Qc).
  { assert (X : fl (qz (8 * q + 7) / qz 8)%Qc = (qz (8 * q + 7) / qz 8)%Qc) by (apply E; lia). rewrite <- X. apply M.
    replace f08 with (qz 3602879701896397 / qz 4503599627370496)%Qc by (apply Qc_is_canon; vm_compute; reflexivity).
    assert (Z1 : (qz (Z.of_nat n) * qz 3602879701896397 * qz 8 <= qz (8 * q + 7) * qz 4503599627370496)%Qc) by (rewrite <- !qz_mul; apply qz_le; lia).
    replace (qz (Z.of_nat n) * (qz 3602879701896397 / qz 4503599627370496))%Qc with (qz (Z.of_nat n) * qz 3602879701896397 * qz 8 * (/ (qz 8 * qz 4503599627370496)))%Qc by (field; split; discriminate).
    replace (qz (8 * q + 7) / qz 8)%Qc with (qz (8 * q + 7) * qz 4503599627370496 * (/ (qz 8 * qz 4503599627370496)))%Qc by (field; split; discriminate).
    apply Qcmult_le_compat_r; [exact Z1|vm_compute; discriminate]. }
  assert (T : qtrunc (fl (qz (Z.of_nat n) * f08)%Qc) = q).
  { assert (F : qfloor (fl (qz (Z.of_nat n) * f08)%Qc) = q).
    { apply qfloor_spec. split; [exact L|]. eapply Qcle_lt_trans; [exact U|].
      replace (qz (8 * q + 7) / qz 8)%Qc with (qz q + (qz 7 / qz 8))%Qc by (rewrite qz_add, qz_mul; field; discriminate).
      rewrite qz_add, qz_1. assert (S7 : (qz 7 / qz 8 < 1)%Qc) by (vm_compute; reflexivity). set (a := qz q). set (b := (qz 7 / qz 8)%Qc) in *. clearbody a b. clear - S7. qclra. }
    rewrite <- F. apply qtrunc_floor. eapply Qcle_trans; [|exact L]. rewrite <- qz_0. apply qz_le. lia. }
  rewrite T. unfold q. rewrite <- (Nat2Z.inj_mul 4), <- (Nat2Z.inj_div _ 5), Nat2Z.id. reflexivity.
Qed.

Definition i2s_ok (img pts : string -> list string) (c : string) (files : list string) : Prop :=
  in_order (fun f => In (String.append f ".ply") (pts c)) (img c) files.
Lemma existsb_name x l : existsb (String.eqb x) l = true <-> In x l.
Proof.
  rewrite existsb_exists. split; [intros (y & Hy & E); apply String.eqb_eq in E; subst y; exact Hy|]. intro H. exists x. split; [exact H|apply String.eqb_refl].
Qed.
Lemma i2s_names_are img pts c files : NoDup (img c) -> i2s_ok img pts c files -> i2s_names img pts c = map (fun f => String.append c (String "/" f)) files.
Proof.
  intros N O. unfold i2s_names. f_equal. apply (sorted_filter_is (fun f => In (String.append f ".ply") (pts c))); [exact N|exact O|].
  intro x. rewrite existsb_name. split; intro H; [apply (Permutation_in _ (sorted_perm _)); exact H|apply (Permutation_in _ (Permutation_sym (sorted_perm _))); exact H].
Qed.
Lemma fold_two {A B} (g h : A -> list B) l : forall a b, fold_left (fun t c => (fst t ++ g c, snd t ++ h c)) l (a, b) = (a ++ flat_map g l, b ++ flat_map h l).
Proof. induction l as [|x l IH]; intros a b; cbn [fold_left flat_map fst snd]; [rewrite !app_nil_r; reflexivity|]. rewrite IH, !app_assoc. reflexivity. Qed.
Lemma slash_split c d f g : has_char "/" c = false -> has_char "/" d = false -> String.append c (String "/" f) = String.append d (String "/" g) -> c = d /\ f = g.
Proof.
  revert d. induction c as [|x c IH]; intros [|y d] Hc Hd H; cbn [String.append] in H.
  - injection H as ->. split; reflexivity.
  - injection H as <- _. discriminate Hd.
  - injection H as -> _. discriminate Hc.
  - injection H as -> H. cbn [has_char] in Hc, Hd. apply orb_false_iff in Hc, Hd. destruct (IH d) as (-> & ->); [tauto|tauto|exact H|]. split; reflexivity.
Qed.
Lemma thm_split fl img pts files : rounds8 fl -> (forall c, NoDup (img c) /\ small (img c)) ->
  (forall c, In c i2s_categories -> in_order (fun f => In (String.append f ".ply") (pts c)) (img c) (files c)) ->
  create_filelist fl img pts =
    (flat_map (fun c => map (fun f => String.append c (String "/" f)) (firstn (4 * List.length (files c) / 5) (files c))) i2s_categories,
     flat_map (fun c => map (fun f => String.append c (String "/" f)) (skipn (4 * List.length (files c) / 5) (files c))) i2s_categories).
Proof.
  intros R N F. unfold create_filelist. rewrite (fold_two (fun c => firstn (i2s_num fl (List.length (i2s_names img pts c))) (i2s_names img pts c))
    (fun c => skipn (i2s_num fl (List.length (i2s_names img pts c))) (i2s_names img pts c))). cbn [app].
  assert (E : forall c, In c i2s_categories -> i2s_names img pts c = map (fun f => String.append c (String "/" f)) (files c) /\ i2s_num fl (List.length (i2s_names img pts c)) = 4 * List.length (files c) / 5).
  { intros c Hc. assert (E : i2s_names img pts c = map (fun f => String.append c (String "/" f)) (files c)) by (apply i2s_names_are; [apply N|apply F; exact Hc]).
    split; [exact E|]. rewrite E, map_length. apply i2s_quota; [exact R|]. destruct (N c) as (_ & S0). unfold small in S0. destruct (F c Hc) as (S1 & S2).
    assert (L : List.length (files c) <= List.length (img c)) by (apply NoDup_incl_length; [apply sorted_nodup; exact S1|intros x Hx; apply S2 in Hx; tauto]). lia. }
  apply f_equal2; rewrite !flat_map_concat_map; f_equal; apply map_ext_in; intros c Hc; destruct (E c Hc) as (E1 & E2); rewrite E2, E1.
  - apply firstn_map.
  - apply skipn_map.
Qed.
Lemma perm_two {A B} (g h : A -> list B) l : Permutation (flat_map g l ++ flat_map h l) (flat_map (fun c => g c ++ h c) l).
Proof.
  induction l as [|a l IH]; [constructor|]. cbn [flat_map]. rewrite <- !app_assoc. apply Permutation_app_head.
  rewrite app_assoc. rewrite (Permutation_app_comm (flat_map g l) (h a)). rewrite <- app_assoc. apply Permutation_app_head. exact IH.
Qed.
Lemma thm_split_all fl img pts tr te : rounds8 fl -> (forall c, NoDup (img c) /\ small (img c)) -> create_filelist fl img pts = (tr, te) ->
  NoDup (tr ++ te) /\
  forall l, In l (tr ++ te) <-> exists c f, In c i2s_categories /\ In f (img c) /\ In (String.append f ".ply") (pts c) /\ l = String.append c (String "/" f).
Proof.
  intros R N E. set (files := fun c => filter (fun f => existsb (String.eqb (String.append f ".ply")) (pts c)) (sorted_names (img c))).
  assert (O : forall c, in_order (fun f => In (String.append f ".ply") (pts c)) (img c) (files c)).
  { intro c. apply order_exists; [apply N|]. intro x. apply existsb_name. }
  rewrite (thm_split fl img pts files R N (fun c _ => O c)) in E. injection E as <- <-.
  set (full := fun c => map (fun f => String.append c (String "/" f)) (files c)).
  assert (P : Permutation (flat_map (fun c => map (fun f => String.append c (String "/" f)) (firstn (4 * List.length (files c) / 5) (files c))) i2s_categories ++
     flat_map (fun c => map (fun f => String.append c (String "/" f)) (skipn (4 * List.length (files c) / 5) (files c))) i2s_categories) (flat_map full i2s_categories)).
  { rewrite perm_two. rewrite !flat_map_concat_map. replace (map (fun c => map (fun f => (c ++ String "/" f)%string) (firstn (4 * List.length (files c) / 5) (files c)) ++
      map (fun f => (c ++ String "/" f)%string) (skipn (4 * List.length (files c) / 5) (files c))) i2s_categories) with (map full i2s_categories); [reflexivity|].
    apply map_ext. intro c. unfold full. rewrite <- map_app, firstn_skipn. reflexivity. }
  assert (NS : forall c, In c i2s_categories -> has_char "/" c = false).
  { assert (F : forallb (fun c => negb (has_char "/" c)) i2s_categories = true) by (vm_compute; reflexivity).
    intros c Hc. rewrite forallb_forall in F. apply negb_true_iff. apply F. exact Hc. }
  split.
  - apply (Permutation_NoDup (Permutation_sym P)). apply NoDup_flat.
    + unfold i2s_categories. repeat (constructor; [simpl; intuition discriminate|]). constructor.
    + intros c _. unfold full. apply FinFun.Injective_map_NoDup; [|apply sorted_nodup; apply O]. intros x y H. apply app_inj in H. injection H as H. exact H.
    + intros c d l Hc Hd Lc Ld. apply in_map_iff in Lc, Ld. destruct Lc as (x & <- & _). destruct Ld as (y & H & _). symmetry. apply (slash_split d c y x); [apply NS; exact Hd|apply NS; exact Hc|exact H].
  - intro l. split.
    + intro H. apply (Permutation_in _ P) in H. apply in_flat_map in H. destruct H as (c & Hc & H). apply in_map_iff in H. destruct H as (f & <- & Hf). apply (O c) in Hf. exists c, f. tauto.
    + intros (c & f & Hc & Hf & Hp & ->). apply (Permutation_in _ (Permutation_sym P)). apply in_flat_map. exists c. split; [exact Hc|]. unfold full. apply (in_map (fun f => String.append c (String "/" f))). apply O. split; assumption.
Qed.

(** ** ShapeNet *)
Lemma prefix_iff c : forall s, String.prefix c s = true <-> exists b, s = String.append c b.
Proof.
  induction c as [|x c IH]; intro s; cbn [String.append].
  - destruct s; simpl; (split; [intros _; eexists; reflexivity|reflexivity]).
  - destruct s as [|y s]; simpl; [split; [discriminate|intros (b & H); discriminate H]|]. destruct (ascii_dec x y) as [->|H].
    + rewrite IH. split; intros (b & E); exists b; [rewrite E; reflexivity|injection E as E; exact E].
    + split; [discriminate|]. intros (b & E). injection E as -> _. destruct (H eq_refl).
Qed.
Lemma contains_iff c : forall s, contains c s = true <-> occurs c s.
Proof.
  induction s as [|x s IH]; cbn [contains].
  - rewrite orb_false_r, prefix_iff. split.
    + intros (b & E). exists EmptyString, b. exact E.
    + intros ([|y a] & b & E); [exists b; exact E|discriminate E].
  - rewrite orb_true_iff, prefix_iff, IH. split.
    + intros [(b & E)|(a & b & E)]; [exists EmptyString, b; exact E|]. exists (String x a), b. rewrite E. reflexivity.
    + intros ([|y a] & b & E); [left; exists b; exact E|]. right. cbn [String.append] in E. injection E as _ E. exists a, b. exact E.
Qed.
Lemma filter_map_comm {A B} (P : B -> bool) (f : A -> B) l : filter P (map f l) = map f (filter (fun a => P (f a)) l).
Proof. induction l as [|a l IH]; [reflexivity|]. cbn [map filter]. destruct (P (f a)); cbn [map]; rewrite IH; reflexivity. Qed.
Definition coded (ih : nat * string) : string := shape_line (nth (fst ih) seg_categories "") (snd ih).
Lemma seg_entries_ok j c l : nth_error seg_categories j = Some c ->
  (forall ih, In ih l -> fst ih < 16 /\ forall k c', nth_error seg_categories k = Some c' -> occurs c' (coded ih) -> k = fst ih) ->
  seg_entries j c (map coded l) = map (fun ih => shape_entry c (snd ih) j) (filter (fun ih => fst ih =? j) l).
Proof.
  intros Hc H. unfold seg_entries. rewrite filter_map_comm, map_map.
  assert (E : filter (fun a => contains c (coded a)) l = filter (fun ih => fst ih =? j) l).
  { apply filter_ext_in. intros (i, h) Hi. destruct (H (i, h) Hi) as (H16 & U). cbn [fst] in *. apply eq_true_iff_eq. rewrite contains_iff, Nat.eqb_eq. split.
    - intro O. symmetry. apply (U j c Hc O).
    - intros ->. exists "shape_data/", (String "/" h). unfold coded, shape_line. cbn [fst snd]. rewrite (nth_error_nth _ _ "" Hc). reflexivity. }
  rewrite E. apply map_ext_in. intros (i, h) Hi. apply filter_In in Hi. destruct Hi as (_ & Hi). apply Nat.eqb_eq in Hi. cbn [fst] in Hi. subst i.
  unfold coded, shape_line, shape_entry. cbn [fst snd]. rewrite (nth_error_nth _ _ "" Hc). f_equal. cbn [String.append drop]. rewrite app_assoc_s. reflexivity.
Qed.
Lemma nth_combine_seq {A} (l : list A) : forall s j a, nth_error l j = Some a -> nth_error (combine (seq s (List.length l)) l) j = Some (s + j, a).
Proof.
  induction l as [|x l IH]; intros s j a H; [destruct j; discriminate H|]. destruct j as [|j]; cbn [List.length seq combine nth_error] in *.
  - injection H as ->. f_equal. f_equal. lia.
  - rewrite (IH (S s) j a H). f_equal. f_equal. lia.
Qed.
Lemma thm_seg_lists tr va te :
  (forall ih, In ih (tr ++ va ++ te) -> fst ih < 16 /\ forall k c', nth_error seg_categories k = Some c' -> occurs c' (shape_line (nth (fst ih) seg_categories "") (snd ih)) -> k = fst ih) ->
  let line := fun ih => shape_line (nth (fst ih) seg_categories "") (snd ih) in
  List.length (seg_lists (map line tr) (map line va) (map line te)) = 16 /\
  forall j c, nth_error seg_categories j = Some c ->
    nth_error (seg_lists (map line tr) (map line va) (map line te)) j =
    Some (map (fun ih => shape_entry c (snd ih) j) (filter (fun ih => fst ih =? j) (tr ++ va)),
          map (fun ih => shape_entry c (snd ih) j) (filter (fun ih => fst ih =? j) te)).
Proof.
  intros H line. split; [reflexivity|]. intros j c Hc. unfold seg_lists. rewrite nth_error_map, (nth_combine_seq _ 0 j c Hc). cbn [option_map fst snd].
  rewrite Nat.add_0_l. change line with coded. rewrite !seg_entries_ok; try exact Hc.
  - rewrite filter_app, map_app. reflexivity.
  - intros ih Hi. apply H. rewrite !in_app_iff. tauto.
  - intros ih Hi. apply H. rewrite !in_app_iff. tauto.
  - intros ih Hi. apply H. rewrite !in_app_iff. tauto.
Qed.
(** A shape whose name contains the code of another category is in the lists of both. *)
Lemma thm_seg_twice i j c d a b : nth_error seg_categories i = Some c -> nth_error seg_categories j = Some d ->
  let h := String.append a (String.append d b) in
  exists li lj, nth_error (seg_lists [shape_line c h] [] []) i = Some ([shape_entry c h i], li) /\
    nth_error (seg_lists [shape_line c h] [] []) j = Some ([shape_entry c h j], lj).
Proof.
  intros Hc Hd h. exists [], []. unfold seg_lists. rewrite !nth_error_map, (nth_combine_seq _ 0 i c Hc), (nth_combine_seq _ 0 j d Hd). cbn [option_map fst snd]. rewrite !Nat.add_0_l.
  assert (C1 : contains c (shape_line c h) = true) by (apply contains_iff; exists "shape_data/", (String "/" h); reflexivity).
  assert (C2 : contains d (shape_line c h) = true).
  { apply contains_iff. exists (String.append "shape_data/" (String.append c (String "/" a))), b. unfold shape_line, h. rewrite !app_assoc_s. reflexivity. }
  unfold seg_entries. cbn [filter]. rewrite C1, C2. cbn [map app filter]. unfold shape_line, shape_entry. cbn [String.append drop]. rewrite app_assoc_s. split; reflexivity.
Qed.
