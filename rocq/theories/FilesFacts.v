(** Facts on saved and read point clouds. *)
From Coq Require Import String Ascii List ZArith Bool QArith Qcanon Qround Lia Lqa.
From Verif Require Import Res Num NumFacts Points SpecPoints Files SpecFiles.
Import ListNotations.
Local Open Scope string_scope.
Local Open Scope list_scope.
Local Open Scope nat_scope.

(** ** Strings *)
Lemma sub_app b s : forall k, substring (String.length b + k) (String.length s - k) (String.append b s) = substring k (String.length s - k) s.
Proof. induction b as [|c b IH]; intro k; simpl; [reflexivity|apply IH]. Qed.
Lemma sub_all s : substring 0 (String.length s) s = s.
Proof. induction s as [|c s IH]; [reflexivity|]. simpl. f_equal. exact IH. Qed.
Lemma len_append a b : String.length (String.append a b) = String.length a + String.length b.
Proof. induction a as [|c a IH]; simpl; [reflexivity|rewrite IH; reflexivity]. Qed.
Lemma ends_app b s : ends_with (String.append b s) s = true.
Proof.
  unfold ends_with. rewrite len_append. replace (String.length b + String.length s - String.length s) with (String.length b + 0) by lia.
  apply andb_true_intro. split; [apply Nat.leb_le; lia|].
  pose proof (sub_app b s 0) as E. rewrite Nat.sub_0_r in E. rewrite E, sub_all. apply String.eqb_refl.
Qed.
Lemma ends_split s suf : ends_with s suf = true -> exists b, s = String.append b suf.
Proof.
  unfold ends_with. intro H. apply andb_prop in H. destruct H as (H1 & H2). apply Nat.leb_le in H1. apply String.eqb_eq in H2.
  revert H1 H2. induction s as [|c s IH]; intros H1 H2.
  - exists EmptyString. destruct suf; [reflexivity|simpl in H1; lia].
  - simpl String.length in *. destruct (Nat.eq_dec (String.length suf) (S (String.length s))) as [E|E].
    + rewrite E in H2. replace (S (String.length s) - S (String.length s)) with 0 in H2 by lia.
      exists EmptyString. simpl. rewrite <- H2. change (S (String.length s)) with (String.length (String c s)). symmetry. apply sub_all.
    + replace (S (String.length s) - String.length suf) with (S (String.length s - String.length suf)) in H2 by lia.
      simpl in H2. destruct IH as (b & Eb); [lia|exact H2|]. exists (String c b). simpl. rewrite <- Eb. reflexivity.
Qed.
Lemma ends_not s suf : (forall b, s <> String.append b suf) -> ends_with s suf = false.
Proof. intro H. destruct (ends_with s suf) eqn:E; [|reflexivity]. destruct (ends_split s suf E) as (b & Eb). destruct (H b Eb). Qed.
Lemma app_assoc_s a b c : String.append (String.append a b) c = String.append a (String.append b c).
Proof. induction a as [|x a IH]; simpl; [reflexivity|rewrite IH; reflexivity]. Qed.
Lemma has_app c a b : has_char c (String.append a b) = has_char c a || has_char c b.
Proof. induction a as [|x a IH]; simpl; [reflexivity|rewrite IH; apply orb_assoc]. Qed.
Lemma suffix_app b s : has_char "." s = false -> suffix_of (String.append b (String "." s)) = s.
Proof.
  intro H. induction b as [|c b IH]; simpl.
  - rewrite H. reflexivity.
  - rewrite has_app. simpl. rewrite orb_true_r. exact IH.
Qed.
Lemma ends_xyz b : ends_with (String.append b ".xyz") "npz" = false.
Proof.
  apply ends_not. intros b' E.
  assert (H : forall s t : string, s = t -> rev (list_ascii_of_string s) = rev (list_ascii_of_string t)) by (intros s t e; rewrite e; reflexivity).
  assert (L : forall s t, list_ascii_of_string (String.append s t) = list_ascii_of_string s ++ list_ascii_of_string t).
  { intros s t. induction s as [|c s IH]; simpl; [reflexivity|rewrite IH; reflexivity]. }
  apply H in E. rewrite !L, !rev_app_distr in E. simpl in E. congruence.
Qed.

(** ** Letters *)
Lemma letter_attr p c name : letter c name -> exists o, save_attr p (up_char c) = Ok (name, o) /\ (forall a, o = Some a <-> attr p name a).
Proof.
  intro H. unfold letter in H. cbn [In] in H.
  repeat (destruct H as [H|H]; [injection H as <- <-|]); [..|destruct H].
  all: match goal with |- context [up_char ?c] => let v := eval vm_compute in (up_char c) in change (up_char c) with v end; unfold save_attr;
    cbn [Ascii.eqb Bool.eqb]; eexists; (split; [reflexivity|]); intro a; unfold attr.
  all: try (split; [intro E; left; split; [reflexivity|congruence]|]; intros [(E & ->)|[(E & _)|[(E & _)|[(E & _)|(E & _)]]]]; try discriminate E; reflexivity).
  all: try (split; [intro E; right; left; split; [reflexivity|]; destruct (p_normals p) as [n|]; simpl in E; [exists n; split; [reflexivity|congruence]|discriminate E]|];
    intros [(E & _)|[(_ & n & E & ->)|[(E & _)|[(E & _)|(E & _)]]]]; try discriminate E; rewrite E; reflexivity).
  all: try (split; [intro E; right; right; left; split; [reflexivity|exact E]|];
    intros [(E & _)|[(E & _)|[(_ & E)|[(E & _)|(E & _)]]]]; try discriminate E; exact E).
  all: try (split; [intro E; right; right; right; left; split; [reflexivity|exact E]|];
    intros [(E & _)|[(E & _)|[(E & _)|[(_ & E)|(E & _)]]]]; try discriminate E; exact E).
  all: (split; [intro E; right; right; right; right; split; [reflexivity|]; destruct (p_batch_id p) as [n|]; simpl in E; [exists n; split; [reflexivity|congruence]|discriminate E]|];
    intros [(E & _)|[(E & _)|[(E & _)|[(E & _)|(_ & n & E & ->)]]]]; try discriminate E; rewrite E; reflexivity).
Qed.
Lemma letter_fun c n m : letter c n -> letter c m -> n = m.
Proof.
  intros H K. destruct (letter_attr (mkPoints [] None None None None 0 None 0) c n H) as (o & E & _).
  destruct (letter_attr (mkPoints [] None None None None 0 None 0) c m K) as (o' & E' & _). rewrite E in E'. congruence.
Qed.
Definition all_chars : list ascii := map ascii_of_nat (seq 0 256).
Lemma all_chars_in c : In c all_chars.
Proof. rewrite <- (ascii_nat_embedding c). apply in_map. apply in_seq. pose proof (nat_ascii_bounded c). lia. Qed.
Lemma letter_none p c : (forall n, ~ letter c n) -> save_attr p (up_char c) = Err KeyError.
Proof.
  intro H. unfold save_attr.
  assert (F : forallb (fun c => existsb (Ascii.eqb c) ["P"; "p"; "N"; "n"; "F"; "f"; "L"; "l"; "B"; "b"]%char ||
     negb (existsb (Ascii.eqb (up_char c)) ["P"; "N"; "F"; "L"; "B"]%char)) all_chars = true) by (vm_compute; reflexivity).
  rewrite forallb_forall in F. specialize (F c (all_chars_in c)). apply orb_prop in F. destruct F as [F|F].
  - exfalso. cbn [existsb] in F. unfold letter in H. cbn [In] in H.
    repeat (apply orb_prop in F; destruct F as [F|F]; [apply Ascii.eqb_eq in F; subst c; eapply H; tauto|]). discriminate F.
  - apply negb_true_iff in F. cbn [existsb] in F. repeat (apply orb_false_iff in F; destruct F as (-> & F)). reflexivity.
Qed.

(** The columns that are saved, in order. *)
Inductive taken (p : pcloud Qc) : list ascii -> list (string * list (list Qc)) -> Prop :=
| tk_end : taken p [] []
| tk_absent c name info l : letter c name -> absent p name -> taken p info l -> taken p (c :: info) l
| tk_take c name a info l : letter c name -> attr p name a -> taken p info l -> taken p (c :: info) ((name, a) :: l).
Lemma save_taken p info : (forall c, In c info -> exists name, letter c name) -> exists l, save_cols p info = Ok l /\ taken p info l.
Proof.
  induction info as [|c info IH]; intro H; [exists []; split; [reflexivity|constructor]|].
  destruct IH as (l & E & T); [intros x Hx; apply H; right; exact Hx|].
  destruct (H c (or_introl eq_refl)) as (name & Hc). destruct (letter_attr p c name Hc) as (o & Eo & A).
  cbn [save_cols]. rewrite Eo. cbn [bind]. rewrite E. cbn [bind snd fst]. eexists. split; [reflexivity|]. destruct o as [a|].
  - apply tk_take with (c := c); [exact Hc|apply A; reflexivity|exact T].
  - apply tk_absent with (name := name); [exact Hc| |exact T]. intros a Ha. apply A in Ha. discriminate Ha.
Qed.
Lemma taken_in p info l : taken p info l -> forall name a, In (name, a) l <-> attr p name a /\ exists c, In c info /\ letter c name.
Proof.
  induction 1 as [|c nm info l Hc Ha T IH|c nm b info l Hc Ha T IH]; intros name a; simpl.
  - split; [intros []|intros (_ & c & [] & _)].
  - rewrite IH. split; intros (A & x & Hx & Hl).
    + split; [exact A|exists x; split; [right; exact Hx|exact Hl]].
    + split; [exact A|]. destruct Hx as [<-|Hx]; [|exists x; split; assumption].
      rewrite (letter_fun _ _ _ Hl Hc) in A. destruct (Ha a A).
  - rewrite IH. split.
    + intros [E|(A & x & Hx & Hl)].
      * injection E as -> ->. split; [exact Ha|exists c; split; [left; reflexivity|exact Hc]].
      * split; [exact A|exists x; split; [right; exact Hx|exact Hl]].
    + intros (A & x & [<-|Hx] & Hl).
      * left. rewrite (letter_fun _ _ _ Hl Hc) in *. f_equal. destruct (letter_attr p c nm Hc) as (o & _ & Q). apply Q in A. apply Q in Ha. congruence.
      * right. split; [exact A|exists x; split; assumption].
Qed.
Lemma attr_fun p n a b : attr p n a -> attr p n b -> a = b.
Proof.
  intros H K. unfold attr in H, K.
  repeat match goal with H : _ \/ _ |- _ => destruct H as [H|H] | H : _ /\ _ |- _ => destruct H | H : exists _, _ |- _ => destruct H end; congruence.
Qed.

(** ** Dictionaries *)
Lemma dict_set_names k a d : forall n, In n (map fst (dict_set k a d)) <-> n = k \/ In n (map fst d).
Proof.
  induction d as [|(k', a') d IH]; intro n; cbn [dict_set map fst In]; [intuition congruence|].
  destruct (String.eqb_spec k k') as [->|Hk]; cbn [map fst In]; [intuition congruence|]. rewrite IH. intuition congruence.
Qed.
Lemma dict_set_nodup k a d : NoDup (map fst d) -> NoDup (map fst (dict_set k a d)).
Proof.
  induction d as [|(k', a') d IH]; intro H; cbn [dict_set map fst]; [repeat constructor; intros []|].
  cbn [map fst] in H. inversion H as [|? ? H1 H2]; subst. destruct (String.eqb_spec k k') as [->|Hk]; cbn [map fst]; constructor; try assumption; [|apply IH; assumption].
  rewrite dict_set_names. intros [E|E]; [congruence|contradiction].
Qed.
Lemma dict_set_in k a d : NoDup (map fst d) -> forall n b, In (n, b) (dict_set k a d) <-> (n = k /\ b = a) \/ (n <> k /\ In (n, b) d).
Proof.
  induction d as [|(k', a') d IH]; intros H n b; cbn [dict_set].
  - simpl. split; [intros [E|[]]; left; split; congruence|intros [(-> & ->)|(_ & [])]; left; reflexivity].
  - cbn [map fst] in H. inversion H as [|? ? H1 H2]; subst. destruct (String.eqb_spec k k') as [->|Hk]; cbn [In].
    + split.
      * intros [E|E]; [left; split; congruence|]. right. split; [|right; exact E]. intros ->. apply H1. change k' with (fst (k', b)). apply in_map. exact E.
      * intros [(-> & ->)|(Hn & [E|E])]; [left; reflexivity|congruence|right; exact E].
    + rewrite (IH H2). split.
      * intros [E|[E|(Hn & E)]]; [injection E as <- <-; right; split; [congruence|left; reflexivity]|left; exact E|right; split; [exact Hn|right; exact E]].
      * intros [E|(Hn & [E|E])]; [right; left; exact E|left; exact E|right; right; split; assumption].
Qed.
(** A list in which a name always has the same value. *)
Lemma dict_of_spec l : (forall n a b, In (n, a) l -> In (n, b) l -> a = b) ->
  NoDup (map fst (dict_of l)) /\ forall n a, In (n, a) (dict_of l) <-> In (n, a) l.
Proof.
  unfold dict_of. intro H.
  assert (G : forall m d, (forall n a b, In (n, a) (d ++ m) -> In (n, b) (d ++ m) -> a = b) -> NoDup (map fst d) ->
    NoDup (map fst (fold_left (fun d ka => dict_set (fst ka) (snd ka) d) m d)) /\
    forall n a, In (n, a) (fold_left (fun d ka => dict_set (fst ka) (snd ka) d) m d) <-> In (n, a) (d ++ m)).
  { induction m as [|(k, v) m IH]; intros d F N; cbn [fold_left].
    - split; [exact N|]. intros n a. rewrite app_nil_r. reflexivity.
    - cbn [fst snd]. assert (E : forall n a, In (n, a) (dict_set k v d ++ m) <-> In (n, a) (d ++ (k, v) :: m)).
      { intros n a. rewrite !in_app_iff, (dict_set_in k v d N). cbn [In]. split.
        - intros [[(-> & ->)|(Hn & E)]|E]; auto.
        - intros [E|[E|E]]; auto; [|injection E as <- <-; auto]. destruct (string_dec n k) as [->|Hn]; auto.
          left. left. split; [reflexivity|]. apply (F k); apply in_app_iff; [left; exact E|right; left; reflexivity]. }
      destruct (IH (dict_set k v d)) as (I1 & I2).
      + intros n a b. rewrite !E. apply F.
      + apply dict_set_nodup. exact N.
      + split; [exact I1|]. intros n a. rewrite I2. apply E. }
  apply (G l []); [exact H|constructor].
Qed.
Lemma find_in {A} (d : list (string * A)) k a : NoDup (map fst d) -> (find k d = Some a <-> In (k, a) d).
Proof.
  induction d as [|(k', a') d IH]; intro N; cbn [find In]; [split; [discriminate|intros []]|].
  cbn [map fst] in N. inversion N as [|? ? N1 N2]; subst. destruct (String.eqb_spec k k') as [->|Hk].
  - split; [intro E; left; congruence|]. intros [E|E]; [congruence|]. destruct N1. change k' with (fst (k', a)). apply in_map. exact E.
  - rewrite (IH N2). split; [intro E; right; exact E|]. intros [E|E]; [congruence|exact E].
Qed.

(** ** Points.save to an archive *)
Lemma thm_save_npz p base info : letters info ->
  exists d, points_save p (String.append base ".npz") info = Ok (String.append base ".npz", NpzFile d) /\
    NoDup (map fst d) /\ forall name a, In (name, a) d <-> asked p info name a.
Proof.
  intro H. destruct (save_taken p (list_ascii_of_string info) H) as (l & E & T).
  destruct (dict_of_spec l) as (D1 & D2).
  { intros n a b A B. apply (taken_in _ _ _ T) in A. apply (taken_in _ _ _ T) in B. apply (attr_fun p n); tauto. }
  exists (dict_of l). split; [|split; [exact D1|]].
  - unfold points_save. rewrite E. cbn [bind].
    assert (Q : ends_with (String.append base ".npz") "npz" = true).
    { change ".npz" with (String.append "." "npz"). rewrite <- app_assoc_s. apply ends_app. }
    rewrite Q, ends_app. reflexivity.
  - intros name a. rewrite D2. apply (taken_in _ _ _ T).
Qed.

(** ** ... to lines of text *)
Lemma fmt6_near x : six_decimals (fmt6 x) x.
Proof.
  unfold six_decimals, fmt6. set (y := (x * qz 1000000)%Qc). set (f := qfloor y). set (r := (y - qz f)%Qc).
  assert (F : (qz f <= y)%Qc /\ (y < qz (f + 1))%Qc) by (apply qfloor_spec; reflexivity).
  assert (Ef : qz (f + 1) = (qz f + 1)%Qc) by (rewrite qz_add; reflexivity).
  set (b := qltb (Q2Qc (1 # 2)) r || (qeqb (Q2Qc (1 # 2)) r && Z.odd f)).
  split; [exists (if b then (f + 1)%Z else f); reflexivity|].
  set (h := Q2Qc (1 # 2)) in *. assert (Hh1 : (h + h <= 1)%Qc) by (vm_compute; discriminate). assert (Hh2 : (1 <= h + h)%Qc) by (vm_compute; discriminate).
  assert (Hhq : (1 / qz 2000000 = h / qz 1000000)%Qc) by (apply Qc_is_canon; vm_compute; reflexivity). clearbody h.
  assert (Xy : x = (y / qz 1000000)%Qc) by (unfold y; field; discriminate).
  clearbody y. unfold r in b. clear r. rewrite Ef in F. destruct F as (F1 & F2).
  assert (B : (qz (if b then (f + 1)%Z else f) <= y + h /\ y - h <= qz (if b then (f + 1)%Z else f))%Qc).
  { unfold b. clear b. clearbody f. destruct (qltb h (y - qz f)) eqn:E1; cbn [orb].
    - rewrite Ef. unfold qltb in E1. apply negb_true_iff in E1.
      assert (L : ~ (y - qz f <= h)%Qc). { intro L. apply Qle_bool_iff in L. congruence. }
      apply Qcnot_le_lt in L. set (qf := qz f) in *. clearbody qf. split; qclra.
    - assert (L : (y - qz f <= h)%Qc). { unfold qltb in E1. apply negb_false_iff in E1. apply Qle_bool_iff in E1. exact E1. }
      destruct (qeqb h (y - qz f)) eqn:E2; cbn [andb].
      + assert (R : (h <= y - qz f)%Qc) by (apply Qeq_bool_iff in E2; unfold Qcle; rewrite <- E2; apply Qle_refl).
        destruct (Z.odd f); rewrite ?Ef; set (qf := qz f) in *; clearbody qf; split; qclra.
      + set (qf := qz f) in *. clearbody qf. split; qclra. }
  clearbody b. set (t := qz (if b then (f + 1)%Z else f)) in *. clearbody t.
  rewrite Hhq. rewrite Xy. destruct B as (B1 & B2). unfold Qcdiv.
  assert (P : (0 <= / qz 1000000)%Qc) by (vm_compute; discriminate).
  split.
  - assert (M : ((y - h) * / qz 1000000 <= t * / qz 1000000)%Qc) by (apply Qcmult_le_compat_r; assumption).
    replace (y * / qz 1000000 - h * / qz 1000000)%Qc with ((y - h) * / qz 1000000)%Qc by ring. exact M.
  - assert (M : (t * / qz 1000000 <= (y + h) * / qz 1000000)%Qc) by (apply Qcmult_le_compat_r; assumption).
    replace (y * / qz 1000000 + h * / qz 1000000)%Qc with ((y + h) * / qz 1000000)%Qc by ring. exact M.
Qed.

(** ** Tables side by side *)
Lemma map_nth_all {A} (l : list A) d : map (fun i => nth i l d) (seq 0 (List.length l)) = l.
Proof.
  induction l as [|x l IH]; [reflexivity|]. cbn [List.length seq map nth]. f_equal. rewrite <- seq_shift, map_map. exact IH.
Qed.
Lemma beside_rows n a b : List.length a = n -> List.length b = n -> beside a b = map (fun i => nth i a [] ++ nth i b []) (seq 0 n).
Proof.
  intros <-. revert b. induction a as [|x a IH]; intros [|y b] H; try discriminate H; [reflexivity|].
  cbn [List.length seq map nth]. unfold beside. cbn [combine map fst snd]. f_equal. rewrite <- seq_shift, map_map. apply IH. simpl in H. lia.
Qed.
Lemma fold_beside n t : forall a, List.length a = n -> Forall (fun b => List.length b = n) t ->
  fold_left beside t a = map (fun i => rowcat i (a :: t)) (seq 0 n).
Proof.
  induction t as [|b t IH]; intros a Ha Ht; cbn [fold_left].
  - unfold rowcat. cbn [map concat]. rewrite <- Ha. rewrite <- (map_nth_all a []) at 1. apply map_ext. intro i. symmetry. apply app_nil_r.
  - inversion Ht as [|? ? Hb Ht']; subst. rewrite IH.
    + apply map_ext_in. intros i Hi. apply in_seq in Hi. unfold rowcat. cbn [map concat]. rewrite app_assoc. f_equal.
      rewrite (beside_rows (List.length a) a b eq_refl Hb).
      rewrite (nth_indep _ [] (nth 0 a [] ++ nth 0 b [])) by (rewrite map_length, seq_length; lia).
      rewrite (map_nth (fun i => nth i a [] ++ nth i b []) (seq 0 (List.length a)) 0 i). rewrite seq_nth by lia. reflexivity.
    + rewrite (beside_rows (List.length a) a b eq_refl Hb), map_length, seq_length. reflexivity.
    + exact Ht'.
Qed.
Lemma concat_cols_rows n l : l <> [] -> Forall (fun b => List.length b = n) l -> concat_cols l = Ok (map (fun i => rowcat i l) (seq 0 n)).
Proof.
  intros Hl H. destruct l as [|a t]; [congruence|]. inversion H as [|? ? Ha Ht]; subst. unfold concat_cols.
  assert (E : forallb (fun b => List.length b =? List.length a) t = true).
  { apply forallb_forall. intros b Hb. rewrite Forall_forall in Ht. apply Nat.eqb_eq. apply Ht. exact Hb. }
  rewrite E. f_equal. apply fold_beside; [reflexivity|exact Ht].
Qed.
Lemma attr_rows p name a : cloud_ok p -> attr p name a -> List.length a = npt p.
Proof.
  intros (N & F & L & B) [(_ & ->)|[(_ & n & E & ->)|[(_ & E)|[(_ & E)|(_ & b & E & ->)]]]].
  - apply map_length.
  - rewrite map_length. rewrite E in N. exact N.
  - rewrite E in F. exact F.
  - rewrite E in L. exact L.
  - rewrite map_length. rewrite E in B. exact B.
Qed.
Lemma taken_rows p info l : cloud_ok p -> taken p info l -> Forall (fun b => List.length b = npt p) (map snd l).
Proof. intros O T. induction T; cbn [map snd]; [constructor|assumption|]. constructor; [eapply attr_rows; eassumption|assumption]. Qed.
Lemma taken_whole p info l i : cloud_ok p -> i < npt p -> taken p info l -> whole_row p i info (rowcat i (map snd l)).
Proof.
  intros O Hi T. induction T as [|c nm info l Hc Ha T IH|c nm b info l Hc Ha T IH]; cbn [map snd].
  - constructor.
  - eapply wr_absent; eassumption.
  - unfold rowcat. cbn [map concat]. apply (wr_take p i c nm b); [exact Hc|exact Ha| |exact IH]. apply nth_error_nth'. rewrite (attr_rows p nm b O Ha). exact Hi.
Qed.
Lemma ends_xyz_true b : ends_with (String.append b ".xyz") "xyz" = true.
Proof. change ".xyz" with (String.append "." "xyz"). rewrite <- app_assoc_s. apply ends_app. Qed.
Lemma thm_save_xyz p base info name a : cloud_ok p -> letters info -> asked p info name a ->
  exists lines, points_save p (String.append base ".xyz") info = Ok (String.append base ".xyz", XyzFile lines) /\
    List.length lines = npt p /\
    forall i line, nth_error lines i = Some line -> exists r, whole_row p i (list_ascii_of_string info) r /\ Forall2 six_decimals line r.
Proof.
  intros O H A. destruct (save_taken p (list_ascii_of_string info) H) as (l & E & T).
  assert (Hl : map snd l <> []). { apply (taken_in _ _ _ T) in A. destruct l; [destruct A|discriminate]. }
  eexists. split; [|split].
  - unfold points_save. rewrite E. cbn [bind]. rewrite ends_xyz, ends_xyz_true, (concat_cols_rows (npt p) _ Hl (taken_rows p _ l O T)). reflexivity.
  - rewrite map_length, map_length, seq_length. reflexivity.
  - intros i line Hi. assert (Li : i < npt p).
    { assert (Q : nth_error (map (map fmt6) (map (fun i => rowcat i (map snd l)) (seq 0 (npt p)))) i <> None) by congruence.
      apply nth_error_Some in Q. rewrite !map_length, seq_length in Q. exact Q. }
    exists (rowcat i (map snd l)). split; [apply taken_whole; assumption|].
    rewrite nth_error_map, nth_error_map in Hi. rewrite (nth_error_nth' (seq 0 (npt p)) 0) in Hi by (rewrite seq_length; exact Li).
    rewrite seq_nth in Hi by exact Li. cbn [option_map] in Hi. injection Hi as <-. clear. generalize (rowcat i (map snd l)) as r.
    induction r; cbn [map]; constructor; [apply fmt6_near|assumption].
Qed.
Lemma thm_save_xyz_none p base info : letters info -> (forall name a, ~ asked p info name a) ->
  points_save p (String.append base ".xyz") info = Err ValueError.
Proof.
  intros H A. destruct (save_taken p (list_ascii_of_string info) H) as (l & E & T).
  destruct l as [|(n, a) l]; [|exfalso; apply (A n a); apply (taken_in _ _ _ T); left; reflexivity].
  unfold points_save. rewrite E. cbn [bind]. rewrite ends_xyz, ends_xyz_true. reflexivity.
Qed.
Lemma save_cols_err p info c : In c info -> (forall n, ~ letter c n) -> save_cols p info = Err KeyError.
Proof.
  induction info as [|x info IH]; [intros []|]. intros Hc Hn. cbn [save_cols].
  destruct (save_attr p (up_char x)) as [(n, o)|e] eqn:Ex; cbn [bind].
  - destruct Hc as [<-|Hc]; [rewrite (letter_none p x Hn) in Ex; discriminate Ex|]. rewrite (IH Hc Hn). reflexivity.
  - unfold save_attr in Ex. repeat (destruct (Ascii.eqb _ _); [discriminate Ex|]). injection Ex as <-. reflexivity.
Qed.
Lemma thm_save_errors p filename info :
  ((exists c, In c (list_ascii_of_string info) /\ forall n, ~ letter c n) -> points_save p filename info = Err KeyError) /\
  (letters info -> (forall b, filename <> String.append b "npz") -> (forall b, filename <> String.append b "xyz") ->
   points_save p filename info = Err ValueError).
Proof.
  split.
  - intros (c & Hc & Hn). unfold points_save. rewrite (save_cols_err p _ c Hc Hn). reflexivity.
  - intros H N X. unfold points_save. destruct (save_taken p _ H) as (l & E & _). rewrite E. cbn [bind]. rewrite (ends_not _ _ N), (ends_not _ _ X). reflexivity.
Qed.

(** ** Reading an archive *)
Lemma asked_fun p info name a b : asked p info name a -> asked p info name b -> a = b.
Proof. intros (A & _) (B & _). eapply attr_fun; eassumption. Qed.
Lemma get_opt p info d name o : NoDup (map fst d) -> (forall n a, In (n, a) d <-> asked p info n a) -> asked_opt p info name o ->
  npz_get d name = match o with Some a => Ok a | None => Err KeyError end.
Proof.
  intros N D H. unfold npz_get. destruct o as [a|]; simpl in H.
  - apply D in H. apply (find_in d name a N) in H. rewrite H. reflexivity.
  - destruct (find name d) as [a|] eqn:E; [|reflexivity]. apply (find_in d name a N) in E. apply D in E. destruct (H a E).
Qed.
Lemma no_colors p info : asked_opt p info "colors" None.
Proof. intros a ([(E & _)|[(E & _)|[(E & _)|[(E & _)|(E & _)]]]] & _); discriminate E. Qed.
Lemma thm_read_npz f32 p base info f name pts nrm lab (hn hc hl : bool) : letters info ->
  points_save p (String.append base ".npz") info = Ok (name, f) ->
  asked_opt p info "points" pts -> asked_opt p info "normals" nrm -> asked_opt p info "labels" lab ->
  (pts <> None -> served hn nrm -> hc = false -> served hl lab ->
   exists a, pts = Some a /\
   read_file f32 hn hc hl name f =
     Ok (("points", Floats (map (map f32) a)) :: entry hn "normals" (fun t => Floats (map (map f32) t)) nrm ++
         entry hl "labels" (fun t => Ints (map (map qtrunc) t)) lab)) /\
  (pts = None \/ (hn = true /\ nrm = None) \/ hc = true \/ (hl = true /\ lab = None) -> read_file f32 hn hc hl name f = Err KeyError).
Proof.
  intros H E Ap An Al. destruct (thm_save_npz p base info H) as (d & E' & N & D). rewrite E' in E. injection E as <- <-.
  unfold read_file. change ".npz" with (String "." "npz"). rewrite suffix_app by reflexivity. cbn [String.eqb Ascii.eqb Bool.eqb].
  unfold read_npz. rewrite (get_opt p info d "points" pts N D Ap), (get_opt p info d "normals" nrm N D An), (get_opt p info d "labels" lab N D Al),
    (get_opt p info d "colors" None N D (no_colors p info)).
  split.
  - intros P Sn -> Sl. destruct pts as [a|]; [|congruence]. exists a. split; [reflexivity|]. cbn [bind].
    unfold served in Sn, Sl. unfold entry.
    destruct hn; [destruct nrm; [|destruct (Sn eq_refl eq_refl)]|]; (destruct hl; [destruct lab; [|destruct (Sl eq_refl eq_refl)]|]); reflexivity.
  - destruct pts as [a|]; [|reflexivity]. cbn [bind].
    intros [X|[(-> & ->)|[->|(-> & ->)]]]; [discriminate X|reflexivity| |].
    + destruct hn; [destruct nrm|]; reflexivity.
    + destruct hn; [destruct nrm|]; (destruct hc; reflexivity).
Qed.
