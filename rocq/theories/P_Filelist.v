(** C108-C109: the file lists of the data sets. *)
From Coq Require Import String Ascii List ZArith Bool QArith Qcanon Sorted Permutation Lia.
From Verif Require Import Res Num NumFacts Tools SpecTools Files Filelist SpecFilelist FilelistFacts.
Import ListNotations.
Local Open Scope string_scope.
Local Open Scope list_scope.
Local Open Scope nat_scope.

(** C108: the list of ModelNet40 does not depend on the order in which the folders are
    read: it goes through the categories in alphabetical order and takes from each the
    first files, in alphabetical order, up to the least number not below the rounded
    product of their number and the ratio; the label is the number of the category. *)
Theorem C108_modelnet : forall fl root inside (train : bool) suffix, rounds fl -> List.length root = 40 -> NoDup root ->
  (forall d, NoDup (inside d) /\ small (inside d)) ->
  let sub := if train then "train" else "test" in
  forall folders names, in_order (fun _ => True) root folders ->
  (forall f, In f folders -> in_order (has_suffix suffix) (inside (String.append f (String "/" sub))) (names f)) ->
  forall ratio quota, (ratio <= 1)%Qc -> is_quota fl ratio quota ->
  get_filelist fl root inside train suffix ratio =
  Ok (flat_map (fun f => map (path3 f sub) (firstn (quota (List.length (names f))) (names f))) folders,
      flat_map (fun kf => repeat (fst kf) (quota (List.length (names (snd kf))))) (combine (seq 0 40) folders)).
Proof. exact thm_modelnet. Qed.
Print Assumptions C108_modelnet.

(** C108: the list for a smaller ratio is contained in that for a larger one, with the same
    labels. *)
Theorem C108_nested : forall fl root inside train suffix, rounds fl -> List.length root = 40 -> NoDup root ->
  (forall d, NoDup (inside d) /\ small (inside d)) ->
  forall a b l1 c1 l2 c2, (a <= b)%Qc -> (b <= 1)%Qc ->
  get_filelist fl root inside train suffix a = Ok (l1, c1) -> get_filelist fl root inside train suffix b = Ok (l2, c2) ->
  incl (combine l1 c1) (combine l2 c2).
Proof. exact thm_ratio. Qed.
Print Assumptions C108_nested.

(** C108: for the ratio 1 every file is listed. *)
Theorem C108_all : forall fl root inside (train : bool) suffix, rounds fl -> List.length root = 40 -> NoDup root ->
  (forall d, NoDup (inside d) /\ small (inside d)) ->
  let sub := if train then "train" else "test" in
  forall f x, In f root -> In x (inside (String.append f (String "/" sub))) -> has_suffix suffix x ->
  exists l c, get_filelist fl root inside train suffix 1 = Ok (l, c) /\ In (path3 f sub x) l.
Proof. exact thm_all. Qed.
Print Assumptions C108_all.

(** C108: for every positive ratio that is a floating-point number each category with a file
    is represented. *)
Theorem C108_represented : forall fl root inside (train : bool) suffix, rounds fl -> List.length root = 40 -> NoDup root ->
  (forall d, NoDup (inside d) /\ small (inside d)) ->
  let sub := if train then "train" else "test" in
  forall ratio f x, (0 < ratio)%Qc -> (ratio <= 1)%Qc -> fl ratio = ratio ->
  In f root -> In x (inside (String.append f (String "/" sub))) -> has_suffix suffix x ->
  exists l c y, get_filelist fl root inside train suffix ratio = Ok (l, c) /\ In (path3 f sub y) l.
Proof. exact thm_some. Qed.
Print Assumptions C108_represented.

(** C108: a root folder without exactly 40 entries is an AssertionError. *)
Theorem C108_not40 : forall fl root inside train suffix ratio, List.length root <> 40 -> get_filelist fl root inside train suffix ratio = Err AssertionError.
Proof. exact thm_not40. Qed.
Print Assumptions C108_not40.

(** C108: the split of image2shape takes the first four fifths, rounded down, of each
    category, in alphabetical order, for training. *)
Theorem C108_split : forall fl img pts files, rounds8 fl -> (forall c, NoDup (img c) /\ small (img c)) ->
  (forall c, In c i2s_categories -> in_order (fun f => In (String.append f ".ply") (pts c)) (img c) (files c)) ->
  create_filelist fl img pts =
    (flat_map (fun c => map (fun f => String.append c (String "/" f)) (firstn (4 * List.length (files c) / 5) (files c))) i2s_categories,
     flat_map (fun c => map (fun f => String.append c (String "/" f)) (skipn (4 * List.length (files c) / 5) (files c))) i2s_categories).
Proof. exact thm_split. Qed.
Print Assumptions C108_split.

(** C108: together the two lists hold every shape that has both an image and a point cloud,
    once. *)
Theorem C108_split_all : forall fl img pts tr te, rounds8 fl -> (forall c, NoDup (img c) /\ small (img c)) -> create_filelist fl img pts = (tr, te) ->
  NoDup (tr ++ te) /\
  forall l, In l (tr ++ te) <-> exists c f, In c i2s_categories /\ In f (img c) /\ In (String.append f ".ply") (pts c) /\ l = String.append c (String "/" f).
Proof. exact thm_split_all. Qed.
Print Assumptions C108_split_all.

(** C108: the lists of SemanticKITTI: sequences 00 to 10 but 08 for training, 08 for
    validation, 11 to 21 for the test, every scan once; the fourth list is the first
    followed by the second. *)
Theorem C108_kitti : forall inside, (forall d, NoDup (inside d)) ->
  exists tr va te, kitti_lists inside = [("train", tr); ("val", va); ("test", te); ("train_val", tr ++ va)] /\
    NoDup (tr ++ va ++ te) /\
    (forall l, In l tr <-> exists i x, i <= 10 /\ i <> 8 /\ In x (inside (velodyne i)) /\ l = scan_line i x) /\
    (forall l, In l va <-> exists x, In x (inside (velodyne 8)) /\ l = scan_line 8 x) /\
    (forall l, In l te <-> exists i x, 11 <= i <= 21 /\ In x (inside (velodyne i)) /\ l = scan_line i x).
Proof. exact thm_kitti. Qed.
Print Assumptions C108_kitti.

(** C109: if no line contains the code of another category than its own, each shape is
    listed for its own category alone, in the given order, with its number.  Missing:
    lines that contain another code, see below. *)
Theorem C109_partial : forall tr va te,
  (forall ih, In ih (tr ++ va ++ te) -> fst ih < 16 /\
     forall k c', nth_error seg_categories k = Some c' -> occurs c' (shape_line (nth (fst ih) seg_categories "") (snd ih)) -> k = fst ih) ->
  let line := fun ih => shape_line (nth (fst ih) seg_categories "") (snd ih) in
  List.length (seg_lists (map line tr) (map line va) (map line te)) = 16 /\
  forall j c, nth_error seg_categories j = Some c ->
    nth_error (seg_lists (map line tr) (map line va) (map line te)) j =
    Some (map (fun ih => shape_entry c (snd ih) j) (filter (fun ih => fst ih =? j) (tr ++ va)),
          map (fun ih => shape_entry c (snd ih) j) (filter (fun ih => fst ih =? j) te)).
Proof. exact thm_seg_lists. Qed.
Print Assumptions C109_partial.

(** C109: a shape whose name contains the code of another category is listed for both, the
    second time with the number of the wrong category. *)
Theorem C109_refuted : forall i j c d a b, nth_error seg_categories i = Some c -> nth_error seg_categories j = Some d ->
  let h := String.append a (String.append d b) in
  exists li lj, nth_error (seg_lists [shape_line c h] [] []) i = Some ([shape_entry c h i], li) /\
    nth_error (seg_lists [shape_line c h] [] []) j = Some ([shape_entry c h j], lj).
Proof. exact thm_seg_twice. Qed.
Print Assumptions C109_refuted.

(** The hypotheses are met: forty folders with three files each, a third of them taken. *)
Example ex_modelnet : let root := map (fun i => String (ascii_of_nat (65 + i)) EmptyString) (rev (seq 0 40)) in
  let inside := fun _ : string => ["b.off"; "a.txt"; "c.off"; "a.off"] in
  rounds (fun x => x) /\ List.length root = 40 /\ NoDup root /\ (forall d, NoDup (inside d) /\ small (inside d)) /\
  exists l c, get_filelist (fun x => x) root inside true "off" (Q2Qc (1 # 2)) = Ok (l, c) /\
    firstn 3 l = ["A/train/a.off"; "A/train/b.off"; "B/train/a.off"] /\ firstn 3 c = [0; 0; 1] /\ List.length l = 80.
Proof.
  intros root inside. split; [split; [intros x y H; exact H|reflexivity]|]. split; [reflexivity|]. split.
  { unfold root. vm_compute. repeat (constructor; [simpl; intuition discriminate|]). constructor. }
  split; [intro d; split; [repeat (constructor; [simpl; intuition discriminate|]); constructor|unfold small; simpl; lia]|].
  eexists. eexists. split; [vm_compute; reflexivity|]. repeat split; reflexivity.
Qed.
Example ex_round8 : rounds8 (fun x => x).
Proof. split; [intros x y H; exact H|reflexivity]. Qed.
Example ex_codes : forall k c', nth_error seg_categories k = Some c' -> occurs c' (shape_line (nth 4 seg_categories "") "1a2b3c") -> k = 4.
Proof.
  intros k c' Hk O. apply contains_iff in O. do 16 (destruct k as [|k]; [injection Hk as <-; vm_compute in O; congruence|]). destruct k; discriminate Hk.
Qed.
