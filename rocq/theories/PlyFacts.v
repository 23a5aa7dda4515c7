(** Facts on ply files: what is written and what is read back. *)
From Coq Require Import String Ascii List ZArith Bool QArith Qcanon Qround Lia Lqa.
From Verif Require Import Res Num NumFacts Points Files SpecFiles FilesFacts.
Import ListNotations.
Local Open Scope string_scope.
Local Open Scope list_scope.
Local Open Scope nat_scope.

(** ** Folder names *)
Lemma upto_app a b : has_char "/" b = false -> upto_slash (String.append a (String "/" b)) = String.append a "/".
Proof.
  intro H. induction a as [|c a IH]; cbn [String.append upto_slash].
  - cbn [has_char]. change (Ascii.eqb "/" "/") with true. cbn [orb]. f_equal. destruct b as [|x b]; [reflexivity|]. cbn [upto_slash]. rewrite H. reflexivity.
  - cbn [has_char]. rewrite has_app. cbn [has_char]. change (Ascii.eqb "/" "/") with true. rewrite orb_true_l, !orb_true_r. f_equal. exact IH.
Qed.
Lemma all_slash_app a b : all_slash (String.append a b) = all_slash a && all_slash b.
Proof. induction a as [|c a IH]; [reflexivity|]. cbn [String.append all_slash]. rewrite IH. apply andb_assoc. Qed.
Lemma strip_app d c b : Ascii.eqb c "/" = false -> all_slash b = true -> strip_slash (String.append d (String c b)) = String.append d (String c EmptyString).
Proof.
  intros Hc Hb. induction d as [|x d IH]; cbn [String.append strip_slash].
  - cbn [all_slash]. rewrite Hc. cbn [andb]. f_equal. destruct b as [|y b]; [reflexivity|]. cbn [strip_slash]. rewrite Hb. reflexivity.
  - cbn [all_slash]. rewrite all_slash_app. cbn [all_slash]. rewrite Hc. cbn [andb]. rewrite !andb_false_r. f_equal. exact IH.
Qed.
Lemma dirname_path d c b : Ascii.eqb c "/" = false -> has_char "/" b = false ->
  dirname (String.append (String.append d (String c EmptyString)) (String "/" b)) = String.append d (String c EmptyString).
Proof.
  intros Hc Hb. unfold dirname. rewrite (upto_app _ b Hb). rewrite app_assoc_s. cbn [String.append].
  rewrite all_slash_app. cbn [all_slash]. rewrite Hc. cbn [andb]. rewrite andb_false_r. apply strip_app; [exact Hc|reflexivity].
Qed.
Lemma dirname_bare b : has_char "/" b = false -> dirname b = "".
Proof. intro H. unfold dirname. destruct b as [|c b]; [reflexivity|]. cbn [upto_slash]. rewrite H. reflexivity. Qed.

(** ** Rows *)
Lemma cast_row_ok f32 types : forall r, List.length r = List.length types ->
  cast_row f32 types r = Ok (map (fun dx => cast f32 (fst dx) (snd dx)) (combine (map snd types) r)).
Proof.
  induction types as [|(n, d) types IH]; intros [|x r] H; try discriminate H; [reflexivity|].
  cbn [cast_row map combine fst snd]. rewrite IH by (simpl in H; lia). reflexivity.
Qed.
Lemma cast_row_bad f32 types : forall r, List.length r <> List.length types -> cast_row f32 types r = Err ValueError.
Proof.
  induction types as [|(n, d) types IH]; intros [|x r] H; try reflexivity; [destruct (H eq_refl)|].
  cbn [cast_row]. rewrite IH by (simpl in H; lia). reflexivity.
Qed.
Lemma mapM_total {A B} (f : A -> res B) (g : A -> B) l : (forall x, In x l -> f x = Ok (g x)) -> mapM f l = Ok (map g l).
Proof.
  induction l as [|x l IH]; intro H; [reflexivity|]. cbn [mapM map]. rewrite (H x (or_introl eq_refl)). cbn [bind].
  rewrite IH by (intros y Hy; apply H; right; exact Hy). reflexivity.
Qed.
Lemma stack3_map {A} (f g h : A -> Qc) v : stack3 (map f v) (map g v) (map h v) = map (fun r => [f r; g r; h r]) v.
Proof. unfold stack3. induction v as [|x v IH]; [reflexivity|]. cbn [map combine]. cbn [fst snd]. f_equal. exact IH. Qed.
Lemma row3 n t i : sized n 3 t -> i < n -> exists a b c, nth i t [] = [a; b; c] /\ In [a; b; c] t.
Proof.
  intros (L & F) Hi. assert (I : In (nth i t []) t) by (apply nth_In; lia). rewrite Forall_forall in F. pose proof (F _ I) as E.
  destruct (nth i t []) as [|a [|b [|c [|]]]]; try discriminate E. exists a, b, c. split; [reflexivity|exact I].
Qed.
Lemma row1 n t i : sized n 1 t -> i < n -> exists a, nth i t [] = [a] /\ In [a] t.
Proof.
  intros (L & F) Hi. assert (I : In (nth i t []) t) by (apply nth_In; lia). rewrite Forall_forall in F. pose proof (F _ I) as E.
  destruct (nth i t []) as [|a [|]]; try discriminate E. exists a. split; [reflexivity|exact I].
Qed.
Lemma table_seq n w (t : list (list Qc)) : sized n w t -> t = map (fun i => nth i t []) (seq 0 n).
Proof. intros (<- & _). symmetry. apply map_nth_all. Qed.
Lemma flat_seq n t : sized n 1 t -> flat t = map (fun i => qtrunc (nth 0 (nth i t []) 0%Qc)) (seq 0 n).
Proof.
  intros (<- & F). unfold flat. induction t as [|r t IH]; [reflexivity|]. inversion F as [|? ? Hr F']; subst.
  destruct r as [|x [|]]; try discriminate Hr. cbn [concat app map List.length seq nth]. f_equal. rewrite <- seq_shift, map_map. apply IH. exact F'.
Qed.

Section Round.
Variable f32 : Qc -> Qc.
Hypothesis f32_idem : forall x, f32 (f32 x) = f32 x.
Hypothesis f32_byte : forall k, (0 <= k <= 255)%Z -> f32 (qz k) = qz k.

Lemma byte_cast t r x : bytes t -> In r t -> In x r -> cast f32 U1 x = x /\ f32 x = x.
Proof.
  intros B Hr Hx. unfold bytes in B. rewrite Forall_forall in B. specialize (B r Hr). rewrite Forall_forall in B. destruct (B x Hx) as (k & K & ->).
  split; [|apply f32_byte; exact K]. cbn [cast]. rewrite qtrunc_qz. rewrite Z.mod_small by lia. reflexivity.
Qed.

(** The row of point [i] in the file. *)
Definition tables (points : list (list Qc)) (normals colors labels : option (list (list Qc))) := points :: opt_list normals ++ opt_list colors ++ opt_list labels.
Lemma tables_rows n points normals colors labels : sized n 3 points -> osized n 3 normals -> osized n 3 colors -> osized n 1 labels ->
  Forall (fun b => List.length b = n) (tables points normals colors labels).
Proof.
  intros P N C L. unfold tables. constructor; [apply P|]. apply Forall_app. split; [|apply Forall_app; split].
  - destruct normals; cbn [opt_list]; [constructor; [apply N|constructor]|constructor].
  - destruct colors; cbn [opt_list]; [constructor; [apply C|constructor]|constructor].
  - destruct labels; cbn [opt_list]; [constructor; [apply L|constructor]|constructor].
Qed.
Definition cast_all (types : list (string * dtype)) (r : list Qc) := map (fun dx => cast f32 (fst dx) (snd dx)) (combine (map snd types) r).

Lemma element_ok n points normals colors labels : sized n 3 points -> osized n 3 normals -> osized n 3 colors -> osized n 1 labels ->
  ply_element f32 points normals colors (option_map Lab2 labels) =
  Ok (PlyFile (ply_types (some normals) (some colors) (some labels))
        (map (fun i => cast_all (ply_types (some normals) (some colors) (some labels)) (rowcat i (tables points normals colors labels))) (seq 0 n))).
Proof.
  intros P N C L. unfold ply_element.
  assert (E : label_table (option_map Lab2 labels) = Ok labels) by (destruct labels; reflexivity). rewrite E. cbn [bind].
  fold (tables points normals colors labels). rewrite (concat_cols_rows n); [|discriminate|apply tables_rows; assumption]. cbn [bind].
  rewrite (mapM_total _ (cast_all (ply_types (some normals) (some colors) (some labels)))).
  - cbn [bind]. rewrite map_map. reflexivity.
  - intros r Hr. apply in_map_iff in Hr. destruct Hr as (i & <- & Hi). apply in_seq in Hi. apply cast_row_ok.
    destruct (row3 n points i P) as (a & b & c & Ep & _); [lia|]. unfold tables, rowcat. cbn [map concat]. rewrite Ep.
    assert (Hn : List.length (concat (map (fun a => nth i a []) (opt_list normals))) = if some normals then 3 else 0).
    { destruct normals as [t|]; [|reflexivity]. destruct (row3 n t i N) as (? & ? & ? & Et & _); [lia|]. cbn [opt_list map concat]. rewrite Et. reflexivity. }
    assert (Hc : List.length (concat (map (fun a => nth i a []) (opt_list colors))) = if some colors then 3 else 0).
    { destruct colors as [t|]; [|reflexivity]. destruct (row3 n t i C) as (? & ? & ? & Et & _); [lia|]. cbn [opt_list map concat]. rewrite Et. reflexivity. }
    assert (Hl : List.length (concat (map (fun a => nth i a []) (opt_list labels))) = if some labels then 1 else 0).
    { destruct labels as [t|]; [|reflexivity]. destruct (row1 n t i L) as (? & Et & _); [lia|]. cbn [opt_list map concat]. rewrite Et. reflexivity. }
    rewrite !map_app, !concat_app, !app_length, Hn, Hc, Hl. unfold ply_types. rewrite !app_length.
    destruct (some normals), (some colors), (some labels); reflexivity.
Qed.

Lemma get3_ok types v x y z jx jy jz : column types x = Some jx -> column types y = Some jy -> column types z = Some jz ->
  ply_get3 types v x y z = Ok (map (fun r => [nth jx r 0%Qc; nth jy r 0%Qc; nth jz r 0%Qc]) v).
Proof. intros X Y Z0. unfold ply_get3, ply_get. rewrite X, Y, Z0. cbn [bind]. rewrite stack3_map. reflexivity. Qed.

(** The parts of the file. *)
Section Parts.
Variables (n : nat) (points : list (list Qc)) (normals colors labels : option (list (list Qc))).
Hypothesis P : sized n 3 points.
Hypothesis N : osized n 3 normals.
Hypothesis C : osized n 3 colors.
Hypothesis L : osized n 1 labels.
Hypothesis CB : obytes colors.
Hypothesis LB : obytes labels.
Let types := ply_types (some normals) (some colors) (some labels).
Let v := map (fun i => cast_all types (rowcat i (tables points normals colors labels))) (seq 0 n).

Lemma part_points : exists t, ply_get3 types v "x" "y" "z" = Ok t /\ map (map f32) t = map (map f32) points.
Proof.
  eexists. split; [apply (get3_ok types v "x" "y" "z" 0 1 2); reflexivity|].
  unfold v. rewrite !map_map. etransitivity; [|apply f_equal; symmetry; apply (table_seq n 3 points P)]. rewrite map_map. apply map_ext_in. intros i Hi. apply in_seq in Hi.
  destruct (row3 n points i P) as (a & b & c & E & _); [lia|].
  unfold rowcat, tables, types, ply_types. cbn [map concat app opt_list]. rewrite E. unfold cast_all. cbn [map snd app combine nth fst cast].
  rewrite !f32_idem. reflexivity.
Qed.
Lemma part_normals : match normals with
  | Some a => exists t, ply_get3 types v "nx" "ny" "nz" = Ok t /\ map (map f32) t = map (map f32) a
  | None => ply_get3 types v "nx" "ny" "nz" = Err ValueError end.
Proof.
  unfold types, v. destruct normals as [t|]; cbn [some] in *.
  - eexists. split; [apply (get3_ok _ _ "nx" "ny" "nz" 3 4 5); reflexivity|].
    rewrite !map_map. etransitivity; [|apply f_equal; symmetry; apply (table_seq n 3 t N)]. rewrite map_map. apply map_ext_in. intros i Hi. apply in_seq in Hi.
    destruct (row3 n points i P) as (a & b & c & E & _); [lia|]. destruct (row3 n t i N) as (a' & b' & c' & E' & _); [lia|].
    unfold rowcat, tables, types, ply_types. cbn [map concat app opt_list some]. rewrite E, E'. unfold cast_all. cbn [map snd app combine nth fst cast].
    rewrite !f32_idem. reflexivity.
  - destruct (some colors), (some labels); reflexivity.
Qed.
Lemma part_colors : match colors with
  | Some a => exists t, ply_get3 types v "red" "green" "blue" = Ok t /\ map (map f32) t = a
  | None => ply_get3 types v "red" "green" "blue" = Err ValueError end.
Proof.
  unfold types, v. destruct colors as [t|]; cbn [some] in *.
  - destruct normals as [s|]; cbn [some] in *.
    + eexists. split; [apply (get3_ok _ _ "red" "green" "blue" 6 7 8); reflexivity|].
      rewrite !map_map. etransitivity; [|symmetry; apply (table_seq n 3 t C)]. apply map_ext_in. intros i Hi. apply in_seq in Hi.
      destruct (row3 n points i P) as (a & b & c & E & _); [lia|]. destruct (row3 n t i C) as (a' & b' & c' & E' & I); [lia|].
      destruct (row3 n s i N) as (a2 & b2 & c2 & E2 & _); [lia|].
      unfold rowcat, tables, types, ply_types. cbn [map concat app opt_list some]. rewrite E, E', E2. unfold cast_all. cbn [map snd app combine nth fst].
      destruct (byte_cast t _ a' CB I) as (-> & ->); [left; reflexivity|]. destruct (byte_cast t _ b' CB I) as (-> & ->); [right; left; reflexivity|].
      destruct (byte_cast t _ c' CB I) as (-> & ->); [right; right; left; reflexivity|]. reflexivity.
    + eexists. split; [apply (get3_ok _ _ "red" "green" "blue" 3 4 5); reflexivity|].
      rewrite !map_map. etransitivity; [|symmetry; apply (table_seq n 3 t C)]. apply map_ext_in. intros i Hi. apply in_seq in Hi.
      destruct (row3 n points i P) as (a & b & c & E & _); [lia|]. destruct (row3 n t i C) as (a' & b' & c' & E' & I); [lia|].
      unfold rowcat, tables, types, ply_types. cbn [map concat app opt_list some]. rewrite E, E'. unfold cast_all. cbn [map snd app combine nth fst].
      destruct (byte_cast t _ a' CB I) as (-> & ->); [left; reflexivity|]. destruct (byte_cast t _ b' CB I) as (-> & ->); [right; left; reflexivity|].
      destruct (byte_cast t _ c' CB I) as (-> & ->); [right; right; left; reflexivity|]. reflexivity.
  - destruct (some normals), (some labels); reflexivity.
Qed.
Lemma part_labels : match labels with
  | Some a => exists t, ply_get types v "label" = Ok t /\ map qtrunc t = flat a
  | None => ply_get types v "label" = Err ValueError end.
Proof.
  unfold types, v. destruct labels as [t|]; cbn [some] in *.
  - destruct normals as [s|], colors as [u|]; cbn [some] in *.
    all: eexists; (split; [unfold ply_get; reflexivity|]).
    all: rewrite !map_map, (flat_seq n t L); apply map_ext_in; intros i Hi; apply in_seq in Hi;
      destruct (row3 n points i P) as (a & b & c & E & _); [lia|]; destruct (row1 n t i L) as (x & Ex & I); [lia|];
      try (destruct (row3 n s i N) as (a1 & b1 & c1 & E1 & _); [lia|]); try (destruct (row3 n u i C) as (a2 & b2 & c2 & E2 & _); [lia|]);
      unfold rowcat, tables, types, ply_types; cbn [map concat app opt_list some]; rewrite E, Ex; try rewrite E1; try rewrite E2;
      unfold cast_all; cbn [map snd app combine nth fst];
      (destruct (byte_cast t _ x LB I) as (-> & _); [left; reflexivity|]); reflexivity.
  - destruct (some normals), (some colors); reflexivity.
Qed.

Lemma read_back hn hc hl :
  (served hn normals -> served hc colors -> served hl labels ->
   read_ply f32 hn hc hl types v =
     Ok (("points", Floats (map (map f32) points)) :: entry hn "normals" (fun t => Floats (map (map f32) t)) normals ++
         entry hc "colors" Floats colors ++ entry hl "labels" (fun t => IntVec (flat t)) labels)) /\
  ((hn = true /\ normals = None) \/ (hc = true /\ colors = None) \/ (hl = true /\ labels = None) ->
   read_ply f32 hn hc hl types v = Err ValueError).
Proof.
  destruct part_points as (tp & Ep & Qp). pose proof part_normals as Pn. pose proof part_colors as Pc. pose proof part_labels as Pl.
  unfold read_ply. rewrite Ep. cbn [bind]. rewrite Qp. unfold served, entry. split.
  - intros Sn Sc Sl.
    assert (En : (if hn then a <- ply_get3 types v "nx" "ny" "nz";; Ok [("normals", Floats (map (map f32) a))] else Ok []) =
      Ok (if hn then match normals with Some a => [("normals", Floats (map (map f32) a))] | None => [] end else [])).
    { destruct hn; [|reflexivity]. destruct normals; [|destruct (Sn eq_refl eq_refl)]. destruct Pn as (t & -> & <-). reflexivity. }
    assert (Ec : (if hc then a <- ply_get3 types v "red" "green" "blue";; Ok [("colors", Floats (map (map f32) a))] else Ok []) =
      Ok (if hc then match colors with Some a => [("colors", Floats a)] | None => [] end else [])).
    { destruct hc; [|reflexivity]. destruct colors; [|destruct (Sc eq_refl eq_refl)]. destruct Pc as (t & -> & <-). reflexivity. }
    assert (El : (if hl then a <- ply_get types v "label";; Ok [("labels", IntVec (map qtrunc a))] else Ok []) =
      Ok (if hl then match labels with Some a => [("labels", IntVec (flat a))] | None => [] end else [])).
    { destruct hl; [|reflexivity]. destruct labels; [|destruct (Sl eq_refl eq_refl)]. destruct Pl as (t & -> & <-). reflexivity. }
    rewrite En, Ec, El. reflexivity.
  - intro B.
    destruct hn; [destruct normals as [t|] eqn:Hn; [destruct Pn as (t1 & -> & _)|rewrite Pn; reflexivity]|]; cbn [bind].
    all: (destruct hc; [destruct colors as [u|] eqn:Hc; [destruct Pc as (t2 & -> & _)|rewrite Pc; reflexivity]|]; cbn [bind]).
    all: (destruct hl; [destruct labels as [w|] eqn:Hl; [destruct Pl as (t3 & -> & _)|rewrite Pl; reflexivity]|]; cbn [bind]).
    all: destruct B as [(? & ?)|[(? & ?)|(? & ?)]]; discriminate.
Qed.
End Parts.
End Round.

(** ** The theorems *)
Lemma read_ply_name f32 hn hc hl b t v : read_file f32 hn hc hl (String.append b ".ply") (PlyFile t v) = read_ply f32 hn hc hl t v.
Proof. unfold read_file. change ".ply" with (String "." "ply"). rewrite suffix_app by reflexivity. reflexivity. Qed.
Lemma thm_ply_round f32 have d c base n points normals colors labels :
  (forall x, f32 (f32 x) = f32 x) -> (forall k, (0 <= k <= 255)%Z -> f32 (qz k) = qz k) ->
  c <> "/"%char -> has_char "/" base = false ->
  sized n 3 points -> osized n 3 normals -> osized n 3 colors -> osized n 1 labels -> obytes colors -> obytes labels ->
  let dir := String.append d (String c EmptyString) in
  let name := String.append dir (String "/" (String.append base ".ply")) in
  exists f, save_points_to_ply f32 have name points normals colors (option_map Lab2 labels) = Written (if have dir then None else Some dir) name f /\
  forall hn hc hl,
  (served hn normals -> served hc colors -> served hl labels ->
   read_file f32 hn hc hl name f =
     Ok (("points", Floats (map (map f32) points)) :: entry hn "normals" (fun t => Floats (map (map f32) t)) normals ++
         entry hc "colors" Floats colors ++ entry hl "labels" (fun t => IntVec (flat t)) labels)) /\
  ((hn = true /\ normals = None) \/ (hc = true /\ colors = None) \/ (hl = true /\ labels = None) ->
   read_file f32 hn hc hl name f = Err ValueError).
Proof.
  intros Hi Hb Hc Hs P N C L CB LB dir name.
  assert (D : dirname name = dir).
  { unfold name, dir. apply dirname_path; [apply Ascii.eqb_neq; exact Hc|rewrite has_app, Hs; reflexivity]. }
  assert (E : String.eqb dir "" = false) by (unfold dir; destruct d; reflexivity).
  eexists. split.
  - unfold save_points_to_ply. rewrite (element_ok f32 n) by assumption. rewrite D, E. reflexivity.
  - intros hn hc hl. unfold name. change (String "/" (String.append base ".ply")) with (String.append (String "/" base) ".ply").
    rewrite <- app_assoc_s, read_ply_name. apply read_back; assumption.
Qed.
Lemma thm_ply_bare f32 have name n points normals colors labels : has_char "/" name = false ->
  sized n 3 points -> osized n 3 normals -> osized n 3 colors -> osized n 1 labels ->
  save_points_to_ply f32 have name points normals colors (option_map Lab2 labels) = NotFound.
Proof. intros H P N C L. unfold save_points_to_ply. rewrite (element_ok f32 n) by assumption. rewrite (dirname_bare name H). reflexivity. Qed.

(** Labels as a vector, tables of different heights, a row that does not fit *)
Lemma concat_cols_bad a t : (exists b, In b t /\ List.length b <> List.length a) -> concat_cols (a :: t) = Err ValueError.
Proof.
  intros (b & Hb & Hl). cbn [concat_cols]. destruct (forallb _ t) eqn:F; [|reflexivity].
  rewrite forallb_forall in F. specialize (F b Hb). apply Nat.eqb_eq in F. contradiction.
Qed.
Lemma mapM_bad {A B} (f : A -> res B) l x e : In x l -> f x = Err e -> (forall y e', In y l -> f y = Err e' -> e' = e) -> mapM f l = Err e.
Proof.
  induction l as [|a l IH]; [intros []|]. intros Hx Hf U. cbn [mapM]. destruct (f a) as [b|e'] eqn:E; cbn [bind].
  - destruct Hx as [<-|Hx]; [congruence|]. rewrite (IH Hx Hf); [reflexivity|]. intros y e2 Hy. apply U. right. exact Hy.
  - f_equal. apply (U a e'); [left; reflexivity|exact E].
Qed.
Lemma thm_ply_errors f32 have name points normals colors :
  (forall l, save_points_to_ply f32 have name points normals colors (Some (Lab1 l)) = Raised ValueError) /\
  (forall labels, (exists b, In b (opt_list normals ++ opt_list colors ++ opt_list labels) /\ List.length b <> List.length points) ->
     save_points_to_ply f32 have name points normals colors (option_map Lab2 labels) = Raised ValueError) /\
  (forall labels n i, List.length points = n -> Forall (fun b => List.length b = n) (opt_list normals ++ opt_list colors ++ opt_list labels) -> i < n ->
     List.length (rowcat i (points :: opt_list normals ++ opt_list colors ++ opt_list labels)) <>
       3 + (if some normals then 3 else 0) + (if some colors then 3 else 0) + (if some labels then 1 else 0) ->
     save_points_to_ply f32 have name points normals colors (option_map Lab2 labels) = Raised ValueError).
Proof.
  split; [reflexivity|]. split.
  - intros labels B. unfold save_points_to_ply, ply_element.
    assert (E : label_table (option_map Lab2 labels) = Ok labels) by (destruct labels; reflexivity). rewrite E. cbn [bind].
    rewrite (concat_cols_bad _ _ B). reflexivity.
  - intros labels n i Hn Hl Hi Hw. unfold save_points_to_ply, ply_element.
    assert (E : label_table (option_map Lab2 labels) = Ok labels) by (destruct labels; reflexivity). rewrite E. cbn [bind].
    rewrite (concat_cols_rows n); [|discriminate|constructor; assumption]. cbn [bind].
    rewrite (mapM_bad _ _ (rowcat i (points :: opt_list normals ++ opt_list colors ++ opt_list labels)) ValueError); [reflexivity| | |].
    + apply in_map_iff. exists i. split; [reflexivity|]. apply in_seq. lia.
    + apply cast_row_bad. intro X. apply Hw. rewrite X. unfold ply_types. rewrite !app_length. destruct (some normals), (some colors), (some labels); reflexivity.
    + intros y e' _ Hy. destruct (Nat.eq_dec (List.length y) (List.length (ply_types (some normals) (some colors) (some labels)))) as [Q|Q].
      * rewrite (cast_row_ok f32 _ y Q) in Hy. discriminate Hy.
      * rewrite (cast_row_bad f32 _ y Q) in Hy. congruence.
Qed.

(** ** modelnet40.py *)
Lemma slashes_app a b : slashes (String.append a b) = String.append (slashes a) (slashes b).
Proof. induction a as [|c a IH]; [reflexivity|]. cbn [String.append slashes]. rewrite IH. reflexivity. Qed.
Lemma thm_read_modelnet f32 b t v : read_modelnet f32 (String.append b ".ply") (PlyFile t v) = read_file f32 true false false (String.append b ".ply") (PlyFile t v).
Proof. rewrite read_ply_name. unfold read_modelnet. rewrite slashes_app. change (slashes ".ply") with ".ply". rewrite ends_app. reflexivity. Qed.

Lemma thm_modelnet_npz f32 p base info f name pts nrm : letters info -> points_save p (String.append base ".npz") info = Ok (name, f) ->
  asked_opt p info "points" pts -> asked_opt p info "normals" nrm ->
  read_modelnet f32 name f = match pts, nrm with Some a, Some b => Ok [("points", Floats a); ("normals", Floats b)] | _, _ => Err KeyError end.
Proof.
  intros L E Hp Hn. destruct (thm_save_npz p base info L) as (d & E' & N & I). rewrite E in E'. injection E' as -> ->.
  unfold read_modelnet. rewrite slashes_app. change (slashes ".npz") with ".npz".
  assert (Q : ends_with (String.append (slashes base) ".npz") ".ply" = false).
  { apply ends_not. intros b' X. clear -X.
    assert (H : forall s t : string, s = t -> rev (list_ascii_of_string s) = rev (list_ascii_of_string t)) by (intros s t e; rewrite e; reflexivity).
    assert (L : forall s t, list_ascii_of_string (String.append s t) = list_ascii_of_string s ++ list_ascii_of_string t).
    { intros s t. induction s as [|c s IH]; simpl; [reflexivity|rewrite IH; reflexivity]. }
    apply H in X. rewrite !L, !rev_app_distr in X. simpl in X. congruence. }
  rewrite Q, ends_app, (get_opt p info d "points" pts N I Hp), (get_opt p info d "normals" nrm N I Hn). destruct pts as [a|]; [|reflexivity]. cbn [bind]. destruct nrm; reflexivity.
Qed.

(** ** seg_shapenet.py *)
Lemma dis_spec i : nth_error dis i = (if i <? 16 then Some (before i) else None).
Proof. do 16 (destruct i as [|i]; [reflexivity|]). cbn [dis nth_error]. change (S (S (S (S (S (S (S (S (S (S (S (S (S (S (S (S i))))))))))))))) <? 16) with false. destruct i; reflexivity. Qed.
Lemma thm_shapenet f32 have d c base i n k raw (ls : list Z) :
  (forall x, f32 (f32 x) = f32 x) -> (forall k, (0 <= k <= 255)%Z -> f32 (qz k) = qz k) ->
  c <> "/"%char -> has_char "/" base = false ->
  nth_error seg_num i = Some k -> n >= 2 -> sized n 7 raw ->
  Forall2 (fun r l => nth 6 r 0%Qc = qz (before i + l) /\ (0 <= l < k)%Z) raw ls ->
  let dir := String.append d (String c EmptyString) in
  let name := String.append dir (String "/" (String.append base ".ply")) in
  exists f, txt_to_ply f32 have i name raw = Written (if have dir then None else Some dir) name f /\
  read_file f32 true false true name f =
    Ok [("points", Floats (map (fun r => map f32 (firstn 3 r)) raw)); ("normals", Floats (map (fun r => map f32 (firstn 3 (skipn 3 r))) raw)); ("labels", IntVec ls)].
Proof.
  intros Hi Hb Hc Hs Hk Hn (Ln & W) Hl dir name.
  assert (I16 : i < 16). { change 16 with (List.length seg_num). apply nth_error_Some. congruence. }
  assert (K6 : (k <= 6)%Z). { assert (F : Forall (fun x => (x <= 6)%Z) seg_num) by (unfold seg_num; repeat constructor; lia). rewrite Forall_forall in F. apply F. eapply nth_error_In. exact Hk. }
  set (off := before i) in *.
  set (lab := map (fun r => map (fun x => (x - qz off)%Qc) (skipn 6 r)) raw).
  assert (Elab : lab = map (fun l => [qz l]) ls).
  { unfold lab. clear - Hl W. clearbody off. revert W. induction Hl as [|r l raw ls (H1 & _) Hl IH]; intro W; [reflexivity|]. inversion W as [|? ? Wr W']; subst. cbn [map]. f_equal; [|apply IH; exact W'].
    destruct r as [|x0 [|x1 [|x2 [|x3 [|x4 [|x5 [|x6 [|]]]]]]]]; try discriminate Wr. cbn [nth] in H1. cbn [skipn map]. rewrite H1, qz_add. f_equal. ring. }
  assert (Lr : List.length ls = n) by (rewrite <- Ln; clear - Hl; induction Hl; simpl; congruence).
  destruct (thm_ply_round f32 have d c base n (map (firstn 3) raw) (Some (map (fun r => firstn 3 (skipn 3 r)) raw)) None (Some lab) Hi Hb Hc Hs) as (f & E & R).
  - split; [rewrite map_length; exact Ln|]. apply Forall_map. apply (Forall_impl _ (P := fun r => List.length r = 7)); [|exact W]. intros r Hr. rewrite firstn_length. lia.
  - split; [rewrite map_length; exact Ln|]. apply Forall_map. apply (Forall_impl _ (P := fun r => List.length r = 7)); [|exact W]. intros r Hr. rewrite firstn_length, skipn_length. lia.
  - exact I.
  - rewrite Elab. split; [rewrite map_length; exact Lr|]. apply Forall_map. apply Forall_forall. reflexivity.
  - exact I.
  - rewrite Elab. unfold obytes, bytes. apply Forall_map. clear - Hl K6. induction Hl as [|r l raw ls (_ & H2) Hl IH]; constructor; [|exact IH]. constructor; [|constructor]. exists l. split; [lia|reflexivity].
  - exists f. split.
    + unfold txt_to_ply. assert (Q : (List.length raw <=? 1) = false) by (apply Nat.leb_gt; lia). rewrite Q, dis_spec. apply Nat.ltb_lt in I16. rewrite I16. exact E.
    + destruct (R true false true) as (R1 & _). unfold name, dir. rewrite R1; [|discriminate..].
      unfold entry. cbn [app]. rewrite !map_map. f_equal. do 3 f_equal. f_equal. f_equal. rewrite Elab. unfold flat. clear. induction ls as [|l ls IH]; [reflexivity|]. cbn [map concat app]. rewrite qtrunc_qz. f_equal. exact IH.
Qed.
Lemma thm_parts l : (0 <= l < 50)%Z <-> exists i, (exists k, nth_error seg_num i = Some k /\ (before i <= l < before i + k)%Z) /\
  forall j, (exists k, nth_error seg_num j = Some k /\ (before j <= l < before j + k)%Z) -> j = i.
Proof.
  assert (B : forall i k, nth_error seg_num i = Some k -> (0 <= before i /\ before i + k <= 50)%Z).
  { intros i k H. do 16 (destruct i as [|i]; [injection H as <-; vm_compute; split; congruence|]). destruct i; discriminate H. }
  split.
  - intro H. assert (F : forallb (fun l => existsb (fun i => (before i <=? l)%Z && (l <? before i + nth i seg_num 0)%Z &&
      forallb (fun j => negb ((before j <=? l)%Z && (l <? before j + nth j seg_num 0)%Z) || (j =? i)) (seq 0 16)) (seq 0 16)) (map Z.of_nat (seq 0 50)) = true) by (vm_compute; reflexivity).
    rewrite forallb_forall in F. specialize (F l). rewrite existsb_exists in F. destruct F as (i & Hi & F).
    { apply in_map_iff. exists (Z.to_nat l). split; [lia|apply in_seq; lia]. }
    apply in_seq in Hi. apply andb_prop in F. destruct F as (F1 & F2). apply andb_prop in F1. destruct F1 as (F0 & F1). apply Z.leb_le in F0. apply Z.ltb_lt in F1.
    exists i. split.
    + exists (nth i seg_num 0%Z). split; [apply nth_error_nth'; change (List.length seg_num) with 16; lia|lia].
    + intros j (k & Hj & K). rewrite forallb_forall in F2. assert (J : j < 16) by (change 16 with (List.length seg_num); apply nth_error_Some; congruence).
      specialize (F2 j). rewrite (nth_error_nth _ _ 0%Z Hj) in F2. apply orb_prop in F2; [|apply in_seq; lia]. destruct F2 as [F2|F2]; [|apply Nat.eqb_eq; exact F2].
      exfalso. apply negb_true_iff in F2. apply andb_false_iff in F2. destruct F2 as [F2|F2]; [apply Z.leb_gt in F2|apply Z.ltb_ge in F2]; lia.
  - intros (i & (k & Hk & K) & _). destruct (B i k Hk). lia.
Qed.
Lemma thm_single f32 have i name r : txt_to_ply f32 have i name [r] = Raised IndexError.
Proof. reflexivity. Qed.
