(** C97, C98, C99: the scripts in projects/tools that delete, write or repair files, and
    what is left when they are interrupted and started again. *)
From Coq Require Import String Ascii List Permutation.
From Verif Require Import Tools SpecTools ToolsFacts.
Import ListNotations.

(** C97.  A complete run leaves in every checkpoint folder its second last file, the only
    file of a folder that has one, and nothing in an empty folder. *)
Theorem C97_kept : forall s, Forall (@NoDup string) s ->
  List.length (run (cleanup (List.length s)) s) = List.length s /\
  forall i names, nth_error s i = Some names -> exists left,
    nth_error (run (cleanup (List.length s)) s) i = Some left /\
    (names = [] -> left = []) /\ (forall x, names = [x] -> left = [x]) /\
    (2 <= List.length names -> exists x, left = [x] /\ second_last x names).
Proof. exact thm_cleanup. Qed.
Print Assumptions C97_kept.

(** C97.  After any number of runs, each interrupted at any point, with listings in any
    order, a complete run leaves what an uninterrupted one would have left. *)
Theorem C97_crash : forall s s', Forall (@NoDup string) s ->
  history (fun m => trace (cleanup (List.length s)) m) relisted (fun _ => True) s s' ->
  run (cleanup (List.length s)) s' = run (cleanup (List.length s)) s.
Proof. exact thm_cleanup_crash. Qed.
Print Assumptions C97_crash.

Example C97_example :
  let s := [["00300"; "00100"; "00200"; "00050"]; []; ["b"]; ["y"; "x"]]%string in
  Forall (@NoDup string) s /\ run (cleanup 4) s = [["00200"]; []; ["b"]; ["x"]]%string /\
  history (fun m => trace (cleanup 4) m) relisted (fun _ => True) s [["00300"; "00200"]; []; ["b"]; ["x"; "y"]]%string.
Proof.
  cbn zeta. split; [repeat constructor; cbn; intuition discriminate|]. split; [reflexivity|].
  eapply h_stop with (m' := [["00300"; "00200"]; []; ["b"]; ["y"; "x"]]%string); [apply h_start | | exact I |].
  - vm_compute. tauto.
  - repeat constructor.
Qed.

(** C98.  A complete run over scenes that have no output yet writes the labels and the
    output of every scene and touches no other file. *)
Theorem C98_complete : forall scenes s, NoDup (flat_map scene_files scenes) -> (forall sc, In sc scenes -> s (sc_out sc) = None) ->
  let s' := run (process_scannet scenes) s in
  (forall sc, In sc scenes -> s' (sc_out sc) = Some (Whole (sc_cloud sc)) /\
     forall t, sc_txt sc = Some t -> s' t = Some (Whole (sc_labels sc))) /\
  (forall g, ~ In g (flat_map scene_files scenes) -> s' g = s g).
Proof. exact thm_scannet. Qed.
Print Assumptions C98_complete.

(** C98, if no run is interrupted while it writes an output file.  Missing: the
    interruptions in the middle of an output, for which the claim is false. *)
Theorem C98_resume_partial : forall scenes s m, NoDup (flat_map scene_files scenes) -> (forall sc, In sc scenes -> s (sc_out sc) = None) ->
  history (trace (process_scannet scenes)) eq (fun m => forall sc, In sc scenes -> m (sc_out sc) <> Some Part) s m ->
  forall g, run (process_scannet scenes) m g = run (process_scannet scenes) s g.
Proof. exact thm_scannet_resume. Qed.
Print Assumptions C98_resume_partial.

(** C98 is false in general: for every scene there is a point of interruption after which
    no sequence of further runs, interrupted or not, ever completes its output. *)
Theorem C98_resume_refuted : forall scenes s sc, NoDup (flat_map scene_files scenes) -> (forall sc, In sc scenes -> s (sc_out sc) = None) ->
  In sc scenes ->
  exists mid, In mid (trace (process_scannet scenes) s) /\
    forall m, history (trace (process_scannet scenes)) eq (fun _ => True) mid m ->
      run (process_scannet scenes) m (sc_out sc) = Some Part.
Proof. exact thm_scannet_lost. Qed.
Print Assumptions C98_resume_refuted.

Example C98_example :
  let scenes := [mkScene "train/a.npz" (Some "train/a.txt") "3 4" "cloud a"; mkScene "test/b.npz" None "" "cloud b"]%string in
  NoDup (flat_map scene_files scenes) /\ List.length (trace (process_scannet scenes) (fun _ => None)) = 7 /\
  run (process_scannet scenes) (fun _ => None) "train/a.txt"%string = Some (Whole "3 4").
Proof. cbn zeta. split; [repeat constructor; cbn; intuition discriminate | split; reflexivity]. Qed.

(** C99, the archive: whatever interruptions came before, a complete run leaves every
    member of the archive whole, marks the extraction as done and touches no other file. *)
Theorem C99_unzip : forall flag members s m, s flag = None -> ~ In flag (map fst members) ->
  history (fun m => trace (unzip flag members m) m) eq (fun _ => True) s m ->
  let s' := run (unzip flag members m) m in
  s' flag <> None /\ (forall g, g <> flag -> ~ In g (map fst members) -> s' g = s g) /\
  (NoDup (map fst members) -> forall f c, In (f, c) members -> s' f = Some (Whole c)).
Proof. exact thm_unzip. Qed.
Print Assumptions C99_unzip.

(** C99, the meshes: unless a run is interrupted while it rewrites a mesh file, every mesh
    ends up with its first line repaired and nothing else changed.  Missing: the
    interruptions in the middle of a mesh file, for which the claim is false. *)
Theorem C99_clean_partial : forall flag names s, s flag = None -> ~ In flag names -> (forall f, In f names -> s f <> Some Part) ->
  forall m, history (fun m => trace (clean_all flag names m) m) eq (fun m => forall f, In f names -> m f <> Some Part) s m ->
  let s' := run (clean_all flag names m) m in
  (forall f c, In f names -> s f = Some (Whole c) -> exists c', repaired c c' /\ s' f = Some (Whole c')) /\
  (forall g, ~ In g names -> g <> flag -> s' g = s g).
Proof. exact thm_clean. Qed.
Print Assumptions C99_clean_partial.

(** C99 is false in general: for every mesh that needs the repair there is a point of
    interruption after which its contents never come back. *)
Theorem C99_clean_refuted : forall flag names s f rest, s flag = None -> ~ In flag names -> In f names ->
  s f = Some (Whole ("OFF" ++ rest)) -> (forall t, rest <> String (ascii_of_nat 10) t) ->
  exists mid, In mid (trace (clean_all flag names s) s) /\
    forall m, history (fun m => trace (clean_all flag names m) m) eq (fun _ => True) mid m ->
      run (clean_all flag names m) m f = Some Part.
Proof. exact thm_clean_lost. Qed.
Print Assumptions C99_clean_refuted.

Example C99_example :
  let s := put "a.off" (Whole "OFF8 6 0") (put "b.off" (Whole "ply") (fun _ => None)) in
  run (clean_all "flag" ["a.off"; "b.off"]%string s) s "a.off"%string = Some (Whole ("OFF" ++ newline ++ "8 6 0")) /\
  run (clean_all "flag" ["a.off"; "b.off"]%string s) s "b.off"%string = Some (Whole "ply") /\
  List.length (trace (clean_all "flag" ["a.off"; "b.off"]%string s) s) = 6.
Proof. split; [|split]; reflexivity. Qed.
