(** Proofs about the transform of ScanNet with distortion. *)
From Coq Require Import String Ascii List ZArith Bool QArith Qround Qcanon Lia Lqa.
From Verif Require Import Res Tensor Num Points Octree PointsOps Spec SpecGeo SpecBuild SpecMerge SpecPoints WF
  ListFacts NumFacts SumFacts PoolFacts Dataset SpecDataset Project SpecNN SpecProject MetricFacts CropFacts Prep SpecPrep PrepFacts SpecAug AugFacts ElasticFacts.
Import ListNotations.
Open Scope Z_scope.

Lemma numbers rows : Forall (fun w : v3 cnum => forall k, channel k w <> None) rows ->
  exists f, all_numbers rows = Some f /\ Forall2 (fun w row => exists a b c, w = (Some a, Some b, Some c) /\ row = [a; b; c]) rows f.
Proof.
  induction 1 as [|w rows Hw _ (f & E & F)]; [exists []; split; [reflexivity|constructor]|].
  destruct w as [[[a|] [b|]] [c|]]; try (exfalso; first [apply (Hw 0%nat); reflexivity|apply (Hw 1%nat); reflexivity|apply (Hw 2%nat); reflexivity]).
  exists ([a; b; c] :: f). split.
  - unfold all_numbers in *. cbn [fold_right]. rewrite E. reflexivity.
  - constructor; [exists a, b, c; auto|exact F].
Qed.
Lemma numbers_none rows w k : In w rows -> channel k w = None -> all_numbers rows = None.
Proof.
  intros Hi Hk. unfold all_numbers. induction rows as [|x rows IH]; [destruct Hi|]. cbn [fold_right]. destruct Hi as [->|Hi].
  - destruct (fold_right _ _ rows); destruct w as [[[a|] [b|]] [c|]]; try reflexivity; destruct k as [|[|k]]; discriminate.
  - rewrite (IH Hi). destruct x as [[[?|] [?|]] [?|]]; reflexivity.
Qed.
Lemma forall2_len {A B} (R : A -> B -> Prop) l m : Forall2 R l m -> List.length l = List.length m.
Proof. induction 1; cbn; congruence. Qed.

Lemma colors_eq colors : map (v3map (fun a => (a / qz 255)%Qc)) colors = map (rescale (0, 0, 0)%Qc (Q2Qc (1 # 255))) colors.
Proof. apply map_ext. intros [[u v] w]. cbn. assert (E : (Q2Qc (1 # 255) = / qz 255)%Qc) by (apply Qc_is_canon; reflexivity). rewrite E. unfold Qcdiv. apply (f_equal2 pair); [apply (f_equal2 pair)|]; ring. Qed.
Lemma rescale_channel k c v : channel k (rescale (0, 0, 0)%Qc c v) = (channel k v * c)%Qc.
Proof. destruct v as [[x y] z], k as [|[|k]]; cbn; ring. Qed.

Theorem thm_scannet_distort : forall nrm c r g edo enoise xyz normals colors labels, cfg_ok c -> t_distort c = true -> draw_ok r -> xyz <> [] ->
  List.length normals = List.length xyz -> List.length colors = List.length xyz -> List.length labels = List.length xyz ->
  Exists (fun v => exists k, (1 < channel k v)%Qc) colors ->
  exists lo hi f rows, bounding_box lo hi xyz /\
    let xyz0 := map (rescale (floor_middle lo hi) (Q2Qc (100 # 1024))) xyz in
    elastic_distort edo enoise [(Q2Qc (1 # 10), Q2Qc (2 # 10)); (Q2Qc (4 # 10), Q2Qc (8 # 10))] xyz0 = Ok (map f xyz0) /\
    color_distort g (Q2Qc (1 # 10)) (Q2Qc (5 # 100)) (map (rescale (0, 0, 0)%Qc (Q2Qc (1 # 255))) colors) = Ok rows /\
    ((forall k, exists v w, In v colors /\ In w colors /\ channel k v <> channel k w) ->
     exists feats q out, Forall2 (fun w row => exists a b c, w = (Some a, Some b, Some c) /\ row = [a; b; c]) rows feats /\
       scannet_call nrm c r g edo enoise xyz normals colors labels = Ok (Some out) /\
       cut_sample nrm c r (mkPoints (map f xyz0) (Some normals) (Some feats) (label_column labels) None 1 None 0%nat) q out) /\
    ((exists k, forall v w, In v colors -> In w colors -> channel k v = channel k w) ->
     scannet_call nrm c r g edo enoise xyz normals colors labels = Ok None).
Proof.
  intros nrm c r g edo enoise xyz normals colors labels C Hd Hr Hne Hn Hcol Hlab Hx. destruct (rows_fold_box xyz Hne) as (lo & hi & E1 & E2 & Hb).
  set (xyz0 := map (rescale (floor_middle lo hi) (Q2Qc (100 # 1024))) xyz).
  assert (Hne0 : xyz0 <> []) by (unfold xyz0; destruct xyz; [congruence|discriminate]).
  destruct (thm_elastic edo enoise [(Q2Qc (1 # 10), Q2Qc (2 # 10)); (Q2Qc (4 # 10), Q2Qc (8 # 10))] xyz0 Hne0) as (f & Ef & _).
  { repeat apply Forall_cons; try apply Forall_nil; reflexivity. }
  set (col := map (rescale (0, 0, 0)%Qc (Q2Qc (1 # 255))) colors).
  assert (Hx' : Exists (fun v => exists k, (Q2Qc (1 # 255) < channel k v)%Qc) col).
  { apply Exists_exists in Hx. destruct Hx as (v & Hv & k & Hk). apply Exists_exists. exists (rescale (0, 0, 0)%Qc (Q2Qc (1 # 255)) v). split; [apply in_map; exact Hv|]. exists k. rewrite rescale_channel. rewrite <- (Qcmult_1_l (Q2Qc (1 # 255))) at 1. apply Qcmult_lt_compat_r; [reflexivity|exact Hk]. }
  destruct (thm_color g (Q2Qc (1 # 10)) (Q2Qc (5 # 100)) col Hx') as (clo & chi & rows & CB & Er & Lr & Hrow).
  exists lo, hi, f, rows. split; [exact Hb|]. cbv zeta. fold xyz0 col. split; [exact Ef|]. split; [exact Er|].
  assert (Pre : scannet_normalize xyz = Ok xyz0).
  { unfold scannet_normalize. rewrite E1, E2. cbn [bind]. destruct lo as [[a b] d], hi as [[a' b'] d']. cbn [v3zip]. f_equal. apply map_ext. intros [[u v] w]. cbn. assert (E : (Q2Qc (100 # 1024) = / Q2Qc (1024 # 100))%Qc) by (apply Qc_is_canon; reflexivity). rewrite E. reflexivity. }
  assert (Call : scannet_call nrm c r g edo enoise xyz normals colors labels = match all_numbers rows with None => Ok None | Some fs => points <- points_new 0 (map f xyz0) (Some normals) (Some fs) (column labels) None 1 ;; out <- transform nrm c r [("points"%string, VPts points)] ;; Ok (Some out) end).
  { unfold scannet_call. rewrite Pre. cbn [bind]. rewrite Hd, colors_eq. fold col. rewrite Er. cbn [bind]. rewrite Ef. cbn [bind]. reflexivity. }
  split.
  - intros Hv.
    assert (Hs : Forall (fun w : v3 cnum => forall k, channel k w <> None) rows).
    { apply Forall_forall. intros w Hw k. apply In_nth_error in Hw. destruct Hw as [i Hi]. destruct (nth_error col i) as [v|] eqn:Ev; [|apply nth_error_None in Ev; assert (X : nth_error rows i <> None) by congruence; apply nth_error_Some in X; lia].
      destruct (Hrow i v k Ev) as (w' & Hw' & _ & N2). rewrite Hi in Hw'. injection Hw' as <-.
      destruct (N2) as (t & u & Hu & _); [|congruence]. intros Eq. destruct (Hv k) as (v1 & v2 & I1 & I2 & Ne). apply Ne.
      destruct CB as [CB _]. rewrite Forall_forall in CB. assert (Same : forall v', In v' colors -> (channel k v' * Q2Qc (1 # 255))%Qc = channel k clo).
      { intros v' I. destruct (CB (rescale (0, 0, 0)%Qc (Q2Qc (1 # 255)) v') (in_map _ _ _ I)) as [b1 b2]. rewrite v3le_channel in b1, b2. specialize (b1 k). specialize (b2 k). rewrite rescale_channel in b1, b2. rewrite <- Eq in b2. apply Qcle_antisym; assumption. }
      pose proof (Same _ I1) as S1. pose proof (Same _ I2) as S2. rewrite <- S2 in S1. assert (X : forall a, (a = a * Q2Qc (1 # 255) * qz 255)%Qc) by (intros a; rewrite <- Qcmult_assoc; replace (Q2Qc (1 # 255) * qz 255)%Qc with 1%Qc by (apply Qc_is_canon; reflexivity); ring). rewrite (X (channel k v1)), (X (channel k v2)), S1. reflexivity. }
    destruct (numbers rows Hs) as (fs & En & Fn).
    set (p := mkPoints (map f xyz0) (Some normals) (Some fs) (label_column labels) None 1 None 0%nat : pcloud Qc).
    assert (Lx : List.length (map f xyz0) = List.length xyz) by (unfold xyz0; rewrite !map_length; reflexivity).
    assert (Lf : List.length fs = List.length xyz) by (etransitivity; [symmetry; exact (forall2_len _ _ _ Fn)|]; etransitivity; [exact Lr|]; unfold col; rewrite map_length; exact Hcol).
    assert (P : cloud_ok p /\ good_cloud 1 p).
    { apply (cloud1 _ (Some normals) (Some fs) _ 3%nat); rewrite Lx; [intros n [= <-]; exact Hn|intros ft [= <-]; split; [exact Lf|]|intros l [= <-]; rewrite !map_length; exact Hlab].
      clear - Fn. induction Fn as [|? ? ? ? (a & b & c & _ & ->) _ IH]; constructor; [reflexivity|exact IH]. }
    destruct (transform_cloud nrm c r [("points"%string, VPts p)] p C ltac:(auto) (proj1 P) (proj2 P) (lookup1 p)) as (q & out & Et & Cu & _).
    exists fs, q, out. split; [exact Fn|]. split; [|exact Cu]. rewrite Call, En. unfold column. change (Some (Lab2 ?l)) with (option_map (@Lab2 Qc) (Some l)). rewrite new_ok.
    + cbn [bind]. change (mkPoints _ _ _ _ _ _ _ _) with p. rewrite Et. reflexivity.
    + intros n [= <-]. rewrite Lx. exact Hn.
    + intros ft [= <-]. rewrite Lx. exact Lf.
    + intros l [= <-]. rewrite Lx, map_length. exact Hlab.
  - intros (k & Hk). rewrite Call. destruct col as [|v0 vs] eqn:Ec; [apply Exists_exists in Hx'; destruct Hx' as (? & [] & _)|].
    destruct (Hrow 0%nat v0 k eq_refl) as (w & Hw & N1 & _). rewrite (numbers_none rows w k); [reflexivity|eapply nth_error_In; exact Hw|]. apply N1.
    assert (All : forall v, In v (v0 :: vs) -> channel k v = channel k v0).
    { rewrite <- Ec. assert (I0 : In v0 col) by (rewrite Ec; left; reflexivity). unfold col in *. intros v Hv. apply in_map_iff in Hv. destruct Hv as (v' & <- & Hv'). apply in_map_iff in I0. destruct I0 as (v0' & <- & I0'). rewrite !rescale_channel, (Hk v' v0' Hv' I0'). reflexivity. }
    destruct (box_attained clo chi (v0 :: vs) k ltac:(discriminate) CB) as (v & Hv & Eh).
    (* the lower face is attained as well: by the same value *)
    destruct CB as [B1 B2]. assert (Lo : (channel k clo <= channel k v0)%Qc) by (rewrite Forall_forall in B1; destruct (B1 v0 (or_introl eq_refl)) as [b1 _]; rewrite v3le_channel in b1; apply b1).
    set (lo' := let '(x, y, z) := clo in let a := channel k v0 in match k with O => (a, y, z) | S O => (x, a, z) | _ => (x, y, a) end).
    destruct (B2 lo' chi) as [b _].
    + apply Forall_forall. intros x Hx1. rewrite Forall_forall in B1. destruct (B1 x Hx1) as [h1 h2]. split; [|exact h2]. pose proof (All x Hx1) as Ax. destruct clo as [[? ?] ?], x as [[? ?] ?], k as [|[|k]]; cbn in *; rewrite <- ?Ax; destruct h1 as (? & ? & ?); repeat split; try assumption; apply Qcle_refl.
    + rewrite v3le_channel in b. specialize (b k). rewrite <- Eh, (All v Hv). apply Qcle_antisym; [exact Lo|]. destruct clo as [[? ?] ?], k as [|[|k]]; exact b.
Qed.
