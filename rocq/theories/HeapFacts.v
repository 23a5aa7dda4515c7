(** Proofs about the heap model of the queries. *)
From Coq Require Import String List ZArith Bool Lia.
From Verif Require Import Res Tensor Key Octree ListFacts Heap SpecHeap.
Import ListNotations.
Open Scope Z_scope.

(** ** reading *)
Lemma nth_map_seq {A} (s : list A) d : forall pre l, s = pre ++ l ->
  map (fun p => nth p s d) (seq (List.length pre) (List.length l)) = l.
Proof.
  intros pre l; revert pre; induction l as [|a l IH]; intros pre Hs; [reflexivity|].
  cbn [List.length seq map]. f_equal.
  - rewrite Hs, app_nth2, Nat.sub_diag by lia. reflexivity.
  - specialize (IH (pre ++ [a])). rewrite app_length in IH. cbn [List.length] in IH.
    rewrite Nat.add_1_r in IH. apply IH. rewrite Hs, <- app_assoc. reflexivity.
Qed.
Lemma rd_at h i l : nth i h [] = l -> rd h (mkView i (seq 0 (List.length l))) = l.
Proof. intros H. unfold rd. cbn [v_id v_pos]. rewrite H. apply (nth_map_seq l 0 [] l). reflexivity. Qed.
Lemma pos2_read s : forall rows pre rest, s = pre ++ concat rows ++ rest ->
  forall shape, map (@List.length Z) shape = map (@List.length Z) rows ->
  map (map (fun p => nth p s 0)) (pos2 (List.length pre) shape) = rows.
Proof.
  induction rows as [|r rows IH]; intros pre rest Hs [|r' shape] Hsh; try discriminate; [reflexivity|].
  cbn [map] in Hsh. injection Hsh as Hr Hsh. cbn [pos2 map concat] in *. f_equal.
  - rewrite Hr. clear IH Hr Hsh.
    assert (Hg : forall l pre rest, s = pre ++ l ++ rest -> map (fun p => nth p s 0) (seq (List.length pre) (List.length l)) = l).
    { clear. induction l as [|a l IH]; intros pre rest Hs; [reflexivity|].
      cbn [List.length seq map]. f_equal.
      - rewrite Hs, app_nth2, Nat.sub_diag by lia. reflexivity.
      - specialize (IH (pre ++ [a]) rest). rewrite app_length in IH. cbn [List.length] in IH.
        rewrite Nat.add_1_r in IH. apply IH. rewrite Hs, <- app_assoc. reflexivity. }
    apply (Hg r pre (concat rows ++ rest)). rewrite Hs, <- app_assoc. reflexivity.
  - rewrite Hr, <- app_length. apply (IH (pre ++ r) rest); [|exact Hsh].
    rewrite Hs, <- !app_assoc. reflexivity.
Qed.
Lemma rd2_at h i rows shape : nth i h [] = concat rows -> map (@List.length Z) shape = map (@List.length Z) rows ->
  rd2 h (mkView2 i (pos2 0 shape)) = rows.
Proof.
  intros H Hs. unfold rd2. cbn [w_id w_pos]. rewrite H.
  apply (pos2_read (concat rows) rows [] []); [rewrite app_nil_r; reflexivity|exact Hs].
Qed.
Lemma concat_pos2 rows : forall off, concat (pos2 off rows) = seq off (List.length (concat rows)).
Proof.
  induction rows as [|r rows IH]; intros off; [reflexivity|].
  cbn [pos2 concat]. rewrite IH, app_length, seq_app. reflexivity.
Qed.
Lemma rd_ext h t v : (v_id v < List.length h)%nat -> rd (h ++ t) v = rd h v.
Proof. intros H. unfold rd. rewrite app_nth1 by exact H. reflexivity. Qed.
Lemma rd2_ext h t v : (w_id v < List.length h)%nat -> rd2 (h ++ t) v = rd2 h v.
Proof. intros H. unfold rd2. rewrite app_nth1 by exact H. reflexivity. Qed.

(** ** writing *)
Lemma write_fill m : forall (l vals pre : list Z), List.length m = List.length l -> count_true m = List.length vals ->
  fold_left (fun s pv => set_nth s (fst pv) (snd pv)) (combine (select m (seq (List.length pre) (List.length l))) vals) (pre ++ l)
  = pre ++ fill m l vals.
Proof.
  assert (Hset : forall (pre : list Z) a l v, set_nth (pre ++ a :: l) (List.length pre) v = pre ++ v :: l).
  { induction pre as [|x pre IH]; intros a l v; [reflexivity|]. cbn [app List.length set_nth]. f_equal. apply IH. }
  induction m as [|b m IH]; intros [|a l] vals pre Hl Hc; try discriminate; [reflexivity|].
  cbn [List.length] in Hl. injection Hl as Hl. rewrite count_true_cons in Hc.
  specialize (IH l). cbn [List.length seq].
  assert (Hs : forall x, S (List.length pre) = List.length (pre ++ [x : Z])) by (intros x; rewrite app_length; cbn; lia).
  destruct b; cbn [select fill].
  - destruct vals as [|v vals]; [cbn in Hc; lia|].
    cbn [combine fold_left fst snd]. rewrite Hset.
    rewrite (Hs v). replace (pre ++ v :: l) with ((pre ++ [v]) ++ l) by (rewrite <- app_assoc; reflexivity).
    rewrite IH; [rewrite <- app_assoc; reflexivity|exact Hl|cbn in Hc; lia].
  - rewrite (Hs a). replace (pre ++ a :: l) with ((pre ++ [a]) ++ l) by (rewrite <- app_assoc; reflexivity).
    rewrite IH; [rewrite <- app_assoc; reflexivity|exact Hl|exact Hc].
Qed.
Lemma put_at_fill i m (l vals : list Z) h : nth i h [] = l -> List.length m = List.length l -> count_true m = List.length vals ->
  put_at i (seq 0 (List.length l)) m vals h = (Ok tt, set_nth h i (fill m l vals)).
Proof.
  intros Hi Hl Hc. unfold put_at. rewrite seq_length, Hl, Nat.eqb_refl. cbn [negb].
  rewrite Hc, Nat.eqb_refl. unfold write. rewrite Hi.
  pose proof (write_fill m l vals [] Hl Hc) as H. cbn [List.length app] in H. rewrite H. reflexivity.
Qed.
Lemma set_nth_app (h : heap) t k v : set_nth (h ++ t) (List.length h + k) v = h ++ set_nth t k v.
Proof. induction h as [|a h IH]; [reflexivity|]. cbn [app List.length Nat.add set_nth]. f_equal. exact IH. Qed.
Lemma nth_app_plus (h : heap) t k : nth (List.length h + k) (h ++ t) [] = nth k t [].
Proof. rewrite app_nth2 by lia. f_equal. lia. Qed.
Lemma map_bz_zb m : map bz (map zb m) = m.
Proof. rewrite map_map. induction m as [|b m IH]; [reflexivity|]. cbn [map]. rewrite IH. destruct b; reflexivity. Qed.

(** ** programs whose result agrees with a value, and which only extend the heap *)
Definition gives {A B} (m : prog A) (h : heap) (okv : heap -> A -> B -> Prop) (p : res B) : Prop :=
  exists r t, m h = (r, h ++ t) /\
    match r with Ok a => exists b, p = Ok b /\ okv (h ++ t) a b | Err e => p = Err e end.
Definition same {A} (h : heap) (a b : A) : Prop := a = b.
Definition is1 (h : heap) (v : view) (l : list Z) : Prop := (v_id v < List.length h)%nat /\ rd h v = l.
Definition is2 (h : heap) (v : view2) (l : list (list Z)) : Prop := (w_id v < List.length h)%nat /\ rd2 h v = l.

Lemma is1_ext h t v l : is1 h v l -> is1 (h ++ t) v l.
Proof. intros [H1 H2]. split; [rewrite app_length; lia|]. rewrite rd_ext; assumption. Qed.
Lemma is2_ext h t v l : is2 h v l -> is2 (h ++ t) v l.
Proof. intros [H1 H2]. split; [rewrite app_length; lia|]. rewrite rd2_ext; assumption. Qed.

Lemma gives_bind {A B C D} (m : prog A) (f : A -> prog C) h (R : heap -> A -> B -> Prop) (S : heap -> C -> D -> Prop) p g :
  gives m h R p -> (forall a b t, R (h ++ t) a b -> gives (f a) (h ++ t) S (g b)) ->
  gives (pbind m f) h S (bind p g).
Proof.
  intros (r & t & Hm & Hr) Hf. unfold pbind, gives. rewrite Hm. destruct r as [a|e].
  - destruct Hr as (b & -> & Hab). destruct (Hf a b t Hab) as (r' & t' & Hf' & Hr').
    exists r', (t ++ t'). rewrite Hf', app_assoc. split; [reflexivity|]. cbn [bind]. exact Hr'.
  - subst p. exists (Err e), t. split; reflexivity.
Qed.
Lemma gives_seq {A B C D} (m : prog A) (f : A -> prog C) h (R : heap -> A -> B -> Prop) (S : heap -> C -> D -> Prop) b p :
  gives m h R (Ok b) -> (forall a t, R (h ++ t) a b -> gives (f a) (h ++ t) S p) -> gives (pbind m f) h S p.
Proof.
  intros Hm Hf. change p with (bind (Ok b) (fun _ => p)).
  destruct Hm as (r & t & Hm & Hr). unfold pbind, gives. rewrite Hm. destruct r as [a|e]; [|discriminate].
  destruct Hr as (b' & E & Hab). injection E as <-. destruct (Hf a t Hab) as (r' & t' & Hf' & Hr').
  exists r', (t ++ t'). rewrite Hf', app_assoc. split; [reflexivity|exact Hr'].
Qed.
Lemma gives_lift {A} (r : res A) h : gives (lift r) h same r.
Proof. exists r, []. split; [rewrite app_nil_r; reflexivity|]. destruct r; [eexists; split; reflexivity|reflexivity]. Qed.
Lemma gives_ret {A B} (R : heap -> A -> B -> Prop) h a b : R h a b -> gives (pret a) h R (Ok b).
Proof. intros H. exists (Ok a), []. rewrite app_nil_r. split; [reflexivity|]. exists b. auto. Qed.
Lemma gives_read v l h : is1 h v l -> gives (read v) h same (Ok l).
Proof. intros [_ H]. exists (Ok l), []. rewrite app_nil_r. unfold read. rewrite H. split; [reflexivity|]. exists l. split; reflexivity. Qed.
Lemma gives_readb v l h : is1 h v (map zb l) -> gives (readb v) h same (Ok l).
Proof. intros [_ H]. exists (Ok l), []. rewrite app_nil_r. unfold readb. rewrite H, map_bz_zb. split; [reflexivity|]. exists l. split; reflexivity. Qed.
Lemma gives_read2 v l h : is2 h v l -> gives (read2 v) h same (Ok l).
Proof. intros [_ H]. exists (Ok l), []. rewrite app_nil_r. unfold read2. rewrite H. split; [reflexivity|]. exists l. split; reflexivity. Qed.
Lemma gives_alloc l h : gives (alloc l) h is1 (Ok l).
Proof.
  exists (Ok (mkView (List.length h) (seq 0 (List.length l)))), [l]. split; [reflexivity|].
  exists l. split; [reflexivity|]. split; [cbn; rewrite app_length; cbn; lia|].
  apply rd_at. rewrite app_nth2, Nat.sub_diag by lia. reflexivity.
Qed.
Lemma gives_alloc2 l h : gives (alloc2 l) h is2 (Ok l).
Proof.
  exists (Ok (mkView2 (List.length h) (pos2 0 l))), [concat l]. split; [reflexivity|].
  exists l. split; [reflexivity|]. split; [cbn; rewrite app_length; cbn; lia|].
  apply rd2_at; [|reflexivity]. rewrite app_nth2, Nat.sub_diag by lia. reflexivity.
Qed.

(** ** the stored tensors *)
Definition lrel (h : heap) (l : hlayer) (k : layer) : Prop :=
  tensor_is rd v_id h (h_keys l) (keys k) /\ tensor_is rd v_id h (h_children l) (children k) /\
  tensor_is rd2 w_id h (h_neighs l) (neighs k).
Lemma denotes_ext h t ho o : denotes h ho o -> denotes (h ++ t) ho o.
Proof.
  intros H. unfold denotes in *. induction H as [|l k ls ks (H1 & H2 & H3) HF IH]; constructor; [|exact IH].
  split; [|split].
  - destruct (h_keys l), (keys k); cbn in *; try contradiction; [apply is1_ext; exact H1|exact I].
  - destruct (h_children l), (children k); cbn in *; try contradiction; [apply is1_ext; exact H2|exact I].
  - destruct (h_neighs l), (neighs k); cbn in *; try contradiction; [apply is2_ext; exact H3|exact I].
Qed.
Lemma gives_layer h ho o d : denotes h ho o -> gives (lift (tget ho d)) h lrel (get_layer o d).
Proof.
  intros H. exists (tget ho d), []. rewrite app_nil_r. split; [reflexivity|].
  unfold get_layer, tget, zlen. assert (Hl : List.length ho = List.length (layers o)) by (clear - H; unfold denotes in H; induction H; cbn; congruence). rewrite Hl.
  destruct (norm_index (Z.of_nat (List.length (layers o))) d) as [j|] eqn:Hn; [|reflexivity].
  clear Hn Hl. revert j. unfold denotes in H. induction H as [|l k ls ks Hlk HF IH]; intros [|j]; cbn [nth_error]; try reflexivity.
  - exists k. split; [reflexivity|exact Hlk].
  - apply IH.
Qed.
Lemma gives_need1 h v t : tensor_is rd v_id h v t -> gives (lift (need v)) h is1 (need t).
Proof.
  intros H. exists (need v), []. rewrite app_nil_r. split; [reflexivity|].
  destruct v, t; cbn in *; try contradiction; [|reflexivity]. eexists; split; [reflexivity|exact H].
Qed.
Lemma gives_need2 h v t : tensor_is rd2 w_id h v t -> gives (lift (need v)) h is2 (need t).
Proof.
  intros H. exists (need v), []. rewrite app_nil_r. split; [reflexivity|].
  destruct v, t; cbn in *; try contradiction; [|reflexivity]. eexists; split; [reflexivity|exact H].
Qed.
Lemma lrel_ext h t l k : lrel h l k -> lrel (h ++ t) l k.
Proof.
  intros H. assert (Hd : denotes h [l] (mkOctree 0 0 0 0 [k])) by (constructor; [exact H|constructor]).
  apply (denotes_ext _ t) in Hd. inversion Hd; assumption.
Qed.

(** ** the queries that do not write *)
Lemma gives_last {A C} (r : res A) (f : A -> prog C) h (S : heap -> C -> A -> Prop) :
  (forall b t, gives (f b) (h ++ t) S (Ok b)) -> gives (pbind (lift r) f) h S r.
Proof.
  intros H. destruct r as [b|e]; [|exists (Err e), []; rewrite app_nil_r; split; reflexivity].
  specialize (H b []). rewrite app_nil_r in H. exact H.
Qed.
Ltac seqread := eapply gives_seq; [first [apply gives_read; eassumption|apply gives_readb; eassumption|apply gives_read2; eassumption]|];
  let a := fresh "a" in let t := fresh "t" in let E := fresh "E" in intros a t E; red in E; subst a.
Ltac ext1 t H := apply (is1_ext _ t) in H.
Lemma mask_spec h ho o d : denotes h ho o ->
  gives (h_nempty_mask ho d) h (fun h v m => is1 h v (map zb m)) (nempty_mask o d).
Proof.
  intros H. unfold h_nempty_mask, nempty_mask.
  eapply gives_bind; [apply gives_layer; exact H|]. intros l k t (_ & Hc & _).
  eapply gives_bind; [apply gives_need1; exact Hc|]. intros v c t' Hv. seqread.
  destruct (gives_alloc (map (fun i => zb (0 <=? i)) c) (((h ++ t) ++ t') ++ t0)) as (r & u & Hm & Hr).
  exists r, u. split; [exact Hm|]. destruct r as [v'|e]; [|discriminate].
  destruct Hr as (l' & E & Hl'). injection E as <-. eexists. split; [reflexivity|]. rewrite map_map. exact Hl'.
Qed.
Lemma masked_spec h ho o d v c : denotes h ho o -> is1 h v c ->
  gives (mask <~ h_nempty_mask ho d ;; k <~ read v ;; m <~ readb mask ;; r <~ lift (mask_get k m) ;; alloc r) h is1
        (m <- nempty_mask o d ;; mask_get c m).
Proof.
  intros H Hv. eapply gives_bind; [apply mask_spec; exact H|]. intros mv m t Hm.
  ext1 t Hv. seqread. ext1 t0 Hm. seqread. apply gives_last. intros x t5. apply gives_alloc.
Qed.
Lemma key_spec h ho o d ne : denotes h ho o -> gives (h_key ho d ne) h is1 (octree_key o d ne).
Proof.
  intros H. unfold h_key, octree_key.
  eapply gives_bind; [apply gives_layer; exact H|]. intros l k t (Hk & _).
  eapply gives_bind; [apply gives_need1; exact Hk|]. intros v c t' Hv.
  destruct ne; [|apply gives_ret; exact Hv].
  apply masked_spec; [rewrite <- app_assoc; apply denotes_ext; exact H|exact Hv].
Qed.
Lemma batch_spec h ho o d ne : denotes h ho o -> gives (h_batch_id ho d ne) h is1 (octree_batch_id o d ne).
Proof.
  intros H. unfold h_batch_id, octree_batch_id.
  eapply gives_bind; [apply gives_layer; exact H|]. intros l k t (Hk & _).
  eapply gives_bind; [apply gives_need1; exact Hk|]. intros v c t' Hv. cbn zeta. seqread.
  eapply gives_seq; [apply gives_alloc|]. intros bv t2 Hb.
  destruct ne; [|apply gives_ret; exact Hb].
  apply masked_spec; [rewrite <- !app_assoc; apply denotes_ext; exact H|exact Hb].
Qed.
Lemma xyzb_spec h ho o d ne : denotes h ho o ->
  gives (h_xyzb ho d ne) h (fun h '(x, y, z, b) cs => is1 h x (map (fun '(x, y, z, b) => x) cs) /\ is1 h y (map (fun '(x, y, z, b) => y) cs) /\
                              is1 h z (map (fun '(x, y, z, b) => z) cs) /\ is1 h b (map (fun '(x, y, z, b) => b) cs)) (octree_xyzb o d ne).
Proof.
  intros H. unfold h_xyzb, octree_xyzb.
  eapply gives_bind; [apply key_spec; exact H|]. intros v k t Hv. seqread.
  apply gives_last. intros cs t2.
  eapply gives_seq; [apply gives_alloc|]. intros x t3 Hx.
  eapply gives_seq; [apply gives_alloc|]. intros y t4 Hy. ext1 t4 Hx.
  eapply gives_seq; [apply gives_alloc|]. intros z t5 Hz. ext1 t5 Hx. ext1 t5 Hy.
  eapply gives_seq; [apply gives_alloc|]. intros b t6 Hb. ext1 t6 Hx. ext1 t6 Hy. ext1 t6 Hz.
  apply gives_ret. repeat split; first [apply Hx|apply Hy|apply Hz|apply Hb].
Qed.

(** ** searching: the writes go to new tensors *)
Lemma fill_map_select {A B} (V : A -> bool) (g F : A -> B) l :
  fill (map V l) (map g l) (map F (select (map V l) l)) = map (fun a => if V a then F a else g a) l.
Proof. induction l as [|a l IH]; [reflexivity|]. cbn [map select]. destruct (V a); cbn [fill map]; rewrite IH; reflexivity. Qed.
Lemma fill_const {A B} (V : A -> bool) (g : A -> B) x l n : n = count_true (map V l) ->
  fill (map V l) (map g l) (repeat x n) = map (fun a => if V a then x else g a) l.
Proof.
  revert n. induction l as [|a l IH]; intros n Hn; [reflexivity|]. cbn [map] in *. rewrite count_true_cons in Hn.
  destruct (V a); cbn [fill]; [destruct n; [lia|]; cbn [repeat]|]; rewrite IH by lia; reflexivity.
Qed.
Definition found (k : list Z) (q : Z) : bool :=
  (bucketize k q <? zlen k) && (nth (Z.to_nat (bucketize k q)) k 0 =? q).
Lemma tget_at k q : bucketize k q <? zlen k = true -> tget k (bucketize k q) = Ok (nth (Z.to_nat (bucketize k q)) k 0).
Proof.
  intros H. unfold tget, norm_index. rewrite H.
  assert (0 <= bucketize k q) by (unfold bucketize; lia).
  replace (0 <=? bucketize k q) with true by (symmetry; apply Z.leb_le; assumption). cbn [andb].
  rewrite (nth_error_nth' k 0); [reflexivity|]. apply Z.ltb_lt in H. unfold zlen in H. lia.
Qed.
Lemma search1_val k q : search1 k q = Ok (if found k q then bucketize k q else -1).
Proof.
  unfold search1, found. cbn zeta. destruct (bucketize k q <? zlen k) eqn:Hb; [|reflexivity].
  rewrite tget_at by exact Hb. cbn [bind andb]. reflexivity.
Qed.
Definition search_body (k q : list Z) : prog view :=
  idx <~ alloc (map (bucketize k) q) ;;
  i <~ read idx ;;
  valid <~ alloc (map (fun i => zb (i <? zlen k)) i) ;;
  v <~ readb valid ;;
  iv <~ lift (mask_get i v) ;; kv <~ lift (gather k iv) ;; qv <~ lift (mask_get q v) ;;
  found <~ alloc (zip_with (fun a b => zb (a =? b)) kv qv) ;;
  _ <~ alloc (map zb v) ;;
  f <~ read found ;;
  _ <~ put valid v f ;;
  v <~ readb valid ;;
  _ <~ put1 idx (map negb v) (-1) ;;
  pret idx.
Lemma mask_get_map {A B} (f : A -> B) g l : mask_get (map f l) (map g l) = Ok (map f (select (map g l) l)).
Proof. rewrite mask_get_Ok by (rewrite !map_length; reflexivity). rewrite select_map. reflexivity. Qed.
Lemma search_body_spec k q h : gives (search_body k q) h is1 (mapM (search1 k) q).
Proof.
  rewrite (mapM_Ok _ (fun q => if found k q then bucketize k q else -1)) by (intros; apply search1_val).
  set (V := fun q => bucketize k q <? zlen k).
  set (I := map (bucketize k) q).
  set (sel := select (map V q) q).
  set (F := fun q => zb (nth (Z.to_nat (bucketize k q)) k 0 =? q)).
  exists (Ok (mkView (List.length h) (seq 0 (List.length I)))).
  exists [map (fun q => if found k q then bucketize k q else -1) q; map (fun q => zb (found k q)) q; map F sel; map zb (map V q)].
  split.
  2:{ eexists. split; [reflexivity|]. split; [cbn [v_id]; rewrite app_length; cbn [List.length]; lia|].
      unfold I. rewrite map_length, <- (map_length (fun q => if found k q then bucketize k q else -1) q).
      apply rd_at. rewrite app_nth2, Nat.sub_diag by lia. reflexivity. }
  unfold search_body. fold I. unfold pbind at 1. unfold alloc at 1.
  unfold pbind at 1. unfold read at 1. rewrite rd_at by (rewrite app_nth2, Nat.sub_diag by lia; reflexivity).
  unfold pbind at 1. unfold alloc at 1.
  replace (map (fun i => zb (i <? zlen k)) I) with (map zb (map V q)) by (unfold I; rewrite !map_map; reflexivity).
  rewrite <- app_assoc. cbn [app].
  rewrite app_length. cbn [List.length].
  unfold pbind at 1. unfold readb at 1.
  rewrite rd_at by (rewrite nth_app_plus; reflexivity). rewrite map_bz_zb.
  unfold pbind at 1. unfold lift at 1. unfold I at 1. rewrite mask_get_map. fold sel.
  unfold pbind at 1. unfold lift at 1.
  assert (Hg : gather k (map (bucketize k) sel) = Ok (map (fun q => nth (Z.to_nat (bucketize k q)) k 0) sel)).
  { unfold gather. assert (Hs : forall x, In x sel -> V x = true) by (intros x Hx; unfold sel in Hx; apply in_select_map in Hx; apply Hx).
    clearbody sel. induction sel as [|x s IH]; [reflexivity|]. cbn [map mapM].
    rewrite tget_at by (apply (Hs x); left; reflexivity). cbn [bind].
    rewrite IH by (intros y Hy; apply Hs; right; exact Hy). reflexivity. }
  rewrite Hg.
  unfold pbind at 1. unfold lift at 1. rewrite mask_get_Ok by (rewrite map_length; reflexivity). fold sel.
  assert (Hz : zip_with (fun a b => zb (a =? b)) (map (fun q => nth (Z.to_nat (bucketize k q)) k 0) sel) sel = map F sel).
  { unfold zip_with, F. clear. clearbody sel. induction sel as [|x s IH]; [reflexivity|]. cbn [map combine fst snd]. rewrite IH. reflexivity. }
  rewrite Hz.
  unfold pbind at 1. unfold alloc at 1. rewrite <- app_assoc. cbn [app]. rewrite app_length. cbn [List.length].
  unfold pbind at 1. unfold alloc at 1. rewrite <- app_assoc. cbn [app].
  unfold pbind at 1. unfold read at 1. rewrite rd_at by (rewrite nth_app_plus; reflexivity).
  unfold pbind at 1. unfold put. cbn [v_id v_pos].
  rewrite put_at_fill; [|rewrite nth_app_plus; reflexivity|rewrite !map_length; reflexivity
    |unfold sel; rewrite map_length, select_length by (rewrite map_length; reflexivity); reflexivity].
  rewrite set_nth_app. cbn [set_nth]. rewrite map_map. unfold sel. rewrite fill_map_select.
  assert (Hv : map (fun a => if V a then F a else zb (V a)) q = map zb (map (found k) q)).
  { rewrite map_map. apply map_ext. intros a. unfold V, F, found. destruct (bucketize k a <? zlen k); reflexivity. }
  rewrite Hv. fold sel.
  unfold pbind at 1. unfold readb at 1.
  replace (List.length (map (fun x => zb (V x)) q)) with (List.length (map zb (map (found k) q))) by (rewrite !map_length; reflexivity).
  rewrite rd_at by (rewrite nth_app_plus; reflexivity). rewrite map_bz_zb.
  unfold pbind at 1. unfold put1. cbn [v_id v_pos].
  rewrite put_at_fill; [|rewrite app_nth2, Nat.sub_diag by lia; reflexivity|unfold I; rewrite !map_length; reflexivity|rewrite repeat_length; reflexivity].
  replace (List.length h) with (List.length h + 0)%nat at 2 by lia. rewrite set_nth_app. cbn [set_nth].
  unfold I. rewrite map_map at 1 2. rewrite fill_const by reflexivity. rewrite !map_map.
  unfold pret. f_equal. do 2 f_equal. apply map_ext. intros a. destruct (found k a); reflexivity.
Qed.
Lemma search_key_spec h ho o v q d ne : denotes h ho o -> is1 h v q -> gives (h_search_key ho v d ne) h is1 (search_key o q d ne).
Proof.
  intros H Hq. unfold h_search_key, search_key.
  eapply gives_bind; [apply key_spec; exact H|]. intros kv k t Hk. ext1 t Hq. seqread. ext1 t0 Hq. seqread.
  apply search_body_spec.
Qed.
Lemma search_xyzb_spec h ho o v q d ne : denotes h ho o -> is2 h v q ->
  gives (h_search_xyzb ho v d ne) h is1 (q <- mapM row4 q ;; search_xyzb o q d ne).
Proof.
  intros H Hq. unfold h_search_xyzb, search_xyzb. seqread.
  eapply gives_bind; [apply gives_lift|]. intros a cs t1 E. red in E. subst a.
  eapply gives_bind; [apply gives_lift|]. intros a ks t2 E. red in E. subst a.
  eapply gives_seq; [apply gives_alloc|]. intros kv t3 Hk.
  apply search_key_spec; [rewrite <- !app_assoc; apply denotes_ext; exact H|exact Hk].
Qed.

(** ** get_neigh: the remapping writes to a copy *)
Definition remap_body (c : list Z) (neigh : view2) : prog view2 :=
  rows <~ read2 neigh ;;
  valid <~ alloc (map (fun i => zb (0 <=? i)) (concat rows)) ;; v <~ readb valid ;;
  i <~ lift (mask_get (concat rows) v) ;; vals <~ lift (gather c i) ;;
  _ <~ put_at (w_id neigh) (concat (w_pos neigh)) v vals ;;
  pret neigh.
Lemma remap_fill c l : remap_neigh c l =
  bind (gather c (select (map (fun i => 0 <=? i) l) l)) (fun vals => Ok (fill (map (fun i => 0 <=? i) l) l vals)).
Proof.
  unfold remap_neigh, gather. induction l as [|a l IH]; [reflexivity|]. cbn [mapM map select].
  destruct (0 <=? a) eqn:Ha.
  - cbn [mapM]. destruct (tget c a) as [x|e]; [|reflexivity]. cbn [bind]. rewrite IH.
    destruct (mapM (tget c) _); reflexivity.
  - cbn [bind]. rewrite IH. destruct (mapM (tget c) _); reflexivity.
Qed.
Lemma mapM_app {A B} (f : A -> res B) l l' : mapM f (l ++ l') = bind (mapM f l) (fun a => bind (mapM f l') (fun b => Ok (a ++ b))).
Proof.
  induction l as [|a l IH]; cbn [mapM app].
  - destruct (mapM f l'); reflexivity.
  - rewrite IH. destruct (f a); [|reflexivity]. cbn [bind]. destruct (mapM f l); [|reflexivity]. cbn [bind].
    destruct (mapM f l'); reflexivity.
Qed.
Lemma remap_concat c rows :
  match mapM (remap_neigh c) rows with
  | Ok rows' => remap_neigh c (concat rows) = Ok (concat rows') /\ map (@List.length Z) rows = map (@List.length Z) rows'
  | Err e => remap_neigh c (concat rows) = Err e
  end.
Proof.
  induction rows as [|r rows IH]; [split; reflexivity|]. cbn [mapM concat].
  assert (Ha : remap_neigh c (r ++ concat rows) = bind (remap_neigh c r) (fun a => bind (remap_neigh c (concat rows)) (fun b => Ok (a ++ b)))) by apply mapM_app.
  rewrite Ha. destruct (remap_neigh c r) as [r'|e] eqn:Hr; [|reflexivity]. cbn [bind].
  destruct (mapM (remap_neigh c) rows) as [rows'|e]; cbn [bind].
  - destruct IH as [-> Hl]. cbn [bind concat map]. split; [reflexivity|]. f_equal; [|exact Hl].
    unfold remap_neigh in Hr. apply mapM_length in Hr. symmetry; exact Hr.
  - rewrite IH. reflexivity.
Qed.
Lemma gather_len {A} (l : list A) i r : gather l i = Ok r -> List.length r = List.length i.
Proof. apply mapM_length. Qed.
Lemma remap_run c rows h :
  exists r t, remap_body c (mkView2 (List.length h) (pos2 0 rows)) (h ++ [concat rows]) = (r, h ++ t) /\
    match r with Ok a => exists b, mapM (remap_neigh c) rows = Ok b /\ is2 (h ++ t) a b | Err e => mapM (remap_neigh c) rows = Err e end.
Proof.
  unfold remap_body. unfold pbind at 1. unfold read2 at 1.
  rewrite (rd2_at _ _ rows) by (try reflexivity; rewrite app_nth2, Nat.sub_diag by lia; reflexivity).
  unfold pbind at 1. unfold alloc at 1. rewrite <- app_assoc. cbn [app]. rewrite app_length. cbn [List.length].
  unfold pbind at 1. unfold readb at 1.
  rewrite <- (map_map (fun i => 0 <=? i) zb).
  rewrite rd_at by (rewrite nth_app_plus; reflexivity). rewrite map_bz_zb.
  unfold pbind at 1. unfold lift at 1. rewrite mask_get_Ok by (rewrite map_length; reflexivity).
  unfold pbind at 1. unfold lift at 1.
  pose proof (remap_concat c rows) as Hc. rewrite remap_fill in Hc.
  destruct (gather c _) as [vals|e] eqn:Hg; cbn [bind] in Hc.
  - destruct (mapM (remap_neigh c) rows) as [rows'|]; [|discriminate]. destruct Hc as [Hc Hl].
    injection Hc as Hc. unfold pbind at 1. cbn [w_id w_pos]. rewrite concat_pos2.
    assert (Hv : count_true (map (fun i => 0 <=? i) (concat rows)) = List.length vals)
      by (apply gather_len in Hg; rewrite select_length in Hg by (rewrite map_length; reflexivity); symmetry; exact Hg).
    rewrite put_at_fill; [|rewrite app_nth2, Nat.sub_diag by lia; reflexivity|apply map_length|exact Hv].
    rewrite Hc.
    replace (set_nth (h ++ [concat rows; map zb (map (fun i => 0 <=? i) (concat rows))]) (List.length h) (concat rows'))
      with (h ++ [concat rows'; map zb (map (fun i => 0 <=? i) (concat rows))])
      by (replace (List.length h) with (List.length h + 0)%nat by lia; rewrite set_nth_app; reflexivity).
    eexists _, _. split; [reflexivity|]. exists rows'. split; [reflexivity|]. split; [cbn [w_id]; rewrite app_length; cbn; lia|].
    apply rd2_at; [rewrite app_nth2, Nat.sub_diag by lia; reflexivity|exact Hl].
  - destruct (mapM (remap_neigh c) rows) as [rows'|e']; [destruct Hc; discriminate|]. injection Hc as <-.
    eexists _, _. split; [reflexivity|reflexivity].
Qed.
Lemma every_map {A B} (f : A -> B) n : forall l, every n (map f l) = map f (every n l).
Proof.
  unfold every. intros l. generalize 0%nat. induction l as [|a l IH]; intros s; [reflexivity|].
  cbn [map step_from]. destruct s; cbn [map]; rewrite IH; reflexivity.
Qed.
Lemma kernel_spec h w rows kernel : is2 h w rows ->
  gives (if String.eqb kernel "333" then pret w
         else match lookup_kernel kernel lut_kernel with
              | Some lut => rows <~ read2 w ;; r <~ lift (mapM (fun row => gather row lut) rows) ;; alloc2 r
              | None => lift (Err ValueError)
              end) h is2
        (if String.eqb kernel "333" then Ok rows
         else match lookup_kernel kernel lut_kernel with
              | Some lut => mapM (fun row => gather row lut) rows
              | None => Err ValueError
              end).
Proof.
  intros H. destruct (String.eqb kernel "333"); [apply gives_ret; exact H|].
  destruct (lookup_kernel kernel lut_kernel) as [lut|].
  - seqread. apply gives_last. intros b t'. apply gives_alloc2.
  - exists (Err ValueError), []. rewrite app_nil_r. split; reflexivity.
Qed.
Lemma pbind_assoc {A B C} (m : prog A) (f : A -> prog B) (g : B -> prog C) h :
  pbind (pbind m f) g h = pbind m (fun a => pbind (f a) g) h.
Proof. unfold pbind. destruct (m h) as [[a|e] h']; reflexivity. Qed.
Lemma gives_eq {A B} (m m' : prog A) h (R : heap -> A -> B -> Prop) p : m h = m' h -> gives m' h R p -> gives m h R p.
Proof. intros E (r & t & Hm & Hr). exists r, t. rewrite E. auto. Qed.
Lemma remap_alloc c rows h : gives (neigh <~ alloc2 rows ;; remap_body c neigh) h is2 (mapM (remap_neigh c) rows).
Proof.
  destruct (remap_run c rows h) as (r & t & Hm & Hr). exists r, t. split; [exact Hm|exact Hr].
Qed.
Lemma get_neigh_spec h ho o d kernel stride ne : denotes h ho o ->
  gives (h_get_neigh ho d kernel stride ne) h is2 (get_neigh o d kernel stride ne).
Proof.
  intros H. unfold h_get_neigh, get_neigh.
  eapply gives_bind; [apply gives_layer; exact H|]. intros l k t (Hk & Hc & Hn). revert Hk Hc Hn.
  generalize (h ++ t). clear h t H. intros h Hk Hc Hn.
  destruct (stride =? 1) eqn:H1; [|destruct (stride =? 2) eqn:H2].
  - eapply gives_bind; [apply gives_need2; exact Hn|]. intros w rows t Hw.
    eapply gives_bind with (R := is2).
    2:{ intros w' rows' t' Hw'. apply kernel_spec. exact Hw'. }
    destruct ne; [|apply gives_ret; exact Hw].
    assert (Hc' : tensor_is rd v_id (h ++ t) (h_children l) (children k))
      by (destruct (h_children l), (children k); cbn in *; try contradiction; [apply is1_ext; exact Hc|exact I]).
    eapply gives_bind; [apply gives_need1; exact Hc'|]. intros cv c t1 Hcv.
    eapply gives_seq; [apply gives_read; exact Hcv|]. intros a t2 E. red in E. subst a.
    apply (is2_ext _ t1) in Hw. apply (is2_ext _ t2) in Hw.
    revert Hw. generalize (((h ++ t) ++ t1) ++ t2). clear. intros h Hw.
    eapply gives_eq; [apply pbind_assoc|].
    eapply gives_seq; [apply gives_alloc|]. intros nv t Hnv. rewrite <- (map_map (fun i => 0 <=? i) zb) in Hnv.
    eapply gives_eq; [apply pbind_assoc|].
    eapply gives_seq; [apply gives_readb; exact Hnv|]. intros a t0 E. red in E. subst a.
    apply (is2_ext _ t) in Hw. apply (is2_ext _ t0) in Hw.
    eapply gives_eq; [apply pbind_assoc|].
    eapply gives_seq; [apply gives_read2; exact Hw|]. intros a t3 E. red in E. subst a.
    eapply gives_eq; [apply pbind_assoc|].
    eapply gives_bind; [apply gives_lift|]. intros a rows' t4 E. red in E. subst a.
    apply remap_alloc.
  - (* stride 2: the clone precedes the look-up of the children *)
    destruct (h_neighs l) as [n|] eqn:Hhn, (neighs k) as [rows|] eqn:Hkn; cbn [tensor_is] in Hn; try contradiction;
      [|exists (Err TypeError), []; rewrite app_nil_r; split; reflexivity].
    cbn [need bind].
    assert (Hev : is2 h (mkView2 (w_id n) (every 8 (w_pos n))) (every 8 rows)).
    { destruct Hn as [Hi Hr]. split; [exact Hi|]. unfold rd2 in *. cbn [w_id w_pos]. rewrite <- every_map, Hr. reflexivity. }
    destruct ne.
    + rewrite <- (bind_Ok (every 8 rows) (fun _ => _)).
      set (g := fun neigh : list (list Z) => if String.eqb kernel "333" then Ok neigh
                else match lookup_kernel kernel lut_kernel with Some lut => mapM (fun row => gather row lut) neigh | None => Err ValueError end).
      cbn [bind].
      eapply gives_eq with (m' := _ <~ read2 (mkView2 (w_id n) (every 8 (w_pos n))) ;;
         w' <~ (w <~ alloc2 (every 8 rows) ;; child <~ lift (need (h_children l)) ;; c <~ read child ;; remap_body c w) ;; _).
      { unfold pbind at 1 2 3. unfold lift at 1. unfold read2 at 1. unfold pbind at 1. unfold read2 at 1.
        destruct Hev as [_ ->]. unfold pbind at 1. unfold alloc2 at 1. unfold pbind at 2. unfold pbind at 3. unfold alloc2 at 1.
        reflexivity. }
      eapply gives_seq; [apply gives_read2; exact Hev|]. intros a t _.
      eapply gives_bind with (R := is2).
      2:{ intros w' rows' t' Hw'. apply kernel_spec. exact Hw'. }
      destruct (h_children l) as [cv|], (children k) as [c|]; cbn [tensor_is] in Hc; try contradiction.
      * cbn [need bind].
        eapply gives_eq with (m' := w <~ alloc2 (every 8 rows) ;; remap_body c w); [|apply remap_alloc].
        unfold pbind at 1. unfold alloc2 at 1. unfold pbind at 1. unfold lift. unfold pbind at 1. unfold read at 1.
        rewrite <- app_assoc, rd_ext by apply Hc. destruct Hc as [_ ->]. rewrite app_assoc. reflexivity.
      * cbn [need bind]. eexists _, _. split; reflexivity.
    + eapply gives_bind with (R := is2) (p := Ok (every 8 rows)).
      2:{ intros w' rows' t' Hw'. apply kernel_spec. exact Hw'. }
      eapply gives_eq with (m' := _ <~ read2 (mkView2 (w_id n) (every 8 (w_pos n))) ;; alloc2 (every 8 rows)).
      { unfold pbind. unfold lift, read2. destruct Hev as [_ ->]. reflexivity. }
      eapply gives_seq; [apply gives_read2; exact Hev|]. intros a t _. apply gives_alloc2.
  - exists (Err ValueError), []. rewrite app_nil_r. split; reflexivity.
Qed.

(** ** histories *)
Definition is_answer (h : heap) (a : answer view view2) (c : answer (list Z) (list (list Z))) : Prop :=
  match a, c with
  | One v, One l => is1 h v l
  | Two w, Two l => is2 h w l
  | Four x y z b, Four lx ly lz lb => is1 h x lx /\ is1 h y ly /\ is1 h z lz /\ is1 h b lb
  | _, _ => False
  end.
Lemma is_answer_ext h t a c : is_answer h a c -> is_answer (h ++ t) a c.
Proof.
  destruct a, c; cbn; try contradiction; [apply is1_ext|apply is2_ext|].
  intros (H1 & H2 & H3 & H4). split; [|split; [|split]]; apply is1_ext; assumption.
Qed.
Lemma is_answer_contents h a c : is_answer h a c -> answer_contents h a = c.
Proof.
  destruct a, c; cbn; try contradiction; [intros [_ ->]; reflexivity|intros [_ ->]; reflexivity|].
  intros ([_ ->] & [_ ->] & [_ ->] & [_ ->]). reflexivity.
Qed.
Lemma call_spec h ho o q : denotes h ho o -> query_ok h q ->
  gives (call ho q) h is_answer (pure_answer o (query_contents h q)).
Proof.
  intros H Hq. destruct q; cbn [call query_contents pure_answer] in *.
  - eapply gives_bind; [apply key_spec; exact H|]. intros. apply gives_ret. assumption.
  - eapply gives_bind; [apply xyzb_spec; exact H|]. intros [[[x y] z] b] cs t Hc. apply gives_ret. exact Hc.
  - eapply gives_bind; [apply batch_spec; exact H|]. intros. apply gives_ret. assumption.
  - eapply gives_bind; [apply mask_spec; exact H|]. intros. apply gives_ret. assumption.
  - eapply gives_bind; [apply search_key_spec; [exact H|split; [exact Hq|reflexivity]]|]. intros. apply gives_ret. assumption.
  - assert (Ha : forall (r : res (list (Z * Z * Z * Z))) (f : list (Z * Z * Z * Z) -> res (list Z)) (g : list Z -> res (answer (list Z) (list (list Z)))),
      bind r (fun q => bind (f q) g) = bind (bind r f) g) by (intros [?|?] f g; reflexivity).
    rewrite Ha. eapply gives_bind; [apply search_xyzb_spec; [exact H|split; [exact Hq|reflexivity]]|]. intros. apply gives_ret. assumption.
  - eapply gives_bind; [apply get_neigh_spec; exact H|]. intros. apply gives_ret. assumption.
Qed.
Lemma query_ext h t q : query_ok h q -> query_ok (h ++ t) q /\ query_contents (h ++ t) q = query_contents h q.
Proof.
  destruct q; cbn; intros H; try (split; [exact I|reflexivity]); rewrite app_length.
  - rewrite rd_ext by exact H. split; [lia|reflexivity].
  - rewrite rd2_ext by exact H. split; [lia|reflexivity].
Qed.
Theorem thm_queries ho o qs : forall h rs h', denotes h ho o -> Forall (query_ok h) qs -> calls ho qs h = (rs, h') ->
  (exists t, h' = h ++ t) /\ denotes h' ho o /\
  Forall2 (fun q r => pure_answer o (query_contents h q) =
                      match r with Ok a => Ok (answer_contents h' a) | Err e => Err e end) qs rs.
Proof.
  induction qs as [|q qs IH]; intros h rs h' Hd Hq Hc; cbn [calls] in Hc.
  - injection Hc as <- <-. split; [exists []; rewrite app_nil_r; reflexivity|]. split; [exact Hd|constructor].
  - inversion Hq as [|? ? Hq1 Hqs]; subst.
    destruct (call_spec h ho o q Hd Hq1) as (r & t & Hm & Hr). rewrite Hm in Hc.
    destruct (calls ho qs (h ++ t)) as [rs2 h2] eqn:Hcs. injection Hc as <- <-.
    destruct (IH (h ++ t) rs2 h2) as ((t2 & ->) & Hd2 & HF); [apply denotes_ext; exact Hd| |exact Hcs|].
    { eapply Forall_impl; [|exact Hqs]. intros q' Hq'. apply (proj1 (query_ext h t q' Hq')). }
    split; [exists (t ++ t2); rewrite app_assoc; reflexivity|]. split; [exact Hd2|]. constructor.
    + destruct r as [a|e]; [|exact Hr]. destruct Hr as (b & -> & Hb). f_equal. symmetry.
      apply is_answer_contents, is_answer_ext. exact Hb.
    + clear - HF Hqs. revert rs2 HF Hqs. induction qs as [|q' qs IH]; intros rs HF Hqs; inversion HF; subst; constructor.
      * inversion Hqs; subst. rewrite (proj2 (query_ext h t q' H2)) in H1. exact H1.
      * apply IH; [assumption|]. inversion Hqs; assumption.
Qed.
Theorem thm_queries_pure ho o qs h rs h' : denotes h ho o -> Forall (query_ok h) qs -> calls ho qs h = (rs, h') ->
  (forall i s, nth_error h i = Some s -> nth_error h' i = Some s) /\ denotes h' ho o /\
  Forall2 (fun q r => pure_answer o (query_contents h q) =
                      match r with Ok a => Ok (answer_contents h' a) | Err e => Err e end) qs rs.
Proof.
  intros Hd Hq Hc. destruct (thm_queries ho o qs h rs h' Hd Hq Hc) as ((t & ->) & H1 & H2).
  split; [|split; assumption]. intros i s Hi. rewrite nth_error_app1; [exact Hi|]. apply nth_error_Some. congruence.
Qed.
