(** The convolutions on an arbitrary table, and the tables of octrees. *)
From Coq Require Import String List ZArith Bool QArith Qcanon Lia Field.
From Verif Require Import Res Tensor Num NumFacts Points Octree NnBasic NnConv Spec SpecGeo SpecNeigh SpecNN WF ListFacts ScatterFacts SumFacts NnFacts KidsFacts WFFacts SearchFacts NeighFacts NeighSparse GetNeigh NeighThms.
Import ListNotations.
Open Scope Z_scope.

(** ** convolution of a table *)
Definition cv (Ci Co : nat) (x : feat) (W : list feat) (t : list (list Z)) : feat :=
  map (fun row => vecmat Co (concat (grow Ci x row)) (concat W)) t.

Lemma concat_concat_len K Ci Co (W : list feat) : shape3 K Ci Co W -> length (concat W) = (K * Ci)%nat.
Proof. intros H. destruct (shape_concat K Ci Co W H) as [E _]. exact E. Qed.
Lemma cv_shape Ci Co x W t : shape (length t) Co (cv Ci Co x W t).
Proof. apply shape_map; [reflexivity|]. intros. apply vecmat_length. Qed.
Lemma cv_entry n K Ci Co x W t r o : shape n Ci x -> table_ok t K n -> shape3 K Ci Co W -> (r < length t)%nat -> (o < Co)%nat ->
  at2 (cv Ci Co x W t) r o = sum_n K (fun k => sum_n Ci (fun c => at_row x (entry t r k) c * at3 W k c o)%Qc).
Proof.
  intros Hx Ht HW Hr Ho. unfold at2 at 1, cv. rewrite (nth_map_lt _ _ _ []) by exact Hr.
  destruct (table_row t K n r Ht Hr) as [Hl Hf].
  assert (Hs : shape K Ci (grow Ci x (nth r t []))) by (rewrite <- Hl; apply (grow_shape Ci x _ n); assumption).
  rewrite vecmat_nth; [|rewrite (length_concat_shape K Ci) by exact Hs; symmetry; apply (concat_concat_len K Ci Co); exact HW|exact Ho].
  rewrite (concat_concat_len K Ci Co) by exact HW. rewrite sum_mul. apply sum_ext. intros k Hk. apply sum_ext. intros c Hc.
  rewrite (nth_concat 0%Qc K Ci) by assumption. rewrite (at2_concat K Ci Co) by assumption.
  change (nth c (nth k (grow Ci x (nth r t [])) []) 0%Qc) with (at2 (grow Ci x (nth r t [])) k c). rewrite at2_grow. reflexivity.
Qed.

Lemma forward_gemm_Ok m s n K out x W : plan_ok (g_n s) (g_h s) (zlen (g_neigh s)) -> m_kdim m = K ->
  shape n (m_inconv m) x -> table_ok (g_neigh s) K n -> shape3 K (m_inconv m) (m_outconv m) W -> length out = length (g_neigh s) ->
  forward_gemm m s out x W = Ok (cv (m_inconv m) (m_outconv m) x W (g_neigh s)).
Proof.
  intros P HK Hx Ht HW Ho. unfold forward_gemm. apply (forward_loop_Ok s P (m_inconv m) K n _ (fun b => vecmat (m_outconv m) (concat b) (concat W))).
  - exact Hx.
  - exact Ht.
  - intros buf R Hb. rewrite mm_Ok; [rewrite map_map; reflexivity|]. intros r Hr. apply in_map_iff in Hr. destruct Hr as (b & <- & Hin).
    destruct Hb as [_ Hb]. rewrite Forall_forall in Hb. rewrite (length_concat_shape K (m_inconv m)) by (apply Hb; exact Hin).
    symmetry. apply (concat_concat_len K (m_inconv m) (m_outconv m)). exact HW.
  - unfold zlen. rewrite Ho. reflexivity.
Qed.

(** ** transposed convolution of a table *)
Definition spr (K Ci Co : nat) (W : list feat) (g : vec) : feat :=
  chunk_rows K Ci (vecmat (K * Ci) g (transpose Co (concat W))).
Definition bw_entry (K Co : nat) (W : list feat) (g : feat) (t : list (list Z)) (i c : nat) : Qc :=
  sum_n (length t) (fun r => sum_n K (fun k => if entry t r k =? Z.of_nat i then sum_n Co (fun o => at2 g r o * at3 W k c o)%Qc else 0%Qc)).

Lemma spr_shape K Ci Co W g : shape K Ci (spr K Ci Co W g).
Proof. apply chunk_rows_shape. apply vecmat_length. Qed.
Lemma at2_spr K Ci Co W g k c : shape3 K Ci Co W -> length g = Co -> (k < K)%nat -> (c < Ci)%nat ->
  at2 (spr K Ci Co W g) k c = sum_n Co (fun o => nth o g 0 * at3 W k c o)%Qc.
Proof.
  intros HW Hg Hk Hc. unfold at2 at 1, spr. rewrite nth_chunk_rows; [|apply vecmat_length|exact Hk|exact Hc].
  assert (Hkc : (k * Ci + c < K * Ci)%nat) by nia.
  rewrite vecmat_nth; [|rewrite transpose_length; exact Hg|exact Hkc]. rewrite transpose_length. apply sum_ext. intros o Ho.
  rewrite at2_transpose; [|exact Ho|rewrite (concat_concat_len K Ci Co) by exact HW; exact Hkc].
  rewrite (at2_concat K Ci Co) by assumption. reflexivity.
Qed.
Lemma mm_spread K Ci Co W gr : Forall (fun r => length r = Co) gr ->
  (p <- mm (K * Ci) gr (transpose Co (concat W)) ;; Ok (map (chunk_rows K Ci) p)) = Ok (map (spr K Ci Co W) gr).
Proof.
  intros Hg. rewrite mm_Ok; [cbn [bind]; rewrite map_map; reflexivity|]. intros r Hr. rewrite transpose_length.
  rewrite Forall_forall in Hg. apply Hg. exact Hr.
Qed.
Lemma spr_shape3 K Ci Co W g R : length g = R -> shape3 R K Ci (map (spr K Ci Co W) g).
Proof. intros <-. apply shape3_map. intros a _. apply spr_shape. Qed.
Lemma at3_spr K Ci Co W (g : feat) R r k c : shape3 K Ci Co W -> shape R Co g -> (r < R)%nat -> (k < K)%nat -> (c < Ci)%nat ->
  at3 (map (spr K Ci Co W) g) r k c = sum_n Co (fun o => at2 g r o * at3 W k c o)%Qc.
Proof.
  intros HW Hg Hr Hk Hc. unfold at3 at 1. rewrite (nth_map_lt _ _ _ []) by (destruct Hg as [-> _]; exact Hr).
  rewrite at2_spr; [reflexivity|exact HW|apply (shape_nth R Co); assumption|exact Hk|exact Hc].
Qed.
Lemma bw_scatter n K Ci Co out (g : feat) W t : shape n Ci out -> shape (length t) Co g -> table_ok t K n -> shape3 K Ci Co W ->
  exists z, scatter_add_into vadd out (filter (Z.leb 0) (concat t)) (srcs (concat (map (spr K Ci Co W) g)) (concat t)) = Ok z /\
    shape n Ci z /\ forall i c, (i < n)%nat -> (c < Ci)%nat -> at2 z i c = (at2 out i c + bw_entry K Co W g t i c)%Qc.
Proof.
  intros Ho Hg Ht HW. destruct (scatter_table n K Ci out (map (spr K Ci Co W) g) t) as (z & H1 & H2 & H3).
  - exact Ho.
  - apply spr_shape3. apply Hg.
  - exact Ht.
  - exists z. split; [exact H1|]. split; [exact H2|]. intros i c Hi Hc. rewrite H3 by exact Hi. f_equal. unfold bw_entry.
    apply sum_ext. intros r Hr. apply sum_ext. intros k Hk. rewrite (at3_spr K Ci Co W g (length t)) by assumption. reflexivity.
Qed.
Lemma backward_gemm_eq m s n K out g W : plan_ok (g_n s) (g_h s) (zlen (g_neigh s)) -> m_kdim m = K ->
  shape (length (g_neigh s)) (m_outconv m) g -> table_ok (g_neigh s) K n -> 
  backward_gemm m s out g W = scatter_add_into vadd out (filter (Z.leb 0) (concat (g_neigh s)))
    (srcs (concat (map (spr K (m_inconv m) (m_outconv m) W) g)) (concat (g_neigh s))).
Proof.
  intros P HK Hg Ht. unfold backward_gemm. rewrite HK.
  apply (backward_loop_Ok s P (m_inconv m) K n (m_outconv m)).
  - exact Ht.
  - exact Hg.
  - intros r _. apply spr_shape.
  - intros gr Hgr. apply mm_spread. exact Hgr.
Qed.

(** conv and its transpose are adjoint. *)
Lemma cv_adjoint n K Ci Co x W t g z : shape n Ci x -> table_ok t K n -> shape3 K Ci Co W -> shape (length t) Co g ->
  (forall i c, (i < n)%nat -> (c < Ci)%nat -> at2 z i c = bw_entry K Co W g t i c) ->
  inner (length t) Co (cv Ci Co x W t) g = inner n Ci x z.
Proof.
  intros Hx Ht HW Hg Hz. set (y := map (spr K Ci Co W) g).
  transitivity (sum_n (length t) (fun r => sum_n K (fun k => sum_n Ci (fun c => at_row x (entry t r k) c * at3 y r k c)%Qc))).
  - unfold inner. apply sum_ext. intros r Hr.
    transitivity (sum_n Co (fun o => sum_n K (fun k => sum_n Ci (fun c => at_row x (entry t r k) c * (at2 g r o * at3 W k c o))%Qc))).
    { apply sum_ext. intros o Ho. rewrite (cv_entry n K) by assumption. rewrite <- sum_scale_r. apply sum_ext. intros k Hk.
      rewrite <- sum_scale_r. apply sum_ext. intros c Hc. ring. }
    rewrite (sum_swap Co). apply sum_ext. intros k Hk. rewrite (sum_swap Co). apply sum_ext. intros c Hc.
    rewrite sum_scale. f_equal. unfold y. rewrite (at3_spr K Ci Co W g (length t)) by assumption. reflexivity.
  - apply (gather_scatter t K n Ci x z y Ht). intros i c Hi Hc. rewrite Hz by assumption. unfold bw_entry. apply sum_ext. intros r Hr.
    apply sum_ext. intros k Hk. unfold y. rewrite (at3_spr K Ci Co W g (length t)) by assumption. reflexivity.
Qed.

(** ** gradient with respect to the weights *)
Definition gw_entry (x g : feat) (t : list (list Z)) (k c o : nat) : Qc :=
  sum_n (length t) (fun r => at_row x (entry t r k) c * at2 g r o)%Qc.
Lemma zip_vadd_shape n C (x y : feat) : shape n C x -> shape n C y -> shape n C (zip_with vadd x y).
Proof.
  intros [H1 H2] [H3 H4]. unfold zip_with. split; [rewrite map_length, combine_length; lia|].
  apply Forall_forall. intros r Hr. apply in_map_iff in Hr. destruct Hr as ([a b] & <- & Hin). rewrite Forall_forall in H2, H4.
  pose proof (H2 a (in_combine_l _ _ _ _ Hin)). pose proof (H4 b (in_combine_r _ _ _ _ Hin)). cbn [fst snd]. rewrite vadd_len; congruence.
Qed.
Lemma at2_zip_vadd n C (x y : feat) i c : shape n C x -> shape n C y -> (i < n)%nat ->
  at2 (zip_with vadd x y) i c = (at2 x i c + at2 y i c)%Qc.
Proof.
  intros Hx Hy Hi. unfold at2 at 1, zip_with. pose proof Hx as [H1 _]. pose proof Hy as [H3 _].
  rewrite (nth_map_lt _ _ _ ([], [])) by (rewrite combine_length; lia). rewrite nth_combine by lia. cbn [fst snd].
  apply vadd_nth. rewrite !(shape_nth n C) by assumption. reflexivity.
Qed.
Lemma zeros_like_entry x i c : at2 (zeros_like x) i c = 0%Qc.
Proof.
  unfold at2, zeros_like. destruct (Nat.lt_ge_cases i (length x)) as [Hi|Hi].
  - rewrite (nth_map_lt _ _ _ []) by exact Hi. destruct (Nat.lt_ge_cases c (length (nth i x []))) as [Hc|Hc].
    + rewrite (nth_map_lt _ _ _ 0%Qc) by exact Hc. reflexivity.
    + apply nth_overflow. rewrite map_length. exact Hc.
  - rewrite (nth_overflow (map _ x)) by (rewrite map_length; exact Hi). destruct c; reflexivity.
Qed.
Lemma zeros_like_shape n C x : shape n C x -> shape n C (zeros_like x).
Proof.
  intros [H1 H2]. unfold zeros_like. split; [rewrite map_length; exact H1|]. apply Forall_forall. intros r Hr. apply in_map_iff in Hr.
  destruct Hr as (a & <- & Ha). rewrite map_length. rewrite Forall_forall in H2. apply H2. exact Ha.
Qed.
Lemma zeros_like_shape3 n K C x : shape3 n K C x -> shape3 n K C (map zeros_like x).
Proof.
  intros [H1 H2]. split; [rewrite map_length; exact H1|]. apply Forall_forall. intros r Hr. apply in_map_iff in Hr.
  destruct Hr as (a & <- & Ha). apply zeros_like_shape. rewrite Forall_forall in H2. apply H2. exact Ha.
Qed.
Lemma zeros_like3 x i k c : at3 (map zeros_like x) i k c = 0%Qc.
Proof.
  unfold at3. destruct (Nat.lt_ge_cases i (length x)) as [Hi|Hi].
  - rewrite (nth_map_lt _ _ _ []) by exact Hi. apply zeros_like_entry.
  - rewrite (nth_overflow (map _ x)) by (rewrite map_length; exact Hi). unfold at2. destruct k, c; reflexivity.
Qed.
Lemma chunk_rows_shape3 {A} K Ci Co (l : list (list A)) : shape (K * Ci) Co l -> shape3 K Ci Co (chunk_rows K Ci l).
Proof.
  intros [H1 H2]. destruct (chunk_rows_shape K Ci l H1) as [E1 E2]. split; [exact E1|]. rewrite Forall_forall in *. intros b Hb. split; [apply E2; exact Hb|].
  rewrite Forall_forall. intros r Hr. apply H2. rewrite <- (concat_chunk_rows K Ci l H1). apply in_concat. exists b. auto.
Qed.
Lemma at3_chunk_rows K Ci Co (l : feat) k c o : shape (K * Ci) Co l -> (k < K)%nat -> (c < Ci)%nat ->
  at3 (chunk_rows K Ci l) k c o = at2 l (k * Ci + c) o.
Proof.
  intros Hl Hk Hc. rewrite <- (at2_concat K Ci Co) by (try apply chunk_rows_shape3; assumption).
  rewrite concat_chunk_rows by apply Hl. reflexivity.
Qed.

Lemma weight_gemm_Ok m s n K x g W : plan_ok (g_n s) (g_h s) (zlen (g_neigh s)) -> m_kdim m = K ->
  shape n (m_inconv m) x -> table_ok (g_neigh s) K n -> shape3 K (m_inconv m) (m_outconv m) W ->
  shape (length (g_neigh s)) (m_outconv m) g ->
  exists gw, weight_gemm m s (map zeros_like W) x g = Ok gw /\ shape3 K (m_inconv m) (m_outconv m) gw /\
    forall k c o, (k < K)%nat -> (c < m_inconv m)%nat -> (o < m_outconv m)%nat -> at3 gw k c o = gw_entry x g (g_neigh s) k c o.
Proof.
  intros P HK Hx Ht HW Hg. set (Ci := m_inconv m) in *. set (Co := m_outconv m) in *.
  assert (Hz : shape (K * Ci) Co (concat (map zeros_like W))) by (apply shape_concat, zeros_like_shape3; exact HW).
  unfold weight_gemm. fold Ci Co. rewrite HK.
  destruct (weight_loop_Ok s P Ci K n Co (K * Ci) Co (fun out buf gr =>
         p <- mm Co (transpose (K * Ci) (map (@concat Qc) buf)) gr ;;
         if Nat.eqb (length p) (length out) then Ok (zip_with vadd out p) else Err RuntimeError)
     (fun b gr a o => (nth a (concat b) 0 * nth o gr 0)%Qc) (concat (map zeros_like W)) x g Hx Ht Hg Hz) as (z & E1 & S1 & A1).
  { intros R out buf gr Ho Hb Hgr. rewrite mm_Ok.
    2:{ intros r Hr. destruct (transpose_shape (K * Ci) (map (@concat Qc) buf)) as [_ F]. rewrite Forall_forall in F. rewrite (F r Hr), map_length.
        destruct Hb as [-> _]. symmetry. apply Hgr. }
    cbn [bind]. rewrite map_length, transpose_length. replace (Nat.eqb (K * Ci) (length out)) with true by (symmetry; apply Nat.eqb_eq; symmetry; apply Ho).
    set (p := map _ _). assert (Hp : shape (K * Ci) Co p). { apply shape_map; [apply transpose_length|]. intros; apply vecmat_length. }
    exists (zip_with vadd out p). split; [reflexivity|]. split; [apply zip_vadd_shape; assumption|]. intros a b Ha Hb'.
    rewrite (at2_zip_vadd (K * Ci) Co) by assumption. f_equal. unfold at2 at 1, p. rewrite (nth_map_lt _ _ _ []) by (rewrite transpose_length; exact Ha).
    assert (Hlen : length (nth a (transpose (K * Ci) (map (@concat Qc) buf)) []) = length gr).
    { rewrite (shape_nth (K * Ci) _ _ a (transpose_shape _ _) Ha), map_length. destruct Hb as [-> _]. symmetry. apply Hgr. }
    rewrite vecmat_nth by assumption. destruct Hgr as [Hgr1 Hgr2]. rewrite Hgr1. apply sum_ext. intros r Hr.
    change (nth r (nth a (transpose (K * Ci) (map (@concat Qc) buf)) []) 0%Qc) with (at2 (transpose (K * Ci) (map (@concat Qc) buf)) a r).
    destruct Hb as [Hb1 Hb2]. rewrite at2_transpose by (rewrite ?map_length, ?Hb1; assumption). unfold at2.
    rewrite (nth_map_lt _ _ _ []) by (rewrite Hb1; exact Hr). reflexivity. }
  rewrite E1. cbn [bind]. exists (chunk_rows K Ci z). split; [reflexivity|]. split; [apply chunk_rows_shape3; exact S1|].
  intros k c o Hk Hc Ho. rewrite (at3_chunk_rows K Ci Co) by assumption. rewrite A1 by (try exact Ho; nia).
  rewrite (at2_concat K Ci Co) by (try apply zeros_like_shape3; assumption). rewrite zeros_like3. rewrite Qcplus_0_l. unfold gw_entry.
  apply sum_ext. intros r Hr. unfold at2 at 1. f_equal.
  destruct (table_row (g_neigh s) K n r Ht Hr) as [Hl Hf].
  rewrite (nth_concat 0%Qc K Ci); [|rewrite <- Hl; apply (grow_shape Ci x _ n); assumption|exact Hk|exact Hc].
  apply (at2_grow Ci x (nth r (g_neigh s) []) k c).
Qed.
Lemma gw_adjoint n K Ci Co x W t g gw : shape n Ci x -> table_ok t K n -> shape3 K Ci Co W -> shape (length t) Co g ->
  (forall k c o, (k < K)%nat -> (c < Ci)%nat -> (o < Co)%nat -> at3 gw k c o = gw_entry x g t k c o) ->
  inner (length t) Co (cv Ci Co x W t) g = inner3 K Ci Co W gw.
Proof.
  intros Hx Ht HW Hg Hgw. unfold inner, inner3.
  transitivity (sum_n (length t) (fun r => sum_n K (fun k => sum_n Ci (fun c => sum_n Co (fun o => at3 W k c o * (at_row x (entry t r k) c * at2 g r o))%Qc)))).
  - apply sum_ext. intros r Hr.
    transitivity (sum_n Co (fun o => sum_n K (fun k => sum_n Ci (fun c => at3 W k c o * (at_row x (entry t r k) c * at2 g r o))%Qc))).
    + apply sum_ext. intros o Ho. rewrite (cv_entry n K) by assumption. rewrite <- sum_scale_r. apply sum_ext. intros k Hk.
      rewrite <- sum_scale_r. apply sum_ext. intros c Hc. ring.
    + rewrite (sum_swap Co). apply sum_ext. intros k Hk. apply sum_swap.
  - rewrite (sum_swap (length t)). apply sum_ext. intros k Hk. rewrite (sum_swap (length t)). apply sum_ext. intros c Hc.
    rewrite (sum_swap (length t)). apply sum_ext. intros o Ho. rewrite sum_scale, Hgw by assumption. reflexivity.
Qed.

(** ** linearity *)
Lemma at_row_add n C x y e c : e < Z.of_nat n -> (c < C)%nat -> at_row (add2 n C x y) e c = (at_row x e c + at_row y e c)%Qc.
Proof.
  intros He Hc. unfold at_row. destruct (Z.ltb_spec e 0); [ring|]. unfold add2. apply at2_tabulate; [lia|exact Hc].
Qed.
Lemma cv_add_x n K Ci Co x y W t r o : shape n Ci x -> shape n Ci y -> table_ok t K n -> shape3 K Ci Co W -> (r < length t)%nat -> (o < Co)%nat ->
  at2 (cv Ci Co (add2 n Ci x y) W t) r o = (at2 (cv Ci Co x W t) r o + at2 (cv Ci Co y W t) r o)%Qc.
Proof.
  intros Hx Hy Ht HW Hr Ho. rewrite !(cv_entry n K) by (try apply add2_shape; assumption). rewrite <- sum_plus. apply sum_ext. intros k Hk.
  rewrite <- sum_plus. apply sum_ext. intros c Hc. rewrite at_row_add by (try apply (entry_bound t K); assumption). ring.
Qed.
Lemma cv_add_w n K Ci Co x W V t r o : shape n Ci x -> table_ok t K n -> shape3 K Ci Co W -> shape3 K Ci Co V -> (r < length t)%nat -> (o < Co)%nat ->
  at2 (cv Ci Co x (add3 K Ci Co W V) t) r o = (at2 (cv Ci Co x W t) r o + at2 (cv Ci Co x V t) r o)%Qc.
Proof.
  intros Hx Ht HW HV Hr Ho. rewrite !(cv_entry n K) by (try apply add3_shape; assumption). rewrite <- sum_plus. apply sum_ext. intros k Hk.
  rewrite <- sum_plus. apply sum_ext. intros c Hc. rewrite at3_add3 by assumption. ring.
Qed.
Lemma inner_comm n C x y : inner n C x y = inner n C y x.
Proof. unfold inner. apply sum_ext. intros i _. apply sum_ext. intros c _. ring. Qed.
