(** Concrete clouds and octrees used to show that hypotheses can be met. *)
From Coq Require Import List ZArith Bool QArith Qcanon Lia.
From Verif Require Import Res Tensor Key Num Points Octree Spec SpecGeo SpecBuild WF.
Import ListNotations.
Open Scope Z_scope.

Definition qf (a : Z) (b : positive) : Qc := Q2Qc (a # b).

(** the cloud of /repo/test/test_octree.py:19-23 *)
Definition ex_cloud : pcloud Qc :=
  mkPoints [(qf (-1) 1, qf (-1) 1, qf (-1) 1); (qf 0 1, qf 0 1, qf (-1) 1); (qf 1 16, qf 1 16, qf (-1) 1)]
    (Some [(qf 1 1, qf 0 1, qf 0 1); (qf (-1) 1, qf 0 1, qf 0 1); (qf 0 1, qf 1 1, qf 0 1)])
    (Some [[qf 1 1; qf (-1) 1]; [qf 2 1; qf (-2) 1]; [qf 3 1; qf (-3) 1]])
    (Some [[qf 0 1]; [qf 2 1]; [qf 2 1]]) None 1 None 0.

(** a batch of two: one point in each element and two in the same cell *)
Definition ex_batch : pcloud Qc :=
  mkPoints [(qf 1 3, qf (-1) 2, qf 3 4); (qf 1 3, qf (-1) 2, qf 3 4); (qf 2 5, qf (-3) 7, qf 4 5); (qf (-1) 1, qf 0 1, qf 9 10)]
    None (Some [[qf 1 1]; [qf 5 1]; [qf 2 1]; [qf 7 3]]) None (Some [1; 0; 1; 0]) 2 None 0.

Definition ex_octree : octree := octree_new 5 1 1 0.
Definition ex_octree2 : octree := octree_new 3 2 2 0.
(** F.normalize is irrelevant for the examples *)
Definition ex_norm (v : v3 Qc) : v3 Qc := v.

Definition ex_built : octree := match build_octree ex_norm ex_octree ex_cloud with Ok (o, _) => o | Err _ => ex_octree end.
Definition ex_built2 : octree := match build_octree ex_norm ex_octree2 ex_batch with Ok (o, _) => o | Err _ => ex_octree2 end.

(** the same cloud in an octree whose full part is the root only *)
Definition ex_octree0 : octree := octree_new 3 0 1 0.
Definition ex_built0 : octree := match build_octree ex_norm ex_octree0 ex_cloud with Ok (o, _) => o | Err _ => ex_octree0 end.

(** with neighbourhood tables *)
Definition ex_neigh : octree := match construct_all_neigh ex_built with Ok o => o | Err _ => ex_built end.
Definition ex_neigh2 : octree := match construct_all_neigh ex_built2 with Ok o => o | Err _ => ex_built2 end.

(** a grown octree: init, split layer 1, grow layer 2 *)
Definition ex_g0 : octree := match init_octree 3 1 1 0 with Ok o => o | Err _ => ex_octree0 end.
Definition ex_g1 : octree := match octree_split ex_g0 [1; 0; 0; 0; 0; 1; 0; 0] 1 with Ok o => o | Err _ => ex_octree0 end.
Definition ex_g2 : octree := match octree_grow ex_g1 2 true with Ok o => o | Err _ => ex_octree0 end.

(** feature tensors 0, 1, 2, ... and readable results *)
Definition ramp (n C : nat) : list (list Qc) := map (fun i => map (fun c => qz (Z.of_nat (i * C + c))) (seq 0 C)) (seq 0 n).
Definition ramps (k n C : nat) : list (list (list Qc)) := map (fun i => map (map (Qcplus (qz (Z.of_nat i)))) (ramp n C)) (seq 0 k).
Definition nums (r : res (list (list Qc))) : res (list (list Q)) := x <- r ;; Ok (map (map this) x).
