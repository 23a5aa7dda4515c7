(** Model of /repo/ocnn/octree/shuffled_key.py. *)
From Coq Require Import List ZArith Bool.
From Verif Require Import Res Tensor.
Import ListNotations.
Open Scope Z_scope.

(** shuffled_key.py:37-44, KeyLUT.xyz2key: the loop encoder, element-wise.
    [for i in range(depth): mask = 1 << i; key = key | ((x & mask) << (2*i+2))
     | ((y & mask) << (2*i+1)) | ((z & mask) << (2*i))] *)
Definition loop_xyz2key (x y z : Z) (depth : nat) : Z :=
  fold_left
    (fun key i =>
       let i := Z.of_nat i in
       let mask := Z.shiftl 1 i in
       Z.lor (Z.lor (Z.lor key
         (shl64 (Z.land x mask) (2 * i + 2)))
         (shl64 (Z.land y mask) (2 * i + 1)))
         (shl64 (Z.land z mask) (2 * i + 0)))
    (seq 0 depth) 0.

(** shuffled_key.py:46-54, KeyLUT.key2xyz: the loop decoder, element-wise. *)
Definition loop_key2xyz (key : Z) (depth : nat) : Z * Z * Z :=
  fold_left
    (fun '(x, y, z) i =>
       let i := Z.of_nat i in
       (Z.lor x (Z.shiftr (Z.land key (Z.shiftl 1 (3 * i + 2))) (2 * i + 2)),
        Z.lor y (Z.shiftr (Z.land key (Z.shiftl 1 (3 * i + 1))) (2 * i + 1)),
        Z.lor z (Z.shiftr (Z.land key (Z.shiftl 1 (3 * i + 0))) (2 * i + 0))))
    (seq 0 depth) (0, 0, 0).

(** shuffled_key.py:14-23, the tables built by KeyLUT.__init__ on the CPU. *)
Definition EX : list Z := map (fun v => loop_xyz2key v 0 0 8) (arange 256).
Definition EY : list Z := map (fun v => loop_xyz2key 0 v 0 8) (arange 256).
Definition EZ : list Z := map (fun v => loop_xyz2key 0 0 v 8) (arange 256).
Definition DX : list Z := map (fun k => let '(x, _, _) := loop_key2xyz k 9 in x) (arange 512).
Definition DY : list Z := map (fun k => let '(_, y, _) := loop_key2xyz k 9 in y) (arange 512).
Definition DZ : list Z := map (fun k => let '(_, _, z) := loop_key2xyz k 9 in z) (arange 512).

(** shuffled_key.py:80 and 83: EX[i] | EY[j] | EZ[k] *)
Definition lut3 (i j k : Z) : res Z :=
  ex <- tget EX i ;; ey <- tget EY j ;; ez <- tget EZ k ;;
  Ok (Z.lor (Z.lor ex ey) ez).

(** shuffled_key.py:60-90, xyz2key on one element.  [x], [y], [z], [b] are the
    values after [.long()]; [b = None] is the default argument. *)
Definition xyz2key (x y z : Z) (b : option Z) (depth : nat) : res Z :=
  let mask := if Nat.ltb 8 depth then 255 else Z.shiftl 1 (Z.of_nat depth) - 1 in
  key <- lut3 (Z.land x mask) (Z.land y mask) (Z.land z mask) ;;
  key <- (if Nat.ltb 8 depth then
            let mask := Z.shiftl 1 (Z.of_nat depth - 8) - 1 in
            key16 <- lut3 (Z.land (Z.shiftr x 8) mask) (Z.land (Z.shiftr y 8) mask)
                          (Z.land (Z.shiftr z 8) mask) ;;
            Ok (Z.lor (shl64 key16 24) key)
          else Ok key) ;;
  match b with
  | Some b => Ok (Z.lor (shl64 b 48) key)
  | None => Ok key
  end.

(** shuffled_key.py:93-115, key2xyz on one element: (x, y, z, b). *)
Definition key2xyz (key0 : Z) (depth : nat) : res (Z * Z * Z * Z) :=
  let b := Z.shiftr key0 48 in
  let key := Z.land key0 (Z.shiftl 1 48 - 1) in
  let n := Nat.div (depth + 2) 3 in
  xyz <- foldM
    (fun '(x, y, z) i =>
       let i := Z.of_nat i in
       let k := Z.land (Z.shiftr key (i * 9)) 511 in
       dx <- tget DX k ;; dy <- tget DY k ;; dz <- tget DZ k ;;
       Ok (Z.lor x (shl64 dx (i * 3)), Z.lor y (shl64 dy (i * 3)), Z.lor z (shl64 dz (i * 3))))
    (0, 0, 0) (seq 0 n) ;;
  let '(x, y, z) := xyz in
  Ok (x, y, z, b).

(** shuffled_key.py:60-90 with the argument [b] as documented ("torch.Tensor or
    int"): a plain Python int has no method [long], line 87. *)
Inductive batch_arg : Type := BNone | BTensor (b : Z) | BInt (b : Z).
Definition xyz2key_arg (x y z : Z) (b : batch_arg) (depth : nat) : res Z :=
  match b with
  | BNone => xyz2key x y z None depth
  | BTensor b => xyz2key x y z (Some b) depth
  | BInt _ => (* the key is computed first, then [b.long()] raises *)
      _ <- xyz2key x y z None depth ;; Err AttributeError
  end.

(** shuffled_key.py:25-35, the per-device table cache.  Devices are numbers,
    0 is 'cpu'; a cache maps devices to tables; [.to(device)] copies values. *)
Definition tables : Type := (list Z * list Z * list Z)%type.
Record lut_cache := { c_encode : list (nat * tables); c_decode : list (nat * tables) }.
Definition lut_init : lut_cache :=
  {| c_encode := [(O, (EX, EY, EZ))]; c_decode := [(O, (DX, DY, DZ))] |}.
Fixpoint assoc {A} (d : nat) (l : list (nat * A)) : option A :=
  match l with
  | [] => None
  | (d', a) :: t => if Nat.eqb d d' then Some a else assoc d t
  end.
(** [if device not in cache: cache[device] = copy of cache[cpu]; return cache[device]] *)
Definition cache_get (c : list (nat * tables)) (d : nat) : res (list (nat * tables) * tables) :=
  match assoc d c with
  | Some t => Ok (c, t)
  | None => match assoc O c with
            | Some t => Ok (c ++ [(d, t)], t)
            | None => Err KeyError
            end
  end.
Inductive lut_req := ReqEncode (d : nat) | ReqDecode (d : nat).
Definition lut_step (c : lut_cache) (r : lut_req) : res (lut_cache * tables) :=
  match r with
  | ReqEncode d => '(e, t) <- cache_get (c_encode c) d ;;
                   Ok ({| c_encode := e; c_decode := c_decode c |}, t)
  | ReqDecode d => '(e, t) <- cache_get (c_decode c) d ;;
                   Ok ({| c_encode := c_encode c; c_decode := e |}, t)
  end.
