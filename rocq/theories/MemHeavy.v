(** HeavyHash as a program on memory (MemModel.v): the same code as HeavyModel.v. *)
From Coq Require Import NArith ZArith List Bool.
From Verif Require Import Base CryptoModel HeavyModel MemModel.
Import ListNotations.
Open Scope N_scope.

(** heavyhash.go:25-30 *)
Definition p_buildHeader (hash : sl) (timestamp : Z) (nonce : N) : prog sl :=
  header <~ make (32 + 8 + 32 + 8) ;;
  h <~ cut_at header 0 32 ;;
  _ <~ copy h hash ;;
  t <~ cut_at header 32 40 ;;
  _ <~ put64 LittleEndian t (Z.to_N (timestamp mod 2 ^ 64)) ;;
  n <~ cut_at header 72 80 ;;
  _ <~ put64 LittleEndian n nonce ;;
  Ret header.
(** heavyhash.go:35-39; the arrays [v] and [p] and the matrix are local variables whose address nobody else has:
    they are values. *)
Definition p_vector (header : sl) : prog (list N) :=
  pfor_n (size / 2) (fun i v =>
    b <~ get header i ;;
    v <~ pure (upd v (i * 2) (u16 (N.shiftr b 4))) ;;
    pure (upd v (i * 2 + 1) (u16 (N.land b 15)))) (zeros size).
(** heavyhash.go:50-54 *)
Definition p_mixDigest (header : sl) (p : list N) : prog sl :=
  digest <~ make 32 ;;
  _ <~ pfor_n 32 (fun i _ =>
    b <~ get header i ;;
    x <~ pure (idx p (i * 2)) ;;
    y <~ pure (idx p (i * 2 + 1)) ;;
    set digest i (N.lxor b (N.lor (u8 (shlw 16 x 4)) (u8 y)))) tt ;;
  Ret digest.
(** heavyhash.go:58-60 *)
Definition p_reverse (d : sl) : prog unit :=
  pfor_n (s_len d / 2) (fun i _ =>
    let j := s_len d - 1 - i in
    a <~ get d i ;;
    b <~ get d j ;;
    _ <~ set d i b ;;
    set d j a) tt.
(** heavyhash.go:16-63.  crypto.CShake256 reads its arguments and makes a new array. *)
Definition p_heavyHash (submul : float64 -> float64 -> float64 -> float64) (cshake : list N -> list N -> list N) (fuel : nat)
    (hash : sl) (timestamp : Z) (nonce : N) : prog sl :=
  b0 <~ cut_at hash 0 8 ;; s0 <~ get64 LittleEndian b0 ;;
  b1 <~ cut_at hash 8 16 ;; s1 <~ get64 LittleEndian b1 ;;
  b2 <~ cut_at hash 16 24 ;; s2 <~ get64 LittleEndian b2 ;;
  b3 <~ cut_at hash 24 32 ;; s3 <~ get64 LittleEndian b3 ;;
  mat <~ pure (newMatrix submul fuel s0 s1 s2 s3) ;;
  header <~ p_buildHeader hash timestamp nonce ;;
  header <~ hash_new (fun x => cshake x pow_name) 32 header ;;
  v <~ p_vector header ;;
  p <~ pure (product mat v) ;;
  digest <~ p_mixDigest header p ;;
  digest <~ hash_new (fun x => cshake x heavy_name) 32 digest ;;
  _ <~ p_reverse digest ;;
  Ret digest.
