(** Autolykos2 as a program on memory (MemModel.v): the same code as AutoModel.v. *)
From Coq Require Import NArith List Bool.
From Verif Require Import Base CryptoModel AutoModel MemModel.
Import ListNotations.
Open Scope N_scope.

(** convutil.go:26-31, 33-38 *)
Definition p_Uint32ToBytes (v : N) (o : order) : prog sl := data <~ make 4 ;; _ <~ put32 o data v ;; Ret data.
Definition p_Uint64ToBytes (v : N) (o : order) : prog sl := data <~ make 8 ;; _ <~ put64 o data v ;; Ret data.

Section Auto.
Variable blake2b256 : list N -> list N.
Variable room : N -> N.

(** autolykos2.go:17-23 *)
Definition p_concatBytes (a b : sl) : prog sl :=
  c <~ make_cap (s_len a) (s_len a + s_len b) ;;
  _ <~ copy c a ;;
  append room c b.
(** autolykos2.go:25-32 *)
Definition p_generateM (size : N) : prog sl :=
  m <~ make (size * 8) ;;
  _ <~ pfor_n size (fun i _ =>
    s <~ cut_at m (i * 8) (i * 8 + 8) ;;
    put64 BigEndian s i) tt ;;
  Ret m.
(** autolykos2.go:50-60 *)
Definition p_genIndexes (seed : sl) (k n : N) : prog sl :=
  hash <~ hash_new blake2b256 32 seed ;;
  extendedHash <~ append room hash hash ;;
  indexes <~ make k ;;
  _ <~ pfor_n k (fun i _ =>
    b <~ cut_at extendedHash i (i + 4) ;;
    v <~ get32 BigEndian b ;;
    x <~ pure (modc v n) ;;
    set indexes i x) tt ;;
  Ret indexes.
(** big.Int.SetBytes(b) reads its argument; big.Int.Bytes() makes a new slice. *)
Definition setBytes (b : sl) : prog N := x <~ read b ;; Ret (be_value x).
Definition bigBytes (x : N) : prog sl :=
  let bs := big_bytes x in
  r <~ make (lenN bs) ;;
  _ <~ stores (s_loc r) 0 bs ;;
  Ret r.
(** autolykos2.go:62-91; the big integers are local variables: values. *)
Definition p_compute (k nBase : N) (msg : sl) (nonce height : N) : prog sl :=
  m <~ p_generateM 1024 ;;
  h <~ p_Uint32ToBytes (u32 height) BigEndian ;;
  nonceBytes <~ p_Uint64ToBytes nonce BigEndian ;;
  n <~ pure (calcN nBase height) ;;
  fullMsg <~ p_concatBytes msg nonceBytes ;;
  msgHash <~ hash_new blake2b256 32 fullMsg ;;
  b <~ cut_at msgHash 24 32 ;;
  prei8 <~ setBytes b ;;
  r <~ pure (modc prei8 n) ;;
  i <~ p_Uint32ToBytes (u32 r) BigEndian ;;
  hm <~ p_concatBytes h m ;;
  ihm <~ p_concatBytes i hm ;;
  f <~ hash_new blake2b256 32 ihm ;;
  f <~ cut_at f 1 32 ;;
  mn <~ p_concatBytes msg nonceBytes ;;
  seed <~ p_concatBytes f mn ;;
  indexes <~ p_genIndexes seed k n ;;
  f2 <~ pfor_n (s_len indexes) (fun j f2 =>
      index <~ get indexes j ;;
      e <~ p_Uint32ToBytes index BigEndian ;;
      hm <~ p_concatBytes h m ;;
      elem <~ p_concatBytes e hm ;;
      elemHash <~ hash_new blake2b256 32 elem ;;
      elemHash <~ cut_from elemHash 1 ;;
      v <~ setBytes elemHash ;;
      Ret (f2 + v)) 0 ;;
  x <~ bigBytes f2 ;;
  hash_new blake2b256 32 x.
End Auto.
