(** Octopus as a program on memory (MemModel.v): the same code as OctopusModel.v. *)
From Coq Require Import NArith List Bool.
From Verif Require Import Base CryptoModel OctopusModel MemModel MemProgpow.
Import ListNotations.
Open Scope N_scope.

(** octopus.go:91-99: fills [d]. *)
Definition p_coefficients (v0 v1 v2 v3 nonce : N) (d : sl) : prog unit :=
  let warpID := nonce / powWarpSize in
  pfor_n powWarpSize (fun i _ =>
    let hasher := Hash24 (mkSip v0 v1 v2 v3) (addw 64 (mulw 64 warpID powWarpSize) i) in
    _ <~ pfor_n powDataPerThread (fun j hasher =>
        let hasher := SipRound hasher in
        _ <~ set d (j * powWarpSize + i) (u32 (N.land (XorLanes hasher) 0xffffffff mod powMod)) ;;
        Ret hasher) hasher ;;
    Ret tt) tt.
(** octopus.go:114-130 *)
Definition p_evaluate (a b c : N) (d : sl) (wpow w2pow wpowFull w2powFull : N) : prog (sl * N) :=
  resBuf <~ make powDataPerThread ;;
  ' st <~ pfor_n powDataPerThread (fun i st =>
      let '(wpow, w2pow, result) := st in
      let x := addw 64 (addw 64 (mulw 64 a w2pow) (mulw 64 b wpow)) c mod powMod in
      pv <~ pfor_n powN (fun j pv =>
          v <~ get d (powN - j - 1) ;;
          Ret (addw 64 (mulw 64 pv x) v mod powMod)) 0 ;;
      _ <~ set resBuf i (u32 pv) ;;
      let result := Fnv1Uint64 result pv in
      if i + 1 <? powDataPerThread
      then Ret (mulw 64 wpow wpowFull mod powMod, mulw 64 w2pow w2powFull mod powMod, result)
      else Ret (wpow, w2pow, result))
    (wpow, w2pow, 0) ;;
  let '(_, _, result) := st in
  Ret (resBuf, result).
(** octopus.go:80-130 *)
Definition p_polynomial (fuel : nat) (hash : sl) (nonce : N) : prog (sl * N) :=
  b0 <~ cut_at hash 0 8 ;; v0 <~ get64 LittleEndian b0 ;;
  b1 <~ cut_at hash 8 16 ;; v1 <~ get64 LittleEndian b1 ;;
  b2 <~ cut_at hash 16 24 ;; v2 <~ get64 LittleEndian b2 ;;
  b3 <~ cut_at hash 24 32 ;; v3 <~ get64 LittleEndian b3 ;;
  d <~ make powN ;;
  a <~ pure (remap fuel v0) ;;
  b <~ pure (remap fuel v1) ;;
  c <~ pure (computeC fuel a b v2) ;;
  w <~ pure (remap fuel v3) ;;
  _ <~ p_coefficients v0 v1 v2 v3 nonce d ;;
  ' ps <~ pure (startPowers w nonce) ;;
  let '(wpow, w2pow, wpowFull, w2powFull) := ps in
  p_evaluate a b c d wpow w2pow wpowFull w2powFull.
(** octopus.go:132-134 *)
Definition p_halfMixInput (hash : sl) (result : N) : prog sl :=
  halfMix <~ make nodeBytes ;;
  _ <~ copy halfMix hash ;;
  t <~ cut_from halfMix (s_len hash) ;;
  _ <~ put64 LittleEndian t result ;;
  cut_at halfMix 0 (s_len hash + 8).
(** octopus.go:147-158 *)
Definition p_accesses (firstVal numFullPages : N) (resBuf : sl) (lookup : N -> prog sl) (mix : sl) : prog unit :=
  pfor_n powAccesses (fun i _ =>
    r <~ get resBuf i ;;
    m <~ get mix (i mod mixWords) ;;
    ix <~ pure (modc (Fnv1 (N.lxor (N.lxor firstVal (u32 i)) r) m) numFullPages) ;;
    pfor_n mixNodes (fun n _ =>
      tmpNode <~ lookup (addw 32 (mulw 32 ix mixNodes) (u32 n)) ;;
      seg <~ cut_at mix (n * mixNodes * 4) ((n + 1) * mixNodes * 4) ;;
      pfor_n (s_len seg) (fun l _ =>
        a <~ get seg l ;;
        t <~ get tmpNode l ;;
        set mix (n * mixNodes * 4 + l) (Fnv1 a t)) tt) tt) tt.
(** octopus.go:160-176 *)
Definition p_compress (mixUWords : sl) : prog sl :=
  out <~ make 8 ;;
  _ <~ pfor_n 8 (fun i _ =>
    let w := i * 4 in
    let w2 := (8 + i) * 4 in
    m0 <~ get mixUWords (w + 0) ;;
    m1 <~ get mixUWords (w + 1) ;;
    m2 <~ get mixUWords (w + 2) ;;
    m3 <~ get mixUWords (w + 3) ;;
    let reduction := N.lxor (mulw 32 (N.lxor (mulw 32 (N.lxor (mulw 32 m0 FnvPrime) m1) FnvPrime) m2) FnvPrime) m3 in
    n0 <~ get mixUWords (w2 + 0) ;;
    n1 <~ get mixUWords (w2 + 1) ;;
    n2 <~ get mixUWords (w2 + 2) ;;
    n3 <~ get mixUWords (w2 + 3) ;;
    let reduction2 := N.lxor (mulw 32 (N.lxor (mulw 32 (N.lxor (mulw 32 n0 FnvPrime) n1) FnvPrime) n2) FnvPrime) n3 in
    set out i (N.lxor (mulw 32 reduction FnvPrime) reduction2)) tt ;;
  Ret out.
(** octopus.go:137-181; [var mix []byte] is nil. *)
Definition p_dagPart (keccak256 : list N -> list N) (room : N -> N) (halfMix resBuf : sl) (datasetSize : N)
    (lookup : N -> prog sl) : prog sl :=
  mix <~ pfor_n 4 (fun _ mix => append room mix halfMix) nil_sl ;;
  let pageSize := 4 * mixWords in
  let numFullPages := u32 (datasetSize / pageSize) in
  first <~ cut_at halfMix 0 4 ;;
  firstVal <~ get32 LittleEndian first ;;
  mixUWords <~ p_BytesToUint32Array mix LittleEndian ;;
  _ <~ p_accesses firstVal numFullPages resBuf lookup mixUWords ;;
  compressWords <~ p_compress mixUWords ;;
  compressBytes <~ p_Uint32ArrayToBytes compressWords LittleEndian ;;
  node <~ cut_at mix 0 nodeBytes ;;
  x <~ append room node compressBytes ;;
  hash_new keccak256 32 x.
(** octopus.go:79-182 *)
Definition p_octopus (fuel : nat) (keccak512 keccak256 : list N -> list N) (room : N -> N) (hash : sl)
    (nonce datasetSize : N) (lookup : N -> prog sl) : prog sl :=
  ' ev <~ p_polynomial fuel hash nonce ;;
  let '(resBuf, result) := ev in
  pre <~ p_halfMixInput hash result ;;
  halfMix <~ hash_new keccak512 64 pre ;;
  p_dagPart keccak256 room halfMix resBuf datasetSize lookup.
