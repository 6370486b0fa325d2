(** Model of ethash/ethash.go. *)
From Coq Require Import NArith List.
From Verif Require Import Base CryptoModel.
Import ListNotations.
Open Scope N_scope.

(** ethash.go:26-33 *)
Definition mixBytes : N := 128.
Definition hashBytes : N := 64.
Definition hashWords : N := 16.
Definition hashimotoRounds : N := 64.

(** ethash.go:37-76, hashimoto.  The two Keccak functions and the dataset lookup are arguments.
    Writes through [seed[32:]], [temp[j*hashWords:]], [digest[i*4:]] are modelled as writes at
    the offset.  The loop [i += 4] is modelled with a counter [q], [i = 4q]. *)
Definition hashimoto (keccak512 keccak256 : list N -> list N) (hash : list N)
    (nonce datasetSize : N) (lookup : N -> outcome (list N)) : outcome (list N * list N) :=
  let rows := u32 (datasetSize / mixBytes) in
  let seed := zeros 40 in
  seed <- copy_at seed 0 hash ;;
  tail <- slice_from seed 32 ;;
  tail' <- put_uint64 LittleEndian tail nonce ;;
  seed <- copy_at seed 32 tail' ;;
  let seed := keccak512 seed in
  seedHead <- le_u32 seed ;;
  mix <- for_n (mixBytes / 4) (fun i mix =>
      tail <- slice_from seed (i mod 16 * 4) ;;
      v <- le_u32 tail ;;
      upd mix i v) (zeros (mixBytes / 4)) ;;
  let temp := zeros (lenN mix) in
  ' st <- for_n hashimotoRounds (fun i st =>
      let '(mix, temp) := st in
      m <- idx mix (i mod lenN mix) ;;
      parent <- modc (Fnv1 (N.lxor (u32 i) seedHead) m) rows ;;
      temp <- for_n (mixBytes / hashBytes) (fun j temp =>
          item <- lookup (addw 32 (mulw 32 2 parent) j) ;;
          copy_at temp (mulw 32 j hashWords) item) temp ;;
      mix <- FnvHash mix temp ;;
      Done (mix, temp)) (mix, temp) ;;
  let '(mix, _) := st in
  mix <- for_n (lenN mix / 4) (fun q mix =>
      let i := 4 * q in
      m0 <- idx mix i ;;
      m1 <- idx mix (i + 1) ;;
      m2 <- idx mix (i + 2) ;;
      m3 <- idx mix (i + 3) ;;
      upd mix (i / 4) (Fnv1 (Fnv1 (Fnv1 m0 m1) m2) m3)) mix ;;
  mix <- slice mix 0 (lenN mix / 4) ;;
  digest <- for_n (lenN mix) (fun i digest =>
      val <- idx mix i ;;
      tail <- slice_from digest (i * 4) ;;
      tail' <- put_uint32 LittleEndian tail val ;;
      copy_at digest (i * 4) tail') (zeros 32) ;;
  Done (digest, keccak256 (seed ++ digest)).
