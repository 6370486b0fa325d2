(** Model of octopus/octopus.go.  Unbounded loops take [fuel] iterations and answer [OutOfFuel]
    when they are exhausted; uint64 arithmetic wraps. *)
From Coq Require Import NArith List Bool.
From Verif Require Import Base CryptoModel.
Import ListNotations.
Open Scope N_scope.

(** octopus.go:13-31 *)
Definition powMixBytes : N := 256.
Definition powAccesses : N := 32.
Definition powMod : N := 1032193.
Definition powModB : N := 11.
Definition powN : N := 2 ^ 10.
Definition powWarpSize : N := 32.
Definition powDataPerThread : N := powN / powWarpSize.
Definition nodeBytes : N := 64.
Definition nodeWords : N := nodeBytes / 4.
Definition mixWords : N := powMixBytes / 4.
Definition mixNodes : N := mixWords / nodeWords.

(** octopus.go:33-45 *)
Definition powerMod (fuel : nat) (a n : N) : outcome N :=
  loop_fuel fuel (fun '(result, a, n) =>
    if 0 <? n then
      let result := if n mod 2 =? 1 then mulw 64 result a mod powMod else result in
      Done (Continue (result, mulw 64 a a mod powMod, N.shiftr n 1))
    else Done (Break result)) (1, a, n).

(** octopus.go:47-53; the recursion is bounded by [fuel]. *)
Fixpoint gcd (fuel : nat) (a b : N) : outcome N :=
  match fuel with
  | O => OutOfFuel
  | S f => if b =? 0 then Done a else gcd f b (a mod b)
  end.

(** octopus.go:55-67 *)
Definition remap (fuel : nat) (num : N) : outcome N :=
  let e := addw 64 (num mod (powMod - 2)) 1 in
  e <- loop_fuel fuel (fun e =>
      g <- gcd fuel e (powMod - 1) ;;
      if g =? 1 then Done (Break e)
      else e <- divc e g ;; Done (Continue e)) e ;;
  powerMod fuel powModB e.

(** octopus.go:69-77 *)
Definition computeC (fuel : nat) (a b h : N) : outcome N :=
  loop_fuel fuel (fun h =>
    c <- remap fuel h ;;
    if negb (mulw 64 b b mod powMod =? mulw 64 (mulw 64 4 a) c mod powMod)
    then Done (Break c)
    else Done (Continue (addw 64 h 1))) h.

(** octopus.go:91-99, the coefficients [d] *)
Definition coefficients (v0 v1 v2 v3 nonce : N) : outcome (list N) :=
  let warpID := nonce / powWarpSize in
  for_n powWarpSize (fun i d =>
    let hasher := Hash24 (mkSip v0 v1 v2 v3) (addw 64 (mulw 64 warpID powWarpSize) i) in
    ' st <- for_n powDataPerThread (fun j st =>
        let '(d, hasher) := st in
        let hasher := SipRound hasher in
        d <- upd d (j * powWarpSize + i) (u32 (N.land (XorLanes hasher) 0xffffffff mod powMod)) ;;
        Done (d, hasher)) (d, hasher) ;;
    Done (fst st)) (zeros powN).

(** octopus.go:101-112: [wpow], [w2pow], [wpowFull], [w2powFull] *)
Definition startPowers (w nonce : N) : outcome (N * N * N * N) :=
  let w2 := mulw 64 w w mod powMod in
  let step (_ : N) (st : N * N) : outcome (N * N) :=
    let '(wpow, w2pow) := st in
    Done (mulw 64 wpow w mod powMod, mulw 64 w2pow w2 mod powMod) in
  ' st <- for_n (nonce mod powWarpSize) step (1, 1) ;;
  let '(wpow, w2pow) := st in
  ' st <- for_up (N.to_nat (powWarpSize - nonce mod powWarpSize)) (nonce mod powWarpSize) step (wpow, w2pow) ;;
  let '(wpowFull, w2powFull) := st in
  Done (wpow, w2pow, wpowFull, w2powFull).

(** octopus.go:114-130: [resBuf] and [result] *)
Definition evaluate (a b c : N) (d : list N) (wpow w2pow wpowFull w2powFull : N) : outcome (list N * N) :=
  ' st <- for_n powDataPerThread (fun i st =>
      let '(wpow, w2pow, resBuf, result) := st in
      let x := addw 64 (addw 64 (mulw 64 a w2pow) (mulw 64 b wpow)) c mod powMod in
      pv <- for_n powN (fun j pv =>
          v <- idx d (powN - j - 1) ;;
          Done (addw 64 (mulw 64 pv x) v mod powMod)) 0 ;;
      resBuf <- upd resBuf i (u32 pv) ;;
      let result := Fnv1Uint64 result pv in
      if i + 1 <? powDataPerThread
      then Done (mulw 64 wpow wpowFull mod powMod, mulw 64 w2pow w2powFull mod powMod, resBuf, result)
      else Done (wpow, w2pow, resBuf, result))
    (wpow, w2pow, zeros powDataPerThread, 0) ;;
  let '(_, _, resBuf, result) := st in
  Done (resBuf, result).

(** octopus.go:147-158, the dataset accesses *)
Definition accesses (firstVal numFullPages : N) (resBuf : list N) (lookup : N -> outcome (list N))
    (mixUWords : list N) : outcome (list N) :=
  for_n powAccesses (fun i mix =>
    r <- idx resBuf i ;;
    m <- idx mix (i mod mixWords) ;;
    ix <- modc (Fnv1 (N.lxor (N.lxor firstVal (u32 i)) r) m) numFullPages ;;
    for_n mixNodes (fun n mix =>
      tmpNode <- lookup (addw 32 (mulw 32 ix mixNodes) (u32 n)) ;;
      seg <- slice mix (n * mixNodes * 4) ((n + 1) * mixNodes * 4) ;;
      for_n (lenN seg) (fun l mix =>
        a <- idx mix (n * mixNodes * 4 + l) ;;
        t <- idx tmpNode l ;;
        upd mix (n * mixNodes * 4 + l) (Fnv1 a t)) mix) mix) mixUWords.

(** octopus.go:160-176, the compression *)
Definition compress (mixUWords : list N) : outcome (list N) :=
  for_n 8 (fun i out =>
    let w := i * 4 in
    let w2 := (8 + i) * 4 in
    m0 <- idx mixUWords (w + 0) ;;
    m1 <- idx mixUWords (w + 1) ;;
    m2 <- idx mixUWords (w + 2) ;;
    m3 <- idx mixUWords (w + 3) ;;
    let reduction := N.lxor (mulw 32 (N.lxor (mulw 32 (N.lxor (mulw 32 m0 FnvPrime) m1) FnvPrime) m2) FnvPrime) m3 in
    n0 <- idx mixUWords (w2 + 0) ;;
    n1 <- idx mixUWords (w2 + 1) ;;
    n2 <- idx mixUWords (w2 + 2) ;;
    n3 <- idx mixUWords (w2 + 3) ;;
    let reduction2 := N.lxor (mulw 32 (N.lxor (mulw 32 (N.lxor (mulw 32 n0 FnvPrime) n1) FnvPrime) n2) FnvPrime) n3 in
    upd out i (N.lxor (mulw 32 reduction FnvPrime) reduction2)) (zeros 8).

(** octopus.go:80-130, from the header words to the 32 results and their combination *)
Definition polynomial (fuel : nat) (hash : list N) (nonce : N) : outcome (list N * N) :=
  b0 <- slice hash 0 8 ;; v0 <- le_u64 b0 ;;
  b1 <- slice hash 8 16 ;; v1 <- le_u64 b1 ;;
  b2 <- slice hash 16 24 ;; v2 <- le_u64 b2 ;;
  b3 <- slice hash 24 32 ;; v3 <- le_u64 b3 ;;
  a <- remap fuel v0 ;;
  b <- remap fuel v1 ;;
  c <- computeC fuel a b v2 ;;
  w <- remap fuel v3 ;;
  d <- coefficients v0 v1 v2 v3 nonce ;;
  ' ps <- startPowers w nonce ;;
  let '(wpow, w2pow, wpowFull, w2powFull) := ps in
  evaluate a b c d wpow w2pow wpowFull w2powFull.

(** octopus.go:132-135, the input of Keccak-512 *)
Definition halfMixInput (hash : list N) (result : N) : outcome (list N) :=
  let halfMix := zeros nodeBytes in
  halfMix <- copy_at halfMix 0 hash ;;
  tail <- slice_from halfMix (lenN hash) ;;
  tail <- put_uint64 LittleEndian tail result ;;
  halfMix <- copy_at halfMix (lenN hash) tail ;;
  slice halfMix 0 (lenN hash + 8).

(** octopus.go:137-181.  [append(mix[:nodeBytes], ...)] overwrites the rest of [mix], which is not
    read again. *)
Definition dagPart (keccak256 : list N -> list N) (halfMix resBuf : list N) (datasetSize : N)
    (lookup : N -> outcome (list N)) : outcome (list N) :=
  let mix := halfMix ++ halfMix ++ halfMix ++ halfMix in
  let pageSize := 4 * mixWords in
  let numFullPages := u32 (datasetSize / pageSize) in
  first <- slice halfMix 0 4 ;;
  firstVal <- le_u32 first ;;
  mixUWords <- BytesToUint32Array mix LittleEndian ;;
  mixUWords <- accesses firstVal numFullPages resBuf lookup mixUWords ;;
  compressWords <- compress mixUWords ;;
  compressBytes <- Uint32ArrayToBytes compressWords LittleEndian ;;
  node <- slice mix 0 nodeBytes ;;
  Done (keccak256 (node ++ compressBytes)).

(** octopus.go:79-182 *)
Definition octopus (fuel : nat) (keccak512 keccak256 : list N -> list N) (hash : list N)
    (nonce datasetSize : N) (lookup : N -> outcome (list N)) : outcome (list N) :=
  ' ev <- polynomial fuel hash nonce ;;
  let '(resBuf, result) := ev in
  pre <- halfMixInput hash result ;;
  dagPart keccak256 (keccak512 pre) resBuf datasetSize lookup.
