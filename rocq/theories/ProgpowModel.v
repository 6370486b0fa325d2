(** Model of internal/progpow, kawpow/kawpow.go and firopow/firopow.go.  Go [int] parameters of
    Config are modelled as natural numbers (the shipped ones are positive constants). *)
From Coq Require Import NArith List Bool.
From Verif Require Import Base CryptoModel KeccakModel.
Import ListNotations.
Open Scope N_scope.

(** ** kiss99.go *)

(** kiss99.go:7-12 *)
Record kiss99 := mkKiss { k_z : N; k_w : N; k_jsr : N; k_jcong : N }.

(** kiss99.go:18-29, next: the draw and the new state. *)
Definition next (k : kiss99) : N * kiss99 :=
  let z := addw 32 (mulw 32 36969 (N.land (k_z k) 65535)) (N.shiftr (k_z k) 16) in
  let w := addw 32 (mulw 32 18000 (N.land (k_w k) 65535)) (N.shiftr (k_w k) 16) in
  let jcong := addw 32 (mulw 32 69069 (k_jcong k)) 1234567 in
  let jsr := k_jsr k in
  let jsr := N.lxor jsr (shlw 32 jsr 17) in
  let jsr := N.lxor jsr (N.shiftr jsr 13) in
  let jsr := N.lxor jsr (shlw 32 jsr 5) in
  (addw 32 (N.lxor (addw 32 (shlw 32 z 16) w) jcong) jsr, mkKiss z w jsr jcong).

(** ** math.go *)

(** math.go:13-19 *)
Definition minUint32 (a b : N) : N := if b <? a then b else a.
(** math.go:21-27, on non-negative ints *)
Definition maxInt (a b : N) : N := if b <? a then a else b.
(** math.go:31-33.  [32-b] is computed in uint32. *)
Definition rotl32 (a b : N) : N :=
  N.lor (shlw 32 a (N.land b 31)) (N.shiftr a (N.land (subw 32 32 b) 31)).
(** math.go:35-37 *)
Definition rotr32 (a b : N) : N :=
  N.lor (shlw 32 a (N.land (subw 32 32 b) 31)) (N.shiftr a (N.land b 31)).
(** math.go:39-41; bits.LeadingZeros32(x) is 32 minus the length of x in bits. *)
Definition clz32 (a : N) : N := 32 - N.size a.
(** math.go:43-45; bits.OnesCount32: the number of one digits of the binary numeral. *)
Fixpoint ones_pos (p : positive) : N :=
  match p with
  | xH => 1
  | xO q => ones_pos q
  | xI q => 1 + ones_pos q
  end.
Definition popcount32 (a : N) : N := match a with N0 => 0 | Npos p => ones_pos p end.
(** math.go:47-49 *)
Definition mul_hi32 (a b : N) : N := u32 (N.shiftr (mulw 64 a b) 32).

(** math.go:53-80 *)
Definition randomMath (a b selector : N) : N :=
  match selector mod 11 with
  | 0 => addw 32 a b
  | 1 => mulw 32 a b
  | 2 => mul_hi32 a b
  | 3 => minUint32 a b
  | 4 => rotl32 a b
  | 5 => rotr32 a b
  | 6 => N.land a b
  | 7 => N.lor a b
  | 8 => N.lxor a b
  | 9 => addw 32 (clz32 a) (clz32 b)
  | 10 => addw 32 (popcount32 a) (popcount32 b)
  | _ => 0
  end.

(** math.go:82-97 *)
Definition randomMerge (a b selector : N) : N :=
  let x := addw 32 (N.shiftr selector 16 mod 31) 1 in
  match selector mod 4 with
  | 0 => addw 32 (mulw 32 a 33) b
  | 1 => mulw 32 (N.lxor a b) 33
  | 2 => N.lxor (rotl32 a x) b
  | 3 => N.lxor (rotr32 a x) b
  | _ => 0
  end.

(** ** mixrng.go *)

(** mixrng.go:11-18 *)
Record mixRngState := mkRng {
  size : N;
  srcCounter : N;
  dstCounter : N;
  srcSequence : list N;
  dstSequence : list N;
  rng : kiss99
}.

(** mixrng.go:20-25 *)
Definition nextSrc (s : mixRngState) : outcome (N * mixRngState) :=
  i <- modc (srcCounter s) (size s) ;;
  v <- idx (srcSequence s) i ;;
  Done (v, mkRng (size s) (addw 32 (srcCounter s) 1) (dstCounter s) (srcSequence s) (dstSequence s) (rng s)).
(** mixrng.go:27-32 *)
Definition nextDst (s : mixRngState) : outcome (N * mixRngState) :=
  i <- modc (dstCounter s) (size s) ;;
  v <- idx (dstSequence s) i ;;
  Done (v, mkRng (size s) (srcCounter s) (addw 32 (dstCounter s) 1) (srcSequence s) (dstSequence s) (rng s)).
(** mixrng.go:34-36 *)
Definition nextRng (s : mixRngState) : N * mixRngState :=
  let '(v, k) := next (rng s) in
  (v, mkRng (size s) (srcCounter s) (dstCounter s) (srcSequence s) (dstSequence s) k).

(** algorithm.go:15-17 *)
Definition fnvOffsetBasis : N := 0x811c9dc5.

(** [l[i], l[j] = l[j], l[i]] *)
Definition swap (l : list N) (i j : N) : outcome (list N) :=
  a <- idx l j ;;
  b <- idx l i ;;
  l <- upd l i a ;;
  upd l j b.

(** mixrng.go:38-73, initMixRngState.  The loop [for i := size; i > 1; i--] is modelled with a
    counter [q], [i = size - q]. *)
Definition initMixRngState (seed sz : N) : outcome mixRngState :=
  let z := Fnv1a fnvOffsetBasis (u32 seed) in
  let w := Fnv1a z (u32 (N.shiftr seed 32)) in
  let jsr := Fnv1a w (u32 seed) in
  let jcong := Fnv1a jsr (u32 (N.shiftr seed 32)) in
  let r := mkKiss z w jsr jcong in
  ' st <- for_n sz (fun i st =>
      let '(srcSeq, dstSeq) := st in
      dstSeq <- upd dstSeq i i ;;
      srcSeq <- upd srcSeq i i ;;
      Done (srcSeq, dstSeq)) (zeros sz, zeros sz) ;;
  let '(srcSeq, dstSeq) := st in
  ' st <- for_n (sz - 1) (fun q st =>
      let '(srcSeq, dstSeq, r) := st in
      let i := sz - q in
      let '(v, r) := next r in
      dstInd <- modc v i ;;
      dstSeq <- swap dstSeq (i - 1) dstInd ;;
      let '(v, r) := next r in
      srcInd <- modc v i ;;
      srcSeq <- swap srcSeq (i - 1) srcInd ;;
      Done (srcSeq, dstSeq, r)) (srcSeq, dstSeq, r) ;;
  let '(srcSeq, dstSeq, r) := st in
  Done (mkRng sz 0 0 srcSeq dstSeq r).

(** ** algorithm.go *)

(** algorithm.go:19-28 (DagLoads is never read) *)
Record pconfig := mkPConfig {
  PeriodLength : N;
  CacheBytes : N;
  LaneCount : N;
  RegisterCount : N;
  RoundCount : N;
  RoundCacheAccesses : N;
  RoundMathOperations : N
}.

(** algorithm.go:30-48, initMix *)
Definition initMix (seed numLanes numRegs : N) : outcome (list (list N)) :=
  let z := Fnv1a fnvOffsetBasis (u32 seed) in
  let w := Fnv1a z (u32 (N.shiftr seed 32)) in
  for_n numLanes (fun lane mix =>
    let jsr := Fnv1a w (u32 lane) in
    let jcong := Fnv1a jsr (u32 lane) in
    ' st <- for_n numRegs (fun reg st =>
        let '(row, r) := st in
        let '(v, r) := next r in
        row <- upd row reg v ;;
        Done (row, r)) (zeros numRegs, mkKiss z w jsr jcong) ;;
    upd mix lane (fst st)) (repeat [] (N.to_nat numLanes)).

(** algorithm.go:60-69, the cache access of an iteration of the loop in round *)
Definition cacheAccess (cfg : pconfig) (l1 : list N) (state : mixRngState) (mix : list (list N))
  : outcome (mixRngState * list (list N)) :=
  ' x <- nextSrc state ;;
  let '(src, state) := x in
  ' x <- nextDst state ;;
  let '(dst, state) := x in
  let '(sel, state) := nextRng state in
  mix <- for_n (LaneCount cfg) (fun l mix =>
      row <- idx mix l ;;
      s <- idx row src ;;
      offset <- modc s (CacheBytes cfg / 4) ;;
      d <- idx row dst ;;
      v <- idx l1 offset ;;
      row <- upd row dst (randomMerge d v sel) ;;
      upd mix l row) mix ;;
  Done (state, mix).

(** algorithm.go:72-77, the two source registers of a math operation, from the random word [v] *)
Definition mathSources (cfg : pconfig) (v : N) : outcome (N * N) :=
  srcRand <- modc v (mulw 32 (u32 (RegisterCount cfg)) (u32 (RegisterCount cfg - 1))) ;;
  src1 <- modc srcRand (u32 (RegisterCount cfg)) ;;
  src2 <- divc srcRand (u32 (RegisterCount cfg)) ;;
  Done (src1, if src1 <=? src2 then addw 32 src2 1 else src2).

(** algorithm.go:71-88, the math operation of an iteration of the loop in round *)
Definition mathOperation (cfg : pconfig) (state : mixRngState) (mix : list (list N))
  : outcome (mixRngState * list (list N)) :=
  let '(v, state) := nextRng state in
  ' x <- mathSources cfg v ;;
  let '(src1, src2) := x in
  let '(sel1, state) := nextRng state in
  ' x <- nextDst state ;;
  let '(dst, state) := x in
  let '(sel2, state) := nextRng state in
  mix <- for_n (LaneCount cfg) (fun l mix =>
      row <- idx mix l ;;
      a <- idx row src1 ;;
      b <- idx row src2 ;;
      let data := randomMath a b sel1 in
      d <- idx row dst ;;
      row <- upd row dst (randomMerge d data sel2) ;;
      upd mix l row) mix ;;
  Done (state, mix).

(** algorithm.go:91-101, the destinations and selectors of the dataset words *)
Definition dagPattern (numWordsPerLane : N) (state : mixRngState)
  : outcome (mixRngState * list N * list N) :=
  for_n numWordsPerLane (fun i st =>
    let '(state, dsts, sels) := st in
    ' st <- (if i =? 0 then
       dsts <- upd dsts i 0 ;;
       Done (state, dsts)
     else
       ' x <- nextDst state ;;
       let '(d, state) := x in
       dsts <- upd dsts i d ;;
       Done (state, dsts)) ;;
    let '(state, dsts) := st in
    let '(v, state) := nextRng state in
    sels <- upd sels i v ;;
    Done (state, dsts, sels)) (state, zeros numWordsPerLane, zeros numWordsPerLane).

(** algorithm.go:103-109, merging the dataset words *)
Definition dagMerge (cfg : pconfig) (r numWordsPerLane : N) (item dsts sels : list N)
    (mix : list (list N)) : outcome (list (list N)) :=
  for_n (LaneCount cfg) (fun l mix =>
    lane <- modc (N.lxor (u32 l) r) (u32 (LaneCount cfg)) ;;
    let offset := mulw 32 lane (u32 numWordsPerLane) in
    for_n numWordsPerLane (fun i mix =>
      word <- idx item (addw 32 offset (u32 i)) ;;
      dst <- idx dsts i ;;
      sel <- idx sels i ;;
      row <- idx mix l ;;
      d <- idx row dst ;;
      row <- upd row dst (randomMerge d word sel) ;;
      upd mix l row) mix) mix.

(** algorithm.go:50-112, round *)
Definition round (cfg : pconfig) (seed r : N) (mix : list (list N)) (datasetSize : N)
    (lookup : N -> outcome (list N)) (l1 : list N) : outcome (list (list N)) :=
  state <- initMixRngState seed (u32 (RegisterCount cfg)) ;;
  let numItems := u32 (datasetSize / (2 * 128)) in
  lane <- modc r (u32 (LaneCount cfg)) ;;
  row <- idx mix lane ;;
  m <- idx row 0 ;;
  itemIndex <- modc m numItems ;;
  item <- lookup itemIndex ;;
  numWordsPerLane <- divc (lenN item) (LaneCount cfg) ;;
  let maxOperations := maxInt (RoundCacheAccesses cfg) (RoundMathOperations cfg) in
  ' st <- for_n maxOperations (fun i st =>
      let '(state, mix) := st in
      ' st <- (if i <? RoundCacheAccesses cfg then cacheAccess cfg l1 state mix else Done (state, mix)) ;;
      let '(state, mix) := st in
      (if i <? RoundMathOperations cfg then mathOperation cfg state mix else Done (state, mix))) (state, mix) ;;
  let '(state, mix) := st in
  ' st <- dagPattern numWordsPerLane state ;;
  let '(_, dsts, sels) := st in
  dagMerge cfg r numWordsPerLane item dsts sels mix.

(** algorithm.go:114-142, Hash *)
Definition Hash (cfg : pconfig) (height seed datasetSize : N) (lookup : N -> outcome (list N))
    (l1 : list N) : outcome (list N) :=
  mix <- initMix seed (LaneCount cfg) (RegisterCount cfg) ;;
  number <- divc height (PeriodLength cfg) ;;
  mix <- for_n (RoundCount cfg) (fun i mix =>
      round cfg number (u32 i) mix datasetSize lookup l1) mix ;;
  laneHash <- for_n (LaneCount cfg) (fun l laneHash =>
      laneHash <- upd laneHash l fnvOffsetBasis ;;
      for_n (RegisterCount cfg) (fun i laneHash =>
        h <- idx laneHash l ;;
        row <- idx mix l ;;
        v <- idx row i ;;
        upd laneHash l (Fnv1a h v)) laneHash) (zeros (LaneCount cfg)) ;;
  mixHash <- for_n 8 (fun i mixHash => upd mixHash i fnvOffsetBasis) (zeros 8) ;;
  mixHash <- for_n (LaneCount cfg) (fun l mixHash =>
      h <- idx mixHash (l mod 8) ;;
      v <- idx laneHash l ;;
      upd mixHash (l mod 8) (Fnv1a h v)) mixHash ;;
  Uint32ArrayToBytes mixHash LittleEndian.

(** ** The three variants *)

(** The loop [seed[i] = binary.LittleEndian.Uint32(hash[i*4 : i*4+4])] (kawpow.go:35-41,
    firopow.go:17-22, progpow094.go:27-32), followed by the two nonce words. *)
Definition absorb_header (hash : list N) (nonce : N) : outcome (list N) :=
  seed <- for_n 8 (fun i seed =>
      s <- slice hash (i * 4) (i * 4 + 4) ;;
      v <- le_u32 s ;;
      upd seed i v) (zeros 25) ;;
  seed <- upd seed 8 (u32 nonce) ;;
  upd seed 9 (u32 (N.shiftr nonce 32)).
(** [seedHead] of the three initialize functions. *)
Definition seed_head (seed : list N) : outcome N :=
  s0 <- idx seed 0 ;;
  s1 <- idx seed 1 ;;
  Done (addw 64 s0 (shlw 64 s1 32)).
(** The loop over the seed and mix words (kawpow.go:55-58, firopow.go:35-38,
    progpow094.go:43-46). *)
Definition absorb_mix (seed mixHash : list N) : outcome (list N) :=
  for_n 8 (fun i state =>
    s <- idx seed i ;;
    state <- upd state i s ;;
    b <- slice mixHash (i * 4) (i * 4 + 4) ;;
    v <- le_u32 b ;;
    upd state (i + 8) v) (zeros 25).
(** [convutil.Uint32ArrayToBytes(state[:8], binary.LittleEndian)] *)
Definition squeeze_digest (state : list N) : outcome (list N) :=
  s <- slice state 0 8 ;;
  Uint32ArrayToBytes s LittleEndian.

(** kawpow.go:15-31 *)
Definition ravencoinKawpow : list N :=
  [0x72; 0x41; 0x56; 0x45; 0x4E; 0x43; 0x4F; 0x49; 0x4E; 0x4B; 0x41; 0x57; 0x50; 0x4F; 0x57].

(** kawpow.go:33-51 *)
Definition kawpow_initialize (hash : list N) (nonce : N) : outcome (list N * N) :=
  seed <- absorb_header hash nonce ;;
  seed <- for_up 15 10 (fun i seed => p <- idx ravencoinKawpow (i - 10) ;; upd seed i p) seed ;;
  seed <- KeccakF800 seed ;;
  head <- seed_head seed ;;
  Done (seed, head).
(** kawpow.go:53-67 *)
Definition kawpow_finalize (seed mixHash : list N) : outcome (list N) :=
  state <- absorb_mix seed mixHash ;;
  state <- for_up 9 16 (fun i state => p <- idx ravencoinKawpow (i - 16) ;; upd state i p) state ;;
  state <- KeccakF800 state ;;
  squeeze_digest state.
(** kawpow.go:70-79 *)
Definition kawpow_cfg : pconfig := mkPConfig 3 (16 * 1024) 16 32 64 11 18.
(** kawpow.go:69-86 *)
Definition kawpow (hash : list N) (height nonce datasetSize : N) (lookup : N -> outcome (list N))
    (l1 : list N) : outcome (list N * list N) :=
  ' x <- kawpow_initialize hash nonce ;;
  let '(seed, seedHead) := x in
  mixHash <- Hash kawpow_cfg height seedHead datasetSize lookup l1 ;;
  digest <- kawpow_finalize seed mixHash ;;
  Done (mixHash, digest).

(** firopow.go:15-31 *)
Definition firopow_initialize (hash : list N) (nonce : N) : outcome (list N * N) :=
  seed <- absorb_header hash nonce ;;
  seed <- upd seed 10 0x00000001 ;;
  seed <- upd seed 18 0x80008081 ;;
  seed <- KeccakF800 seed ;;
  head <- seed_head seed ;;
  Done (seed, head).
(** firopow.go:33-46 *)
Definition firopow_finalize (seed mixHash : list N) : outcome (list N) :=
  state <- absorb_mix seed mixHash ;;
  state <- upd state 17 0x00000001 ;;
  state <- upd state 24 0x80008081 ;;
  state <- KeccakF800 state ;;
  squeeze_digest state.
(** firopow.go:49-58 *)
Definition firopow_cfg : pconfig := mkPConfig 1 (16 * 1024) 16 32 64 11 18.
(** firopow.go:48-65 *)
Definition firopow (hash : list N) (height nonce datasetSize : N) (lookup : N -> outcome (list N))
    (l1 : list N) : outcome (list N * list N) :=
  ' x <- firopow_initialize hash nonce ;;
  let '(seed, seedHead) := x in
  mixHash <- Hash firopow_cfg height seedHead datasetSize lookup l1 ;;
  digest <- firopow_finalize seed mixHash ;;
  Done (mixHash, digest).

(** progpow094.go:25-39 *)
Definition progpow094_initialize (hash : list N) (nonce : N) : outcome (list N * N) :=
  seed <- absorb_header hash nonce ;;
  seed <- KeccakF800 seed ;;
  head <- seed_head seed ;;
  Done (seed, head).
(** progpow094.go:41-51 *)
Definition progpow094_finalize (seed mixHash : list N) : outcome (list N) :=
  state <- absorb_mix seed mixHash ;;
  state <- KeccakF800 state ;;
  squeeze_digest state.
(** progpow094.go:14-23 *)
Definition progpow094_cfg : pconfig := mkPConfig 10 (16 * 1024) 16 32 64 11 18.
(** progpow094.go:53-59 *)
Definition progpow094 (hash : list N) (height nonce datasetSize : N) (lookup : N -> outcome (list N))
    (l1 : list N) : outcome (list N * list N) :=
  ' x <- progpow094_initialize hash nonce ;;
  let '(seed, seedHead) := x in
  mixHash <- Hash progpow094_cfg height seedHead datasetSize lookup l1 ;;
  digest <- progpow094_finalize seed mixHash ;;
  Done (mixHash, digest).
