(** ProgPoW, KawPow and FiroPow as programs on memory (MemModel.v): the same code as ProgpowModel.v. *)
From Coq Require Import NArith List Bool.
From Verif Require Import Base CryptoModel KeccakModel DagModel ProgpowModel MemModel MemDag.
Import ListNotations.
Open Scope N_scope.

(** ** convutil.go *)

(** convutil.go:7-14, Uint32ArrayToBytes *)
Definition p_Uint32ArrayToBytes (arr : sl) (o : order) : prog sl :=
  buf <~ make (s_len arr * 4) ;;
  _ <~ pfor_n (s_len arr) (fun i _ =>
      v <~ get arr i ;;
      t <~ cut_from buf (i * 4) ;;
      put32 o t v) tt ;;
  Ret buf.
(** convutil.go:16-24, BytesToUint32Array *)
Definition p_BytesToUint32Array (buf : sl) (o : order) : prog sl :=
  let len := s_len buf / 4 in
  arr <~ make len ;;
  _ <~ pfor_n len (fun i _ =>
      t <~ cut_at buf (i * 4) ((i + 1) * 4) ;;
      v <~ get32 o t ;;
      set arr i v) tt ;;
  Ret arr.

(** keccak.go:56-263, KeccakF800: reads the array, computes in local variables, writes the array. *)
Definition p_KeccakF800 (state : sl) : prog unit :=
  x <~ read state ;;
  y <~ pure (KeccakF800 x) ;;
  stores (s_loc state) (s_off state) y.

(** ** mixrng.go *)

(** mixrng.go:11-18; the counters and the generator are values, the sequences are in memory. *)
Record pstate := mkPState { ps_size : N; ps_srcCounter : N; ps_dstCounter : N; ps_src : sl; ps_dst : sl; ps_rng : kiss99 }.
(** mixrng.go:20-25 *)
Definition p_nextSrc (s : pstate) : prog (N * pstate) :=
  i <~ pure (modc (ps_srcCounter s) (ps_size s)) ;;
  v <~ get (ps_src s) i ;;
  Ret (v, mkPState (ps_size s) (addw 32 (ps_srcCounter s) 1) (ps_dstCounter s) (ps_src s) (ps_dst s) (ps_rng s)).
(** mixrng.go:27-32 *)
Definition p_nextDst (s : pstate) : prog (N * pstate) :=
  i <~ pure (modc (ps_dstCounter s) (ps_size s)) ;;
  v <~ get (ps_dst s) i ;;
  Ret (v, mkPState (ps_size s) (ps_srcCounter s) (addw 32 (ps_dstCounter s) 1) (ps_src s) (ps_dst s) (ps_rng s)).
(** mixrng.go:34-36 *)
Definition p_nextRng (s : pstate) : N * pstate :=
  let '(v, k) := next (ps_rng s) in
  (v, mkPState (ps_size s) (ps_srcCounter s) (ps_dstCounter s) (ps_src s) (ps_dst s) k).
Definition p_swap (l : sl) (i j : N) : prog unit :=
  a <~ get l j ;;
  b <~ get l i ;;
  _ <~ set l i a ;;
  set l j b.
(** mixrng.go:38-73 *)
Definition p_initMixRngState (seed sz : N) : prog pstate :=
  let z := Fnv1a fnvOffsetBasis (u32 seed) in
  let w := Fnv1a z (u32 (N.shiftr seed 32)) in
  let jsr := Fnv1a w (u32 seed) in
  let jcong := Fnv1a jsr (u32 (N.shiftr seed 32)) in
  let r := mkKiss z w jsr jcong in
  srcSeq <~ make sz ;;
  dstSeq <~ make sz ;;
  _ <~ pfor_n sz (fun i _ =>
      _ <~ set dstSeq i i ;;
      set srcSeq i i) tt ;;
  r <~ pfor_n (sz - 1) (fun q r =>
      let i := sz - q in
      let '(v, r) := next r in
      dstInd <~ pure (modc v i) ;;
      _ <~ p_swap dstSeq (i - 1) dstInd ;;
      let '(v, r) := next r in
      srcInd <~ pure (modc v i) ;;
      _ <~ p_swap srcSeq (i - 1) srcInd ;;
      Ret r) r ;;
  Ret (mkPState sz 0 0 srcSeq dstSeq r).

(** ** algorithm.go *)

(** A slice that is nil. *)
Definition nil_sl : sl := mkSl (0, 0) 0 0 0.
(** algorithm.go:30-48, initMix.  The outer slice is written here only and known to nobody else: it is a list of
    the inner slices. *)
Definition p_initMix (seed numLanes numRegs : N) : prog (list sl) :=
  let z := Fnv1a fnvOffsetBasis (u32 seed) in
  let w := Fnv1a z (u32 (N.shiftr seed 32)) in
  pfor_n numLanes (fun lane mix =>
    let jsr := Fnv1a w (u32 lane) in
    let jcong := Fnv1a jsr (u32 lane) in
    row <~ make numRegs ;;
    _ <~ pfor_n numRegs (fun reg r =>
        let '(v, r) := next r in
        _ <~ set row reg v ;;
        Ret r) (mkKiss z w jsr jcong) ;;
    pure (upd mix lane row)) (repeat nil_sl (N.to_nat numLanes)).

(** algorithm.go:60-69 *)
Definition p_cacheAccess (cfg : pconfig) (l1 : sl) (state : pstate) (mix : list sl) : prog pstate :=
  ' x <~ p_nextSrc state ;;
  let '(src, state) := x in
  ' x <~ p_nextDst state ;;
  let '(dst, state) := x in
  let '(sel, state) := p_nextRng state in
  _ <~ pfor_n (LaneCount cfg) (fun l _ =>
      row <~ pure (idx mix l) ;;
      s <~ get row src ;;
      offset <~ pure (modc s (CacheBytes cfg / 4)) ;;
      d <~ get row dst ;;
      v <~ get l1 offset ;;
      set row dst (randomMerge d v sel)) tt ;;
  Ret state.

(** algorithm.go:71-88 *)
Definition p_mathOperation (cfg : pconfig) (state : pstate) (mix : list sl) : prog pstate :=
  let '(v, state) := p_nextRng state in
  ' x <~ pure (mathSources cfg v) ;;
  let '(src1, src2) := x in
  let '(sel1, state) := p_nextRng state in
  ' x <~ p_nextDst state ;;
  let '(dst, state) := x in
  let '(sel2, state) := p_nextRng state in
  _ <~ pfor_n (LaneCount cfg) (fun l _ =>
      row <~ pure (idx mix l) ;;
      a <~ get row src1 ;;
      b <~ get row src2 ;;
      let data := randomMath a b sel1 in
      d <~ get row dst ;;
      set row dst (randomMerge d data sel2)) tt ;;
  Ret state.

(** algorithm.go:91-101 *)
Definition p_dagPattern (numWordsPerLane : N) (state : pstate) : prog (sl * sl) :=
  dsts <~ make numWordsPerLane ;;
  sels <~ make numWordsPerLane ;;
  _ <~ pfor_n numWordsPerLane (fun i state =>
      state <~ (if i =? 0 then
         _ <~ set dsts i 0 ;;
         Ret state
       else
         ' x <~ p_nextDst state ;;
         let '(d, state) := x in
         _ <~ set dsts i d ;;
         Ret state) ;;
      let '(v, state) := p_nextRng state in
      _ <~ set sels i v ;;
      Ret state) state ;;
  Ret (dsts, sels).

(** algorithm.go:103-109 *)
Definition p_dagMerge (cfg : pconfig) (r numWordsPerLane : N) (item dsts sels : sl) (mix : list sl) : prog unit :=
  pfor_n (LaneCount cfg) (fun l _ =>
    lane <~ pure (modc (N.lxor (u32 l) r) (u32 (LaneCount cfg))) ;;
    let offset := mulw 32 lane (u32 numWordsPerLane) in
    pfor_n numWordsPerLane (fun i _ =>
      word <~ get item (addw 32 offset (u32 i)) ;;
      dst <~ get dsts i ;;
      sel <~ get sels i ;;
      row <~ pure (idx mix l) ;;
      d <~ get row dst ;;
      set row dst (randomMerge d word sel)) tt) tt.

(** algorithm.go:50-112, round: the registers are changed in place. *)
Definition p_round (cfg : pconfig) (seed r : N) (mix : list sl) (datasetSize : N) (lookup : N -> prog sl) (l1 : sl) : prog unit :=
  state <~ p_initMixRngState seed (u32 (RegisterCount cfg)) ;;
  let numItems := u32 (datasetSize / (2 * 128)) in
  lane <~ pure (modc r (u32 (LaneCount cfg))) ;;
  row <~ pure (idx mix lane) ;;
  m <~ get row 0 ;;
  itemIndex <~ pure (modc m numItems) ;;
  item <~ lookup itemIndex ;;
  numWordsPerLane <~ pure (divc (s_len item) (LaneCount cfg)) ;;
  let maxOperations := maxInt (RoundCacheAccesses cfg) (RoundMathOperations cfg) in
  state <~ pfor_n maxOperations (fun i state =>
      state <~ (if i <? RoundCacheAccesses cfg then p_cacheAccess cfg l1 state mix else Ret state) ;;
      (if i <? RoundMathOperations cfg then p_mathOperation cfg state mix else Ret state)) state ;;
  ' x <~ p_dagPattern numWordsPerLane state ;;
  let '(dsts, sels) := x in
  p_dagMerge cfg r numWordsPerLane item dsts sels mix.

(** algorithm.go:114-142, Hash *)
Definition p_Hash (cfg : pconfig) (height seed datasetSize : N) (lookup : N -> prog sl) (l1 : sl) : prog sl :=
  mix <~ p_initMix seed (LaneCount cfg) (RegisterCount cfg) ;;
  number <~ pure (divc height (PeriodLength cfg)) ;;
  _ <~ pfor_n (RoundCount cfg) (fun i _ =>
      p_round cfg number (u32 i) mix datasetSize lookup l1) tt ;;
  laneHash <~ make (LaneCount cfg) ;;
  _ <~ pfor_n (LaneCount cfg) (fun l _ =>
      _ <~ set laneHash l fnvOffsetBasis ;;
      pfor_n (RegisterCount cfg) (fun i _ =>
        h <~ get laneHash l ;;
        row <~ pure (idx mix l) ;;
        v <~ get row i ;;
        set laneHash l (Fnv1a h v)) tt) tt ;;
  mixHash <~ make 8 ;;
  _ <~ pfor_n 8 (fun i _ => set mixHash i fnvOffsetBasis) tt ;;
  _ <~ pfor_n (LaneCount cfg) (fun l _ =>
      h <~ get mixHash (l mod 8) ;;
      v <~ get laneHash l ;;
      set mixHash (l mod 8) (Fnv1a h v)) tt ;;
  p_Uint32ArrayToBytes mixHash LittleEndian.

(** ** The variants *)

(** kawpow.go:35-41, firopow.go:17-22, progpow094.go:27-32; the array [25]uint32 is an array in memory. *)
Definition p_absorb_header (hash : sl) (nonce : N) : prog sl :=
  seed <~ make 25 ;;
  _ <~ pfor_n 8 (fun i _ =>
      t <~ cut_at hash (i * 4) (i * 4 + 4) ;;
      v <~ get32 LittleEndian t ;;
      set seed i v) tt ;;
  _ <~ set seed 8 (u32 nonce) ;;
  _ <~ set seed 9 (u32 (N.shiftr nonce 32)) ;;
  Ret seed.
Definition p_seed_head (seed : sl) : prog N :=
  s0 <~ get seed 0 ;;
  s1 <~ get seed 1 ;;
  Ret (addw 64 s0 (shlw 64 s1 32)).
Definition p_absorb_mix (seed mixHash : sl) : prog sl :=
  state <~ make 25 ;;
  _ <~ pfor_n 8 (fun i _ =>
      s <~ get seed i ;;
      _ <~ set state i s ;;
      t <~ cut_at mixHash (i * 4) (i * 4 + 4) ;;
      v <~ get32 LittleEndian t ;;
      set state (i + 8) v) tt ;;
  Ret state.
Definition p_squeeze_digest (state : sl) : prog sl :=
  s <~ cut_at state 0 8 ;;
  p_Uint32ArrayToBytes s LittleEndian.

(** kawpow.go:33-51; [table] is the package variable ravencoinKawpow. *)
Definition p_kawpow_initialize (table hash : sl) (nonce : N) : prog (sl * N) :=
  seed <~ p_absorb_header hash nonce ;;
  _ <~ pfor 15 10 (fun i _ => p <~ get table (i - 10) ;; set seed i p) tt ;;
  _ <~ p_KeccakF800 seed ;;
  head <~ p_seed_head seed ;;
  Ret (seed, head).
(** kawpow.go:53-67 *)
Definition p_kawpow_finalize (table seed mixHash : sl) : prog sl :=
  state <~ p_absorb_mix seed mixHash ;;
  _ <~ pfor 9 16 (fun i _ => p <~ get table (i - 16) ;; set state i p) tt ;;
  _ <~ p_KeccakF800 state ;;
  p_squeeze_digest state.
(** kawpow.go:69-86 *)
Definition p_kawpow (table hash : sl) (height nonce datasetSize : N) (lookup : N -> prog sl) (l1 : sl) : prog (sl * sl) :=
  ' x <~ p_kawpow_initialize table hash nonce ;;
  let '(seed, seedHead) := x in
  mixHash <~ p_Hash kawpow_cfg height seedHead datasetSize lookup l1 ;;
  digest <~ p_kawpow_finalize table seed mixHash ;;
  Ret (mixHash, digest).

(** firopow.go:15-31 *)
Definition p_firopow_initialize (hash : sl) (nonce : N) : prog (sl * N) :=
  seed <~ p_absorb_header hash nonce ;;
  _ <~ set seed 10 0x00000001 ;;
  _ <~ set seed 18 0x80008081 ;;
  _ <~ p_KeccakF800 seed ;;
  head <~ p_seed_head seed ;;
  Ret (seed, head).
(** firopow.go:33-46 *)
Definition p_firopow_finalize (seed mixHash : sl) : prog sl :=
  state <~ p_absorb_mix seed mixHash ;;
  _ <~ set state 17 0x00000001 ;;
  _ <~ set state 24 0x80008081 ;;
  _ <~ p_KeccakF800 state ;;
  p_squeeze_digest state.
(** firopow.go:48-65 *)
Definition p_firopow (hash : sl) (height nonce datasetSize : N) (lookup : N -> prog sl) (l1 : sl) : prog (sl * sl) :=
  ' x <~ p_firopow_initialize hash nonce ;;
  let '(seed, seedHead) := x in
  mixHash <~ p_Hash firopow_cfg height seedHead datasetSize lookup l1 ;;
  digest <~ p_firopow_finalize seed mixHash ;;
  Ret (mixHash, digest).
