(** The dataset lookups and ethash as programs on memory (MemModel.v): the same code as DagModel.v and
    EthashModel.v, but with every slice a view of an array, so that writes through one slice are seen through
    another and calls that run together share the cache. *)
From Coq Require Import NArith List.
From Verif Require Import Base CryptoModel DagModel MemModel.
From Verif Require EthashModel.
Import ListNotations.
Open Scope N_scope.

(** hasher.go:28-49, makeHasher: the closure keeps one sponge state for all its uses.  The state is one array
    element; every use writes it (Reset, Write, Read), whatever it held.  What the sponge computes is the
    argument [H]. *)
Definition newHasher : prog sl := make 1.
Definition hasher (H : list N -> list N) (outlen : N) (st dest data : sl) : prog unit :=
  _ <~ set st 0 0 ;;
  x <~ read data ;;
  _ <~ set st 0 1 ;;
  d <~ cut_at dest 0 outlen ;;
  stores (s_loc d) (s_off d) (H x).

(** fnv.go:27-31, FnvHash *)
Definition p_FnvHash (mix data : sl) : prog unit :=
  pfor_n (s_len mix) (fun i _ =>
    a <~ get mix i ;;
    b <~ get data i ;;
    set mix i (Fnv1 a b)) tt.

(** generate.go:89-123, generateDatasetItem.  The loop over the parents is bounded by a uint32. *)
Definition p_generateDatasetItem (keccak512 : list N -> list N) (d : config) (cache : sl) (index : N) (st : sl)
  : prog sl :=
  let rows := u32 (s_len cache / hashWords) in
  mix <~ make hashBytes ;;
  r <~ pure (modc index rows) ;;
  c0 <~ get cache (mulw 32 r hashWords) ;;
  _ <~ put32 LittleEndian mix (N.lxor c0 index) ;;
  _ <~ pfor 15 1 (fun i _ =>
      c <~ get cache (addw 32 (mulw 32 r hashWords) i) ;;
      t <~ cut_from mix (i * 4) ;;
      put32 LittleEndian t c) tt ;;
  _ <~ hasher keccak512 64 st mix mix ;;
  intMix <~ make hashWords ;;
  _ <~ pfor_n 16 (fun i _ =>
      t <~ cut_from mix (i * 4) ;;
      v <~ get32 LittleEndian t ;;
      set intMix i v) tt ;;
  _ <~ pfor_n (cf_dataset_parents d) (fun i _ =>
      m <~ get intMix (i mod 16) ;;
      parent <~ pure (modc (Fnv1 (N.lxor index i) m) rows) ;;
      t <~ cut_from cache (mulw 32 parent hashWords) ;;
      p_FnvHash intMix t) tt ;;
  _ <~ pfor_n (s_len intMix) (fun i _ =>
      val <~ get intMix i ;;
      t <~ cut_from mix (i * 4) ;;
      put32 LittleEndian t val) tt ;;
  _ <~ hasher keccak512 64 st mix mix ;;
  Ret mix.

(** generate.go:125-136, generateDatasetItemUint *)
Definition p_generateDatasetItemUint (keccak512 : list N -> list N) (d : config) (cache : sl) (index size : N) (st : sl)
  : prog sl :=
  data <~ make (mulw 32 hashWords size) ;;
  _ <~ pfor_n size (fun n _ =>
      item <~ p_generateDatasetItem keccak512 d cache (addw 32 (mulw 32 index size) (u32 n)) st ;;
      pfor_n hashWords (fun i _ =>
        t <~ cut_from item (i * 4) ;;
        v <~ get32 LittleEndian t ;;
        set data (n * hashWords + i) v) tt) tt ;;
  Ret data.

(** ethash.go:37-76, hashimoto.  [room] is how much the runtime allocates when append has to. *)
Definition p_hashimoto (keccak512 keccak256 : list N -> list N) (room : N -> N) (hash : sl) (nonce datasetSize : N)
    (lookup : N -> prog sl) : prog (sl * sl) :=
  let rows := u32 (datasetSize / EthashModel.mixBytes) in
  seed <~ make 40 ;;
  _ <~ copy seed hash ;;
  t <~ cut_from seed 32 ;;
  _ <~ put64 LittleEndian t nonce ;;
  seed <~ hash_new keccak512 64 seed ;;
  seedHead <~ get32 LittleEndian seed ;;
  mix <~ make (EthashModel.mixBytes / 4) ;;
  _ <~ pfor_n (s_len mix) (fun i _ =>
      t <~ cut_from seed (i mod 16 * 4) ;;
      v <~ get32 LittleEndian t ;;
      set mix i v) tt ;;
  temp <~ make (s_len mix) ;;
  _ <~ pfor_n EthashModel.hashimotoRounds (fun i _ =>
      m <~ get mix (i mod s_len mix) ;;
      parent <~ pure (modc (Fnv1 (N.lxor (u32 i) seedHead) m) rows) ;;
      _ <~ pfor_n (EthashModel.mixBytes / EthashModel.hashBytes) (fun j _ =>
          item <~ lookup (addw 32 (mulw 32 2 parent) j) ;;
          t <~ cut_from temp (mulw 32 j EthashModel.hashWords) ;;
          copy t item) tt ;;
      p_FnvHash mix temp) tt ;;
  _ <~ pfor_n (s_len mix / 4) (fun q _ =>
      let i := 4 * q in
      m0 <~ get mix i ;;
      m1 <~ get mix (i + 1) ;;
      m2 <~ get mix (i + 2) ;;
      m3 <~ get mix (i + 3) ;;
      set mix (i / 4) (Fnv1 (Fnv1 (Fnv1 m0 m1) m2) m3)) tt ;;
  mix <~ cut_at mix 0 (s_len mix / 4) ;;
  digest <~ make 32 ;;
  _ <~ pfor_n (s_len mix) (fun i _ =>
      val <~ get mix i ;;
      t <~ cut_from digest (i * 4) ;;
      put32 LittleEndian t val) tt ;;
  both <~ append room seed digest ;;
  result <~ hash_new keccak256 32 both ;;
  Ret (digest, result).

(** ethash/client.go:82-97, Compute, once the cache is there: the lookup function has a hasher of its own
    (dag.go:171-178). *)
Definition p_ethash (keccak512 keccak256 : list N -> list N) (room : N -> N) (d : config) (cache hash : sl)
    (nonce datasetSize : N) : prog (sl * sl) :=
  st <~ newHasher ;;
  p_hashimoto keccak512 keccak256 room hash nonce datasetSize
    (fun index => p_generateDatasetItemUint keccak512 d cache index 1 st).
