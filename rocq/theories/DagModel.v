(** Model of internal/dag (config.go, the calculations of dag.go, generate.go), of
    cmd/gen-lookup/main.go and of the client configurations of ethash, kawpow, firopow and
    octopus.  The registry, the concurrency and the file system parts are in DagCache*.v.
    [keccak256], [keccak512] (golang.org/x/crypto/sha3) and [pp] (big.Int.ProbablyPrime) are
    arguments. *)
From Coq Require Import NArith ZArith List Bool.
From Verif Require Import Base CryptoModel LookupTables.
Import ListNotations.
Open Scope N_scope.

(** ** config.go *)

(** config.go:19-22 *)
Definition hashBytes : N := 64.
Definition hashWords : N := 16.

(** config.go:24-27, LookupTable *)
Record lookup_table := mkTable { lt_max : N; lt_table : list N }.
(** config.go:29-36 *)
Definition NewLookupTable (table : list N) (maxEpoch : N) : option lookup_table :=
  Some (mkTable maxEpoch table).

(** config.go:38-68, Config.  Strings are lists of bytes.  Simplification: CacheRounds is
    an [int]; a negative value runs no round, which is what 0 does, so it is an [N] here. *)
Record config := mkConfig {
  cf_name : list N;
  cf_revision : Z;
  cf_storage_dir : list N;
  cf_dataset_init : N;
  cf_dataset_growth : N;
  cf_cache_init : N;
  cf_cache_growth : N;
  cf_cache_sizes : option lookup_table;
  cf_dataset_sizes : option lookup_table;
  cf_mix_bytes : N;
  cf_dataset_parents : N;
  cf_epoch_length : N;
  cf_seed_epoch_length : N;
  cf_cache_rounds : N;
  cf_caches_count : Z;
  cf_caches_lock_mmap : bool;
  cf_l1_enabled : bool;
  cf_l1_cache_size : N;
  cf_l1_cache_num_items : N
}.

(** ** dag.go: calculations *)

(** dag.go:63-67 *)
Definition CalcEpoch (d : config) (height : N) : outcome N :=
  divc height (cf_epoch_length d).

(** Go's conversion int(x) of a uint64, as used for a loop bound: a value of 2^63 or more
    becomes negative, so the loop runs zero times. *)
Definition int_bound (x : N) : N := if x <? 2 ^ 63 then x else 0.

(** hasher.go:32-49, the function returned by makeHasher: absorb [data], write [outlen] bytes
    of output to dest[:outlen], where dest is [buf[off:]]; panics if that does not fit. *)
Definition hash_into (H : list N -> list N) (outlen : N) (buf : list N) (off : N)
    (data : list N) : outcome (list N) :=
  tail <- slice_from buf off ;;
  if outlen <=? lenN tail then copy_at buf off (H data) else Panic.

(** dag.go:69-81, SeedHash *)
Definition SeedHash (keccak256 : list N -> list N) (d : config) (height : N)
  : outcome (list N) :=
  let seed := zeros 32 in
  if height <? cf_seed_epoch_length d then Done seed
  else
    q <- divc height (cf_seed_epoch_length d) ;;
    for_n (int_bound q) (fun _ seed => hash_into keccak256 32 seed 0 seed) seed.

(** dag.go:103-105 and 114-116: [for !ProbablyPrime(size/unit) { size -= 2*unit }] *)
Definition size_loop (pp : N -> bool) (unit : N) (fuel : nat) (size : N) : outcome N :=
  loop_fuel fuel (fun size =>
    q <- divc size unit ;;
    if pp q then Done (Break size)
    else Done (Continue (subw 64 size (mulw 64 2 unit)))) size.

(** dag.go:99-108 *)
Definition calcCacheSize (pp : N -> bool) (fuel : nat) (d : config) (epoch : N) : outcome N :=
  let size := subw 64 (addw 64 (cf_cache_init d) (mulw 64 (cf_cache_growth d) epoch)) hashBytes in
  size_loop pp hashBytes fuel size.

(** dag.go:110-119 *)
Definition calcDatasetSize (pp : N -> bool) (fuel : nat) (d : config) (epoch : N) : outcome N :=
  let size := subw 64 (addw 64 (cf_dataset_init d) (mulw 64 (cf_dataset_growth d) epoch))
                   (cf_mix_bytes d) in
  size_loop pp (cf_mix_bytes d) fuel size.

(** dag.go:83-89 *)
Definition CacheSize (pp : N -> bool) (fuel : nat) (d : config) (epoch : N) : outcome N :=
  match cf_cache_sizes d with
  | Some t => if epoch <? lt_max t then idx (lt_table t) epoch
              else calcCacheSize pp fuel d epoch
  | None => calcCacheSize pp fuel d epoch
  end.

(** dag.go:91-97 *)
Definition DatasetSize (pp : N -> bool) (fuel : nat) (d : config) (epoch : N) : outcome N :=
  match cf_dataset_sizes d with
  | Some t => if epoch <? lt_max t then idx (lt_table t) epoch
              else calcDatasetSize pp fuel d epoch
  | None => calcDatasetSize pp fuel d epoch
  end.

(** ** generate.go *)

(** bitutil.XORBytes (xor_generic.go:13-44 and the two assembly versions): the result
    [dst]; all implementations are modelled and shown equal to this in PropsXor.v. *)
Definition XORBytes (dst a b : list N) : outcome (list N) :=
  let n := N.min (lenN a) (lenN b) in
  if lenN dst <? n then Panic
  else for_n n (fun i dst =>
    x <- idx a i ;;
    y <- idx b i ;;
    upd dst i (N.lxor x y)) dst.

(** generate.go:34-68, generateCache.  [buf] is the byte view of [dest] (the unsafe cast of
    lines 36-39 on a little-endian machine); the model returns the filled byte buffer.
    [xorOff] is computed in uint32 (hashBytes is an untyped constant), [srcOff] in int. *)
Definition generateCache (keccak512 : list N -> list N) (d : config) (buf : list N)
    (seed : list N) : outcome (list N) :=
  let size := lenN buf in
  let rows := size / hashBytes in
  cache <- hash_into keccak512 64 buf 0 seed ;;
  (* lines 50-52: offset = hashBytes, 2*hashBytes, ... < size *)
  cache <- for_up (N.to_nat ((size - 1) / hashBytes)) 1 (fun i cache =>
      let offset := i * hashBytes in
      prev <- slice cache (offset - hashBytes) offset ;;
      hash_into keccak512 64 cache offset prev) cache ;;
  '(cache, _) <- for_n (cf_cache_rounds d) (fun _ st =>
      for_n rows (fun j '(cache, temp) =>
        r <- modc (j + rows - 1) rows ;;
        let srcOff := r * hashBytes in
        let dstOff := j * hashBytes in
        tail <- slice_from cache dstOff ;;
        w <- le_u32 tail ;;
        m <- modc w (u32 rows) ;;
        let xorOff := mulw 32 m hashBytes in
        a <- slice cache srcOff (srcOff + hashBytes) ;;
        b <- slice cache xorOff (addw 32 xorOff hashBytes) ;;
        temp <- XORBytes temp a b ;;
        cache <- hash_into keccak512 64 cache dstOff temp ;;
        Done (cache, temp)) st) (cache, zeros hashBytes) ;;
  Done cache.

(** generate.go:89-123, generateDatasetItem.  [cache] is the []uint32 view. *)
Definition generateDatasetItem (keccak512 : list N -> list N) (d : config) (cache : list N)
    (index : N) : outcome (list N) :=
  let rows := u32 (lenN cache / hashWords) in
  let mix := zeros hashBytes in
  r <- modc index rows ;;
  c0 <- idx cache (mulw 32 r hashWords) ;;
  mix <- put_uint32 LittleEndian mix (N.lxor c0 index) ;;
  mix <- for_up 15 1 (fun i mix =>
      c <- idx cache (addw 32 (mulw 32 r hashWords) i) ;;
      tail <- slice_from mix (i * 4) ;;
      tail' <- put_uint32 LittleEndian tail c ;;
      copy_at mix (i * 4) tail') mix ;;
  mix <- hash_into keccak512 64 mix 0 mix ;;
  intMix <- for_n 16 (fun i intMix =>
      tail <- slice_from mix (i * 4) ;;
      v <- le_u32 tail ;;
      upd intMix i v) (zeros hashWords) ;;
  intMix <- for_n (cf_dataset_parents d) (fun i intMix =>
      m <- idx intMix (i mod 16) ;;
      parent <- modc (Fnv1 (N.lxor index i) m) rows ;;
      tail <- slice_from cache (mulw 32 parent hashWords) ;;
      FnvHash intMix tail) intMix ;;
  mix <- for_n (lenN intMix) (fun i mix =>
      val <- idx intMix i ;;
      tail <- slice_from mix (i * 4) ;;
      tail' <- put_uint32 LittleEndian tail val ;;
      copy_at mix (i * 4) tail') mix ;;
  hash_into keccak512 64 mix 0 mix.

(** generate.go:125-136, generateDatasetItemUint *)
Definition generateDatasetItemUint (keccak512 : list N -> list N) (d : config) (cache : list N)
    (index size : N) : outcome (list N) :=
  let data := zeros (mulw 32 hashWords size) in
  for_n size (fun n data =>
    item <- generateDatasetItem keccak512 d cache (addw 32 (mulw 32 index size) (u32 n)) ;;
    for_n hashWords (fun i data =>
      tail <- slice_from item (i * 4) ;;
      v <- le_u32 tail ;;
      upd data (n * hashWords + i) v) data) data.

(** dag.go:171-196, NewLookupFunc512, NewLookupFunc1024, NewLookupFunc2048: the [size]
    argument is 1, 2, 4. *)
Definition NewLookupFunc512 (keccak512 : list N -> list N) (d : config) (cache : list N)
    (index : N) : outcome (list N) := generateDatasetItemUint keccak512 d cache index 1.
Definition NewLookupFunc1024 (keccak512 : list N -> list N) (d : config) (cache : list N)
    (index : N) : outcome (list N) := generateDatasetItemUint keccak512 d cache index 2.
Definition NewLookupFunc2048 (keccak512 : list N -> list N) (d : config) (cache : list N)
    (index : N) : outcome (list N) := generateDatasetItemUint keccak512 d cache index 4.

(** generate.go:70-85, generateL1Cache: [buf] is the byte view of [dest], the result the
    filled byte buffer. *)
Definition generateL1Cache (keccak512 : list N -> list N) (d : config) (buf : list N)
    (cache : list N) : outcome (list N) :=
  let size := lenN buf in
  let rows := size / hashBytes in
  for_n rows (fun i l1 =>
    item <- generateDatasetItem keccak512 d cache (u32 i) ;;
    copy_at l1 (i * hashBytes) item) buf.

(** ** Client configurations *)

(** common.DefaultDir(".powcache"); only its being non-empty matters to the model, so it is
    an argument of the configurations below. *)

(** ethash/client.go:25-52 *)
Definition cfg_ethereum (dir : list N) : config := {|
  cf_name := [69; 84; 72]; (* "ETH" *)
  cf_revision := 23;
  cf_storage_dir := dir;
  cf_dataset_init := 2 ^ 30;
  cf_dataset_growth := 2 ^ 23;
  cf_cache_init := 2 ^ 24;
  cf_cache_growth := 2 ^ 17;
  cf_cache_sizes := NewLookupTable ethash_cacheSizes 2048;
  cf_dataset_sizes := NewLookupTable ethash_datasetSizes 2048;
  cf_mix_bytes := 128;
  cf_dataset_parents := 256;
  cf_epoch_length := 30000;
  cf_seed_epoch_length := 30000;
  cf_cache_rounds := 3;
  cf_caches_count := 3;
  cf_caches_lock_mmap := false;
  cf_l1_enabled := false;
  cf_l1_cache_size := 0;
  cf_l1_cache_num_items := 0 |}.

(** ethash/client.go:54-80: MixBytes is not set, so it is 0. *)
Definition cfg_ethereum_classic (dir : list N) : config := {|
  cf_name := [69; 84; 67]; (* "ETC" *)
  cf_revision := 23;
  cf_storage_dir := dir;
  cf_dataset_init := 2 ^ 30;
  cf_dataset_growth := 2 ^ 23;
  cf_cache_init := 2 ^ 24;
  cf_cache_growth := 2 ^ 17;
  cf_cache_sizes := NewLookupTable ethash_cacheSizes 2048;
  cf_dataset_sizes := NewLookupTable ethash_datasetSizes 2048;
  cf_mix_bytes := 0;
  cf_dataset_parents := 256;
  cf_epoch_length := 60000;
  cf_seed_epoch_length := 30000;
  cf_cache_rounds := 3;
  cf_caches_count := 3;
  cf_caches_lock_mmap := false;
  cf_l1_enabled := false;
  cf_l1_cache_size := 0;
  cf_l1_cache_num_items := 0 |}.

(** kawpow/client.go:25-54 *)
Definition cfg_ravencoin (dir : list N) : config := {|
  cf_name := [82; 86; 78]; (* "RVN" *)
  cf_revision := 23;
  cf_storage_dir := dir;
  cf_dataset_init := 2 ^ 30;
  cf_dataset_growth := 2 ^ 23;
  cf_cache_init := 2 ^ 24;
  cf_cache_growth := 2 ^ 17;
  cf_cache_sizes := NewLookupTable kawpow_cacheSizes 2048;
  cf_dataset_sizes := NewLookupTable kawpow_datasetSizes 2048;
  cf_mix_bytes := 128;
  cf_dataset_parents := 512;
  cf_epoch_length := 7500;
  cf_seed_epoch_length := 7500;
  cf_cache_rounds := 3;
  cf_caches_count := 3;
  cf_caches_lock_mmap := false;
  cf_l1_enabled := true;
  cf_l1_cache_size := 4096 * 4;
  cf_l1_cache_num_items := 4096 |}.

(** firopow/client.go:25-54 *)
Definition cfg_firo (dir : list N) : config := {|
  cf_name := [70; 73; 82; 79]; (* "FIRO" *)
  cf_revision := 23;
  cf_storage_dir := dir;
  cf_dataset_init := 2 ^ 30 + 2 ^ 29;
  cf_dataset_growth := 2 ^ 23;
  cf_cache_init := 2 ^ 24;
  cf_cache_growth := 2 ^ 17;
  cf_cache_sizes := NewLookupTable firopow_cacheSizes 2048;
  cf_dataset_sizes := NewLookupTable firopow_datasetSizes 2048;
  cf_mix_bytes := 128;
  cf_dataset_parents := 512;
  cf_epoch_length := 1300;
  cf_seed_epoch_length := 1300;
  cf_cache_rounds := 3;
  cf_caches_count := 3;
  cf_caches_lock_mmap := false;
  cf_l1_enabled := true;
  cf_l1_cache_size := 4096 * 4;
  cf_l1_cache_num_items := 4096 |}.

(** octopus/client.go:25-52 *)
Definition cfg_conflux (dir : list N) : config := {|
  cf_name := [67; 70; 88]; (* "CFX" *)
  cf_revision := 1;
  cf_storage_dir := dir;
  cf_dataset_init := 2 * 2 ^ 31;
  cf_dataset_growth := 2 ^ 24;
  cf_cache_init := 2 * 2 ^ 23;
  cf_cache_growth := 2 ^ 16;
  cf_cache_sizes := NewLookupTable octopus_cacheSizes 2048;
  cf_dataset_sizes := NewLookupTable octopus_datasetSizes 2048;
  cf_mix_bytes := 256;
  cf_dataset_parents := 256;
  cf_epoch_length := 2 ^ 19;
  cf_seed_epoch_length := 2 ^ 19;
  cf_cache_rounds := 3;
  cf_caches_count := 3;
  cf_caches_lock_mmap := false;
  cf_l1_enabled := false;
  cf_l1_cache_size := 0;
  cf_l1_cache_num_items := 0 |}.

(** ** cmd/gen-lookup/main.go *)

(** The zero Config of main.go:17-22 and 33-39 with the given size variables. *)
Definition gen_config (mix cinit cgrowth dinit dgrowth : N) : config := {|
  cf_name := []; cf_revision := 0; cf_storage_dir := [];
  cf_dataset_init := dinit; cf_dataset_growth := dgrowth;
  cf_cache_init := cinit; cf_cache_growth := cgrowth;
  cf_cache_sizes := None; cf_dataset_sizes := None;
  cf_mix_bytes := mix; cf_dataset_parents := 0;
  cf_epoch_length := 0; cf_seed_epoch_length := 0;
  cf_cache_rounds := 0; cf_caches_count := 0; cf_caches_lock_mmap := false;
  cf_l1_enabled := false; cf_l1_cache_size := 0; cf_l1_cache_num_items := 0 |}.

(** main.go:16-30 *)
Definition genCacheLookupTable (pp : N -> bool) (fuel : nat) (initBytes growthBytes epochs : N)
  : outcome (list N) :=
  let d := gen_config 0 initBytes growthBytes 0 0 in
  for_n epochs (fun i t => s <- CacheSize pp fuel d i ;; upd t i s) (zeros epochs).

(** main.go:32-47 *)
Definition genDatasetLookupTable (pp : N -> bool) (fuel : nat)
    (mixBytes initBytes growthBytes epochs : N) : outcome (list N) :=
  let d := gen_config mixBytes 0 0 initBytes growthBytes in
  for_n epochs (fun i t => s <- DatasetSize pp fuel d i ;; upd t i s) (zeros epochs).

(** fmt's %d of a uint64, as ASCII bytes. *)
Fixpoint dec_digits (fuel : nat) (n : N) (acc : list N) : list N :=
  match fuel with
  | O => acc
  | S f => let acc := 48 + n mod 10 :: acc in
           if n / 10 =? 0 then acc else dec_digits f (n / 10) acc
  end.
Definition decimal (n : N) : list N := dec_digits (S (N.to_nat (N.size n))) n [].

(** main.go:49-73, formatLookupTable: the text as ASCII bytes. *)
Definition formatLookupTable (lookupTable : list N) (rowSize : N) : outcome (list N) :=
  rows <- divc (lenN lookupTable) rowSize ;;
  formatted <- for_n rows (fun i formatted =>
      row <- for_n rowSize (fun j row =>
          let index := i * rowSize + j in
          if lenN lookupTable <=? index then Done row
          else
            v <- idx lookupTable index ;;
            let row := row ++ decimal v ++ [44] in (* "%d," *)
            Done (if j <? rowSize - 1 then row ++ [32] else row)) [] ;;
      Done (formatted ++ [9] ++ row ++ [10])) [] ;; (* "\t%s\n" *)
  Done ([91; 93; 117; 105; 110; 116; 54; 52; 123; 10] ++ formatted ++ [125]). (* "[]uint64{\n%s}" *)
