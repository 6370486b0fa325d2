# Formal model of sencha-dev/powkit in Rocq (Coq 8.16.1)

## 1. Modelling conventions

* Go unsigned integers are `N` with explicit reduction `mod 2^w` after every operation
  that can leave the range.  Go `int` is `N` where it is provably non-negative, `Z` otherwise.
* Slices and arrays are `list N`; out-of-range access is the explicit outcome `Panic`.
* A Go function that can panic or loop is a Gallina function into
  `outcome A := Done a | Panic | OutOfFuel`.  `OutOfFuel` is only produced by loops that
  take explicit fuel; a theorem "terminates" says that some fuel gives `Done`, a theorem
  "diverges" says that every fuel gives `OutOfFuel`.
* Go `error` results are inductive values of the package's own error type.
* External code (keccak256/512 of golang.org/x/crypto, blake2b of dchest/blake2b, cSHAKE,
  `big.Int.ProbablyPrime`, file system, clock) is a function argument of the model; the facts
  needed about it (output length, output bytes in range, primality test right below 2^64)
  are hypotheses visible in each theorem statement.  `Hashes.v` gives executable Gallina
  versions, used only to replay the repository's own test vectors on the model and to show
  that the hypotheses can be met.
* Per package: `XModel.v` (code, each definition cites file and lines), `XSpec.v`
  (independent specification), `XProofs.v` (proofs), `PropsX.v` (theorems only, closed by
  `exact`, each followed by `Print Assumptions` and an `Example` that shows that the
  hypotheses are met by a concrete non-trivial case).

## 2. Trusted base

* Coq's kernel (with `vm_compute`); see section 4 for what `Print Assumptions` lists.
* The hand translation of Go to Gallina.  Each definition cites the lines it models.
  The `Vec` files and examples in the `Props` files replay test vectors of the repository on the
  model, with the executable hashes of `Hashes.v`; every algorithm is replayed from its input to
  its final digest or verdict (`VecEthash.v`, `VecKawpow.v`, `VecFiropow.v`, `VecProgpow.v`,
  `VecOctopus.v`, `VecAuto.v`, `VecBeam.v`, `VecEagle.v`, `VecEqui.v`, `VecHeavy.v`,
  `PropsCuckoo.v`), and so are epochs, seeds, sizes and small caches (`VecDag.v`).  The dataset
  items in the first five are listed in the files: those of `VecProgpow.v` are in the Go
  test, the others were computed outside Coq by a separate implementation, because a cache of
  16 MB is out of reach on lists.  These replays are tests of the translation, not proofs.
* The semantics in `Base.v` of Go integers, slices, panics and loops, and in `XorModel.v` of the
  amd64 and arm64 instructions that occur.

### What is modelled

| code | model | contents |
|------|-------|----------|
| internal/common/convutil, internal/crypto (fnv, siphash, xoshiro) | CryptoModel.v | all functions |
| internal/crypto/keccak.go | KeccakModel.v | KeccakF800 assignment by assignment |
| internal/crypto/blake.go, shakehash.go, hasher.go | arguments `blake`, `cshake`, `keccak256`, `keccak512` | the wrappers' size checks (EquiModel.Blake2b, DagModel.hash_into); the hash functions themselves are third-party |
| internal/common/bitutil | XorModel.v | both assembly programs, both generic paths, the Go wrappers |
| internal/dag/config.go, dag.go (calculations), generate.go, cmd/gen-lookup, client configurations, lookup tables | DagModel.v, LookupTables.v | all functions except `main` and `saveToFile` |
| cmd/gen-lookup `main`, `saveToFile` | GenModel.v | package flag as far as used; strconv's parsers are arguments; the write itself is what is handed to ioutil.WriteFile |
| internal/dag/dag.go GetCache | RegModel.v (locked region), OnceModel.v (all interleavings of requests and background generation), RaceModel.v (its memory accesses) | sequentially consistent memory; C69 shows freedom from data races, for which the Go memory model grants it |
| internal/dag/cache.go finalizer, runtime.KeepAlive in the clients | GcModel.v | an object is collected whole; the collector may run whenever no modelled reference exists |
| panics the caller recovers from: sync.Once, the mutex of GetCache, later calls | RecoverModel.v, on top of OnceModel.v and ClientModel.v | what a panicked generation leaves in the fields is an argument; in the model of calls one after the other the background generation ends before the call goes on |
| slices in memory: aliasing, capacity, append, what calls running together do to each other | MemModel.v (the language), MemDag.v, MemProgpow.v, MemOctopus.v, MemHeavy.v, MemAuto.v, MemEagle.v, MemCuckoo.v, MemTree.v, MemEqui.v, MemBeam.v, MemCalls.v (the code in it) | Compute of ethash, kawpow, firopow, octopus once the cache is known, of heavyhash, autolykos2 and eaglesong, Verify of cuckoo, equihash and beamhashiii; local arrays and slices of pointers that no slice is taken of (matrices, states of generators, rows of nodes) and the big integers of a call are values; third-party hash functions read their input and make a new array; garbage collection never takes an array in use |
| words of caches on machines of either byte order | EndianModel.v | in-memory generation, ethash, the magic check |
| registry, goroutines, collector and files together, several clients in several processes | WorldModel.v | programs are killed one by one; temporary names drawn by live runs differ |
| internal/dag/cache.go, mmap.go | FileModel.v, FileJob.v, NameModel.v | every file operation may fail, processes may be killed between any two operations |
| ethash, kawpow, firopow, octopus, internal/progpow | EthashModel.v, ProgpowModel.v, OctopusModel.v, ClientModel.v | all functions |
| internal/common/filesystem.go | DirModel.v | environment and Windows' filepath.Join are arguments |
| cuckoo, equihash, beamhashiii | CuckooModel.v, EquiModel.v, EquiErrModel.v, BeamModel.v, BeamErrModel.v | all functions; the error texts of equihash and beamhashiii are told apart in EquiErrModel.v and BeamErrModel.v only |
| heavyhash | HeavyModel.v | all functions; float64 is the standard library's SpecFloat binary64 |
| autolykos2, eaglesong | AutoModel.v, EagleModel.v | all functions; eaglesong's int parameters are natural numbers |

### What is not modelled

Memory limits, `int` overflow of lengths above 2^63, the garbage collector's timing beyond what C62 states, slice
capacity beyond length except where code can reach it (EquiModel `spare`, AutoModel), the
`unsafe` reinterpretation of mapped memory (little endian everywhere but in C70, which is about both byte orders), the content of third-party hash functions, `big.Int.ProbablyPrime` (an
argument assumed right where a theorem says so), the system's part in `gen-lookup`'s file write
(it may fail halfway), test helpers.

### Hypotheses that stand for external code

* `H512_ok`, `H256_ok`, `blake_ok` and the like: the hash returns the right number of bytes,
  each below 256.  `HashesFacts.v` shows that the executable versions meet them.
* `pp` agrees with primality (below 2^64) where a size is computed and not tabulated.
* fuel at least some stated number: the loop ends within it.

## 3. Plan per property

| id | model | how it is proved |
|----|-------|------------------|
| C01 | convutil.go, all functions | induction on the slice; positional-value spec |
| C02 | both assembly routines as programs of a small machine over a flat memory, fast and safe generic paths | loop invariants; all four equal to pointwise xor when the destination is apart from or the same as a source (addresses below 2^64, lengths below 2^63); partial overlap refuted by witness |
| C03 | KeccakF800 unrolled double round | spec from Keccak reference (LFSR constants, rho recurrence); symbolic equality of one double round, induction over 11 |
| C04 | same | inverse of each step mapping; theta inverse by explicit polynomial inverse |
| C05 | siphash.go | refinement to SipHash definition with iteration counts; range lemmas; block function by loop invariant |
| C06 | xoshiro256plusplus.go | explicit inverse; induction on steps |
| C07 | fnv.go | modular inverse of the FNV prime; loop invariant |
| C08 | CalcEpoch | division lemma |
| C09 | SeedHash, the seed choice in cache.generate | loop invariant: iterate |
| C10 | tables generated verbatim from /repo, CacheSize, DatasetSize | kernel computation: verified trial division for each of the 2045 entries of each table; lifted to a forall |
| C11 | calcCacheSize, calcDatasetSize with 64-bit wrap | well-founded descent to a prime row; maximality |
| C12 | client configurations, table access, registry, generation, evaluation, end to end | all models composed; induction over the history of calls; epochs 2044 (process ends), 2045-2047 (panic) and Ethereum Classic from 2048 on (panic) refuted |
| C13 | generateCache on a flat buffer | loop invariant: buffer = concat of spec rows |
| C14 | generateDatasetItem(Uint), NewLookupFunc* | loop invariant, refinement to spec item |
| C15 | generateL1Cache | loop invariant |
| C16 | index computations in hashimoto, progpow round, octopus | with a lookup oracle that panics out of range: the result is Done |
| C17 | GetCache as a state transition on registry | invariant by induction on the request sequence |
| C18 | interleaving semantics: mutex registry, sync.Once per cache, background generation | inductive invariant over all traces |
| C19 | memoryMap/memoryMapAndGenerate as sequences of FS operations, crash between any two | invariant over traces of several writers + crashes |
| C20 | cache.generate over an abstract FS with arbitrary failures | invariant "every file is complete for its name"; result independent of oracle |
| C21 | cacheStorageLocation, l1StorageLocation | injectivity of decimal / hex rendering and parsing of the dashes |
| C22 | hashimoto | refinement to spec |
| C23 | ethash/octopus Compute | congruence through CalcEpoch |
| C24 | mixrng.go | Fisher-Yates swaps preserve Permutation |
| C25 | round's src1/src2 | arithmetic |
| C26 | randomMerge | explicit inverses |
| C27 | math.go | case analysis, bit-level specs of clz/popcount/rot |
| C28 | kiss99.go | unfolding against recurrence; inverses |
| C29 | progpow/algorithm.go | refinement to spec |
| C30 | kawpow.go, firopow.go, progpow094.go | refinement to spec |
| C31 | kawpow client | arithmetic on /3 and /7500 |
| C32 | remap, gcd, powerMod | primitive root order argument, verified factorisation of p-1 |
| C33 | computeC | at most four retries, by divisibility by five of the exponents of the words that fail |
| C34 | octopus evaluation loops | invariant; no-wrap bounds |
| C35 | octopus | refinement to spec |
| C36 | cuckoo.go, cuckaroo.go | walk invariant: partner map is injective so the walk returns to 0 |
| C37 | same | soundness and completeness vs graph-theoretic cycle |
| C38 | same | refuted by witness, plus permutation invariance theorem |
| C39 | same | from C37 |
| C40 | same | case analysis; CuckooWalkSpec.v has the walk as an inductive relation, which is deterministic and has one end |
| C41 | indicesFromMinimal, expandArray | bit-stream invariant |
| C42 | verify, validateSubtrees, nodes | refinement by induction on rounds to tree spec |
| C43 | same | from C42, C41 |
| C44 | expandArray | bit-stream invariant for supported widths; refutation for the others |
| C45 | generateHash | loop invariant |
| C46 | client New + verify | proved for shipped clients, refuted for arbitrary parameters |
| C47 | beam indicesFromMinimal | bit-stream bijection |
| C48 | beam verify | refinement |
| C49 | beam verify | from C48 |
| C50 | newMatrix, calculateRank (binary64 via SpecFloat), heavyHash | refuted for the zero hash (all fuels) |
| C51 | heavyHash | bounds + refinement |
| C52 | calcN | closed computation lifted by monotonicity |
| C53 | compute, genIndexes | refinement |
| C54 | New | refuted by witness + exact domain |
| C55 | eaglesong.go | loop invariant |
| C56 | permute | inverse of each step |
| C57 | absorb | refuted by witness + exact characterisation |
| C58 | every client.go | case analysis |
| C59 | every Compute | from the refinements |
| C60 | formatLookupTable, genCacheLookupTable, genDatasetLookupTable | refuted + exact contents by parsing the text back |
| C61 | calculateRank over binary64 (SpecFloat) | refuted by two witness matrices and by a witness for fused multiply-subtract; totality proved |
| C62 | garbage collector and finalizers on top of the interleaving semantics of C18 (GcModel.v) | inductive invariant: a finalised object is referred to by nobody; variant without KeepAlive refuted by a schedule |
| C63 | the file model of C19 with crashes | a file no process holds open is only touched through its name; n crashes by induction: refuted |
| C64 | the file model of C19, the run in which every call succeeds (FileOk.v) | symbolic execution of the run from any directory; names from C21, contents from C13 and C15 |
| C65 | sequences of such runs | induction over the sequence with C64; a list function as specification; ascending order bounded, descending order refuted |
| C66 | WorldModel.v: OnceModel, GcModel and FileModel composed; each generation is a run of file operations, programs start and die | invariant linking every generated object to its finished run; then C20's invariant gives the content of the memory, C62 that it is mapped, C12 the digest; the example reaches such a state for every coin and height; VecSeeds.v replays that the file names of all served epochs differ |
| C67 | PowerModel.v: FileModel.v beside the content of the disk, pages and directory written back at any time, power failures | invariant for the variant with ordered writes, reusing the invariant of C19/C20; for the code a run of one process ending in a wrong cache |
| C68 | DirModel.v: DefaultDir with the environment as argument; filepath.Clean from NameModel.v | stacks built by Clean are fixed by Clean; the home directory is given by a case distinction on the environment |
| C69 | RaceModel.v: the memory accesses and synchronisation of each step of OnceModel.v; RaceSpec.v: happens-before and data races after the Go memory model | invariant: what each goroutine, mutex and done flag knows of the past; every conflicting access is known |
| C70 | EndianModel.v: memory as words of either byte order, generation and ethash on top of it, the magic check | induction over the words; C13-C15, C22 with reversed rows; equality of the machines refuted with the real hashes on a small network |
| C71 | MemModel.v: memory of arrays, slice headers with capacity, programs of single loads and stores, interleaved steps; MemDag.v, MemProgpow.v, MemOctopus.v, MemHeavy.v, MemAuto.v, MemEagle.v, MemCuckoo.v, MemTree.v, MemEqui.v, MemBeam.v, MemCalls.v: the code of the calls in that language | an access discipline kept by every program (safe) gives independence of interleaved calls; a simulation (sim) relates each program to the model on lists; schedules are well founded |
| C72 | RecoverModel.v: OnceModel.v with generations that panic, panics with the mutex held, the end of the process; a client whose memory persists over recovered panics | every such execution is one of OnceModel.v, so its invariants hold, and a second invariant says who panicked; for the shipped clients an invariant that generated objects hold the right content, kept by panicking calls, so that each call of a sequential history answers or panics on its own; the shortcomings by computation in general configurations |
| C73 | GenModel.v: command line, tables, template, path | the flag parser on every written option by induction, and conversely the form of every command line that is accepted; the literal of a table line by line; sizes from C11, uniqueness against the shipped tables (C10); VecGen.v replays the bytes of the four files |
| C74 | Work.v: `asks W n f`, f finds its result by at most n questions to its function argument, as a decision tree; the existing models with the lookup, the cache rows or the hash function as that argument | rules for sequencing and loops over `asks`, then one derivation per algorithm; light verification by composing the bound on items with the one on rows; `C74_determined` says what the bound means |
| C75 | no new model; `collides f x y` names two inputs of a hash function | from the specifications proved in C12, C22, C30, C35 and C51: the last hash input is compared, then the first one, each encoding being injective; the client histories through C12 |
| C76 | EquiErrModel.v: the verifier of EquiModel.v with its error texts told apart | forgetting the text gives EquiModel.v's verdict for all inputs; rows of a level in closed form (digits and indices of the parts of the list), first failing pair by induction over pairs and levels; true and false from C42 |
| C77 | BeamErrModel.v: the verifier of BeamModel.v with its error texts told apart | as C76, with the mixed work of a subtree in place of its digit; true and false from C48 |

## 4. Assumptions printed

`Print Assumptions` follows every theorem in the `Props*.v` files and answers
"Closed under the global context" for all of them: no axiom of the standard library, no
axiom of ours.  `coqchk` lists seven axioms `Coq.ssr.ssrunder.Under_rel.*` of the standard
library: they belong to a module type loaded with the library and no theorem uses them.

There is no `Admitted`, no functor or module type, and no switched-off kernel check.
`Amd64` and `Arm64` in XorModel.v are plain modules used as name spaces.

## 5. Refuted expectations

Theorems with the suffix `_refuted` prove that an expectation does not hold of the code, with a
witness or for a whole class of inputs: C02 (partial overlap), C11 (tiny nominal size), C12
(epochs 2044 to 2047, Ethereum Classic beyond the table), C14 (caches of more than 2^28 rows), C17 (no capacity), C19 (equal random
suffixes), C20 (foreign, short or shared files), C21 (slashes), C25 (65537 registers), C38
(canonical order), C44 (widths 27, 29, 30, 31 and short inputs), C46 (parameters), C48
(personalisation), C50 (zero hash), C53 (short sums), C54 (parameters), C57 (padding), C60 (rows
cut short), C61 (rank test), C70 (big-endian machines), C72 (no capacity, calls after a panicked
generation), C75 (Autolykos heights).

## 6. Tests against wrong programs

`seeded/LOG.jsonl` has one line per attempt: the edited definition, the edit, the claim it
breaks, the theorems that no longer prove and what was tightened.  Each edit was made in a
scratch copy; when a proof failed it was admitted there and the build continued, so that the
listed theorems are those whose proofs depend on a failed one.
