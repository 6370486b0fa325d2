{"id": "C01", "title": "Word/byte conversions are exact inverses", "statement": "Converting a slice of 32-bit words to bytes and back, in either byte order, returns the same words; converting a byte slice whose length is a multiple of four to words and back returns the same bytes; every element stays in range and lengths are multiplied/divided by exactly four. The 32/64-bit scalar encoders produce 4 and 8 bytes whose positional value is the number.", "quantifier": "all word slices of any length, all byte slices of any length, both byte orders", "why_tests_cant": "slices of every length and content; a test fixes a few", "anchors": ["internal/common/convutil/convutil.go:Uint32ArrayToBytes", "internal/common/convutil/convutil.go:BytesToUint32Array", "internal/common/convutil/convutil.go:Uint32ToBytes", "internal/common/convutil/convutil.go:Uint64ToBytes"]}
{"id": "C02", "title": "XORBytes gives the same result on every architecture", "statement": "For every dst, a, b in memory with len(dst) >= n = min(len a, len b), where the first n bytes of dst are the first n bytes of a source or do not meet them, XORBytes writes a[i]^b[i] to dst[i] for each i < n, changes no other memory, reads nothing outside the slices and returns n; this is so for the amd64 assembly, the arm64 assembly, the word-at-a-time generic path and the byte-at-a-time generic path. If dst is too short all of them panic. When dst overlaps a source partially the architectures may differ.", "quantifier": "all byte contents, all lengths, all four implementations", "why_tests_cant": "a test only runs the host's implementation, up to 1024 bytes", "anchors": ["internal/common/bitutil/xor_amd64.s:xorBytesSSE2", "internal/common/bitutil/xor_arm64.s:xorBytesARM64", "internal/common/bitutil/xor_generic.go:fastXORBytes", "internal/common/bitutil/xor_generic.go:safeXORBytes", "internal/common/bitutil/xor_amd64.go:XORBytes"]}
{"id": "C03", "title": "KeccakF800 is Keccak-f[800]", "statement": "The hand-unrolled 22-round permutation used by the ProgPoW family maps every 25-word state to the state the Keccak specification (theta, rho, pi, chi, iota with 32-bit lanes, rotation offsets and round constants derived from their defining recurrences) gives.", "quantifier": "all 2^800 states", "why_tests_cant": "2^800 inputs; a single transposed lane or constant can hide from a few vectors", "anchors": ["internal/crypto/keccak.go:KeccakF800", "internal/crypto/keccak.go:rck8"]}
{"id": "C04", "title": "KeccakF800 loses no state", "statement": "KeccakF800 is a bijection on 25-word states: two different seeds never produce the same permuted state and an explicit inverse exists.", "quantifier": "all pairs of states", "why_tests_cant": "pairs of 800-bit states cannot be sampled", "anchors": ["internal/crypto/keccak.go:KeccakF800"]}
{"id": "C05", "title": "SipHash rounds and node functions follow their definition", "statement": "The keyed hashes used by Cuckoo/Cuckaroo/BeamHash/Octopus are SipHash-2-4 and SipHash-4-8 compressions of a single word from the given four-word state: v3^=m, c rounds, v0^=m, v2^=0xff, d rounds. Every node function result lies within the edge mask. The block function's value for an edge depends only on the key and the edge, its 64-edge block is chained, and all but the last entry are masked with the last entry.", "quantifier": "all keys, edges and masks", "why_tests_cant": "2^256 keys times 2^64 edges", "anchors": ["internal/crypto/siphash.go:SipRound", "internal/crypto/siphash.go:Hash24", "internal/crypto/siphash.go:Hash48", "internal/crypto/siphash.go:SipNode24", "internal/crypto/siphash.go:SipNode24Legacy", "internal/crypto/siphash.go:SipBlock48"]}
{"id": "C06", "title": "xoshiro256++ generator conforms and is reversible", "statement": "Next returns the xoshiro256++ output and advances the state by an invertible map; the all-zero state is the only state mapped to the all-zero state, and from it every output is zero.", "quantifier": "all 2^256 states, all step counts", "why_tests_cant": "state space and stream length unbounded", "anchors": ["internal/crypto/xoshiro256plusplus.go:Next"]}
{"id": "C07", "title": "FNV mixing steps lose no information", "statement": "For a fixed other argument, each of the FNV-1 and FNV-1a 32-bit steps is a bijection in either argument; mixing a data slice into a mix slice changes each mix element by exactly the FNV-1 step with the data element at the same index, and panics iff data is shorter than mix.", "quantifier": "all 32-bit pairs; all slices", "why_tests_cant": "2^64 pairs", "anchors": ["internal/crypto/fnv.go:Fnv1", "internal/crypto/fnv.go:Fnv1a", "internal/crypto/fnv.go:FnvHash"]}
{"id": "C08", "title": "Epochs partition heights", "statement": "CalcEpoch(height) = e exactly when e*EpochLength <= height < (e+1)*EpochLength, for every height, so it is monotone and consecutive heights differ by at most one epoch.", "quantifier": "all heights, all positive epoch lengths", "why_tests_cant": "2^64 heights", "anchors": ["internal/dag/dag.go:CalcEpoch"]}
{"id": "C09", "title": "Seed hash is the iterated Keccak-256 chain", "statement": "SeedHash(height) is 32 zero bytes hashed with Keccak-256 floor(height/SeedEpochLength) times, as long as that count is below 2^63 (always, when SeedEpochLength is at least 2); hence all heights of a seed epoch share it and consecutive seed epochs are one hash apart. The seed used for a client's epoch e is the chain at position floor((e*EpochLength+1)/SeedEpochLength) (e for Ethereum, 2e for Ethereum Classic).", "quantifier": "all heights", "why_tests_cant": "unbounded heights and chain lengths", "anchors": ["internal/dag/dag.go:SeedHash", "internal/dag/cache.go:generate"]}
{"id": "C10", "title": "Shipped size tables equal the size formula", "statement": "For every epoch covered by a shipped table (0..2044) of every DAG client, the tabulated cache and dataset sizes equal the sizes computed from the client's own configuration: the largest size of the form init+growth*epoch-unit-2k*unit whose row count is prime. (Ethereum Classic leaves the dataset unit at 0; its table is the one for a unit of 128.)", "quantifier": "all epochs below the table length, all five clients, both tables", "why_tests_cant": "tests check ten epochs of one client", "anchors": ["ethash/ethash_lookup.go", "kawpow/kawpow_lookup.go", "firopow/firopow_lookup.go", "octopus/octopus_lookup.go", "internal/dag/dag.go:CacheSize", "internal/dag/dag.go:DatasetSize"]}
{"id": "C11", "title": "Size computation always terminates with a prime row count", "statement": "For every configuration whose init and growth sizes are even multiples of the unit and every epoch whose nominal size does not overflow 64 bits and is at least four units, the size search terminates without wrapping below zero, and returns a size that is a multiple of the unit, below the nominal size, with a prime number of rows, no larger candidate of the same parity being prime. (For a nominal size of two units the search wraps around.)", "quantifier": "all configurations and epochs", "why_tests_cant": "unbounded epochs; termination is not testable", "anchors": ["internal/dag/dag.go:calcCacheSize", "internal/dag/dag.go:calcDatasetSize"]}
{"id": "C12", "title": "DAG clients answer with the right digest after any history of calls, except at the epochs listed", "statement": "For the shipped Ethereum, Ethereum Classic, Ravencoin, Firo and Conflux clients: after any sequence of calls, Compute on a 32-byte hash, any nonce and a height of an epoch that can be served returns the mix and digest that the algorithm's specification gives for that hash, height and nonce (seed chain, cache, dataset, sizes and loop all specified), never an error, a panic or a result that depends on earlier calls. The epochs that can be served are 0 to 2043 and, for all but Ethereum Classic, 2048 onwards as long as the cache stays within 4 GiB and the dataset within 256 GiB. The claim is false elsewhere: the first call in epoch 2044 ends the process (background generation for epoch 2045 reads past the table), epochs 2045 to 2047 panic for every client, and Ethereum Classic panics from epoch 2048 on.", "quantifier": "all sequences of calls, all hashes, nonces and heights, all clock readings and map iteration orders, all hash functions with the right output sizes", "why_tests_cant": "tests sample a few epochs", "anchors": ["internal/dag/dag.go:CacheSize", "internal/dag/dag.go:DatasetSize", "internal/dag/dag.go:GetCache", "internal/dag/config.go:NewLookupTable", "ethash/client.go:NewEthereumClassic", "cmd/gen-lookup/main.go:formatLookupTable"]}
{"id": "C13", "title": "Cache generation equals the ethash definition", "statement": "The in-place flat-buffer cache generator produces, for every seed, row count below 2^26 and number of rounds, exactly the row list of the ethash specification (sequential Keccak-512 fill followed by RandMemoHash rounds), without any out-of-range access. From 2^26 rows on (4 GiB) the 32-bit offset wraps and generation can panic.", "quantifier": "all seeds, all row counts >= 1 (below 2^26), all round counts", "why_tests_cant": "tests cover two 16-row caches and two epochs", "anchors": ["internal/dag/generate.go:generateCache"]}
{"id": "C14", "title": "Dataset items equal the ethash definition", "statement": "Every dataset item computed from a cache of fewer than 2^28 rows (16 GiB) equals the specification's calc_dataset_item for that cache, index and number of parents, for every index, without out-of-range access; multi-item lookups are the concatenation of the consecutive items. The bound is needed: positions are 32-bit, so rows past the first 2^28 are never read.", "quantifier": "all caches of 1 to 2^28-1 rows, all 32-bit indices, all parent counts", "why_tests_cant": "2^32 indices times unbounded caches", "anchors": ["internal/dag/generate.go:generateDatasetItem", "internal/dag/generate.go:generateDatasetItemUint", "internal/dag/dag.go:NewLookupFunc512", "internal/dag/dag.go:NewLookupFunc1024", "internal/dag/dag.go:NewLookupFunc2048"]}
{"id": "C15", "title": "L1 cache is the prefix of the dataset", "statement": "The L1 cache of an epoch consists of the first rows of that epoch's dataset, word for word, whatever way it was produced.", "quantifier": "all caches of 1 to 2^28-1 rows, all L1 sizes", "why_tests_cant": "unbounded content", "anchors": ["internal/dag/generate.go:generateL1Cache"]}
{"id": "C16", "title": "Every dataset access of a hash evaluation is inside the dataset", "statement": "Each index that hashimoto, kawpow, firopow, progpow and octopus pass to the dataset lookup addresses an item (or page) that lies wholly inside the dataset: with a lookup that may panic or answer anything outside, the evaluation still returns, and its result does not depend on what lies outside; the dataset sizes of the shipped clients meet the size conditions for every epoch with a size up to 256 GiB.", "quantifier": "all hashes, nonces, heights and lookup behaviours", "why_tests_cant": "data-dependent indices", "anchors": ["ethash/ethash.go:hashimoto", "internal/progpow/algorithm.go:round", "octopus/octopus.go:octopus"]}
{"id": "C17", "title": "Cache registry behaves as a bounded LRU keyed by epoch", "statement": "After any sequence of cache requests on one DAG object: at most CachesCount caches are retained; the object handed out for epoch e is the one for epoch e; each retained cache is stored under its own epoch; an eviction removes only the least recently requested cache; a request for a retained epoch never regenerates it; the pre-generated cache is always for an epoch above every epoch requested so far.", "quantifier": "all request sequences, all CachesCount >= 1", "why_tests_cant": "unbounded histories", "anchors": ["internal/dag/dag.go:GetCache"]}
{"id": "C18", "title": "Concurrent requests generate each cache object once and see it complete", "statement": "Under every interleaving of any number of concurrent requests and background pre-generation, each cache object's content is produced exactly once, no request returns before the content of its object is complete, and no two retained objects are for the same epoch.", "quantifier": "all schedules, all numbers of goroutines", "why_tests_cant": "schedules cannot be enumerated by tests", "anchors": ["internal/dag/dag.go:GetCache", "internal/dag/cache.go:generate"]}
{"id": "C19", "title": "A crash never leaves a partial cache file under its final name", "statement": "If processes are killed at any instants while storing caches, the file under a cache's final name is afterwards either what it was before or a complete file (magic followed by the whole generated content), and what a process has mapped is never partial, provided no two processes use the same temporary name at the same time. Without that proviso (the random suffixes come from an unseeded math/rand) two processes can leave an empty file under the final name.", "quantifier": "all crash points, all interleavings of several writers", "why_tests_cant": "crash points cannot be enumerated by tests", "anchors": ["internal/dag/mmap.go:memoryMapAndGenerate", "internal/dag/mmap.go:memoryMap"]}
{"id": "C20", "title": "Results do not depend on the state of the disk", "statement": "Starting from a storage directory in which every file under the final name of an epoch in use either is one this library completely wrote under the same configuration, or is at least 8 bytes long and does not begin with the magic (it is then never used, and replaced), the cache and L1 content obtained for an epoch is the defined content whether it was loaded, generated to disk, or generated in memory because any file operation failed, no run panics, the directory keeps that property, and every run ends. The assumption is needed: a file shorter than the 8-byte magic makes generation panic, a file with the right magic is trusted whatever it holds, and epochs sharing a seed share a file.", "quantifier": "all subsets of files present, all patterns of I/O failure, all histories", "why_tests_cant": "failure patterns are exponential", "anchors": ["internal/dag/cache.go:generate", "internal/dag/mmap.go:memoryMap", "internal/dag/mmap.go:memoryMapAndGenerate"]}
{"id": "C21", "title": "Cache file names never collide", "statement": "Two cache (or L1) files have the same name only if they have the same kind, coin name, revision and 8-byte seed prefix, for coin names without a slash; in particular no two shipped clients share a file, an L1 file never overwrites a cache file, and a temporary name is never a final one. Coin names with slashes can collide.", "quantifier": "all names, revisions, seeds", "why_tests_cant": "infinitely many names", "anchors": ["internal/dag/dag.go:cacheStorageLocation", "internal/dag/dag.go:l1StorageLocation"]}
{"id": "C22", "title": "Ethash evaluation equals hashimoto", "statement": "For every header hash, nonce, dataset size and dataset, the (mix, digest) returned equals the ethash specification's hashimoto on that dataset, and the call neither panics nor depends on anything else.", "quantifier": "all 32-byte hashes, 64-bit nonces, datasets of 128 bytes (one page) to 256 GiB", "why_tests_cant": "infinite input space", "anchors": ["ethash/ethash.go:hashimoto", "ethash/client.go:Compute"]}
{"id": "C23", "title": "Ethash and Octopus results depend on the height only through the epoch", "statement": "For two heights of the same epoch, Compute of an Ethash or Octopus client of any configuration returns identical results for every hash and nonce, whatever the one or two clients were asked before.", "quantifier": "all pairs of heights, hashes, nonces and call histories", "why_tests_cant": "pairs of 64-bit heights", "anchors": ["ethash/client.go:Compute", "octopus/client.go:Compute"]}
{"id": "C24", "title": "ProgPoW register sequences are permutations", "statement": "For every period seed and register count, the source and destination register sequences are permutations of 0..n-1, so n consecutive draws visit every register exactly once.", "quantifier": "all 64-bit seeds, all register counts, all numbers of draws below 2^32", "why_tests_cant": "2^64 seeds", "anchors": ["internal/progpow/mixrng.go:initMixRngState", "internal/progpow/mixrng.go:nextSrc", "internal/progpow/mixrng.go:nextDst"]}
{"id": "C25", "title": "ProgPoW math sources are two distinct registers, all pairs reachable", "statement": "For every register count n from 2 to 65535, the two math source registers derived from a random word are always distinct and in range, and each ordered pair of distinct registers comes from exactly one residue modulo n(n-1). Beyond that the 32-bit product wraps: with 65537 registers some pairs are never chosen.", "quantifier": "all random words, all register counts >= 2", "why_tests_cant": "2^32 words per register count", "anchors": ["internal/progpow/algorithm.go:round"]}
{"id": "C26", "title": "ProgPoW merge keeps entropy", "statement": "For each selector, the merge operation is a bijection of the accumulator for fixed data and a bijection of the data for fixed accumulator; its rotation amount is always between 1 and 31 and depends only on the upper half of the selector.", "quantifier": "all selectors, all operands", "why_tests_cant": "2^96 inputs", "anchors": ["internal/progpow/math.go:randomMerge"]}
{"id": "C27", "title": "ProgPoW random math implements the eleven listed operations", "statement": "For each selector the math operation equals the arithmetic definition (sum, product, high product, minimum, rotations by the low five bits, and, or, xor, sum of leading-zero counts, sum of population counts) and never falls through to the default.", "quantifier": "all selectors, all operands", "why_tests_cant": "2^96 inputs", "anchors": ["internal/progpow/math.go:randomMath", "internal/progpow/math.go:rotl32", "internal/progpow/math.go:rotr32", "internal/progpow/math.go:clz32", "internal/progpow/math.go:popcount32", "internal/progpow/math.go:mul_hi32"]}
{"id": "C28", "title": "KISS99 generator follows its definition", "statement": "Each draw equals the KISS99 recurrence on 32-bit words, for every state and number of draws; the congruential and xorshift components are bijective.", "quantifier": "all states", "why_tests_cant": "2^128 states", "anchors": ["internal/progpow/kiss99.go:next"]}
{"id": "C29", "title": "ProgPoW hash equals the ProgPoW specification", "statement": "For every configuration with positive parameters, seed, height, dataset and L1 content, the mix hash equals the one of an independent statement of ProgPoW (init mix, per-round program, dataset merge, FNV-1a reduction) and no access is out of range.", "quantifier": "all seeds, heights, L1 contents and configurations, all datasets of 256 bytes (one page) to 2^32 pages", "why_tests_cant": "infinite input space", "anchors": ["internal/progpow/algorithm.go:initMix", "internal/progpow/algorithm.go:round", "internal/progpow/algorithm.go:Hash"]}
{"id": "C30", "title": "KawPoW, FiroPoW and ProgPoW 0.9.4 wrap the hash with their own padding", "statement": "The three variants absorb header and nonce and squeeze the digest by Keccak-f[800] with, respectively, the RAVENCOINKAWPOW words, the two FiroPoW padding words and zero padding, use period lengths 3, 1 and 10, and return 32-byte mix and digest for every input.", "quantifier": "all hashes, heights, nonces", "why_tests_cant": "infinite input space", "anchors": ["kawpow/kawpow.go:initialize", "kawpow/kawpow.go:finalize", "kawpow/kawpow.go:kawpow", "firopow/firopow.go:initialize", "firopow/firopow.go:finalize", "firopow/firopow.go:firopow", "internal/progpow/progpow094.go:compute"]}
{"id": "C31", "title": "KawPoW results are constant within a program period", "statement": "Compute of the Ravencoin client returns identical results for all heights of the same 3-block period, whichever epoch they lie in (a period never straddles an epoch).", "quantifier": "all heights, hashes, nonces and call histories", "why_tests_cant": "2^64 heights", "anchors": ["kawpow/client.go:Compute", "kawpow/kawpow.go:kawpow"]}
{"id": "C32", "title": "Octopus coefficients are generators", "statement": "The coefficient derived from each header word terminates, lies in 1..p-1 for p=1032193 (prime) and generates the multiplicative group modulo p.", "quantifier": "all 2^64 header words", "why_tests_cant": "2^64 inputs; group order facts", "anchors": ["octopus/octopus.go:remap", "octopus/octopus.go:gcd", "octopus/octopus.go:powerMod"]}
{"id": "C33", "title": "Octopus quadratic never degenerates and its search terminates", "statement": "For every pair of coefficients a, b and starting word h the search for the constant coefficient terminates, after at most four retries, with c derived from h+k (mod 2^64) for the least k such that b^2 <> 4ac mod p.", "quantifier": "all coefficients and 2^64 starting words", "why_tests_cant": "termination for all inputs", "anchors": ["octopus/octopus.go:computeC"]}
{"id": "C34", "title": "Octopus polynomial evaluation is exact", "statement": "For every input, the 32 evaluation results are the values of the degree-1023 polynomial with the SipHash-generated coefficients at a*w^2m+b*w^m+c (mod p) for m = nonce mod 32 + 32i; no intermediate product wraps around 64 bits.", "quantifier": "all hashes and nonces", "why_tests_cant": "infinite input space", "anchors": ["octopus/octopus.go:octopus"]}
{"id": "C35", "title": "Octopus digest equals its specification", "statement": "For every 32-byte hash, nonce, dataset size and dataset with at least one page, the digest equals an independent statement of Octopus and no item outside the whole pages is asked for; a dataset smaller than a page makes the computation panic.", "quantifier": "all hashes and nonces, all dataset sizes up to 256 GiB", "why_tests_cant": "infinite input space", "anchors": ["octopus/octopus.go:octopus", "octopus/client.go:Compute"]}
{"id": "C36", "title": "Cuckoo verification always terminates without panic", "statement": "For every client with positive proof size, every header and solution of any length and content (cyclic, branching, repeated, adversarial), Verify of Cuckoo and Cuckaroo returns after at most proofSize walk steps.", "quantifier": "all edge lists, all node functions, all proof sizes >= 1", "why_tests_cant": "termination on adversarial inputs", "anchors": ["cuckoo/cuckoo.go:cuckoo", "cuckoo/cuckaroo.go:cuckaroo", "cuckoo/client.go:Verify"]}
{"id": "C37", "title": "Cuckoo accepts exactly the single cycles", "statement": "Verify returns true iff the solution has proofSize edges, each within the edge mask, and the edges can be arranged in one cycle through all of them in which consecutive edges alternately share their U-side and V-side endpoint and no other two edges share an endpoint.", "quantifier": "all keys, edge lists, proof sizes", "why_tests_cant": "infinite input space", "anchors": ["cuckoo/cuckoo.go:cuckoo", "cuckoo/cuckaroo.go:cuckaroo"]}
{"id": "C38", "title": "Cuckoo acceptance ignores edge order: the canonical ascending order is not enforced", "statement": "A user would rely on a solution whose edge indices are not strictly ascending being rejected (the library defines an error for it). The code does not do this: there are accepted solutions of the preset clients that are not ascending, and for every client and header every reordering of an accepted solution is accepted, so one cycle of 42 edges has 42! accepted encodings.", "quantifier": "all clients, headers, edge lists and their permutations", "why_tests_cant": "infinite input space; the check needs an order violation in an otherwise valid proof", "anchors": ["cuckoo/cuckoo.go:cuckoo", "cuckoo/cuckaroo.go:cuckaroo", "cuckoo/errors.go:ErrPowTooSmall"]}
{"id": "C39", "title": "Cuckoo solutions use distinct edges", "statement": "If Verify returns true and proofSize > 2 then all edges of the solution are pairwise different.", "quantifier": "all keys, edge lists, proof sizes", "why_tests_cant": "infinite input space", "anchors": ["cuckoo/cuckoo.go:cuckoo", "cuckoo/cuckaroo.go:cuckaroo"]}
{"id": "C40", "title": "Cuckoo rejections name the right defect", "statement": "Verify never returns true together with an error; wrong length is reported first, then an edge above the mask, then unmatched endpoints; it never reports 'too small'. Otherwise the verdict is that of a walk from the U endpoint of the first edge, which goes to the only other edge with the same endpoint, through it to its other side, and stops when it is back at the start: 'branch' exactly if it gets to an endpoint of three or more edges, 'dead end' exactly if it gets to an endpoint of a single edge, 'short cycle' exactly if it comes back after fewer steps than there are edges, true exactly if it comes back after as many steps as there are edges.", "quantifier": "all inputs", "why_tests_cant": "infinite input space", "anchors": ["cuckoo/client.go:Verify", "cuckoo/errors.go", "cuckoo/cuckoo.go:cuckoo", "cuckoo/cuckaroo.go:cuckaroo"]}
{"id": "C41", "title": "Equihash minimal encoding is a bijection", "statement": "For every shipped Equihash parameter set, byte solutions of the required length correspond one-to-one to lists of 2^k indices of collisionBits+1 bits each (big-endian bit order): decoding never fails, each index is in range, and two different solutions decode to different lists.", "quantifier": "all byte strings of the required length", "why_tests_cant": "2^1000s of encodings", "anchors": ["equihash/equihash.go:indicesFromMinimal", "equihash/equihash.go:expandArray"]}
{"id": "C42", "title": "Equihash accepts exactly the valid solutions", "statement": "For every shipped client, header and solution, Verify returns true iff the solution has the required length and its indices satisfy the Equihash conditions: at every level each left subtree's first index is below its right sibling's, siblings share no index, siblings collide on the level's digit, and the XOR of all leaf hashes is zero. The leaf hashes are those of the network: Flux 125/4 with text ZelProof and summed hashes, Bitcoin Gold 144/5 with BgoldPoW, ZClassic 192/7 and Zcash 200/9 with ZcashPoW, Aion 210/9 with AION0PoW.", "quantifier": "all headers and solutions, any hash function", "why_tests_cant": "infinite input space", "anchors": ["equihash/equihash.go:verify", "equihash/equihash.go:validateSubtrees", "equihash/equihash.go:newNodeFromChildrenRef", "equihash/equihash.go:newNode", "equihash/client.go:NewFlux", "equihash/client.go:NewBitcoinGold", "equihash/client.go:NewZClassic", "equihash/client.go:NewZCash", "equihash/client.go:NewAion"]}
{"id": "C43", "title": "Equihash solutions are not malleable", "statement": "If Verify accepts a solution then its indices are pairwise distinct, each subtree starts with its smallest index, and swapping any two sibling subtrees of it yields a solution that Verify rejects; of all solutions that differ by any number of such swaps, at most one is accepted.", "quantifier": "all accepted solutions, all subtree swaps and their compositions", "why_tests_cant": "infinite input space", "anchors": ["equihash/equihash.go:validateSubtrees", "equihash/equihash.go:verify"]}
{"id": "C44", "title": "Bit expansion is exact on its supported widths", "statement": "expandArray splits the big-endian bit string of its input into consecutive groups of bitLen bits and returns each group as a big-endian integer of ceil(bitLen/8)+pad bytes, for widths 8 to 26, 28 and 32 and inputs that are a whole number of groups, and no two inputs then give the same output; left-over bits are dropped and fewer zero bytes than one group appended; widths outside 8..32 give an error. Refuted: widths 27, 29, 30 and 31 are accepted but lose bits, and an input whose output would have the same length is returned unchanged.", "quantifier": "all inputs, widths and paddings", "why_tests_cant": "width times content space; loss occurs only at particular alignments", "anchors": ["equihash/equihash.go:expandArray"]}
{"id": "C45", "title": "Twisted Equihash hash equals the ZelHash definition", "statement": "With twisting on, the hash for index group g (other than the last group 2^32-1) is the lane-wise 32-bit sum of the personalised BLAKE2b hashes of the groups from g rounded down to a multiple of 16 up to g, with the low three bits of bytes 15,31,47,63 cleared.", "quantifier": "all groups, headers, hash functions", "why_tests_cant": "infinite input space", "anchors": ["equihash/equihash.go:generateHash", "equihash/equihash.go:hashBlakeWithOffset"]}
{"id": "C46", "title": "Equihash verification terminates without panic", "statement": "For the five shipped clients, and every client whose parameters are usable (leaves split into k+1 digits of a supported width, one BLAKE2b output holds the leaves) with a personalisation of at most 8 bytes, Verify returns true, false or an error on every header and every solution, independently of allocator contents. Refuted for arbitrary parameters: k = 2^32-1 always panics; n > 512 or a longer personalisation panics on every solution of the right length; k >= 32 can panic on the empty solution; a twisted client with 32-bit indices never returns when the first index is 2^32-1.", "quantifier": "all (n, k, personal, twist), headers, solutions", "why_tests_cant": "adversarial parameters and solutions", "anchors": ["equihash/client.go:New", "equihash/equihash.go:verify", "equihash/equihash.go:generateHash"]}
{"id": "C47", "title": "BeamHash solution decoding is a bijection", "statement": "The first 100 solution bytes decode to 32 indices of 25 bits (little-endian bit order), one-to-one.", "quantifier": "all solutions of 104 bytes; all lists of 32 indices of 25 bits", "why_tests_cant": "2^800 encodings", "anchors": ["beamhashiii/beamhashiii.go:indicesFromMinimal", "beamhashiii/beamhashiii.go:reverseBytes"]}
{"id": "C48", "title": "BeamHash accepts exactly the valid solutions and never panics", "statement": "For every 40-byte header and 104-byte solution, Verify of the shipped client (or of any client with a personalisation of at most 8 bytes) returns true iff the 32 indices satisfy the BeamHash III conditions on the mixed work words at each of the five rounds and the final remainder is zero, and an error iff some pair of siblings breaks a condition; other lengths yield an error; no input panics or fails to terminate. A client made by New with a personalisation of more than 8 bytes panics on every input of the right lengths. The shipped client's hash is personalised with Beam-PoW.", "quantifier": "all headers and solutions, any hash function", "why_tests_cant": "infinite input space", "anchors": ["beamhashiii/beamhashiii.go:verify", "beamhashiii/beamhashiii.go:validateSubtrees", "beamhashiii/beamhashiii.go:applyMix", "beamhashiii/beamhashiii.go:newNodeFromChildrenRef", "beamhashiii/client.go:Verify"]}
{"id": "C49", "title": "BeamHash solutions are not malleable", "statement": "If Verify accepts a solution, its 32 indices are pairwise distinct, each subtree starts with its smallest index, and swapping any two sibling subtrees yields a rejected solution; two accepted solutions whose indices differ by any number of such swaps differ at most in the nonce.", "quantifier": "all accepted solutions", "why_tests_cant": "infinite input space", "anchors": ["beamhashiii/beamhashiii.go:validateSubtrees"]}
{"id": "C50", "title": "HeavyHash returns exactly when a candidate matrix passes", "statement": "Compute never panics; it returns for a 32-byte hash exactly when one of the candidate matrices generated from the hash passes the rank test. The expected claim that it returns for every hash is refuted: on 32 zero bytes it never returns, whatever the timestamp and nonce, and this is the only hash that puts the generator in its absorbing zero state.", "quantifier": "all 2^256 hashes", "why_tests_cant": "the failing input is a single point", "anchors": ["heavyhash/matrix.go:newMatrix", "heavyhash/matrix.go:calculateRank", "heavyhash/heavyhash.go:heavyHash"]}
{"id": "C51", "title": "HeavyHash matrix product is exact", "statement": "Whenever it returns, the digest is cSHAKE256('HeavyHash') of the first hash XORed with the nibbles floor((M.v)_i / 2^10) where the 64x64 matrix entries are 4-bit words of the generator seeded by the hash; no 16-bit sum overflows and every product nibble fits four bits; the result is the byte-reversed hash.", "quantifier": "all hashes, timestamps, nonces", "why_tests_cant": "infinite input space", "anchors": ["heavyhash/heavyhash.go:heavyHash", "heavyhash/matrix.go:newMatrix"]}
{"id": "C52", "title": "Autolykos2 table size schedule", "statement": "calcN is the base size below height 614400, grows by n -> floor(n/100)*105 at 614400 and every 51200 blocks after it, never decreases with height, never overflows 32 bits and equals 2143944600 from height 4198400 on, for the Ergo base size.", "quantifier": "all heights", "why_tests_cant": "2^64 heights", "anchors": ["autolykos2/autolykos2.go:calcN"]}
{"id": "C53", "title": "Autolykos2 digest equals its specification", "statement": "For every 32-byte message, height and nonce, the Ergo client's Compute returns the BLAKE2b-256 of the shortest big-endian encoding of the sum of the 32 indexed element hashes, with every index below the table size; this is the published digest (32-byte padded sum) whenever the sum is at least 2^248. The expected stronger claim, that the sum is always hashed as 32 bytes, is refuted: a smaller sum is hashed as a shorter string. Messages of other lengths are refused with an error.", "quantifier": "all messages, heights, nonces, any hash function", "why_tests_cant": "infinite input space", "anchors": ["autolykos2/autolykos2.go:compute", "autolykos2/autolykos2.go:genIndexes", "autolykos2/client.go:Compute"]}
{"id": "C54", "title": "Autolykos2 clients panic exactly for these parameters", "statement": "Compute of a client built with any k and n, on a 32-byte message, panics exactly when k > 61, or height <= 4198400 and n >= 32, or 614400 <= height <= 4198400 and n <= 6; so the claim that it never panics is refuted in general and holds for the Ergo client.", "quantifier": "all k, n, inputs", "why_tests_cant": "adversarial parameters", "anchors": ["autolykos2/client.go:New", "autolykos2/autolykos2.go:genIndexes", "autolykos2/autolykos2.go:compute"]}
{"id": "C55", "title": "Eaglesong equals the sponge specification", "statement": "For every input of bytes of any length, Compute of the Nervos client returns 32 bytes equal to the Eaglesong sponge (absorb big-endian words with delimiter 6, 43-round permutation, squeeze little-endian words), without out-of-range access; the same holds for any custom client with at most 43 rounds and a rate of 32 to 512 bits in whole words, while more rounds, a larger rate or a zero rate panic; the length option has no effect; the injected constants are what their generator derives from the hash of the published text.", "quantifier": "all inputs of all lengths", "why_tests_cant": "infinite input space", "anchors": ["eaglesong/eaglesong.go:eaglesong", "eaglesong/eaglesong.go:permute", "eaglesong/client.go:Compute"]}
{"id": "C56", "title": "Eaglesong permutation is a bijection", "statement": "The permutation applied between blocks is a bijection on 16-word states for every number of rounds up to 43.", "quantifier": "all pairs of 512-bit states", "why_tests_cant": "pairs of states", "anchors": ["eaglesong/eaglesong.go:permute", "eaglesong/eaglesong_constants.go"]}
{"id": "C57", "title": "Which inputs Eaglesong padding separates", "statement": "It is false that two different inputs are always absorbed differently: inputs are absorbed alike exactly when they agree up to a multiple of four bytes and their remaining parts of at most three bytes differ only by leading zero bytes; such inputs have equal digests (the empty input and one, two or three zero bytes collide). Inputs of equal length, and inputs whose lengths are multiples of four, are always separated.", "quantifier": "all pairs of inputs", "why_tests_cant": "pairs of inputs", "anchors": ["eaglesong/eaglesong.go:eaglesong"]}
{"id": "C58", "title": "Wrong-size inputs are rejected with an error, right-size inputs are not", "statement": "Each client's length checks reject exactly the wrong sizes with an error and no result, and leave the client unchanged: the DAG clients, HeavyHash and Autolykos return an error iff the hash is not 32 bytes; Cuckoo and Cuckaroo return the length error iff the number of edges is not the proof size; BeamHash III returns an error for every header not of 40 bytes or solution not of 104 bytes, and for right sizes only when the solution breaks the tree conditions.", "quantifier": "all byte slices", "why_tests_cant": "all lengths", "anchors": ["ethash/client.go:Compute", "kawpow/client.go:Compute", "firopow/client.go:Compute", "octopus/client.go:Compute", "heavyhash/client.go:Compute", "autolykos2/client.go:Compute", "beamhashiii/client.go:Verify", "cuckoo/client.go:Verify"]}
{"id": "C59", "title": "Digests have fixed size", "statement": "Every successful Compute returns a mix and digest of exactly 32 bytes, each element a byte.", "quantifier": "all inputs", "why_tests_cant": "infinite input space", "anchors": ["ethash/ethash.go:hashimoto", "kawpow/kawpow.go:kawpow", "firopow/firopow.go:firopow", "octopus/octopus.go:octopus", "heavyhash/heavyhash.go:heavyHash", "autolykos2/autolykos2.go:compute", "eaglesong/eaglesong.go:eaglesong"]}
{"id": "C60", "title": "The table generator drops the epochs beyond the last full row", "statement": "A user would rely on the generated lookup table containing one entry per requested epoch, in order. It contains exactly the first rowSize*floor(epochs/rowSize) of them, in order: every table whose length is not a multiple of the row size is cut short; with the shipped settings (2048 epochs, rows of 5) entries 2045..2047 are missing although clients use the table as one of 2048 entries.", "quantifier": "all epoch counts and row sizes", "why_tests_cant": "infinitely many sizes", "anchors": ["cmd/gen-lookup/main.go:formatLookupTable", "cmd/gen-lookup/main.go:genCacheLookupTable", "cmd/gen-lookup/main.go:genDatasetLookupTable"]}
{"id": "C61", "title": "The HeavyHash rank test decides neither invertibility nor does it agree across architectures", "statement": "A user would rely on the matrix test accepting exactly the invertible matrices, with the same verdict on every machine. Refuted for binary64 arithmetic: an integer matrix of 4-bit entries with determinant 1 is rejected, a singular one is accepted, and the verdict on a matrix changes when the compiler fuses multiply and subtract, as the Go specification allows. The test always returns a number between 0 and 64.", "quantifier": "all 64x64 matrices of 4-bit entries, all floating-point roundings", "why_tests_cant": "16^4096 matrices; failures need special matrices and another architecture", "anchors": ["heavyhash/matrix.go:calculateRank"]}
{"id": "C62", "title": "Cache memory is never unmapped under a running computation", "statement": "Whenever a Compute call of a DAG algorithm is about to read the cache it was given, that cache's memory mapping has not been released by the garbage collector and holds the complete content of the requested epoch; a released cache is never handed out again; once all calls have finished, all but CachesCount+1 of the caches ever made can be released. Without the call of runtime.KeepAlive after the computation the first claim is false.", "quantifier": "all interleavings of any number of Compute calls, background generations, evictions and collector runs, any number of reads per call", "why_tests_cant": "the collector runs at arbitrary moments; the failing schedules need an eviction and a collection between two reads", "anchors": ["internal/dag/cache.go:finalizer", "internal/dag/cache.go:generate", "internal/dag/dag.go:GetCache", "ethash/client.go:Compute", "kawpow/client.go:Compute", "firopow/client.go:Compute", "octopus/client.go:Compute"]}
{"id": "C63", "title": "Disk space used by interrupted starts is not reclaimed", "statement": "A user would rely on the storage directory not growing without bound when the process is killed while it writes a cache file. Refuted: the temporary file of a killed run keeps its content for ever, whatever later runs do, unless one of them draws the same random suffix; n killed starts leave n temporary files of the full cache size.", "quantifier": "all numbers of killed starts; all later executions of any number of processes with any failures", "why_tests_cant": "the claim is about the directory after arbitrarily many crashes and arbitrary later executions", "anchors": ["internal/dag/mmap.go:memoryMapAndGenerate", "internal/dag/cache.go:generate"]}
{"id": "C64", "title": "A start without failures leaves exactly the right files", "statement": "If no file operation fails, making the cache of an epoch ends with both parts mapped from files that hold the complete content of that epoch; if the files were there already nothing on disk changes; if one was missing, the files of all epochs up to epoch-CachesCount of this coin are gone afterwards; every other file, other coins included, is untouched and no temporary file remains.", "quantifier": "all configurations, epochs, hash functions, temporary suffixes and storage directories in which the files of the epoch are complete or missing, and the seeds have different prefixes", "why_tests_cant": "all directories, configurations and epochs", "anchors": ["internal/dag/cache.go:generate", "internal/dag/mmap.go:memoryMapAndGenerate"]}
{"id": "C65", "title": "Cache files kept over a history of visited epochs", "statement": "After any sequence of epochs visited without failures, starting without files, the directory holds the complete files of exactly the epochs given by this rule: a visit of an epoch on disk changes nothing; another visit adds the epoch and drops those at least CachesCount older. For ascending epochs at most CachesCount of them are on disk at the end. The same bound for all histories is refuted: visiting M, M-1, ..., 0 keeps the files of all M+1 epochs.", "quantifier": "all finite sequences of epochs, configurations and hash functions under which the epoch seeds have different 8-byte prefixes", "why_tests_cant": "unbounded histories", "anchors": ["internal/dag/cache.go:generate", "internal/dag/dag.go:GetCache"]}
{"id": "C66", "title": "Concurrent clients sharing a storage directory answer right", "statement": "Let any number of programs run clients of one coin on the same storage directory: calls of Compute in any number of goroutines, programs that start and are killed at any time, file operations that fail, and the garbage collector running finalizers. If the directory at first holds only complete cache files (or none) and the processes draw different temporary names, then whenever a call for a height of an epoch below 2044 is about to read its cache, the cache is still mapped and holds the cache of the epoch of that height, and the computation applied to exactly that memory ends and returns the mix digest and digest that the algorithm's specification assigns to (hash, height, nonce).", "quantifier": "all interleavings of goroutines, processes, file failures, kills and collections; all hashes of 32 bytes, nonces and heights of epochs below 2044; all five shipped DAG coins", "why_tests_cant": "unbounded schedules and crash points over several processes", "anchors": ["ethash/client.go:Compute", "kawpow/client.go:Compute", "firopow/client.go:Compute", "octopus/client.go:Compute", "internal/dag/dag.go:GetCache", "internal/dag/cache.go:generate", "internal/dag/mmap.go:memoryMapAndGenerate"]}
{"id": "C67", "title": "Cache files after a power failure", "statement": "If the data of a file reaches the disk before the file gets its cache name, then after any number of power failures, kills, failing calls and interleavings every cache file on the disk is complete and every finished generation holds the specified caches. The code does not order these writes (it never syncs), and for it the claim is refuted: for every page size and every epoch whose cache is not zero behind its first page, a first start without any failure, the write-back of one page and of the directory, and a power failure lead to a file that the next start accepts and uses although it is not the cache of the epoch.", "quantifier": "all configurations, epochs, page sizes, interleavings, write-back orders and numbers of power failures", "why_tests_cant": "needs power failures at every point and every order of write-back", "anchors": ["internal/dag/mmap.go:memoryMapAndGenerate", "internal/dag/mmap.go:memoryMap", "internal/dag/cache.go:generate"]}
{"id": "C68", "title": "Where the default clients keep their files", "statement": "Outside Windows the default storage directory is the cleaned join of the home directory and the given name, on Windows it is AppData, PowCache under the home directory. The home directory is that of the current user, or the environment variable HOME if the current user cannot be determined. Outside Windows the directory is never empty, it is absolute exactly if the home directory is, and every cache file of a client using it lies directly inside it. The environment variable HOME has no influence when the current user can be determined; without any home directory the directory is relative to the working directory; on Windows the given name has no influence.", "quantifier": "all environments, home directories (any byte strings), plain names, coins and seeds", "why_tests_cant": "all path strings", "anchors": ["internal/common/filesystem.go:DefaultDir", "internal/dag/dag.go:cacheStorageLocation"]}
{"id": "C69", "title": "Concurrent requests are free of data races", "statement": "When any number of goroutines request caches from one client and use the returned caches, while the client prepares the next epoch in the background, any two accesses of the same memory location by different goroutines, at least one of them a write and not both atomic, are ordered by the happens-before relation of the Go memory model; so there is no data race.", "quantifier": "all configurations with room for a cache, numbers of requests, epochs, map iteration orders, clock readings and interleavings", "why_tests_cant": "a race detector sees only the interleavings that happened", "anchors": ["internal/dag/dag.go:GetCache", "internal/dag/cache.go:generate", "internal/dag/cache.go:Cache"]}
{"id": "C70", "title": "Byte order of the machine", "statement": "The verification cache and L1 cache a client holds, the lookups and the ethash answers computed from them are the ones the algorithm prescribes on a little-endian machine. On a big-endian machine they are not: every word of the cache and of the L1 cache has its bytes reversed, lookups give the dataset over the reversed rows, and the answers are those for that other dataset; the two machines hold the same words only if every word reads the same both ways. A cache file written by a machine of the other byte order is rejected, never misread.", "quantifier": "all hash functions, configurations whose sizes are in range, epochs, headers, nonces and file contents, both byte orders", "why_tests_cant": "tests run on one machine and one byte order, and cover few epochs", "anchors": ["internal/dag/generate.go:generateCache", "internal/dag/generate.go:generateL1Cache", "internal/dag/mmap.go:memoryMapFile", "internal/dag/mmap.go:memoryMap", "internal/dag/cache.go:Cache"]}
{"id": "C71", "title": "Calls share nothing but what they only read", "statement": "Any number of calls (ethash, kawpow, firopow and octopus Compute once the epoch's cache is known, heavyhash Compute, autolykos2 Compute with k up to 61, eaglesong Compute, and Verify of cuckoo, equihash and beamhashiii), running at the same time in any interleaving with arguments, caches, package tables and personalisations that may overlap in memory in any way, leave all memory that was there before them unchanged, also when they panic; each answers or panics exactly as the list models of its algorithm say for its arguments alone, in newly made slices which no other call and no argument shares; every access is to an array the call itself made or a read of an array that was there before, so there is no data race; no schedule runs for ever or gets stuck.", "quantifier": "all lists of calls, memories, slices (offsets, lengths, capacities, overlaps), interleavings, hash functions of the right output length, growth policies of append", "why_tests_cant": "tests run few interleavings and never look at memory outside the results; aliasing of slices shows only for particular capacities and schedules", "anchors": ["ethash/ethash.go:hashimoto", "internal/dag/generate.go:generateDatasetItem", "internal/dag/dag.go:NewLookupFunc512", "internal/progpow/algorithm.go:Hash", "kawpow/kawpow.go:kawpow", "firopow/firopow.go:firopow", "internal/common/convutil/convutil.go:Uint32ArrayToBytes", "octopus/octopus.go:octopus", "heavyhash/heavyhash.go:heavyHash", "autolykos2/autolykos2.go:compute", "eaglesong/eaglesong.go:eaglesong", "cuckoo/client.go:Verify", "equihash/equihash.go:verify", "beamhashiii/beamhashiii.go:verify"]}
{"id": "C72", "title": "What a recovered panic leaves behind", "statement": "A caller may recover from a panic of Compute and go on with the client. The five shipped clients stay right: after a call for a height whose epoch has no table entry (2045 to 2047, for Ethereum Classic also any later one) panicked, every later call for a served height gives the same answer as if the panicking one had not been made, in any history of calls. Should the generation of an epoch's cache itself panic (a configuration with a bad table entry): exactly one caller is told, calls for other epochs are not harmed, nobody is left waiting, and the process ends exactly if a background generation panics (so, call after call, every call in an epoch whose generation succeeds is evaluated on that epoch's content, whatever panicked before); but a later call for that epoch, until its cache is evicted, works on the unfinished content without being told: it never answers if nothing was left, and answers with the digests over what was left if whole rows were. A client with a capacity of zero or less panics with its lock held, and every later call waits for ever.", "quantifier": "all histories of calls, interleavings of requests, hash functions of the right output length, configurations, epochs, and contents a panicked generation leaves", "why_tests_cant": "needs panics at particular points of particular interleavings and the calls that come after them; the generation of shipped epochs takes seconds and tables have thousands of entries", "anchors": ["internal/dag/cache.go:generate", "internal/dag/dag.go:GetCache", "ethash/client.go:Compute", "kawpow/client.go:Compute", "firopow/client.go:Compute", "octopus/client.go:Compute"]}
{"id": "C73", "title": "The table generator writes the shipped files", "statement": "Run with the command lines in the go:generate comments of the four packages, cmd/gen-lookup writes, byte for byte, the lookup files that are in the repository. For any command line (flags in any order and any of the four spellings, the last value counting) with a package name, a non-negative number of epochs and proper sizes it writes the file of that package in the working directory with the right sizes for the first epochs up to the last multiple of five, and for every other outcome (no package, bad flag or number, zero mixBytes, no working directory) nothing. A command line is read exactly if it consists of known flags with proper values up to its end or to the first argument that is no flag; any other leaves with a status and no file. A package name with a slash can put the file elsewhere.", "quantifier": "all command lines, all size parameters, all numbers of epochs, all working directories", "why_tests_cant": "the generator has no tests; command lines and parameters are unbounded", "anchors": ["cmd/gen-lookup/main.go:main", "cmd/gen-lookup/main.go:saveToFile", "cmd/gen-lookup/main.go:formatLookupTable", "ethash/client.go", "kawpow/client.go", "firopow/client.go", "octopus/client.go"]}
{"id": "C74", "title": "Verifying costs a bounded amount of work", "statement": "Whatever the header, nonce, height, proof and sizes, a verification reads at most a fixed number of dataset items and evaluates its hash functions at most a fixed number of times. One evaluation needs at most 128 dataset items for Ethash and Octopus and one 256-byte page per round, 64 in all, for the ProgPoW variants; an item needs one cache row and one more per parent, so light verification needs at most 128*257 rows for Ethereum, Ethereum Classic and Conflux and 64*4*513 for Ravencoin and Firo, and at most 257 (512) evaluations of Keccak-512. HeavyHash evaluates cSHAKE at most twice, Autolykos BLAKE2b at most k+4 times, Equihash at most 2^k times (16 times as often for the twisted variant), BeamHash III once, Cuckoo hashes the header once and evaluates at most 2*proofSize nodes, or proofSize blocks. Everything not asked for has no influence on the result.", "quantifier": "all inputs, all datasets, all caches of fewer than 2^28 rows, all hash functions", "why_tests_cant": "a test observes the reads of one run; the bound is on every run, with all contents of the dataset and all hash functions, since what is read next depends on what was read before", "anchors": ["ethash/ethash.go:hashimoto", "internal/progpow/progpow094.go:compute", "kawpow/client.go:Compute", "firopow/client.go:Compute", "octopus/client.go:Compute", "internal/dag/generate.go:generateDatasetItem", "heavyhash/heavyhash.go:heavyHash", "autolykos2/autolykos2.go:compute", "equihash/client.go:Verify", "beamhashiii/client.go:Verify", "cuckoo/client.go:Verify"]}
{"id": "C75", "title": "A digest commits to its inputs", "statement": "Two Ethash calls that return the same digest had the same header hash, nonce and mix, whatever the heights and datasets, unless their own inputs to Keccak-512 or Keccak-256 collide; this holds for any two answers in any history of the Ethereum and Ethereum Classic clients. Two calls of KawPoW, FiroPoW or ProgPoW 0.9.4 with the same digest were calls of the same variant with the same header hash, nonce and mix, unless their own inputs to the squeezed Keccak-f[800] collide; this holds for any two answers in any histories of the Ravencoin and Firo clients. An Octopus digest commits in the same way to the header hash, to the 64-bit word that the polynomial makes of header hash and nonce, and to the 32 bytes into which the dataset pages are folded; this holds for any two answers in any history of a Conflux client. A HeavyHash digest commits to header hash, timestamp and nonce up to collisions of cSHAKE and of the matrix step. An Autolykos digest does not commit to the height: above 4198400, heights that agree modulo 2^32 give the same digest for every message and nonce.", "quantifier": "all pairs of calls, header hashes, nonces, timestamps, heights, datasets and hash functions", "why_tests_cant": "a statement on all pairs of inputs; a test compares a few digests", "anchors": ["ethash/ethash.go:hashimoto", "ethash/client.go:Compute", "kawpow/kawpow.go:initialize", "kawpow/kawpow.go:finalize", "firopow/firopow.go:initialize", "firopow/firopow.go:finalize", "internal/progpow/progpow094.go:compute", "octopus/octopus.go:octopus", "heavyhash/heavyhash.go:heavyHash", "autolykos2/autolykos2.go:compute"]}
{"id": "C76", "title": "Equihash rejections name the first defect", "statement": "For each of the five Equihash clients, every header and every byte string: Verify returns the error on the length exactly for the wrong lengths. Otherwise it goes through the pairs of sibling subtrees from the leaves to the root and from left to right, and the error is that of the first pair with a defect: \"collision\" if the digits of its level differ, \"out of order\" if they agree and the first index on the right is smaller, \"duplicate indices\" if neither holds and both sides share an index. If no pair has a defect the verdict is false without an error when the last digits do not cancel, and true when they do. No other error occurs, and a pair deserves at most one.", "quantifier": "all clients, headers, solutions of any length, hash functions", "why_tests_cant": "the order of the checks matters for every combination of defects at every place of trees with up to 512 leaves; tests have a few valid solutions", "anchors": ["equihash/equihash.go:validateSubtrees", "equihash/equihash.go:verify", "equihash/equihash.go:indicesFromMinimal", "equihash/client.go:Verify"]}
{"id": "C77", "title": "BeamHash III rejections name the first defect", "statement": "For every header and every byte string, the Beam client's Verify returns \"header must be 40 bytes\" exactly for headers of another length, whatever the solution is, and \"soln must be 104 bytes\" exactly for headers of 40 bytes with a solution of another length. Otherwise it goes through the pairs of sibling subtrees from the leaves to the root and from left to right, and the error is that of the first pair with a defect: \"collision\" if the low 24 bits of the mixed work differ, \"out of order\" if they agree and the first index on the right is smaller, \"duplicate indices\" if neither holds and both sides share an index. If no pair has a defect the verdict is false without an error when work is left at the root, and true when none is. No other error occurs.", "quantifier": "all headers, solutions of any length, hash functions", "why_tests_cant": "the order of the checks matters for every combination of defects at every place of the tree; tests have a few valid solutions", "anchors": ["beamhashiii/beamhashiii.go:validateSubtrees", "beamhashiii/beamhashiii.go:verify", "beamhashiii/client.go:Verify"]}
