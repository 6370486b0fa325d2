(** Model of the clients built on internal/dag: cache.generate, DAG.GetCache and Compute of ethash,
    kawpow, firopow and octopus. *)
From Coq Require Import NArith ZArith List Bool.
From Verif Require Import Base DagModel DagSpec RegModel EthashModel ProgpowModel OctopusModel.
Import ListNotations.
Open Scope N_scope.

Section Client.
Variables keccak256 keccak512 : list N -> list N.
Variable pp : N -> bool.   (* big.Int.ProbablyPrime(1) *)
Variable fuel : nat.

(** cache.go:43-60, generate of a client without storage directory: the words of the cache and of the L1 cache
    (nil when it is not enabled).  With a directory the contents are the same (C20); the cleaning of lines
    103-111 is in FileModel.v.  [le_words] is the view of the buffer as []uint32. *)
Definition generate (d : config) (e : N) : outcome (list N * list N) :=
  size <- CacheSize pp fuel d e ;;
  seed <- SeedHash keccak256 d (addw 64 (mulw 64 e (cf_epoch_length d)) 1) ;;
  buf <- generateCache keccak512 d (zeros (4 * (size / 4))) seed ;;
  let cache := le_words (N.to_nat (size / 4)) buf in
  if cf_l1_enabled d then
    l1 <- generateL1Cache keccak512 d (zeros (4 * cf_l1_cache_num_items d)) cache ;;
    Done (cache, le_words (N.to_nat (cf_l1_cache_num_items d)) l1)
  else Done (cache, []).

(** dag.go:123-165, GetCache.  What an object holds once generate has returned is what its one run made of
    its epoch (C18), so it is recomputed here.  The background generation of line 155 belongs to the
    process: when it panics the process ends, so its panic is the outcome here. *)
Definition GetCache (d : config) (order : list (N * cobj) -> list (N * cobj)) (now : Z) (epoch : N) (r : registry)
  : outcome (registry * (list N * list N)) :=
  '(r, c, spawned) <- get_locked d order now epoch r ;;
  x <- generate d (co_epoch c) ;;
  _ <- match spawned with
       | Some f => _ <- generate d (co_epoch f) ;; Done tt
       | None => Done tt
       end ;;
  Done (r, x).

(** The common part of the four Compute methods (ethash/client.go:82-96, kawpow/client.go:56-70,
    firopow/client.go:56-70, octopus/client.go:54-68), which differ in the last call: [eval] gets the
    dataset size, the cache and the L1 cache.  [None] is the error. *)
Definition computeWith {R} (eval : N -> list N -> list N -> outcome R)
    (d : config) (order : list (N * cobj) -> list (N * cobj)) (now : Z) (r : registry) (hash : list N) (height : N)
  : outcome (registry * option R) :=
  if negb (lenN hash =? 32) then Done (r, None)
  else
    epoch <- CalcEpoch d height ;;
    size <- DatasetSize pp fuel d epoch ;;
    ' g <- GetCache d order now epoch r ;;
    let '(r, (cache, l1)) := g in
    x <- eval size cache l1 ;;
    Done (r, Some x).

(** ethash/client.go:82-96 *)
Definition Compute_ethash d order now r (hash : list N) (height nonce : N) : outcome (registry * option (list N * list N)) :=
  computeWith (fun size cache _ => hashimoto keccak512 keccak256 hash nonce size (NewLookupFunc512 keccak512 d cache))
    d order now r hash height.
(** kawpow/client.go:56-70 *)
Definition Compute_kawpow d order now r (hash : list N) (height nonce : N) : outcome (registry * option (list N * list N)) :=
  computeWith (fun size cache l1 => kawpow hash height nonce size (NewLookupFunc2048 keccak512 d cache) l1)
    d order now r hash height.
(** firopow/client.go:56-70 *)
Definition Compute_firopow d order now r (hash : list N) (height nonce : N) : outcome (registry * option (list N * list N)) :=
  computeWith (fun size cache l1 => firopow hash height nonce size (NewLookupFunc2048 keccak512 d cache) l1)
    d order now r hash height.
(** octopus/client.go:54-68 *)
Definition Compute_octopus d order now r (hash : list N) (height nonce : N) : outcome (registry * option (list N)) :=
  computeWith (fun size cache _ => octopus fuel keccak512 keccak256 hash nonce size (NewLookupFunc512 keccak512 d cache))
    d order now r hash height.
End Client.

(** A call of Compute: its arguments, the time and the iteration order of the map when it runs. *)
Record call := mkCall { cl_hash : list N; cl_height : N; cl_nonce : N; cl_now : Z; cl_order : list (N * cobj) -> list (N * cobj) }.

(** A client answering one call after the other. *)
Section Serve.
Context {R : Type}.
Variable compute : (list (N * cobj) -> list (N * cobj)) -> Z -> registry -> list N -> N -> N -> outcome (registry * option R).
Fixpoint serve (calls : list call) (r : registry) : outcome (registry * list (option R)) :=
  match calls with
  | [] => Done (r, [])
  | q :: rest =>
      ' a <- compute (cl_order q) (cl_now q) r (cl_hash q) (cl_height q) (cl_nonce q) ;;
      let '(r, x) := a in
      ' b <- serve rest r ;;
      let '(r, xs) := b in
      Done (r, x :: xs)
  end.
End Serve.
