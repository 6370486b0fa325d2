(** Model of the words of a cache on machines of either byte order (internal/dag/generate.go, mmap.go, cache.go). *)
From Coq Require Import NArith ZArith List Bool.
From Verif Require Import Base DagModel DagSpec FileModel EthashModel.
Import ListNotations.
Open Scope N_scope.

Inductive byteorder := Little | Big.

(** A uint32 of the machine, given the four bytes of memory it lies in. *)
Definition native_word (bo : byteorder) (b : list N) : N :=
  match bo with Little => le_value b | Big => be_value b end.
(** generate.go:36-39 and 73-76 read backwards, and mmap.go:94-100: the same memory as [n] words *)
Fixpoint view (bo : byteorder) (n : nat) (b : list N) : list N :=
  match n with
  | O => []
  | S m => native_word bo (firstn 4 b) :: view bo m (skipn 4 b)
  end.
(** The bytes of memory a uint32 lies in. *)
Definition native_bytes (bo : byteorder) (w : N) : list N :=
  match bo with Little => le_bytes 4 w | Big => be_bytes 4 w end.

(** mmap.go:147: copy(buffer, dumpMagic) *)
Definition magic_on (bo : byteorder) : list N := concat (map (native_bytes bo) dumpMagic).
(** mmap.go:94-100, 56-62, as [check_magic] of FileModel.v *)
Definition check_magic_on (bo : byteorder) (x : list N) : outcome bool :=
  let v := view bo (Nat.div (length x) 4) x in
  a <- idx v 0 ;;
  if negb (a =? nth 0 dumpMagic 0) then Done false
  else b <- idx v 1 ;; Done (b =? nth 1 dumpMagic 0).

Section Host.
Variables keccak256 keccak512 : list N -> list N.
Variable pp : N -> bool.
Variable fuel : nat.
Variable bo : byteorder.

(** cache.go:43-60, as [generate] of ClientModel.v: the generators write bytes through the cast, everybody else
    reads the words ([Cache] and [L1], cache.go:34-40, hand them out).  No byte is swapped in between. *)
Definition generate_on (d : config) (e : N) : outcome (list N * list N) :=
  size <- CacheSize pp fuel d e ;;
  seed <- SeedHash keccak256 d (addw 64 (mulw 64 e (cf_epoch_length d)) 1) ;;
  buf <- generateCache keccak512 d (zeros (4 * (size / 4))) seed ;;
  let cache := view bo (N.to_nat (size / 4)) buf in
  if cf_l1_enabled d then
    l1 <- generateL1Cache keccak512 d (zeros (4 * cf_l1_cache_num_items d)) cache ;;
    Done (cache, view bo (N.to_nat (cf_l1_cache_num_items d)) l1)
  else Done (cache, []).

(** ethash/client.go:82-96 after the epoch is known, on a fresh client (C12 is about the others) *)
Definition ethash_on (d : config) (e : N) (hash : list N) (nonce : N) : outcome (list N * list N) :=
  size <- DatasetSize pp fuel d e ;;
  '(cache, _) <- generate_on d e ;;
  hashimoto keccak512 keccak256 hash nonce size (NewLookupFunc512 keccak512 d cache).
End Host.
