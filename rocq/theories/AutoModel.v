(** Model of autolykos2/autolykos2.go and autolykos2/client.go. *)
From Coq Require Import NArith List Bool.
From Verif Require Import Base CryptoModel.
Import ListNotations.
Open Scope N_scope.

(** autolykos2.go:11-15 *)
Definition increaseStart : N := 600 * 1024.
Definition increasePeriodForN : N := 50 * 1024.
Definition nIncreasementHeightMax : N := 4198400.

(** autolykos2.go:17-23 *)
Definition concatBytes (a b : list N) : list N := a ++ b.

(** autolykos2.go:25-32 *)
Definition generateM (size : N) : outcome (list N) :=
  for_n size (fun i m =>
    s <- slice m (i * 8) (i * 8 + 8) ;;
    s' <- put_uint64 BigEndian s i ;;
    copy_at m (i * 8) s') (zeros (size * 8)).

(** autolykos2.go:34-48 *)
Definition calcN (nBase height : N) : outcome N :=
  if nIncreasementHeightMax <? height then Done 2143944600
  else if increaseStart <=? height then
    let iters := (height - increaseStart) / increasePeriodForN + 1 in
    for_n iters (fun _ n => Done (mulw 32 (n / 100) 105)) nBase
  else Done nBase.

Section Hash.
(** crypto.Blake2b256 (internal/crypto/blake.go:25-28) *)
Variable blake2b256 : list N -> list N.

(** autolykos2.go:50-60.  The hash has 32 bytes and so capacity 32; the appended slice has length
    and capacity 64, so that slicing beyond 64 panics. *)
Definition genIndexes (seed : list N) (k n : N) : outcome (list N) :=
  let hash := blake2b256 seed in
  let extendedHash := hash ++ hash in
  for_n k (fun i indexes =>
    b <- slice extendedHash i (i + 4) ;;
    v <- be_u32 b ;;
    x <- modc v n ;;
    upd indexes i x) (zeros k).

(** big.Int.Bytes: big-endian, without leading zero bytes (math/big, not part of this code). *)
Definition big_bytes (x : N) : list N := be_bytes (N.to_nat ((N.size x + 7) / 8)) x.

(** autolykos2.go:62-91.  Big integers are numbers; [big.Int.Mod] by zero panics. *)
Definition compute (k nBase : N) (msg : list N) (nonce height : N) : outcome (list N) :=
  m <- generateM 1024 ;;
  h <- Uint32ToBytes (u32 height) BigEndian ;;
  nonceBytes <- Uint64ToBytes nonce BigEndian ;;
  n <- calcN nBase height ;;
  let fullMsg := concatBytes msg nonceBytes in
  let msgHash := blake2b256 fullMsg in
  prei8 <- slice msgHash 24 32 ;;
  r <- modc (be_value prei8) n ;;
  i <- Uint32ToBytes (u32 r) BigEndian ;;
  f <- slice (blake2b256 (concatBytes i (concatBytes h m))) 1 32 ;;
  let seed := concatBytes f (concatBytes msg nonceBytes) in
  indexes <- genIndexes seed k n ;;
  f2 <- for_n (lenN indexes) (fun j f2 =>
      index <- idx indexes j ;;
      e <- Uint32ToBytes index BigEndian ;;
      elemHash <- slice_from (blake2b256 (concatBytes e (concatBytes h m))) 1 ;;
      Done (f2 + be_value elemHash)) 0 ;;
  Done (blake2b256 (big_bytes f2)).

(** client.go:13-21, New: the base size; a Go shift by 32 or more gives 0. *)
Definition newClient (k n : N) : N * N := (k, shlw 32 1 n).
(** client.go:23-25 *)
Definition newErgo : N * N := newClient 32 26.

(** client.go:27-33; [None] is the error. *)
Definition Compute (c : N * N) (msg : list N) (height nonce : N) : outcome (option (list N)) :=
  if negb (lenN msg =? 32) then Done None
  else d <- compute (fst c) (snd c) msg nonce height ;; Done (Some d).
End Hash.
