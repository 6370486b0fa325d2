(** Model of equihash/equihash.go, equihash/client.go and internal/crypto/blake.go:7-23.
    A Go error is [None]; its text is not modelled.  The third-party BLAKE2b is the parameter
    [blake size personal data]. *)
From Coq Require Import NArith List Bool.
From Verif Require Import Base CryptoModel.
Import ListNotations.
Open Scope N_scope.

(** [x, err := m; if err != nil { return err }] *)
Notation "x <-? m ;; k" := (bind m (fun o => match o with Some x => k | None => Done None end))
  (at level 61, m at next level, right associativity).

(** internal/crypto/blake.go:7-23.  The size is converted to uint8; the third-party constructor takes
    0 for the default of 64 and reports an error, turned into a panic, for more than 64 bytes of output
    or more than 16 bytes of personalisation. *)
Definition Blake2b (blake : N -> list N -> list N -> list N) (data personal : list N) (size : N) : outcome (list N) :=
  let size := u8 size in
  let size := if size =? 0 then 64 else size in
  if (64 <? size) || (16 <? lenN personal) then Panic else Done (blake size personal data).

(** equihash.go:19-21 *)
Definition collisionBitLength (n k : N) : outcome N := divc n (addw 32 k 1).
(** equihash.go:23-25 *)
Definition collisionByteLength (n k : N) : outcome N := c <- collisionBitLength n k ;; Done (addw 32 c 7 / 8).
(** equihash.go:27-29 *)
Definition indicesPerHashOutput (n : N) : outcome N := divc 512 n.
(** equihash.go:31-33 *)
Definition hashOutput (n : N) : outcome N := p <- indicesPerHashOutput n ;; Done (mulw 32 p (addw 32 n 7 / 8)).

(** equihash.go:64-68, the bytes of one group. *)
Definition expandGroup (bytePad outputWidth bitLenMask accBits accValue j : N) (output : list N) : outcome (list N) :=
  for_up (N.to_nat (outputWidth - bytePad)) bytePad (fun x output =>
    let sh := mulw 32 8 (subw 32 (subw 32 outputWidth x) 1) in
    let p1 := N.shiftr accValue (addw 32 accBits sh) in
    let p2 := N.land (N.shiftr bitLenMask sh) 255 in
    upd output (addw 32 j x) (u8 (N.land p1 p2))) output.
(** equihash.go:58-72, one input byte. *)
Definition expandStep (bitLen bytePad outputWidth bitLenMask : N) (input : list N) (i : N)
    (st : list N * N * N * N) : outcome (list N * N * N * N) :=
  let '(output, accBits, accValue, j) := st in
  b <- idx input i ;;
  let accValue := N.lor (shlw 32 accValue 8) b in
  let accBits := addw 32 accBits 8 in
  if bitLen <=? accBits then
    let accBits := subw 32 accBits bitLen in
    output <- expandGroup bytePad outputWidth bitLenMask accBits accValue j output ;;
    Done (output, accBits, accValue, addw 32 j outputWidth)
  else Done (output, accBits, accValue, j).
(** equihash.go:39-75 *)
Definition expandArray (input : list N) (bitLen bytePad : N) : outcome (option (list N)) :=
  if bitLen <? 8 then Done None
  else if 32 <? bitLen then Done None
  else
    let inputLen := u32 (lenN input) in
    let outputWidth := addw 32 (addw 32 bitLen 7 / 8) bytePad in
    outputLen <- divc (mulw 32 (mulw 32 8 outputWidth) inputLen) bitLen ;;
    if outputLen =? inputLen then Done (Some input)
    else
      let bitLenMask := subw 32 (shlw 32 1 bitLen) 1 in
      ' (output, _, _, _) <- for_n (lenN input) (expandStep bitLen bytePad outputWidth bitLenMask input)
                               (zeros outputLen, 0, 0, 0) ;;
      Done (Some output).

(** equihash.go:77-94 *)
Definition indicesFromMinimal (n k : N) (minimal : list N) : outcome (option (list N)) :=
  cBitLen <- collisionBitLength n k ;;
  let minimalLen := u32 (lenN minimal) in
  if negb (minimalLen =? mulw 32 (shlw 32 1 k) (addw 32 cBitLen 1) / 8) then Done None
  else if 4 <? addw 32 (addw 32 cBitLen 1) 7 / 8 then Done None
  else
    let bytePad := subw 32 4 (addw 32 (addw 32 cBitLen 1) 7 / 8) in
    indices <-? expandArray minimal (addw 32 cBitLen 1) bytePad ;;
    a <- BytesToUint32Array indices BigEndian ;;
    Done (Some a).

(** equihash.go:96-102; the buffer is built by concatenation. *)
Definition hashBlakeWithOffset blake (initialState personalState : list N) (offset hashLength : N) : outcome (list N) :=
  Blake2b blake (initialState ++ le_bytes 4 offset) personalState hashLength.

(** equihash.go:113-115.  [spare] gives the bytes that follow a digest of some length up to the capacity
    of its array, which depends on the allocator: Go lets a slice expression reach them. *)
Definition addLanes (spare : N -> list N) (tmpHash myHash : list N) : outcome (list N) :=
  for_n 16 (fun i myHash =>
    s <- slice (tmpHash ++ spare (lenN tmpHash)) (i * 4) ((i + 1) * 4) ;;
    v <- le_u32 s ;; m <- idx myHash i ;; upd myHash i (addw 32 m v)) myHash.
(** equihash.go:111-116; the loop variable is a uint32 and the loop may not end. *)
Definition twistLoop blake (spare : N -> list N) (fuel : nat) (initialState personalState : list N) (g hashLength start : N)
    (myHash : list N) : outcome (list N) :=
  loop_fuel fuel (fun '(g2, myHash) =>
    if g2 <=? g then
      tmpHash <- hashBlakeWithOffset blake initialState personalState g2 hashLength ;;
      myHash <- addLanes spare tmpHash myHash ;;
      Done (Continue (addw 32 g2 1, myHash))
    else Done (Break myHash)) (start, myHash).
(** equihash.go:119-121: [j] takes the values 15, 31, ... below [hashLength]. *)
Definition maskHash (hashLength : N) (hash : list N) : outcome (list N) :=
  for_n (hashLength / 16) (fun i hash =>
    let j := 15 + 16 * i in h <- idx hash j ;; upd hash j (N.land h 248)) hash.
(** equihash.go:104-124 *)
Definition generateHash blake spare (fuel : nat) (initialState personalState : list N) (g hashLength : N) (twist : bool)
  : outcome (list N) :=
  if negb twist then
    h <- hashBlakeWithOffset blake initialState personalState g hashLength ;;
    Done (h ++ spare (lenN h))
  else
    let startIndex := N.land g 0xFFFFFFF0 in
    myHash <- twistLoop blake spare fuel initialState personalState g hashLength startIndex (zeros 16) ;;
    hash <- Uint32ArrayToBytes myHash LittleEndian ;;
    maskHash hashLength hash.

(** equihash.go:126-129 *)
Record node := mkNode { n_hash : list N; n_indices : list N }.
(** equihash.go:131-147; the slice expression is bounded by the capacity, included in the result above. *)
Definition newNode blake spare fuel (n k : N) (personalState : list N) (twist : bool) (state : list N) (i : N)
  : outcome (option node) :=
  per <- indicesPerHashOutput n ;;
  g <- divc i per ;;
  len <- hashOutput n ;;
  hash <- generateHash blake spare fuel state personalState g len twist ;;
  r <- modc i per ;;
  let start := mulw 32 r (addw 32 n 7 / 8) in
  let fin := addw 32 start (addw 32 n 7 / 8) in
  s <- slice hash start fin ;;
  c <- collisionBitLength n k ;;
  minimalHash <-? expandArray s c 0 ;;
  Done (Some (mkNode minimalHash [i])).

(** equihash.go:149-171; a trim larger than the hash makes the unsigned length of the new hash wrap. *)
Definition newNodeFromChildrenRef (a b : node) (trim : N) : outcome node :=
  let len := u32 (lenN (n_hash a)) in
  hash <- for_up (N.to_nat (len - trim)) trim (fun i hash =>
    x <- idx (n_hash a) i ;; y <- idx (n_hash b) i ;; upd hash (i - trim) (N.lxor x y)) (zeros (subw 32 len trim)) ;;
  a0 <- idx (n_indices a) 0 ;; b0 <- idx (n_indices b) 0 ;;
  Done (mkNode hash (if a0 <? b0 then n_indices a ++ n_indices b else n_indices b ++ n_indices a)).

(** equihash.go:173-196 *)
Definition hasCollision (len : N) (a b : node) : outcome (option unit) :=
  r <- for_break (N.to_nat len) 0 (fun i (_ : unit) =>
    x <- idx (n_hash a) i ;; y <- idx (n_hash b) i ;;
    if x =? y then Done (Continue tt) else Done (Break tt)) tt ;;
  Done (match r with inl _ => None | inr _ => Some tt end).
Definition distinctIndices (a b : list N) : bool := forallb (fun i => forallb (fun j => negb (i =? j)) b) a.
Definition validateSubtrees (n k : N) (a b : node) : outcome (option unit) :=
  len <- collisionByteLength n k ;;
  _ <-? hasCollision len a b ;;
  b0 <- idx (n_indices b) 0 ;; a0 <- idx (n_indices a) 0 ;;
  if b0 <? a0 then Done None
  else if distinctIndices (n_indices a) (n_indices b) then Done (Some tt) else Done None.

(** equihash.go:209-215 *)
Fixpoint newNodes blake spare fuel (n k : N) (personalState : list N) (twist : bool) (header : list N) (indices : list N)
  : outcome (option (list node)) :=
  match indices with
  | [] => Done (Some [])
  | i :: t =>
      x <-? newNode blake spare fuel n k personalState twist header i ;;
      l <-? newNodes blake spare fuel n k personalState twist header t ;;
      Done (Some (x :: l))
  end.
(** equihash.go:218-229, one level; an odd number of rows makes the last access panic. *)
Fixpoint nextRows (n k : N) (rows : list node) : outcome (option (list node)) :=
  match rows with
  | [] => Done (Some [])
  | [_] => Panic
  | a :: b :: t =>
      _ <-? validateSubtrees n k a b ;;
      trim <- collisionByteLength n k ;;
      row <- newNodeFromChildrenRef a b trim ;;
      l <-? nextRows n k t ;;
      Done (Some (row :: l))
  end.
(** equihash.go:217-230; each turn at least halves the rows, so their number is fuel enough. *)
Fixpoint reduceRows (fuel : nat) (n k : N) (rows : list node) : outcome (option (list node)) :=
  match rows, fuel with
  | _ :: _ :: _, O => OutOfFuel
  | _ :: _ :: _, S f => l <-? nextRows n k rows ;; reduceRows f n k l
  | _, _ => Done (Some rows)
  end.
(** equihash.go:198-239.  [fuel] bounds the loop of the twisted hash only. *)
Definition verify blake spare (fuel : nat) (n k : N) (personal header soln : list N) (twist : bool)
  : outcome (option bool) :=
  let personalState := personal ++ le_bytes 4 n ++ le_bytes 4 k in
  indices <-? indicesFromMinimal n k soln ;;
  rows <-? newNodes blake spare fuel n k personalState twist header indices ;;
  rows <-? reduceRows (length rows) n k rows ;;
  r <- idx rows 0 ;;
  Done (Some (forallb (fun v => v =? 0) (n_hash r))).

(** client.go:3-19 *)
Record client := mkClient { c_n : N; c_k : N; c_personal : list N; c_twist : bool }.
Definition New : N -> N -> list N -> bool -> client := mkClient.
(** client.go:21-39; the personalisation texts as bytes: ZelProof, BgoldPoW, ZcashPoW, ZcashPoW, AION0PoW. *)
Definition NewFlux : client := New 125 4 [90; 101; 108; 80; 114; 111; 111; 102] true.
Definition NewBitcoinGold : client := New 144 5 [66; 103; 111; 108; 100; 80; 111; 87] false.
Definition NewZClassic : client := New 192 7 [90; 99; 97; 115; 104; 80; 111; 87] false.
Definition NewZCash : client := New 200 9 [90; 99; 97; 115; 104; 80; 111; 87] false.
Definition NewAion : client := New 210 9 [65; 73; 79; 78; 48; 80; 111; 87] false.
(** client.go:41-43 *)
Definition Verify blake spare fuel (c : client) (header soln : list N) : outcome (option bool) :=
  verify blake spare fuel (c_n c) (c_k c) (c_personal c) header soln (c_twist c).
