(** The verification of Equihash as a program on memory (MemModel.v).  A node holds two slices, and its hash
    may be part of a digest, or of the array of another slice. *)
From Coq Require Import NArith List Bool.
From Verif Require Import Base CryptoModel EquiModel MemModel MemProgpow MemTree.
Import ListNotations.
Open Scope N_scope.

Section Equi.
Variable blake : N -> list N -> list N -> list N.
Variable room : N -> N.

(** equihash.go:64-68 *)
Definition p_expandGroup (bytePad outputWidth bitLenMask accBits accValue j : N) (output : sl) : prog unit :=
  pfor (N.to_nat (outputWidth - bytePad)) bytePad (fun x _ =>
    let sh := mulw 32 8 (subw 32 (subw 32 outputWidth x) 1) in
    let p1 := N.shiftr accValue (addw 32 accBits sh) in
    let p2 := N.land (N.shiftr bitLenMask sh) 255 in
    set output (addw 32 j x) (u8 (N.land p1 p2))) tt.
(** equihash.go:58-72 *)
Definition p_expandStep (bitLen bytePad outputWidth bitLenMask : N) (input output : sl) (i : N)
    (st : N * N * N) : prog (N * N * N) :=
  let '(accBits, accValue, j) := st in
  b <~ get input i ;;
  let accValue := N.lor (shlw 32 accValue 8) b in
  let accBits := addw 32 accBits 8 in
  if bitLen <=? accBits then
    let accBits := subw 32 accBits bitLen in
    _ <~ p_expandGroup bytePad outputWidth bitLenMask accBits accValue j output ;;
    Ret (accBits, accValue, addw 32 j outputWidth)
  else Ret (accBits, accValue, j).
(** equihash.go:39-75; when the lengths agree the result is the argument itself, not a copy. *)
Definition p_expandArray (input : sl) (bitLen bytePad : N) : prog (option sl) :=
  if bitLen <? 8 then Ret None
  else if 32 <? bitLen then Ret None
  else
    let inputLen := u32 (s_len input) in
    let outputWidth := addw 32 (addw 32 bitLen 7 / 8) bytePad in
    outputLen <~ pure (divc (mulw 32 (mulw 32 8 outputWidth) inputLen) bitLen) ;;
    if outputLen =? inputLen then Ret (Some input)
    else
      output <~ make outputLen ;;
      let bitLenMask := subw 32 (shlw 32 1 bitLen) 1 in
      _ <~ pfor_n (s_len input) (p_expandStep bitLen bytePad outputWidth bitLenMask input output) (0, 0, 0) ;;
      Ret (Some output).

(** equihash.go:77-94 *)
Definition p_indicesFromMinimal (n k : N) (minimal : sl) : prog (option sl) :=
  cBitLen <~ pure (collisionBitLength n k) ;;
  let minimalLen := u32 (s_len minimal) in
  if negb (minimalLen =? mulw 32 (shlw 32 1 k) (addw 32 cBitLen 1) / 8) then Ret None
  else if 4 <? addw 32 (addw 32 cBitLen 1) 7 / 8 then Ret None
  else
    let bytePad := subw 32 4 (addw 32 (addw 32 cBitLen 1) 7 / 8) in
    indices <~? p_expandArray minimal (addw 32 cBitLen 1) bytePad ;;
    a <~ p_BytesToUint32Array indices BigEndian ;;
    Ret (Some a).

(** equihash.go:96-102 *)
Definition p_hashBlakeWithOffset (initialState personalState : sl) (offset hashLength : N) : prog sl :=
  newState <~ p_suffixed initialState offset ;;
  p_Blake2b blake room newState personalState hashLength.

(** equihash.go:113-115 *)
Definition p_addLanes (tmpHash myHash : sl) : prog unit :=
  pfor_n 16 (fun i _ =>
    s <~ cut_at tmpHash (i * 4) ((i + 1) * 4) ;;
    v <~ get32 LittleEndian s ;; m <~ get myHash i ;; set myHash i (addw 32 m v)) tt.
(** equihash.go:111-116 *)
Definition p_twistLoop (fuel : nat) (initialState personalState : sl) (g hashLength start : N) (myHash : sl) : prog unit :=
  ploop fuel (fun g2 =>
    if g2 <=? g then
      tmpHash <~ p_hashBlakeWithOffset initialState personalState g2 hashLength ;;
      _ <~ p_addLanes tmpHash myHash ;;
      Ret (Continue (addw 32 g2 1))
    else Ret (Break tt)) start.
(** equihash.go:119-121 *)
Definition p_maskHash (hashLength : N) (hash : sl) : prog unit :=
  pfor_n (hashLength / 16) (fun i _ =>
    let j := 15 + 16 * i in h <~ get hash j ;; set hash j (N.land h 248)) tt.
(** equihash.go:104-124 *)
Definition p_generateHash (fuel : nat) (initialState personalState : sl) (g hashLength : N) (twist : bool) : prog sl :=
  if negb twist then p_hashBlakeWithOffset initialState personalState g hashLength
  else
    myHash <~ make 16 ;;
    let startIndex := N.land g 0xFFFFFFF0 in
    _ <~ p_twistLoop fuel initialState personalState g hashLength startIndex myHash ;;
    hash <~ p_Uint32ArrayToBytes myHash LittleEndian ;;
    _ <~ p_maskHash hashLength hash ;;
    Ret hash.

(** equihash.go:126-129 *)
Record pnode := mkPN { pn_hash : sl; pn_indices : sl }.
(** equihash.go:131-147 *)
Definition p_newNode (fuel : nat) (n k : N) (personalState : sl) (twist : bool) (state : sl) (i : N) : prog (option pnode) :=
  per <~ pure (indicesPerHashOutput n) ;;
  g <~ pure (divc i per) ;;
  len <~ pure (hashOutput n) ;;
  hash <~ p_generateHash fuel state personalState g len twist ;;
  r <~ pure (modc i per) ;;
  let start := mulw 32 r (addw 32 n 7 / 8) in
  let fin := addw 32 start (addw 32 n 7 / 8) in
  s <~ cut_at hash start fin ;;
  c <~ pure (collisionBitLength n k) ;;
  minimalHash <~? p_expandArray s c 0 ;;
  indices <~ make 1 ;;
  _ <~ set indices 0 i ;;
  Ret (Some (mkPN minimalHash indices)).

(** equihash.go:149-171 *)
Definition p_newNodeFromChildrenRef (a b : pnode) (trim : N) : prog pnode :=
  let len := u32 (s_len (pn_hash a)) in
  hash <~ make (subw 32 len trim) ;;
  _ <~ pfor (N.to_nat (len - trim)) trim (fun i _ =>
    x <~ get (pn_hash a) i ;; y <~ get (pn_hash b) i ;; set hash (i - trim) (N.lxor x y)) tt ;;
  indices <~ p_joined room (pn_indices a) (pn_indices b) ;;
  Ret (mkPN hash indices).

(** equihash.go:174-180 *)
Definition p_hasCollision (len : N) (a b : pnode) : prog (option unit) :=
  r <~ pfor_break (N.to_nat len) 0 (fun i (_ : unit) =>
    x <~ get (pn_hash a) i ;; y <~ get (pn_hash b) i ;;
    if x =? y then Ret (Continue tt) else Ret (Break tt)) tt ;;
  Ret (match r with inl _ => None | inr _ => Some tt end).
(** equihash.go:173-196 *)
Definition p_validateSubtrees (n k : N) (a b : pnode) : prog (option unit) :=
  len <~ pure (collisionByteLength n k) ;;
  _ <~? p_hasCollision len a b ;;
  b0 <~ get (pn_indices b) 0 ;; a0 <~ get (pn_indices a) 0 ;;
  if b0 <? a0 then Ret None
  else
    d <~ p_distinct (pn_indices a) (pn_indices b) ;;
    Ret (if (d : bool) then Some tt else None).

(** equihash.go:209-215; the slice of pointers rows is local: a list. *)
Fixpoint p_newNodes (fuel : nat) (n k : N) (personalState : sl) (twist : bool) (header indices : sl) (c : nat) (i : N)
  : prog (option (list pnode)) :=
  match c with
  | O => Ret (Some [])
  | S c =>
      ix <~ get indices i ;;
      x <~? p_newNode fuel n k personalState twist header ix ;;
      l <~? p_newNodes fuel n k personalState twist header indices c (i + 1) ;;
      Ret (Some (x :: l))
  end.
(** equihash.go:218-229 *)
Fixpoint p_nextRows (n k : N) (rows : list pnode) : prog (option (list pnode)) :=
  match rows with
  | [] => Ret (Some [])
  | [_] => Fail
  | a :: b :: t =>
      _ <~? p_validateSubtrees n k a b ;;
      trim <~ pure (collisionByteLength n k) ;;
      row <~ p_newNodeFromChildrenRef a b trim ;;
      l <~? p_nextRows n k t ;;
      Ret (Some (row :: l))
  end.
(** equihash.go:217-230 *)
Fixpoint p_reduceRows (fuel : nat) (n k : N) (rows : list pnode) : prog (option (list pnode)) :=
  match rows, fuel with
  | _ :: _ :: _, O => Spent
  | _ :: _ :: _, S f => l <~? p_nextRows n k rows ;; p_reduceRows f n k l
  | _, _ => Ret (Some rows)
  end.
(** equihash.go:198-239 *)
Definition p_verify (fuel : nat) (n k : N) (personal header soln : sl) (twist : bool) : prog (option bool) :=
  personalState <~ p_suffixed2 personal n k ;;
  indices <~? p_indicesFromMinimal n k soln ;;
  rows <~? p_newNodes fuel n k personalState twist header indices (N.to_nat (s_len indices)) 0 ;;
  rows <~? p_reduceRows (length rows) n k rows ;;
  r <~ pure (idx rows 0) ;;
  z <~ p_all (pn_hash r) (fun v => Ret (v =? 0)) ;;
  Ret (Some z).
End Equi.
