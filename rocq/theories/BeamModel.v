(** Model of beamhashiii/beamhashiii.go and beamhashiii/client.go.  Arbitrary-precision integers, never
    negative here, are [N]; a Go error is [None], its text is not modelled. *)
From Coq Require Import NArith List Bool.
From Verif Require Import Base CryptoModel EquiModel.
Import ListNotations.
Open Scope N_scope.

(** beamhashiii.go:13-23 *)
Definition workBitsSize : N := 448.
Definition collisionBitsSize : N := 24.
Definition numRounds : N := 5.
Definition indexMask : N := 0x1ffffff.
Definition collisionMask : N := 0xffffff.
Definition mixMask : N := 0xffffffffffffffff.

(** beamhashiii.go:25-27 *)
Definition rotl (a b : N) : N := N.lor (shlw 64 a b) (N.shiftr a (subw 64 64 b)).
(** beamhashiii.go:29-37; the swaps in place are list reversal. *)
Definition reverseBytes (b : list N) : list N := rev b.
(** beamhashiii.go:39-49; big.Int.SetBytes is big-endian. *)
Definition beamIndices (soln : list N) : outcome (list N) :=
  s <- slice soln 0 100 ;;
  let streamBig := be_value (reverseBytes s) in
  ' (indices, _) <- for_n 32 (fun i '(indices, streamBig) =>
      indices <- upd indices i (u32 (u64 (N.land streamBig indexMask))) ;;
      Done (indices, N.shiftr streamBig (collisionBitsSize + 1))) (zeros 32, streamBig) ;;
  Done indices.

(** beamhashiii.go:51-54 *)
Record bnode := mkB { b_bitset : N; b_indices : list N }.
(** beamhashiii.go:56-72; [i] counts down from 6. *)
Definition beamNode (prePow : list N) (index : N) : outcome bnode :=
  bitset <- for_n 7 (fun t bitset =>
    let i := 6 - t in
    let bitset := N.shiftl bitset 64 in
    k0 <- idx prePow 0 ;; k1 <- idx prePow 1 ;; k2 <- idx prePow 2 ;; k3 <- idx prePow 3 ;;
    let hasher := Hash24 (mkSip k0 k1 k2 k3) (addw 64 (shlw 64 index 3) i) in
    Done (N.lor bitset (XorLanes hasher))) 0 ;;
  Done (mkB bitset [index]).
(** beamhashiii.go:74-102 *)
Definition beamChild (a b : bnode) (remLen : N) : outcome bnode :=
  let workBits := N.shiftr (N.lxor (b_bitset a) (b_bitset b)) collisionBitsSize in
  let maskBig := be_value (repeat 255 (N.to_nat (workBitsSize / 8))) in
  let maskBig := N.shiftr maskBig (subw 32 workBitsSize remLen) in
  let workBits := N.land workBits maskBig in
  a0 <- idx (b_indices a) 0 ;; b0 <- idx (b_indices b) 0 ;;
  Done (mkB workBits (if a0 <? b0 then b_indices a ++ b_indices b else b_indices b ++ b_indices a)).
(** beamhashiii.go:104-128 *)
Definition beamValidate (a b : bnode) : outcome (option unit) :=
  if negb (N.land (b_bitset a) collisionMask =? N.land (b_bitset b) collisionMask) then Done None
  else
    b0 <- idx (b_indices b) 0 ;; a0 <- idx (b_indices a) 0 ;;
    if b0 <? a0 then Done None
    else if distinctIndices (b_indices a) (b_indices b) then Done (Some tt) else Done None.
(** beamhashiii.go:130-156; the node is updated in place, the model returns it. *)
Definition applyMix (n : bnode) (remLen : N) : outcome bnode :=
  let padNum := addw 32 (subw 32 512 remLen) collisionBitsSize / (collisionBitsSize + 1) in
  let padNum := if u32 (lenN (b_indices n)) <? padNum then u32 (lenN (b_indices n)) else padNum in
  tempBits <- for_n padNum (fun i tempBits =>
    x <- idx (b_indices n) i ;;
    Done (N.lor tempBits (N.shiftl x (addw 32 remLen (mulw 32 i (collisionBitsSize + 1)))))) (b_bitset n) ;;
  ' (result, _) <- for_n 8 (fun i '(result, tempBits) =>
    let tmp := u64 (N.land tempBits mixMask) in
    Done (addw 64 result (rotl tmp (N.land (mulw 64 29 (addw 64 i 1)) 0x3F)), N.shiftr tempBits 64)) (0, tempBits) ;;
  let resultBig := rotl result 24 in
  let bitset := N.shiftl (N.shiftr (b_bitset n) 64) 64 in
  Done (mkB (N.lor bitset resultBig) (b_indices n)).
(** beamhashiii.go:158-177 *)
Definition initializePrePow (blake : N -> list N -> list N -> list N) (personal header soln : list N) : outcome (list N) :=
  let personalState := personal ++ le_bytes 4 workBitsSize ++ le_bytes 4 numRounds in
  t <- slice_from soln 100 ;;
  v <- le_u32 t ;;
  hash <- Blake2b blake (header ++ le_bytes 4 v) personalState 32 ;;
  s0 <- slice hash 0 8 ;; k0 <- le_u64 s0 ;;
  s1 <- slice hash 8 16 ;; k1 <- le_u64 s1 ;;
  s2 <- slice hash 16 24 ;; k2 <- le_u64 s2 ;;
  s3 <- slice hash 24 32 ;; k3 <- le_u64 s3 ;;
  Done [k0; k1; k2; k3].
(** beamhashiii.go:183-185 *)
Fixpoint beamNodes (prePow indices : list N) : outcome (list bnode) :=
  match indices with
  | [] => Done []
  | i :: t => x <- beamNode prePow i ;; l <- beamNodes prePow t ;; Done (x :: l)
  end.
(** beamhashiii.go:190-212, one round; an odd number of rows makes the last access panic. *)
Fixpoint beamRound (round : N) (rows : list bnode) : outcome (option (list bnode)) :=
  match rows with
  | [] => Done (Some [])
  | [_] => Panic
  | a :: b :: t =>
      let remLen := subw 32 workBitsSize (mulw 32 (subw 32 round 1) collisionBitsSize) in
      let remLen := if round =? 5 then subw 32 remLen 64 else remLen in
      a <- applyMix a remLen ;;
      b <- applyMix b remLen ;;
      _ <-? beamValidate a b ;;
      let remLen := subw 32 workBitsSize (mulw 32 round collisionBitsSize) in
      let remLen := if round =? 4 then subw 32 remLen 64 else if round =? 5 then collisionBitsSize else remLen in
      row <- beamChild a b remLen ;;
      l <-? beamRound round t ;;
      Done (Some (row :: l))
  end.
(** beamhashiii.go:187-216; each turn halves the rows, so their number is fuel enough. *)
Fixpoint beamRounds (fuel : nat) (round : N) (rows : list bnode) : outcome (option (list bnode)) :=
  match rows, fuel with
  | _ :: _ :: _, O => OutOfFuel
  | _ :: _ :: _, S f => l <-? beamRound round rows ;; beamRounds f (addw 32 round 1) l
  | _, _ => Done (Some rows)
  end.
(** beamhashiii.go:179-223; the parameters n and k are passed on and not used. *)
Definition beamVerify blake (personal header soln : list N) : outcome (option bool) :=
  prePow <- initializePrePow blake personal header soln ;;
  indices <- beamIndices soln ;;
  rows <- beamNodes prePow indices ;;
  rows <-? beamRounds (length rows) 1 rows ;;
  r <- idx rows 0 ;;
  Done (Some (b_bitset r =? 0)).

(** client.go:7-25; "Beam-PoW" as bytes. *)
Record beamClient := mkBeam { bc_n : N; bc_k : N; bc_personal : list N }.
Definition NewClient : N -> N -> list N -> beamClient := mkBeam.
Definition NewBeam : beamClient := NewClient 150 5 [66; 101; 97; 109; 45; 80; 111; 87].
(** client.go:27-35 *)
Definition BeamVerify blake (c : beamClient) (header soln : list N) : outcome (option bool) :=
  if negb (lenN header =? 40) then Done None
  else if negb (lenN soln =? 104) then Done None
  else beamVerify blake (bc_personal c) header soln.
