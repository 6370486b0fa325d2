(** BeamHash III as a program on memory (MemModel.v): the same code as BeamModel.v. *)
From Coq Require Import NArith List Bool.
From Verif Require Import Base CryptoModel EquiModel BeamModel MemModel MemHeavy MemAuto MemTree.
Import ListNotations.
Open Scope N_scope.

Section Beam.
Variable blake : N -> list N -> list N -> list N.
Variable room : N -> N.
(** The package variables indexMask, collisionMask and mixMask (beamhashiii.go:19-23): big integers of one word,
    shared by all calls.  The big integers of a call are values here. *)
Variables index_mask collision_mask mix_mask : sl.

(** beamhashiii.go:29-37 *)
Definition p_reverseBytes (b : sl) : prog sl :=
  c <~ make (s_len b) ;;
  _ <~ copy c b ;;
  _ <~ p_reverse c ;;
  Ret c.
(** beamhashiii.go:39-49 *)
Definition p_beamIndices (soln : sl) : prog sl :=
  s <~ cut_at soln 0 100 ;;
  r <~ p_reverseBytes s ;;
  streamBig <~ setBytes r ;;
  indices <~ make 32 ;;
  _ <~ pfor_n 32 (fun i streamBig =>
    mask <~ get index_mask 0 ;;
    _ <~ set indices i (u32 (u64 (N.land streamBig mask))) ;;
    Ret (N.shiftr streamBig (collisionBitsSize + 1))) streamBig ;;
  Ret indices.

(** beamhashiii.go:51-54; pointers to nodes are not shared, so that a node is a value with a slice in it. *)
Record pbnode := mkPB { pb_bitset : N; pb_indices : sl }.
(** beamhashiii.go:56-72 *)
Definition p_beamNode (prePow : sl) (index : N) : prog pbnode :=
  bitset <~ pfor_n 7 (fun t bitset =>
    let i := 6 - t in
    let bitset := N.shiftl bitset 64 in
    k0 <~ get prePow 0 ;; k1 <~ get prePow 1 ;; k2 <~ get prePow 2 ;; k3 <~ get prePow 3 ;;
    let hasher := Hash24 (mkSip k0 k1 k2 k3) (addw 64 (shlw 64 index 3) i) in
    Ret (N.lor bitset (XorLanes hasher))) 0 ;;
  indices <~ make 1 ;;
  _ <~ set indices 0 index ;;
  Ret (mkPB bitset indices).
(** beamhashiii.go:74-102 *)
Definition p_beamChild (a b : pbnode) (remLen : N) : prog pbnode :=
  let workBits := N.shiftr (N.lxor (pb_bitset a) (pb_bitset b)) collisionBitsSize in
  rawMask <~ make (workBitsSize / 8) ;;
  _ <~ pfor_n (workBitsSize / 8) (fun i _ => set rawMask i 255) tt ;;
  maskBig <~ setBytes rawMask ;;
  let maskBig := N.shiftr maskBig (subw 32 workBitsSize remLen) in
  let workBits := N.land workBits maskBig in
  indices <~ p_joined room (pb_indices a) (pb_indices b) ;;
  Ret (mkPB workBits indices).
(** beamhashiii.go:104-128 *)
Definition p_beamValidate (a b : pbnode) : prog (option unit) :=
  mask <~ get collision_mask 0 ;;
  if negb (N.land (pb_bitset a) mask =? N.land (pb_bitset b) mask) then Ret None
  else
    b0 <~ get (pb_indices b) 0 ;; a0 <~ get (pb_indices a) 0 ;;
    if b0 <? a0 then Ret None
    else
      d <~ p_distinct (pb_indices a) (pb_indices b) ;;
      Ret (if (d : bool) then Some tt else None).
(** beamhashiii.go:130-156 *)
Definition p_applyMix (n : pbnode) (remLen : N) : prog pbnode :=
  let len := s_len (pb_indices n) in
  let padNum := addw 32 (subw 32 512 remLen) collisionBitsSize / (collisionBitsSize + 1) in
  let padNum := if u32 len <? padNum then u32 len else padNum in
  tempBits <~ pfor_n padNum (fun i tempBits =>
    x <~ get (pb_indices n) i ;;
    Ret (N.lor tempBits (N.shiftl x (addw 32 remLen (mulw 32 i (collisionBitsSize + 1)))))) (pb_bitset n) ;;
  r <~ pfor_n 8 (fun i '(result, tempBits) =>
    mask <~ get mix_mask 0 ;;
    let tmp := u64 (N.land tempBits mask) in
    Ret (addw 64 result (rotl tmp (N.land (mulw 64 29 (addw 64 i 1)) 0x3F)), N.shiftr tempBits 64)) (0, tempBits) ;;
  let resultBig := rotl (fst r) 24 in
  let bitset := N.shiftl (N.shiftr (pb_bitset n) 64) 64 in
  Ret (mkPB (N.lor bitset resultBig) (pb_indices n)).
(** beamhashiii.go:158-177 *)
Definition p_initializePrePow (personal header soln : sl) : prog sl :=
  personalState <~ p_suffixed2 personal workBitsSize numRounds ;;
  t <~ cut_from soln 100 ;;
  v <~ get32 LittleEndian t ;;
  state <~ p_suffixed header v ;;
  hash <~ p_Blake2b blake room state personalState 32 ;;
  s0 <~ cut_at hash 0 8 ;; k0 <~ get64 LittleEndian s0 ;;
  s1 <~ cut_at hash 8 16 ;; k1 <~ get64 LittleEndian s1 ;;
  s2 <~ cut_at hash 16 24 ;; k2 <~ get64 LittleEndian s2 ;;
  s3 <~ cut_at hash 24 32 ;; k3 <~ get64 LittleEndian s3 ;;
  prePow <~ make 4 ;;
  _ <~ stores (s_loc prePow) 0 [k0; k1; k2; k3] ;;
  Ret prePow.
(** beamhashiii.go:183-185; the slice of pointers rows is local: a list. *)
Fixpoint p_beamNodes (prePow indices : sl) (k : nat) (i : N) : prog (list pbnode) :=
  match k with
  | O => Ret []
  | S k => index <~ get indices i ;; x <~ p_beamNode prePow index ;; l <~ p_beamNodes prePow indices k (i + 1) ;; Ret (x :: l)
  end.
(** beamhashiii.go:190-212 *)
Fixpoint p_beamRound (round : N) (rows : list pbnode) : prog (option (list pbnode)) :=
  match rows with
  | [] => Ret (Some [])
  | [_] => Fail
  | a :: b :: t =>
      let remLen := subw 32 workBitsSize (mulw 32 (subw 32 round 1) collisionBitsSize) in
      let remLen := if round =? 5 then subw 32 remLen 64 else remLen in
      a <~ p_applyMix a remLen ;;
      b <~ p_applyMix b remLen ;;
      _ <~? p_beamValidate a b ;;
      let remLen := subw 32 workBitsSize (mulw 32 round collisionBitsSize) in
      let remLen := if round =? 4 then subw 32 remLen 64 else if round =? 5 then collisionBitsSize else remLen in
      row <~ p_beamChild a b remLen ;;
      l <~? p_beamRound round t ;;
      Ret (Some (row :: l))
  end.
(** beamhashiii.go:187-216 *)
Fixpoint p_beamRounds (fuel : nat) (round : N) (rows : list pbnode) : prog (option (list pbnode)) :=
  match rows, fuel with
  | _ :: _ :: _, O => Spent
  | _ :: _ :: _, S f => l <~? p_beamRound round rows ;; p_beamRounds f (addw 32 round 1) l
  | _, _ => Ret (Some rows)
  end.
(** beamhashiii.go:179-223 *)
Definition p_beamVerify (personal header soln : sl) : prog (option bool) :=
  prePow <~ p_initializePrePow personal header soln ;;
  indices <~ p_beamIndices soln ;;
  rows <~ p_beamNodes prePow indices (N.to_nat (s_len indices)) 0 ;;
  rows <~? p_beamRounds (length rows) 1 rows ;;
  r <~ pure (idx rows 0) ;;
  Ret (Some (pb_bitset r =? 0)).
(** client.go:27-35 *)
Definition p_BeamVerify (personal header soln : sl) : prog (option bool) :=
  if negb (s_len header =? 40) then Ret None
  else if negb (s_len soln =? 104) then Ret None
  else p_beamVerify personal header soln.
End Beam.
