(** Model of internal/common/convutil and internal/crypto (fnv, siphash, xoshiro256++). *)
From Coq Require Import NArith List.
From Verif Require Import Base.
Import ListNotations.
Open Scope N_scope.

(** ** convutil.go *)

(** byteOrder.PutUint32(b, v): writes the first four bytes of [b]; panics if [b] is shorter. *)
Definition put_uint32 (o : order) (b : list N) (v : N) : outcome (list N) :=
  if 4 <=? lenN b
  then copy_at b 0 (match o with LittleEndian => le_bytes 4 v | BigEndian => be_bytes 4 v end)
  else Panic.
Definition put_uint64 (o : order) (b : list N) (v : N) : outcome (list N) :=
  if 8 <=? lenN b
  then copy_at b 0 (match o with LittleEndian => le_bytes 8 v | BigEndian => be_bytes 8 v end)
  else Panic.
Definition get_uint32 (o : order) (b : list N) : outcome N :=
  match o with LittleEndian => le_u32 b | BigEndian => be_u32 b end.

(** convutil.go:7-14, Uint32ArrayToBytes.  [buf[i*4:]] aliases [buf]; the write through the
    alias is modelled as a write back at the same offset. *)
Definition Uint32ArrayToBytes (arr : list N) (o : order) : outcome (list N) :=
  for_n (lenN arr) (fun i buf =>
    v <- idx arr i ;;
    tail <- slice_from buf (i * 4) ;;
    tail' <- put_uint32 o tail v ;;
    copy_at buf (i * 4) tail') (zeros (lenN arr * 4)).

(** convutil.go:16-24, BytesToUint32Array. *)
Definition BytesToUint32Array (buf : list N) (o : order) : outcome (list N) :=
  let len := lenN buf / 4 in
  for_n len (fun i arr =>
    s <- slice buf (i * 4) ((i + 1) * 4) ;;
    v <- get_uint32 o s ;;
    upd arr i v) (zeros len).

(** convutil.go:26-31, Uint32ToBytes. *)
Definition Uint32ToBytes (v : N) (o : order) : outcome (list N) := put_uint32 o (zeros 4) v.
(** convutil.go:33-38, Uint64ToBytes. *)
Definition Uint64ToBytes (v : N) (o : order) : outcome (list N) := put_uint64 o (zeros 8) v.

(** ** fnv.go *)

(** fnv.go:8-10 *)
Definition FnvPrime : N := 0x01000193.
(** fnv.go:13-15 *)
Definition Fnv1 (u v : N) : N := N.lxor (mulw 32 u FnvPrime) v.
(** fnv.go:17-19 *)
Definition Fnv1Uint64 (u v : N) : N := N.lxor (mulw 64 u FnvPrime) v.
(** fnv.go:22-24 *)
Definition Fnv1a (u v : N) : N := mulw 32 (N.lxor u v) FnvPrime.
(** fnv.go:27-31, FnvHash: updates [mix] in place; the model returns the new [mix]. *)
Definition FnvHash (mix data : list N) : outcome (list N) :=
  for_n (lenN mix) (fun i m =>
    a <- idx m i ;;
    b <- idx data i ;;
    upd m i (Fnv1 a b)) mix.

(** ** siphash.go *)

(** siphash.go:3-8, SipHasher (pointer receiver: the model returns the new state). *)
Record sip := mkSip { v0 : N; v1 : N; v2 : N; v3 : N }.

(** siphash.go:21-23 *)
Definition XorLanes (h : sip) : N :=
  N.lxor (N.lxor (N.lxor (v0 h) (v1 h)) (v2 h)) (v3 h).

(** siphash.go:25-43, SipRound: assignments in source order. *)
Definition SipRound (h : sip) : sip :=
  let a := v0 h in let b := v1 h in let c := v2 h in let d := v3 h in
  let a := addw 64 a b in
  let b := N.lor (shlw 64 b 13) (N.shiftr b 51) in
  let b := N.lxor b a in
  let a := N.lor (shlw 64 a 32) (N.shiftr a 32) in
  let c := addw 64 c d in
  let d := N.lor (shlw 64 d 16) (N.shiftr d 48) in
  let d := N.lxor d c in
  let a := addw 64 a d in
  let d := N.lor (shlw 64 d 21) (N.shiftr d 43) in
  let d := N.lxor d a in
  let c := addw 64 c b in
  let b := N.lor (shlw 64 b 17) (N.shiftr b 47) in
  let b := N.lxor b c in
  let c := N.lor (shlw 64 c 32) (N.shiftr c 32) in
  mkSip a b c d.

(** siphash.go:45-55, Hash24. *)
Definition Hash24 (h : sip) (nonce : N) : sip :=
  let h := mkSip (v0 h) (v1 h) (v2 h) (N.lxor (v3 h) nonce) in
  let h := SipRound h in
  let h := SipRound h in
  let h := mkSip (N.lxor (v0 h) nonce) (v1 h) (N.lxor (v2 h) 0xff) (v3 h) in
  let h := SipRound h in
  let h := SipRound h in
  let h := SipRound h in
  SipRound h.

(** siphash.go:57-73, Hash48. *)
Definition Hash48 (h : sip) (nonce : N) : sip :=
  let h := mkSip (v0 h) (v1 h) (v2 h) (N.lxor (v3 h) nonce) in
  let h := SipRound h in
  let h := SipRound h in
  let h := SipRound h in
  let h := SipRound h in
  let h := mkSip (N.lxor (v0 h) nonce) (v1 h) (N.lxor (v2 h) 0xff) (v3 h) in
  let h := SipRound h in
  let h := SipRound h in
  let h := SipRound h in
  let h := SipRound h in
  let h := SipRound h in
  let h := SipRound h in
  let h := SipRound h in
  SipRound h.

(** The Go type [4]uint64 of the keys is a [sip]; NewSipHasher (siphash.go:10-19) copies it. *)

(** siphash.go:77-83, SipNode24. *)
Definition SipNode24 (edgeMask : N) (keys : sip) (edge uorv : N) : N :=
  let h := Hash24 keys (addw 64 (mulw 64 2 edge) uorv) in
  N.land (XorLanes h) edgeMask.

(** siphash.go:85-93, SipNode24Legacy. *)
Definition SipNode24Legacy (edgeMask : N) (keys : sip) (edge uorv : N) : N :=
  let h := Hash24 keys (addw 64 (mulw 64 2 edge) uorv) in
  let value := XorLanes h in
  let value := N.lor (shlw 64 value 17) (N.shiftr value 47) in
  N.land value edgeMask.

(** siphash.go:97-118, SipBlock48.  [edge & ^edgeBlockMask] clears the low six bits. *)
Definition SipBlock48 (keys : sip) (edge : N) : outcome N :=
  let edgeBlockSize := 64 in
  let edgeBlockMask := 63 in
  let edge0 := N.ldiff edge edgeBlockMask in
  '(_, block) <- for_n edgeBlockSize (fun i '(h, block) =>
      let h := Hash48 h (addw 64 edge0 i) in
      block <- upd block i (XorLanes h) ;;
      Done (h, block)) (keys, zeros edgeBlockSize) ;;
  last <- idx block edgeBlockMask ;;
  block <- for_n edgeBlockMask (fun i block =>
      b <- idx block i ;;
      upd block i (N.lxor b last)) block ;;
  idx block (N.land edge edgeBlockMask).

(** ** xoshiro256plusplus.go *)

(** xoshiro256plusplus.go:7-12 *)
Record xoshiro := mkX { s0 : N; s1 : N; s2 : N; s3 : N }.

(** xoshiro256plusplus.go:3-5, rotl. *)
Definition rotl (a b : N) : N := N.lor (shlw 64 a b) (N.shiftr a (64 - b)).

(** xoshiro256plusplus.go:25-38, Next: output and new state. *)
Definition Next (h : xoshiro) : N * xoshiro :=
  let value := addw 64 (rotl (addw 64 (s0 h) (s3 h)) 23) (s0 h) in
  let state := shlw 64 (s1 h) 17 in
  let x2 := N.lxor (s2 h) (s0 h) in
  let x3 := N.lxor (s3 h) (s1 h) in
  let x1 := N.lxor (s1 h) x2 in
  let x0 := N.lxor (s0 h) x3 in
  let x2 := N.lxor x2 state in
  let x3 := rotl x3 45 in
  (value, mkX x0 x1 x2 x3).
