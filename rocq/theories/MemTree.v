(** What Equihash and BeamHash III share, as programs on memory (MemModel.v). *)
From Coq Require Import NArith List Bool.
From Verif Require Import Base MemModel.
Import ListNotations.
Open Scope N_scope.

(** [x, err := p; if err != nil { return err }] *)
Notation "x <~? p ;; k" := (pbind p (fun o => match o with Some x => k | None => Ret None end))
  (at level 61, p at next level, right associativity).

Section Tree.
Variable blake : N -> list N -> list N -> list N.
Variable room : N -> N.

(** internal/crypto/blake.go:7-23 (see EquiModel.Blake2b).  The constructor copies the personalisation; h.Sum(nil)
    appends the digest to nil, so that its capacity is up to the runtime. *)
Definition p_Blake2b (data personal : sl) (size : N) : prog sl :=
  let size := u8 size in
  let size := if size =? 0 then 64 else size in
  if (64 <? size) || (16 <? s_len personal) then Fail
  else
    p <~ read personal ;;
    d <~ read data ;;
    r <~ make_cap size (room size) ;;
    _ <~ stores (s_loc r) 0 (blake size p d) ;;
    Ret r.

(** make([]byte, len(x)+4), copy, PutUint32 at the end: equihash.go:97-99, beamhashiii.go:164-166 *)
Definition p_suffixed (x : sl) (v : N) : prog sl :=
  buf <~ make (s_len x + 4) ;;
  _ <~ copy buf x ;;
  t <~ cut_from buf (s_len x) ;;
  _ <~ put32 LittleEndian t v ;;
  Ret buf.
(** The same with two numbers: equihash.go:199-202, beamhashiii.go:159-162 *)
Definition p_suffixed2 (x : sl) (v w : N) : prog sl :=
  buf <~ make (s_len x + 8) ;;
  _ <~ copy buf x ;;
  t <~ cut_from buf (s_len x) ;;
  _ <~ put32 LittleEndian t v ;;
  u <~ cut_from buf (s_len x + 4) ;;
  _ <~ put32 LittleEndian u w ;;
  Ret buf.

(** equihash.go:156-163 = beamhashiii.go:87-94 *)
Definition p_joined (a b : sl) : prog sl :=
  indices <~ make 0 ;;
  a0 <~ get a 0 ;;
  b0 <~ get b 0 ;;
  if a0 <? b0 then indices <~ append room indices a ;; append room indices b
  else indices <~ append room indices b ;; append room indices a.

(** A loop over the elements of a slice that ends at the first one for which [f] says no. *)
Definition p_all (s : sl) (f : N -> prog bool) : prog bool :=
  r <~ pfor_break (N.to_nat (s_len s)) 0 (fun i _ =>
    x <~ get s i ;;
    b <~ f x ;;
    if (b : bool) then Ret (Continue tt) else Ret (Break tt)) tt ;;
  Ret (match r with inl _ => false | inr _ => true end).
(** equihash.go:187-193 = beamhashiii.go:119-125 *)
Definition p_distinct (a b : sl) : prog bool :=
  p_all a (fun i => p_all b (fun j => Ret (negb (i =? j)))).
End Tree.
