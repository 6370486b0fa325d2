(** Model of internal/crypto/keccak.go (KeccakF800).  The assignments of the double round are a
    mechanical transcription of the Go source, one [let] per assignment, same names, same order. *)
From Coq Require Import NArith List.
From Verif Require Import Base.
Import ListNotations.
Open Scope N_scope.

(** keccak.go:27-50, round constants. *)
Definition rck8 : list N :=
  [ 0x00000001; 0x00008082; 0x0000808A; 0x80008000; 0x0000808B; 0x80000001; 0x80008081; 0x00008009; 0x0000008A; 0x00000088; 0x80008009; 0x8000000A; 0x8000808B; 0x0000008B; 0x00008089; 0x00008003; 0x00008002; 0x00000080; 0x0000800A; 0x8000000A; 0x80008081; 0x00008080 ].

(** keccak.go:52-54, rol. *)
Definition rol (x s : N) : N := rolw 32 x s.

(** keccak.go:99-235, body of the loop (two rounds) on the 25 local variables A*.
    The Go array type [25]uint32 is a list of length 25; any other length is unreachable and
    modelled as Panic. *)
Definition keccakf800_double_round (rc0 rc1 : N) (A : list N) : outcome (list N) :=
  match A with
  | [ Aba; Abe; Abi; Abo; Abu; Aga; Age; Agi; Ago; Agu; Aka; Ake; Aki; Ako; Aku; Ama; Ame; Ami; Amo; Amu; Asa; Ase; Asi; Aso; Asu ] =>
    let Ba := (N.lxor (N.lxor (N.lxor (N.lxor Aba Aga) Aka) Ama) Asa) in
    let Be := (N.lxor (N.lxor (N.lxor (N.lxor Abe Age) Ake) Ame) Ase) in
    let Bi := (N.lxor (N.lxor (N.lxor (N.lxor Abi Agi) Aki) Ami) Asi) in
    let Bo := (N.lxor (N.lxor (N.lxor (N.lxor Abo Ago) Ako) Amo) Aso) in
    let Bu := (N.lxor (N.lxor (N.lxor (N.lxor Abu Agu) Aku) Amu) Asu) in
    let Da := (N.lxor Bu (rol Be 1)) in
    let De := (N.lxor Ba (rol Bi 1)) in
    let Di := (N.lxor Be (rol Bo 1)) in
    let Do := (N.lxor Bi (rol Bu 1)) in
    let Du := (N.lxor Bo (rol Ba 1)) in
    let Ba := (N.lxor Aba Da) in
    let Be := (rol (N.lxor Age De) 12) in
    let Bi := (rol (N.lxor Aki Di) 11) in
    let Bo := (rol (N.lxor Amo Do) 21) in
    let Bu := (rol (N.lxor Asu Du) 14) in
    let Eba := (N.lxor (N.lxor Ba (N.land (notw 32 Be) Bi)) rc0) in
    let Ebe := (N.lxor Be (N.land (notw 32 Bi) Bo)) in
    let Ebi := (N.lxor Bi (N.land (notw 32 Bo) Bu)) in
    let Ebo := (N.lxor Bo (N.land (notw 32 Bu) Ba)) in
    let Ebu := (N.lxor Bu (N.land (notw 32 Ba) Be)) in
    let Ba := (rol (N.lxor Abo Do) 28) in
    let Be := (rol (N.lxor Agu Du) 20) in
    let Bi := (rol (N.lxor Aka Da) 3) in
    let Bo := (rol (N.lxor Ame De) 13) in
    let Bu := (rol (N.lxor Asi Di) 29) in
    let Ega := (N.lxor Ba (N.land (notw 32 Be) Bi)) in
    let Ege := (N.lxor Be (N.land (notw 32 Bi) Bo)) in
    let Egi := (N.lxor Bi (N.land (notw 32 Bo) Bu)) in
    let Ego := (N.lxor Bo (N.land (notw 32 Bu) Ba)) in
    let Egu := (N.lxor Bu (N.land (notw 32 Ba) Be)) in
    let Ba := (rol (N.lxor Abe De) 1) in
    let Be := (rol (N.lxor Agi Di) 6) in
    let Bi := (rol (N.lxor Ako Do) 25) in
    let Bo := (rol (N.lxor Amu Du) 8) in
    let Bu := (rol (N.lxor Asa Da) 18) in
    let Eka := (N.lxor Ba (N.land (notw 32 Be) Bi)) in
    let Eke := (N.lxor Be (N.land (notw 32 Bi) Bo)) in
    let Eki := (N.lxor Bi (N.land (notw 32 Bo) Bu)) in
    let Eko := (N.lxor Bo (N.land (notw 32 Bu) Ba)) in
    let Eku := (N.lxor Bu (N.land (notw 32 Ba) Be)) in
    let Ba := (rol (N.lxor Abu Du) 27) in
    let Be := (rol (N.lxor Aga Da) 4) in
    let Bi := (rol (N.lxor Ake De) 10) in
    let Bo := (rol (N.lxor Ami Di) 15) in
    let Bu := (rol (N.lxor Aso Do) 24) in
    let Ema := (N.lxor Ba (N.land (notw 32 Be) Bi)) in
    let Eme := (N.lxor Be (N.land (notw 32 Bi) Bo)) in
    let Emi := (N.lxor Bi (N.land (notw 32 Bo) Bu)) in
    let Emo := (N.lxor Bo (N.land (notw 32 Bu) Ba)) in
    let Emu := (N.lxor Bu (N.land (notw 32 Ba) Be)) in
    let Ba := (rol (N.lxor Abi Di) 30) in
    let Be := (rol (N.lxor Ago Do) 23) in
    let Bi := (rol (N.lxor Aku Du) 7) in
    let Bo := (rol (N.lxor Ama Da) 9) in
    let Bu := (rol (N.lxor Ase De) 2) in
    let Esa := (N.lxor Ba (N.land (notw 32 Be) Bi)) in
    let Ese := (N.lxor Be (N.land (notw 32 Bi) Bo)) in
    let Esi := (N.lxor Bi (N.land (notw 32 Bo) Bu)) in
    let Eso := (N.lxor Bo (N.land (notw 32 Bu) Ba)) in
    let Esu := (N.lxor Bu (N.land (notw 32 Ba) Be)) in
    let Ba := (N.lxor (N.lxor (N.lxor (N.lxor Eba Ega) Eka) Ema) Esa) in
    let Be := (N.lxor (N.lxor (N.lxor (N.lxor Ebe Ege) Eke) Eme) Ese) in
    let Bi := (N.lxor (N.lxor (N.lxor (N.lxor Ebi Egi) Eki) Emi) Esi) in
    let Bo := (N.lxor (N.lxor (N.lxor (N.lxor Ebo Ego) Eko) Emo) Eso) in
    let Bu := (N.lxor (N.lxor (N.lxor (N.lxor Ebu Egu) Eku) Emu) Esu) in
    let Da := (N.lxor Bu (rol Be 1)) in
    let De := (N.lxor Ba (rol Bi 1)) in
    let Di := (N.lxor Be (rol Bo 1)) in
    let Do := (N.lxor Bi (rol Bu 1)) in
    let Du := (N.lxor Bo (rol Ba 1)) in
    let Ba := (N.lxor Eba Da) in
    let Be := (rol (N.lxor Ege De) 12) in
    let Bi := (rol (N.lxor Eki Di) 11) in
    let Bo := (rol (N.lxor Emo Do) 21) in
    let Bu := (rol (N.lxor Esu Du) 14) in
    let Aba := (N.lxor (N.lxor Ba (N.land (notw 32 Be) Bi)) rc1) in
    let Abe := (N.lxor Be (N.land (notw 32 Bi) Bo)) in
    let Abi := (N.lxor Bi (N.land (notw 32 Bo) Bu)) in
    let Abo := (N.lxor Bo (N.land (notw 32 Bu) Ba)) in
    let Abu := (N.lxor Bu (N.land (notw 32 Ba) Be)) in
    let Ba := (rol (N.lxor Ebo Do) 28) in
    let Be := (rol (N.lxor Egu Du) 20) in
    let Bi := (rol (N.lxor Eka Da) 3) in
    let Bo := (rol (N.lxor Eme De) 13) in
    let Bu := (rol (N.lxor Esi Di) 29) in
    let Aga := (N.lxor Ba (N.land (notw 32 Be) Bi)) in
    let Age := (N.lxor Be (N.land (notw 32 Bi) Bo)) in
    let Agi := (N.lxor Bi (N.land (notw 32 Bo) Bu)) in
    let Ago := (N.lxor Bo (N.land (notw 32 Bu) Ba)) in
    let Agu := (N.lxor Bu (N.land (notw 32 Ba) Be)) in
    let Ba := (rol (N.lxor Ebe De) 1) in
    let Be := (rol (N.lxor Egi Di) 6) in
    let Bi := (rol (N.lxor Eko Do) 25) in
    let Bo := (rol (N.lxor Emu Du) 8) in
    let Bu := (rol (N.lxor Esa Da) 18) in
    let Aka := (N.lxor Ba (N.land (notw 32 Be) Bi)) in
    let Ake := (N.lxor Be (N.land (notw 32 Bi) Bo)) in
    let Aki := (N.lxor Bi (N.land (notw 32 Bo) Bu)) in
    let Ako := (N.lxor Bo (N.land (notw 32 Bu) Ba)) in
    let Aku := (N.lxor Bu (N.land (notw 32 Ba) Be)) in
    let Ba := (rol (N.lxor Ebu Du) 27) in
    let Be := (rol (N.lxor Ega Da) 4) in
    let Bi := (rol (N.lxor Eke De) 10) in
    let Bo := (rol (N.lxor Emi Di) 15) in
    let Bu := (rol (N.lxor Eso Do) 24) in
    let Ama := (N.lxor Ba (N.land (notw 32 Be) Bi)) in
    let Ame := (N.lxor Be (N.land (notw 32 Bi) Bo)) in
    let Ami := (N.lxor Bi (N.land (notw 32 Bo) Bu)) in
    let Amo := (N.lxor Bo (N.land (notw 32 Bu) Ba)) in
    let Amu := (N.lxor Bu (N.land (notw 32 Ba) Be)) in
    let Ba := (rol (N.lxor Ebi Di) 30) in
    let Be := (rol (N.lxor Ego Do) 23) in
    let Bi := (rol (N.lxor Eku Du) 7) in
    let Bo := (rol (N.lxor Ema Da) 9) in
    let Bu := (rol (N.lxor Ese De) 2) in
    let Asa := (N.lxor Ba (N.land (notw 32 Be) Bi)) in
    let Ase := (N.lxor Be (N.land (notw 32 Bi) Bo)) in
    let Asi := (N.lxor Bi (N.land (notw 32 Bo) Bu)) in
    let Aso := (N.lxor Bo (N.land (notw 32 Bu) Ba)) in
    let Asu := (N.lxor Bu (N.land (notw 32 Ba) Be)) in
    Done [ Aba; Abe; Abi; Abo; Abu; Aga; Age; Agi; Ago; Agu; Aka; Ake; Aki; Ako; Aku; Ama; Ame; Ami; Amo; Amu; Asa; Ase; Asi; Aso; Asu ]
  | _ => Panic
  end.

(** keccak.go:56-263, KeccakF800: [for round := 0; round < 22; round += 2]. *)
Definition KeccakF800 (state : list N) : outcome (list N) :=
  for_n 11 (fun i A =>
    rc0 <- idx rck8 (2 * i) ;;
    rc1 <- idx rck8 (2 * i + 1) ;;
    keccakf800_double_round rc0 rc1 A) state.
