(** Model of internal/common/bitutil: XORBytes on amd64 and arm64 (the assembly as a program of a small machine)
    and on the other architectures. *)
From Coq Require Import NArith ZArith List Bool.
From Verif Require Import Base.
Import ListNotations.
Open Scope N_scope.

(** ** Memory

    The memory of the process: [Some b] at the addresses it may read and write.  An access outside is a fault,
    which ends the process: it is [Panic] below. *)
Definition mem := N -> option N.
Fixpoint load (m : mem) (a : N) (k : nat) : outcome (list N) :=
  match k with
  | O => Done []
  | S k => match m a with
           | Some b => l <- load m (a + 1) k ;; Done (b :: l)
           | None => Panic
           end
  end.
Definition put (m : mem) (a b : N) : mem := fun x => if x =? a then Some b else m x.
Fixpoint store (m : mem) (a : N) (l : list N) : outcome mem :=
  match l with
  | [] => Done m
  | b :: l => match m a with
              | Some _ => store (put m a b) (a + 1) l
              | None => Panic
              end
  end.

(** Signed value of a 64-bit register. *)
Definition sgn (x : N) : Z := if x <? 2 ^ 63 then Z.of_N x else (Z.of_N x - 2 ^ 64)%Z.
Definition xor_list (a b : list N) : list N := map (fun '(x, y) => N.lxor x y) (combine a b).

(** ** amd64 *)
Module Amd64.
Inductive reg := AX | BX | CX | DX | SI | DI.
Inductive xreg := X0 | X1.
Inductive label := aligned | loop16b | loop_1b | not_aligned | ret.
Scheme Equality for label.
(** The instructions in the order of operands of the Go assembler (source first, except CMPQ). *)
Inductive instr :=
| Lab (l : label)
| MOVQi (v : N) (r : reg)                 (* MOVQ $v, r *)
| TESTQi (v : N) (r : reg)                (* TESTQ $v, r *)
| JNZ (l : label) | JZ (l : label) | JGE (l : label)   (* JNE = JNZ, JE = JZ *)
| MOVOUl (base index : reg) (x : xreg)    (* MOVOU (base)(index*1), x *)
| MOVOUs (x : xreg) (base index : reg)    (* MOVOU x, (base)(index*1) *)
| PXOR (src dst : xreg)
| ADDQi (v : N) (r : reg) | SUBQi (v : N) (r : reg)
| CMPQ (r s : reg) | CMPQi (r : reg) (v : N)
| MOVBl (base index r : reg) | MOVBs (r base index : reg) | XORB (src dst : reg)
| MOVQl (base index r : reg) | MOVQs (r base index : reg) | XORQ (src dst : reg)
| RET.

(** [lt] is SF <> OF, the condition that JGE negates. *)
Record state := mkS { pc : nat; ax : N; bx : N; cx : N; dx : N; si : N; di : N;
                      x0 : list N; x1 : list N; zf : bool; lt : bool; memory : mem }.
Definition get (s : state) (r : reg) : N :=
  match r with AX => ax s | BX => bx s | CX => cx s | DX => dx s | SI => si s | DI => di s end.
Definition set (s : state) (r : reg) (v : N) : state :=
  let '(mkS p a b c d e f u w z l m) := s in
  match r with
  | AX => mkS p v b c d e f u w z l m | BX => mkS p a v c d e f u w z l m | CX => mkS p a b v d e f u w z l m
  | DX => mkS p a b c v e f u w z l m | SI => mkS p a b c d v f u w z l m | DI => mkS p a b c d e v u w z l m
  end.
Definition getx (s : state) (r : xreg) : list N := match r with X0 => x0 s | X1 => x1 s end.
Definition setx (s : state) (r : xreg) (v : list N) : state :=
  let '(mkS p a b c d e f u w z l m) := s in
  match r with X0 => mkS p a b c d e f v w z l m | X1 => mkS p a b c d e f u v z l m end.
Definition flags (s : state) (z l : bool) : state :=
  let '(mkS p a b c d e f u w _ _ m) := s in mkS p a b c d e f u w z l m.
Definition setm (s : state) (m : mem) : state :=
  let '(mkS p a b c d e f u w z l _) := s in mkS p a b c d e f u w z l m.
Definition next (s : state) : state :=
  let '(mkS p a b c d e f u w z l m) := s in mkS (S p) a b c d e f u w z l m.
Definition goto (s : state) (p : nat) : state :=
  let '(mkS _ a b c d e f u w z l m) := s in mkS p a b c d e f u w z l m.

(** xor_amd64.s:13-54 (lines 9-12 load the arguments into BX, SI, CX, DX: see [call]). *)
Definition program : list instr :=
  [ TESTQi 15 DX; JNZ not_aligned;                                          (* 13, 14 *)
    Lab aligned; MOVQi 0 AX;                                                (* 16, 17 *)
    Lab loop16b; MOVOUl SI AX X0; MOVOUl CX AX X1; PXOR X1 X0; MOVOUs X0 BX AX;   (* 19-23 *)
    ADDQi 16 AX; CMPQ DX AX; JNZ loop16b; RET;                              (* 24-27 *)
    Lab loop_1b; SUBQi 1 DX; MOVBl SI DX DI; MOVBl CX DX AX; XORB AX DI; MOVBs DI BX DX;  (* 29-34 *)
    TESTQi 7 DX; JNZ loop_1b; CMPQi DX 0; JZ ret; TESTQi 15 DX; JZ aligned; (* 35-40 *)
    Lab not_aligned; TESTQi 7 DX; JNZ loop_1b; SUBQi 8 DX; MOVQl SI DX DI; MOVQl CX DX AX; XORQ AX DI;
    MOVQs DI BX DX; CMPQi DX 16; JGE aligned;                               (* 42-51 *)
    Lab ret; RET ].                                                         (* 53, 54 *)

Fixpoint find (l : label) (p : list instr) (n : nat) : nat :=
  match p with
  | [] => n
  | Lab l' :: p => if label_beq l l' then n else find l p (S n)
  | _ :: p => find l p (S n)
  end.
Definition jump (s : state) (taken : bool) (l : label) : state :=
  if taken then goto s (find l program 0) else next s.

(** One instruction; [Break] is the return to the caller with the memory. *)
Definition step (s : state) : outcome (Base.step state mem) :=
  match nth_error program (pc s) with
  | None => Panic
  | Some i =>
      match i with
      | Lab _ => Done (Continue (next s))
      | MOVQi v r => Done (Continue (next (set s r v)))
      | TESTQi v r => let x := N.land v (get s r) in Done (Continue (next (flags s (x =? 0) (2 ^ 63 <=? x))))
      | JNZ l => Done (Continue (jump s (negb (zf s)) l))
      | JZ l => Done (Continue (jump s (zf s) l))
      | JGE l => Done (Continue (jump s (negb (lt s)) l))
      | MOVOUl b i x => v <- load (memory s) (addw 64 (get s b) (get s i)) 16 ;; Done (Continue (next (setx s x v)))
      | MOVOUs x b i => m <- store (memory s) (addw 64 (get s b) (get s i)) (getx s x) ;; Done (Continue (next (setm s m)))
      | PXOR x y => Done (Continue (next (setx s y (xor_list (getx s y) (getx s x)))))
      | ADDQi v r => let x := addw 64 (get s r) v in
          Done (Continue (next (flags (set s r x) (x =? 0) (sgn (get s r) + sgn v <? 0)%Z)))
      | SUBQi v r => let x := subw 64 (get s r) v in
          Done (Continue (next (flags (set s r x) (x =? 0) (sgn (get s r) <? sgn v)%Z)))
      | CMPQ r t => Done (Continue (next (flags s (get s r =? get s t) (sgn (get s r) <? sgn (get s t))%Z)))
      | CMPQi r v => Done (Continue (next (flags s (get s r =? v) (sgn (get s r) <? sgn v)%Z)))
      | MOVBl b i r => v <- load (memory s) (addw 64 (get s b) (get s i)) 1 ;;
          Done (Continue (next (set s r (get s r - get s r mod 256 + le_value v))))
      | MOVBs r b i => m <- store (memory s) (addw 64 (get s b) (get s i)) [get s r mod 256] ;; Done (Continue (next (setm s m)))
      | XORB r t => let x := N.lxor (get s t mod 256) (get s r mod 256) in
          Done (Continue (next (flags (set s t (get s t - get s t mod 256 + x)) (x =? 0) (2 ^ 7 <=? x))))
      | MOVQl b i r => v <- load (memory s) (addw 64 (get s b) (get s i)) 8 ;; Done (Continue (next (set s r (le_value v))))
      | MOVQs r b i => m <- store (memory s) (addw 64 (get s b) (get s i)) (le_bytes 8 (get s r)) ;; Done (Continue (next (setm s m)))
      | XORQ r t => let x := N.lxor (get s t) (get s r) in
          Done (Continue (next (flags (set s t x) (x =? 0) (2 ^ 63 <=? x))))
      | RET => Done (Break (memory s))
      end
  end.
Definition run (fuel : nat) (s : state) : outcome mem := loop_fuel fuel step s.
(** xor_amd64.s:9-12; [r] are the contents of the other registers at the call. *)
Definition call (fuel : nat) (r : state) (m : mem) (dst a b n : N) : outcome mem :=
  run fuel (mkS 0 (ax r) dst b n a (di r) (x0 r) (x1 r) (zf r) (lt r) m).
End Amd64.

(** ** arm64 *)
Module Arm64.
Inductive reg := R0 | R1 | R2 | R3 | R11 | R12 | R13 | R14 | R15 | R16 | R17 | R19.
Scheme Equality for reg.
Inductive vreg := V0 | V1 | V2 | V3 | V4 | V5 | V6 | V7.
Scheme Equality for vreg.
Inductive label := loop_64 | tail | less_than32 | less_than16 | less_than8 | less_than4 | less_than2 | finish.
Scheme Equality for label.
(** Loads and stores with post-increment ([.P]) add their width to the base register. *)
Inductive instr :=
| Lab (l : label)
| CMP (v : N) (r : reg)                            (* CMP $v, r: flags of r - v *)
| BLT (l : label) | BGE (l : label)
| VLD1P (base : reg) (vs : list vreg)              (* VLD1.P 16*len(base), [vs] *)
| VST1P (vs : list vreg) (base : reg)
| VEOR (a b d : vreg)                              (* d = b ^ a *)
| SUBS (v : N) (r : reg)
| CBZ (r : reg) (l : label)
| TBZ (bit : N) (r : reg) (l : label)
| LDPP (base r s : reg) | STPP (r s base : reg)    (* 16 bytes, two registers *)
| LDRP (w : nat) (base r : reg) | STRP (w : nat) (r base : reg)  (* MOVD.P, MOVWU.P, MOVHU.P: [w] bytes, zero-extended *)
| LDR (w : nat) (base r : reg) | STR (w : nat) (r base : reg)    (* MOVBU *)
| EOR (a b d : reg) | EORW (a b d : reg)
| RET.

(** [lt] is N <> V. *)
Record state := mkS { pc : nat; regs : reg -> N; vregs : vreg -> list N; lt : bool; memory : mem }.
Definition set (s : state) (r : reg) (v : N) : state :=
  mkS (pc s) (fun q => if reg_beq q r then v else regs s q) (vregs s) (lt s) (memory s).
Definition setv (s : state) (r : vreg) (v : list N) : state :=
  mkS (pc s) (regs s) (fun q => if vreg_beq q r then v else vregs s q) (lt s) (memory s).
Definition setm (s : state) (m : mem) : state := mkS (pc s) (regs s) (vregs s) (lt s) m.
Definition next (s : state) : state := mkS (S (pc s)) (regs s) (vregs s) (lt s) (memory s).
Definition goto (s : state) (p : nat) : state := mkS p (regs s) (vregs s) (lt s) (memory s).
Definition flag (s : state) (l : bool) : state := mkS (pc s) (regs s) (vregs s) l (memory s).
Definition bump (s : state) (r : reg) (k : N) : state := set s r (addw 64 (regs s r) k).

(** xor_arm64.s:13-67 (lines 9-12 load the arguments into R0, R1, R2, R3: see [call]). *)
Definition program : list instr :=
  [ CMP 64 R3; BLT tail;                                                         (* 13, 14 *)
    Lab loop_64; VLD1P R1 [V0; V1; V2; V3]; VLD1P R2 [V4; V5; V6; V7];           (* 15-17 *)
    VEOR V0 V4 V4; VEOR V1 V5 V5; VEOR V2 V6 V6; VEOR V3 V7 V7;                  (* 18-21 *)
    VST1P [V4; V5; V6; V7] R0; SUBS 64 R3; CMP 64 R3; BGE loop_64;               (* 22-25 *)
    Lab tail; CBZ R3 finish; TBZ 5 R3 less_than32;                               (* 26-29 *)
    VLD1P R1 [V0; V1]; VLD1P R2 [V2; V3]; VEOR V0 V2 V2; VEOR V1 V3 V3; VST1P [V2; V3] R0;   (* 30-34 *)
    Lab less_than32; TBZ 4 R3 less_than16;                                       (* 35, 36 *)
    LDPP R1 R11 R12; LDPP R2 R13 R14; EOR R11 R13 R13; EOR R12 R14 R14; STPP R13 R14 R0;     (* 37-41 *)
    Lab less_than16; TBZ 3 R3 less_than8; LDRP 8 R1 R11; LDRP 8 R2 R12; EOR R11 R12 R12; STRP 8 R12 R0;   (* 42-47 *)
    Lab less_than8; TBZ 2 R3 less_than4; LDRP 4 R1 R13; LDRP 4 R2 R14; EORW R13 R14 R14; STRP 4 R14 R0;   (* 48-53 *)
    Lab less_than4; TBZ 1 R3 less_than2; LDRP 2 R1 R15; LDRP 2 R2 R16; EORW R15 R16 R16; STRP 2 R16 R0;   (* 54-59 *)
    Lab less_than2; TBZ 0 R3 finish; LDR 1 R1 R17; LDR 1 R2 R19; EORW R17 R19 R19; STR 1 R19 R0;          (* 60-65 *)
    Lab finish; RET ].                                                           (* 66, 67 *)

Fixpoint find (l : label) (p : list instr) (n : nat) : nat :=
  match p with
  | [] => n
  | Lab l' :: p => if label_beq l l' then n else find l p (S n)
  | _ :: p => find l p (S n)
  end.
Definition jump (s : state) (taken : bool) (l : label) : state :=
  if taken then goto s (find l program 0) else next s.

Fixpoint vload (s : state) (a : N) (vs : list vreg) : outcome state :=
  match vs with
  | [] => Done s
  | v :: vs => x <- load (memory s) a 16 ;; vload (setv s v x) (a + 16) vs
  end.
Fixpoint vstore (s : state) (a : N) (vs : list vreg) : outcome state :=
  match vs with
  | [] => Done s
  | v :: vs => m <- store (memory s) a (vregs s v) ;; vstore (setm s m) (a + 16) vs
  end.

Definition step (s : state) : outcome (Base.step state mem) :=
  match nth_error program (pc s) with
  | None => Panic
  | Some i =>
      match i with
      | Lab _ => Done (Continue (next s))
      | CMP v r => Done (Continue (next (flag s (sgn (regs s r) <? sgn v)%Z)))
      | BLT l => Done (Continue (jump s (lt s) l))
      | BGE l => Done (Continue (jump s (negb (lt s)) l))
      | VLD1P b vs => t <- vload s (regs s b) vs ;; Done (Continue (next (bump t b (16 * lenN vs))))
      | VST1P vs b => t <- vstore s (regs s b) vs ;; Done (Continue (next (bump t b (16 * lenN vs))))
      | VEOR a b d => Done (Continue (next (setv s d (xor_list (vregs s b) (vregs s a)))))
      | SUBS v r => Done (Continue (next (flag (set s r (subw 64 (regs s r) v)) (sgn (regs s r) <? sgn v)%Z)))
      | CBZ r l => Done (Continue (jump s (regs s r =? 0) l))
      | TBZ k r l => Done (Continue (jump s (negb (N.testbit (regs s r) k)) l))
      | LDPP b r t => x <- load (memory s) (regs s b) 8 ;; y <- load (memory s) (regs s b + 8) 8 ;;
          Done (Continue (next (bump (set (set s r (le_value x)) t (le_value y)) b 16)))
      | STPP r t b => m <- store (memory s) (regs s b) (le_bytes 8 (regs s r)) ;;
          m <- store m (regs s b + 8) (le_bytes 8 (regs s t)) ;; Done (Continue (next (bump (setm s m) b 16)))
      | LDRP w b r => x <- load (memory s) (regs s b) w ;; Done (Continue (next (bump (set s r (le_value x)) b (N.of_nat w))))
      | STRP w r b => m <- store (memory s) (regs s b) (le_bytes w (regs s r)) ;; Done (Continue (next (bump (setm s m) b (N.of_nat w))))
      | LDR w b r => x <- load (memory s) (regs s b) w ;; Done (Continue (next (set s r (le_value x))))
      | STR w r b => m <- store (memory s) (regs s b) (le_bytes w (regs s r)) ;; Done (Continue (next (setm s m)))
      | EOR a b d => Done (Continue (next (set s d (N.lxor (regs s b) (regs s a)))))
      | EORW a b d => Done (Continue (next (set s d (N.lxor (regs s b) (regs s a) mod 2 ^ 32))))
      | RET => Done (Break (memory s))
      end
  end.
Definition run (fuel : nat) (s : state) : outcome mem := loop_fuel fuel step s.
(** xor_arm64.s:9-12 *)
Definition call (fuel : nat) (r : state) (m : mem) (dst a b n : N) : outcome mem :=
  run fuel (mkS 0 (fun q => match q with R0 => dst | R1 => a | R2 => b | R3 => n | _ => regs r q end) (vregs r) (lt r) m).
End Arm64.

(** ** The Go functions

    A []byte is the address of its first byte and its length. *)
Record gslice := mkSlice { sl_ptr : N; sl_len : N }.

(** xor_amd64.go:9-20 and xor_arm64.go:9-22: [asm] is the assembly function.  The result is the memory and the
    number of bytes. *)
Definition XORBytes_asm (asm : mem -> N -> N -> N -> N -> outcome mem) (m : mem) (dst a b : gslice) : outcome (mem * N) :=
  let n := N.min (sl_len a) (sl_len b) in
  if n =? 0 then Done (m, 0)
  else if sl_len dst <? n then Panic    (* _ = dst[n-1] *)
  else m <- asm m (sl_ptr dst) (sl_ptr a) (sl_ptr b) n ;; Done (m, n).
Definition XORBytes_amd64 (fuel : nat) (r : Amd64.state) := XORBytes_asm (Amd64.call fuel r).
Definition XORBytes_arm64 (fuel : nat) (r : Arm64.state) := XORBytes_asm (Arm64.call fuel r).

(** Indexed access to a slice of elements of [w] bytes. *)
Definition elem_get (m : mem) (s : gslice) (w i : N) : outcome (list N) :=
  if i <? sl_len s then load m (sl_ptr s + w * i) (N.to_nat w) else Panic.
Definition elem_set (m : mem) (s : gslice) (w i : N) (v : list N) : outcome mem :=
  if i <? sl_len s then store m (sl_ptr s + w * i) v else Panic.

(** xor_generic.go:65-69 *)
Definition safeXORBytes (m : mem) (dst a b : gslice) (n : N) : outcome mem :=
  for_n n (fun i m =>
    x <- elem_get m a 1 i ;; y <- elem_get m b 1 i ;; elem_set m dst 1 i (xor_list x y)) m.
(** xor_generic.go:45-62.  [wordSize] is 4 or 8.  The casts of lines 51-53 keep the length of the slices, so
    [dw], [aw] and [bw] have as many words as the slices have bytes.  The xor of two words is the xor of their
    bytes, whatever the byte order. *)
Definition fastXORBytes (wordSize : N) (m : mem) (dst a b : gslice) (n : N) : outcome mem :=
  if sl_len dst <? n then Panic    (* _ = dst[n-1] *)
  else
    let w := n / wordSize in
    m <- (if 0 <? w then
      for_n w (fun i m =>
        x <- elem_get m a wordSize i ;; y <- elem_get m b wordSize i ;; elem_set m dst wordSize i (xor_list x y)) m
    else Done m) ;;
    for_up (N.to_nat (n mod wordSize)) (n - n mod wordSize) (fun i m =>
      x <- elem_get m a 1 i ;; y <- elem_get m b 1 i ;; elem_set m dst 1 i (xor_list x y)) m.
(** xor_generic.go:16-37 *)
Definition XORBytes_generic (supportsUnaligned : bool) (wordSize : N) (m : mem) (dst a b : gslice) : outcome (mem * N) :=
  let n := N.min (sl_len a) (sl_len b) in
  if n =? 0 then Done (m, 0)
  else if supportsUnaligned then m <- fastXORBytes wordSize m dst a b n ;; Done (m, n)
  else m <- safeXORBytes m dst a b n ;; Done (m, n).
