(** Go slices in memory: programs that make arrays and load and store their elements, run alone or interleaved.
    The models of the other files treat a slice as a list; the programs written in this language (MemDag.v and
    after) show that this is right, and what calls that run at the same time do to each other.
    Nothing in this file is specific to powkit. *)
From Coq Require Import NArith List Bool.
From Verif Require Import Base.
Import ListNotations.
Open Scope N_scope.

(** ** Memory *)

(** An array is known by the call that made it (0: it was there before the calls) and a serial number.  The
    allocator never hands out memory that is in use, so no two calls make the same array. *)
Definition loc : Type := N * N.
Definition owner (l : loc) : N := fst l.
Definition serial (l : loc) : N := snd l.
Definition loc_eqb (a b : loc) : bool := (owner a =? owner b) && (serial a =? serial b).

Definition memory : Type := loc -> list N.
Definition mset (m : memory) (l : loc) (x : list N) : memory := fun l' => if loc_eqb l' l then x else m l'.

(** A slice header: array, offset, length, capacity. *)
Record sl := mkSl { s_loc : loc; s_off : N; s_len : N; s_cap : N }.

(** ** Programs *)

(** What a call does to memory, step by step; numbers and slice headers are values.  [Fail] is a panic, [Spent] a
    bounded loop that used up its fuel. *)
Inductive prog (A : Type) : Type :=
| Ret (a : A)
| Fail
| Spent
| Make (n : N) (k : loc -> prog A)
| Load (l : loc) (i : N) (k : N -> prog A)
| Store (l : loc) (i : N) (v : N) (k : prog A).
Arguments Ret {A} a.
Arguments Fail {A}.
Arguments Spent {A}.
Arguments Make {A} n k.
Arguments Load {A} l i k.
Arguments Store {A} l i v k.

Fixpoint pbind {A B} (p : prog A) (f : A -> prog B) : prog B :=
  match p with
  | Ret a => f a
  | Fail => Fail
  | Spent => Spent
  | Make n k => Make n (fun l => pbind (k l) f)
  | Load l i k => Load l i (fun v => pbind (k v) f)
  | Store l i v k => Store l i v (pbind k f)
  end.
Notation "x <~ p ;; k" := (pbind p (fun x => k)) (at level 61, p at next level, right associativity).
Notation "' x <~ p ;; k" := (pbind p (fun y => let x := y in k)) (at level 61, x pattern, p at next level, right associativity).

(** A computation on values only. *)
Definition pure {A} (o : outcome A) : prog A :=
  match o with Done a => Ret a | Panic => Fail | OutOfFuel => Spent end.

(** [for i := start; <n iterations>; i++] *)
Fixpoint pfor {S} (n : nat) (i : N) (body : N -> S -> prog S) (s : S) : prog S :=
  match n with
  | O => Ret s
  | S m => s' <~ body i s ;; pfor m (i + 1) body s'
  end.
Definition pfor_n {S} (n : N) (body : N -> S -> prog S) (s : S) : prog S := pfor (N.to_nat n) 0 body s.

(** A loop with early exit, and one without a bound of its own (as [for_break] and [loop_fuel] of Base.v). *)
Fixpoint pfor_break {S R} (n : nat) (i : N) (body : N -> S -> prog (step S R)) (s : S) : prog (R + S) :=
  match n with
  | O => Ret (inr s)
  | S m => st <~ body i s ;; match st with Continue s' => pfor_break m (i + 1) body s' | Break r => Ret (inl r) end
  end.
Fixpoint ploop {S R} (fuel : nat) (body : S -> prog (step S R)) (s : S) : prog R :=
  match fuel with
  | O => Spent
  | S f => st <~ body s ;; match st with Continue s' => ploop f body s' | Break r => Ret r end
  end.

(** ** Slice operations *)

(** make([]T, n) *)
Definition make (n : N) : prog sl := Make n (fun l => Ret (mkSl l 0 n n)).
(** make([]T, n, c) *)
Definition make_cap (n c : N) : prog sl := Make c (fun l => Ret (mkSl l 0 n c)).
(** s[i] *)
Definition get (s : sl) (i : N) : prog N := if i <? s_len s then Load (s_loc s) (s_off s + i) Ret else Fail.
(** s[i] = v *)
Definition set (s : sl) (i v : N) : prog unit :=
  if i <? s_len s then Store (s_loc s) (s_off s + i) v (Ret tt) else Fail.
(** s[a:b] is checked against the capacity, s[a:] is s[a:len(s)]. *)
Definition cut_at (s : sl) (a b : N) : prog sl :=
  if (a <=? b) && (b <=? s_cap s) then Ret (mkSl (s_loc s) (s_off s + a) (b - a) (s_cap s - a)) else Fail.
Definition cut_from (s : sl) (a : N) : prog sl := cut_at s a (s_len s).
(** n elements from position i on *)
Fixpoint loads (l : loc) (i : N) (n : nat) : prog (list N) :=
  match n with
  | O => Ret []
  | S n => v <~ Load l i Ret ;; r <~ loads l (i + 1) n ;; Ret (v :: r)
  end.
Fixpoint stores (l : loc) (i : N) (x : list N) : prog unit :=
  match x with
  | [] => Ret tt
  | v :: x => Store l i v (stores l (i + 1) x)
  end.
(** All elements of a slice. *)
Definition read (s : sl) : prog (list N) := loads (s_loc s) (s_off s) (N.to_nat (s_len s)).
(** copy(dst, src) moves the memory as if by a temporary copy *)
Definition copy (dst src : sl) : prog unit :=
  let n := N.min (s_len dst) (s_len src) in
  x <~ loads (s_loc src) (s_off src) (N.to_nat n) ;;
  stores (s_loc dst) (s_off dst) x.
(** byteOrder.PutUint32(b, v), byteOrder.PutUint64(b, v), byteOrder.Uint32(b), byteOrder.Uint64(b) *)
Definition put32 (o : order) (b : sl) (v : N) : prog unit :=
  if 4 <=? s_len b then stores (s_loc b) (s_off b) (match o with LittleEndian => le_bytes 4 v | BigEndian => be_bytes 4 v end) else Fail.
Definition put64 (o : order) (b : sl) (v : N) : prog unit :=
  if 8 <=? s_len b then stores (s_loc b) (s_off b) (match o with LittleEndian => le_bytes 8 v | BigEndian => be_bytes 8 v end) else Fail.
Definition get32 (o : order) (b : sl) : prog N :=
  if 4 <=? s_len b then x <~ loads (s_loc b) (s_off b) 4 ;; Ret (match o with LittleEndian => le_value x | BigEndian => be_value x end) else Fail.
Definition get64 (o : order) (b : sl) : prog N :=
  if 8 <=? s_len b then x <~ loads (s_loc b) (s_off b) 8 ;; Ret (match o with LittleEndian => le_value x | BigEndian => be_value x end) else Fail.
(** append(dst, src...): in place when the capacity allows it, else in a new array; [room need] is the capacity
    the runtime gives an array that must hold [need] elements. *)
Definition append (room : N -> N) (dst src : sl) : prog sl :=
  x <~ read src ;;
  let need := s_len dst + s_len src in
  if need <=? s_cap dst then
    _ <~ stores (s_loc dst) (s_off dst + s_len dst) x ;;
    Ret (mkSl (s_loc dst) (s_off dst) need (s_cap dst))
  else
    y <~ read dst ;;
    Make (room need) (fun l =>
      _ <~ stores l 0 (y ++ x) ;;
      Ret (mkSl l 0 need (room need))).
(** A third-party hash function [H] of [n] bytes of output, from a slice to a new slice. *)
Definition hash_new (H : list N -> list N) (n : N) (data : sl) : prog sl :=
  x <~ read data ;;
  r <~ make n ;;
  _ <~ stores (s_loc r) 0 (H x) ;;
  Ret r.

(** ** Running alone *)

Fixpoint run {A} (me : N) (p : prog A) (m : memory) (next : N) : outcome A * memory * N :=
  match p with
  | Ret a => (Done a, m, next)
  | Fail => (Panic, m, next)
  | Spent => (OutOfFuel, m, next)
  | Make n k => run me (k (me, next)) (mset m (me, next) (zeros n)) (next + 1)
  | Load l i k =>
      match nth_error (m l) (N.to_nat i) with
      | Some v => run me (k v) m next
      | None => (Panic, m, next)
      end
  | Store l i v k =>
      if i <? lenN (m l) then run me k (mset m l (set_nth (m l) (N.to_nat i) v)) next
      else (Panic, m, next)
  end.

(** ** Running together *)

(** One step of a call. *)
Inductive mstep {A} (me : N) : memory * prog A * N -> memory * prog A * N -> Prop :=
| m_make m n k next : mstep me (m, Make n k, next) (mset m (me, next) (zeros n), k (me, next), next + 1)
| m_load m l i k next v : nth_error (m l) (N.to_nat i) = Some v -> mstep me (m, Load l i k, next) (m, k v, next)
| m_load_bad m l i k next : nth_error (m l) (N.to_nat i) = None -> mstep me (m, Load l i k, next) (m, Fail, next)
| m_store m l i v k next : i < lenN (m l) -> mstep me (m, Store l i v k, next) (mset m l (set_nth (m l) (N.to_nat i) v), k, next)
| m_store_bad m l i v k next : lenN (m l) <= i -> mstep me (m, Store l i v k, next) (m, Fail, next).

(** Calls that run at the same time: call number [t] (from 0) makes arrays with owner [t + 1].  Memory is
    sequentially consistent; C71 shows that there is no data race, for which the Go memory model grants it. *)
Definition calls (A : Type) : Type := list (prog A * N).
Inductive cstep {A} : memory * calls A -> memory * calls A -> Prop :=
| c_step m c t p next m' p' next' :
    nth_error c t = Some (p, next) -> mstep (N.of_nat t + 1) (m, p, next) (m', p', next') ->
    cstep (m, c) (m', set_nth c t (p', next')).
Inductive csteps {A} : memory * calls A -> memory * calls A -> Prop :=
| cs_refl s : csteps s s
| cs_step s s' s'' : csteps s s' -> cstep s' s'' -> csteps s s''.

(** The access the next step of a call makes: array, element, whether it writes. *)
Definition access {A} (p : prog A) : option (loc * N * bool) :=
  match p with
  | Load l i _ => Some (l, i, false)
  | Store l i _ _ => Some (l, i, true)
  | _ => None
  end.

(** The call is over. *)
Definition finished {A} (p : prog A) : Prop := match p with Ret _ | Fail | Spent => True | _ => False end.
