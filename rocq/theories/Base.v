(** Go semantics shared by all models: outcomes, machine integers, slices, loops.
    Nothing in this file is specific to powkit. *)
From Coq Require Import NArith List Bool.
Import ListNotations.
Open Scope N_scope.

(** ** Outcomes of running Go code *)

(** [Done a]: the code returned [a].  [Panic]: a run-time panic (index out of range,
    division by zero, nil dereference, explicit [panic]).  [OutOfFuel]: a loop that the
    model bounds by explicit fuel had not finished when the fuel was used up. *)
Inductive outcome (A : Type) : Type :=
| Done (a : A)
| Panic
| OutOfFuel.
Arguments Done {A} a.
Arguments Panic {A}.
Arguments OutOfFuel {A}.

Definition bind {A B} (m : outcome A) (k : A -> outcome B) : outcome B :=
  match m with
  | Done a => k a
  | Panic => Panic
  | OutOfFuel => OutOfFuel
  end.

Notation "x <- m ;; k" := (bind m (fun x => k))
  (at level 61, m at next level, right associativity).
Notation "' p <- m ;; k" := (bind m (fun x => let p := x in k))
  (at level 61, p pattern, m at next level, right associativity).

(** ** Machine integers: [N] truncated to a width *)

(** [trunc w x] is [x mod 2^w] (lemma [trunc_mod] in BaseFacts.v). *)
Definition trunc (w x : N) : N := N.land x (N.ones w).
Definition u8 (x : N) : N := trunc 8 x.
Definition u16 (x : N) : N := trunc 16 x.
Definition u32 (x : N) : N := trunc 32 x.
Definition u64 (x : N) : N := trunc 64 x.

(** Go [+], [*], [-], [<<], [^x] on an unsigned type of width [w]. *)
Definition addw (w a b : N) : N := trunc w (a + b).
Definition mulw (w a b : N) : N := trunc w (a * b).
Definition subw (w a b : N) : N := trunc w (a + 2 ^ w - b).
Definition shlw (w a s : N) : N := trunc w (N.shiftl a s).
Definition notw (w a : N) : N := N.lxor a (N.ones w).

(** Go idiom [x<<s | x>>(w-s)]; for [0 < s < w] a rotation to the left. *)
Definition rolw (w x s : N) : N := N.lor (shlw w x s) (N.shiftr x (w - s)).

(** Range predicates. *)
Definition isw (w x : N) : Prop := x < 2 ^ w.
Definition words (w : N) (l : list N) : Prop := Forall (isw w) l.
Definition bytes (l : list N) : Prop := words 8 l.

(** ** Slices *)

Definition lenN {A} (l : list A) : N := N.of_nat (length l).

(** [l[i]] with Go's bounds check. *)
Definition idx {A} (l : list A) (i : N) : outcome A :=
  match nth_error l (N.to_nat i) with
  | Some x => Done x
  | None => Panic
  end.

(** Replace the element at position [i] (no effect past the end). *)
Fixpoint set_nth {A} (l : list A) (i : nat) (v : A) : list A :=
  match l, i with
  | [], _ => []
  | _ :: t, O => v :: t
  | x :: t, S j => x :: set_nth t j v
  end.

(** [l[i] = v] with Go's bounds check. *)
Definition upd {A} (l : list A) (i : N) (v : A) : outcome (list A) :=
  if i <? lenN l then Done (set_nth l (N.to_nat i) v) else Panic.

(** [l[a:b]]; simplification: Go checks [b] against the capacity, the model against the
    length (every slice expression in the modelled code is on slices whose capacity beyond
    the length is never relied on). *)
Definition slice {A} (l : list A) (a b : N) : outcome (list A) :=
  if (a <=? b) && (b <=? lenN l)
  then Done (firstn (N.to_nat (b - a)) (skipn (N.to_nat a) l)) else Panic.

(** [l[a:]] *)
Definition slice_from {A} (l : list A) (a : N) : outcome (list A) :=
  slice l a (lenN l).

(** [copy(dst[off:], src)]: overwrite from [off], limited by the shorter one; panics when
    [off] exceeds the length. *)
Definition overwrite {A} (dst : list A) (off : nat) (src : list A) : list A :=
  firstn off dst ++ firstn (length dst - off) src ++ skipn (off + length src) dst.
Definition copy_at {A} (dst : list A) (off : N) (src : list A) : outcome (list A) :=
  if off <=? lenN dst then Done (overwrite dst (N.to_nat off) src) else Panic.

(** [make([]T, n)] *)
Definition zeros (n : N) : list N := repeat 0 (N.to_nat n).

(** Go [a % b], [a / b] on unsigned integers: panic when [b = 0]. *)
Definition modc (a b : N) : outcome N := if b =? 0 then Panic else Done (a mod b).
Definition divc (a b : N) : outcome N := if b =? 0 then Panic else Done (a / b).

(** ** Loops *)

(** [for i := start; <n iterations>; i++ { s = body i s }] *)
Fixpoint for_up {S} (n : nat) (i : N) (body : N -> S -> outcome S) (s : S) : outcome S :=
  match n with
  | O => Done s
  | S m => s' <- body i s ;; for_up m (i + 1) body s'
  end.

(** [for i := 0; i < n; i++] *)
Definition for_n {S} (n : N) (body : N -> S -> outcome S) (s : S) : outcome S :=
  for_up (N.to_nat n) 0 body s.

(** Early exit from a loop body: [Continue s] goes on, [Break r] leaves with [r]. *)
Inductive step (S R : Type) : Type :=
| Continue (s : S)
| Break (r : R).
Arguments Continue {S R} s.
Arguments Break {S R} r.

(** Fuelled [for { ... }] loop. *)
Fixpoint loop_fuel {S R} (fuel : nat) (body : S -> outcome (step S R)) (s : S) : outcome R :=
  match fuel with
  | O => OutOfFuel
  | S f =>
      st <- body s ;;
      match st with
      | Continue s' => loop_fuel f body s'
      | Break r => Done r
      end
  end.

(** [for i := start; <n iterations>; i++] with [return]/[break]: [inr s] means the loop ran
    to the end, [inl r] that the body left it with [r]. *)
Fixpoint for_break {S R} (n : nat) (i : N) (body : N -> S -> outcome (step S R)) (s : S)
  : outcome (R + S) :=
  match n with
  | O => Done (inr s)
  | S m =>
      st <- body i s ;;
      match st with
      | Continue s' => for_break m (i + 1) body s'
      | Break r => Done (inl r)
      end
  end.

(** ** Byte order (encoding/binary) *)

(** The two values of binary.ByteOrder the repository passes. *)
Inductive order := LittleEndian | BigEndian.

Fixpoint le_bytes (n : nat) (x : N) : list N :=
  match n with
  | O => []
  | S m => trunc 8 x :: le_bytes m (N.shiftr x 8)
  end.
Definition be_bytes (n : nat) (x : N) : list N := rev (le_bytes n x).

Fixpoint le_value (l : list N) : N :=
  match l with
  | [] => 0
  | b :: t => b + 256 * le_value t
  end.
Definition be_value (l : list N) : N := le_value (rev l).

(** byteOrder.Uint32(b), byteOrder.Uint64(b): read the first 4 / 8 bytes, panic if short. *)
Definition le_u32 (b : list N) : outcome N :=
  if 4 <=? lenN b then Done (le_value (firstn 4 b)) else Panic.
Definition be_u32 (b : list N) : outcome N :=
  if 4 <=? lenN b then Done (be_value (firstn 4 b)) else Panic.
Definition le_u64 (b : list N) : outcome N :=
  if 8 <=? lenN b then Done (le_value (firstn 8 b)) else Panic.
Definition be_u64 (b : list N) : outcome N :=
  if 8 <=? lenN b then Done (be_value (firstn 8 b)) else Panic.

(** [tab n g] is the list [g 0; ...; g (n-1)] (used by specifications). *)
Definition tab {A} (n : N) (g : N -> A) : list A :=
  map (fun i => g (N.of_nat i)) (seq 0 (N.to_nat n)).
