(** Vocabulary of C71: what a slice holds. *)
From Coq Require Import NArith List.
From Verif Require Import Base MemModel.
Import ListNotations.
Open Scope N_scope.

(** A slice header is valid when the slice up to its capacity lies inside its array: every slice of a Go program
    is. *)
Definition valid (m : memory) (s : sl) : Prop := s_len s <= s_cap s /\ s_off s + s_cap s <= lenN (m (s_loc s)).
(** The elements of a slice. *)
Definition contents (m : memory) (s : sl) : list N := firstn (N.to_nat (s_len s)) (skipn (N.to_nat (s_off s)) (m (s_loc s))).

(** The answer of a call: an error, or slices and numbers.  [answers me m a v]: in memory [m] the answer [a] of
    call [me] says [v]; its slices are in arrays which the call made, no two in the same. *)
Definition answer : Type := option (list sl * list N).
Definition value : Type := option (list (list N) * list N).
Definition answers (me : N) (m : memory) (a : answer) (v : value) : Prop :=
  match a, v with
  | None, None => True
  | Some (ss, ns), Some (ls, ns') =>
      (forall s, In s ss -> valid m s /\ owner (s_loc s) = me) /\ map (contents m) ss = ls /\ ns = ns' /\
      NoDup (map s_loc ss)
  | _, _ => False
  end.
