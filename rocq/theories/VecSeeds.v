(** C66 and C19-C21 ask that the names of the cache files of the served epochs differ, that is,
    that the seeds differ in their first eight bytes.  Here this is checked for Keccak-256 and
    the seeds of all served epochs of the five coins (Ethereum Classic goes up to the 4088th,
    the others to the 2044th).  The checks are replayed by the virtual machine when this file is
    compiled and are not part of any theorem. *)
From Coq Require Import NArith List Bool.
From Verif Require Import Base DagModel DagSpec FileJob Hashes PropsDagSize.
Import ListNotations.
Open Scope N_scope.

Fixpoint prefixes (n : nat) (s : list N) : list N :=
  match n with O => [] | S n => le_value (firstn 8 s) :: prefixes n (keccak256 s) end.
Fixpoint all_different (l : list N) : bool :=
  match l with [] => true | x :: l => negb (existsb (N.eqb x) l) && all_different l end.

Check (eq_refl true <: all_different (prefixes 4090 (repeat 0 32)) = true).

(** The seeds of the model are on that chain at these places. *)
Check (eq_refl true <:
  forallb (fun d => forallb (fun e =>
     let n := (e * cf_epoch_length d + 1) / cf_seed_epoch_length d in
     (n =? e) || ((n =? 2 * e) && (cf_epoch_length d =? 60000))) (map N.of_nat (seq 0 2046)))
   (shipped [46]) = true).
