(** The repository's HeavyHash test vectors, replayed through the model with the real cSHAKE256 and
    unfused arithmetic.  They are checked with the virtual machine when this file is compiled and
    leave no proof terms behind. *)
From Coq Require Import NArith ZArith List Bool.
From Coq Require String.
From Verif Require Import Base CryptoModel Hashes HeavyModel PropsHeavy.
Import ListNotations.
Import String.StringSyntax.
Open Scope string_scope.
Open Scope list_scope.
Open Scope N_scope.

Definition cshake (data personal : list N) : list N := cshake256 personal 32 data.
Definition same_digest (r : outcome (option (list N))) (d : list N) : bool :=
  match r with Done (Some l) => if list_eq_dec N.eq_dec l d then true else false | _ => false end.

(** heavyhash_test.go, first vector *)
Check (eq_refl true <: same_digest (Compute unfused cshake 2
    (hex "81553a695a0588998c413792e74ce8b8f8a096d64b3ee47387372434485c0b6f") 0x000001848ca87c49 0x2f8400000eba167c)
  (hex "000000001726686e851f02c584d7cc8a8fbe5938ecdb3ffa2ba16c260ee1fc40") = true).

(** matrix_test.go, first vector: the last row *)
Check (eq_refl true <: match newMatrix unfused 2 0 0 0 1 with
  | Done m => if list_eq_dec N.eq_dec (nth 63 m []) [8; 7; 8; 7; 7; 5; 15; 8; 2; 0; 6; 5; 3; 4; 5; 4; 8; 4; 9; 9;
      2; 5; 2; 0; 2; 12; 3; 7; 7; 7; 10; 11; 10; 5; 7; 3; 11; 14; 14; 9; 3; 5; 14; 4; 0; 13; 7; 9; 15; 9; 8; 9;
      0; 4; 7; 4; 7; 4; 9; 8; 6; 8; 1; 10] then true else false
  | _ => false end = true).
