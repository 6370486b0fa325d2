(** The repository's test vectors for Autolykos2, replayed through the model with the real BLAKE2b.
    They are checked with the virtual machine when this file is compiled and leave no proof terms
    behind. *)
From Coq Require Import NArith List Bool.
From Coq Require String.
From Verif Require Import Base CryptoModel Hashes AutoModel.
Import ListNotations.
Import String.StringSyntax.
Open Scope string_scope.
Open Scope list_scope.
Open Scope N_scope.

Definition same (a b : list N) : bool := if list_eq_dec N.eq_dec a b then true else false.
Definition done {A} (r : outcome A) (p : A -> bool) : bool := match r with Done x => p x | _ => false end.

(** autolykos2_test.go:10-69 *)
Check (eq_refl true <: forallb (fun '(h, v) => done (calcN (2 ^ 26) h) (N.eqb v))
  [(500000, 67108864); (600000, 67108864); (614400, 70464240); (665600, 73987410); (700000, 73987410); (788400, 81571035); (1051200, 104107290); (4198400, 2143944600); (41984000, 2143944600)] = true).
(** autolykos2_test.go:71-106, the first two *)
Check (eq_refl true <: done (Compute blake2b_256 newErgo (hex "548c3e602a8f36f8f2738f5f643b02425038044d98543a51cabaa9785e7e864f") 614400 0x3105)
  (fun r => match r with Some d => same d (hex "0002fcb113fe65e5754959872dfdbffea0489bf830beb4961ddc0e9e66a1412a") | None => false end) = true).
Check (eq_refl true <: done (Compute blake2b_256 newErgo (hex "8e26ba46cd2516cce5c0573dc92c6de8f1b7f110bee9aca4d196e5e0e391d029") 771223 0x062360e36e133e4d)
  (fun r => match r with Some d => same d (hex "000000006b216892578fad42f928c9a19638a2abb667a5a8113311393dcca017") | None => false end) = true).
