(** The repository's Eaglesong test vector and the derivation of the injected constants, replayed
    through the model with the real SHAKE256.  They are checked with the virtual machine when this
    file is compiled and leave no proof terms behind. *)
From Coq Require Import NArith ZArith List Bool.
From Coq Require String.
From Verif Require Import Base CryptoModel Hashes EagleTables EagleModel.
Import ListNotations.
Import String.StringSyntax.
Open Scope string_scope.
Open Scope list_scope.
Open Scope N_scope.

Definition same (r : outcome (list N)) (d : list N) : bool :=
  match r with Done l => if list_eq_dec N.eq_dec l d then true else false | _ => false end.

(** eaglesong_test.go *)
Check (eq_refl true <: same (Compute NewNervos (ascii_bytes "Hello, world!" ++ [10]))
  (hex "64867e2441d162615dc2430b6bcb4d3f4b95e4d0db529fca1eece73c077d72d6") = true).

(** eaglesong_constants.go:128-151, the text whose SHAKE256 gives the constants. *)
Definition eagle_seed := ascii_bytes "The various ways in which the knowledge on which people base their plan is communicated to them is the crucial problem for any theory explaining the economic process, and the problem of what is the best way to utilizing knowledge initially dispersed among all the people is at least one of the main problems of economic policy - or of designing an efficient economic system.".
Check (eq_refl true <: same (generateInjectionConstants shake256 eagle_seed 43) injectionConstants = true).
