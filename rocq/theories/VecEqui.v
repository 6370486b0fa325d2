(** The repository's Equihash test vectors, replayed through the model with the real BLAKE2b.  They are
    checked with the virtual machine when this file is compiled and leave no proof terms behind. *)
From Coq Require Import NArith ZArith List Bool.
From Coq Require String.
From Verif Require Import Base CryptoModel Hashes EquiModel.
Import ListNotations.
Import String.StringSyntax.
Open Scope string_scope.
Open Scope list_scope.
Open Scope N_scope.

Definition blake (size : N) (personal data : list N) : list N := blake2b (N.to_nat size) personal data.
Definition same (r : outcome (option (list N))) (d : list N) : bool :=
  match r with Done (Some l) => if list_eq_dec N.eq_dec l d then true else false | _ => false end.

(** equihash_test.go:11-102 *)
Check (eq_refl true <: same (expandArray (hex "ffffffffffffffffffffff") 11 0) (hex "07ff07ff07ff07ff07ff07ff07ff07ff") = true).
Check (eq_refl true <: same (expandArray (hex "aaaaad55556aaaab55555aaaaad55556aaaab55555") 21 0) (hex "155555155555155555155555155555155555155555155555") = true).
Check (eq_refl true <: same (expandArray (hex "000220000a7ffffe00123022b38226ac19bdf23456") 21 0) (hex "0000440000291fffff0001230045670089ab00cdef123456") = true).
Check (eq_refl true <: same (expandArray (hex "cccf333cccf333cccf333cccf333cccf333cccf333cccf333cccf333") 14 0) (hex "3333333333333333333333333333333333333333333333333333333333333333") = true).
Check (eq_refl true <: same (expandArray (hex "ffffffffffffffffffffff") 11 2) (hex "000007ff000007ff000007ff000007ff000007ff000007ff000007ff000007ff") = true).
(** equihash_test.go:104-173 *)
Check (eq_refl true <: same (indicesFromMinimal 80 3 (hex "000008000040000200001000008000040000200001")) [1; 1; 1; 1; 1; 1; 1; 1] = true).
Check (eq_refl true <: same (indicesFromMinimal 80 3 (hex "ffffffffffffffffffffffffffffffffffffffffff")) [2097151; 2097151; 2097151; 2097151; 2097151; 2097151; 2097151; 2097151] = true).
Check (eq_refl true <: same (indicesFromMinimal 80 3 (hex "0ffff8002003fffe000800ffff8002003fffe00080")) [131071; 128; 131071; 128; 131071; 128; 131071; 128] = true).
Check (eq_refl true <: same (indicesFromMinimal 80 3 (hex "000220000a7ffffe004d10014c800ffc00002fffff")) [68; 41; 2097151; 1233; 665; 1023; 1; 1048575] = true).
(** equihash_test.go:175-210 *)
Check (eq_refl true <: match Verify blake (fun _ => []) 0 (New 96 5 (ascii_bytes "ZcashPoW") false)
   (ascii_bytes "Equihash is an asymmetric PoW based on the Generalised Birthday problem." ++ hex "0100000000000000000000000000000000000000000000000000000000000000")
   (hex "046a8ed451a2197332e71f39db9c79fbf93fc1443da58fb38d0599172116d555b1b21f32705ce998f60da852f77f0e7f4d63fc2dd230a3d99953a0787dfefcab341bdec8") with Done (Some true) => true | _ => false end = true).
(** equihash_test.go:212-258 *)
Check (eq_refl true <: match Verify blake (fun _ => []) 20 NewFlux
   (hex "04000000389f266cdabe6a7c4e108814779ba13aa089431fba5149dfde20887e0900000024dd82bd2aedfdd633c49c12ad8144f590a2f23dd03d5f993a70dbc68a921dc2d9988e7adc9c6da15d12246eeb18623d1f8039f5ee6bcae29261e383248d752227ca9862b2fb1a1d2000c19a000000000000000000000000000000000000000000000000ba098e10")
   (hex "47729e612ed3c5c2dec26730db486d5e7d78d13b0735b2cddb54619f6f31a646178fb35f3f84636c5490edd4f6f9a5010f2aaac8") with Done (Some true) => true | _ => false end = true).
Check (eq_refl true <: same (Done (Some (c_personal NewFlux))) (ascii_bytes "ZelProof")
  && same (Done (Some (c_personal NewBitcoinGold))) (ascii_bytes "BgoldPoW")
  && same (Done (Some (c_personal NewZClassic))) (ascii_bytes "ZcashPoW")
  && same (Done (Some (c_personal NewZCash))) (ascii_bytes "ZcashPoW")
  && same (Done (Some (c_personal NewAion))) (ascii_bytes "AION0PoW") = true).
