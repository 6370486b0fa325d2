(** The repository's BeamHash III test vectors (beamhashiii_test.go:7-99), replayed through the model with
    the real BLAKE2b, by the virtual machine when this file is compiled. *)
From Coq Require Import NArith ZArith List Bool.
From Coq Require String.
From Verif Require Import Base CryptoModel Hashes EquiModel BeamModel.
Import ListNotations.
Import String.StringSyntax.
Open Scope string_scope.
Open Scope list_scope.
Open Scope N_scope.

Definition blake (size : N) (personal data : list N) : list N := blake2b (N.to_nat size) personal data.
Definition accepted (header soln : list N) : bool :=
  match BeamVerify blake NewBeam header soln with Done (Some true) => true | _ => false end.
Check (eq_refl true <: accepted (hex "fc40996a518c221384c9f2542ca811cd66c4ccddb001ef40b9f9ba059c20352eb32c7d4f07a3001c")
  (hex "0fc81c684be229c36b844ef8299a9744dbb8727276bff8cbd610fa7414fb6cfd67b92586f84f8bffaeeb99266994d79da3fb026a24128b84901f244b08ee6b6b954372fcb0a7d33318da6bf1854ae48f94fe8af2d3147bdc7302cc12daa1a306511122a700000000") = true).
Check (eq_refl true <: accepted (hex "0a24ff76e1f53ddf605c66a21e9e67a68fd37ecdec17dad8500297622f9d9ad48f92d119df9a5346")
  (hex "559839f684c3bd54be265dc3cf50c66c084a61e9aaca8c1eca5eb8c6be10d91ec6002d58018c19984c47669a28874cb637ec59956424d23b1bba57bb7ff93ccd5f4617d4abb55fc01b15ced28866fc6c4582b85f9422524cf53e6f36c26be675f89ee3f200000000") = true).
Check (eq_refl true <: accepted (hex "f24852b0580aa448e0cbed5ee84d235ce622b8e443561dbcf196148df2fc024e8f92d119f597eea8")
  (hex "8dd20dcc03d033a2230a871f8ec10a73ad3475e57e4fdc00fedb5851a45b7945a8888cc19ed9e2dfce8eb9b1d037c5dd8cc66aed275019f1fe765b8944f855cc050e7080fddf74d55268fb7df22d28f0e5d64616a291e3abb842d6f8eebd4bfae719abd800000000") = true).
(** One bit of the nonce changed: rejected. *)
Check (eq_refl true <: negb (accepted (hex "fc40996a518c221384c9f2542ca811cd66c4ccddb001ef40b9f9ba059c20352eb32c7d4f07a3001c")
  (hex "0fc81c684be229c36b844ef8299a9744dbb8727276bff8cbd610fa7414fb6cfd67b92586f84f8bffaeeb99266994d79da3fb026a24128b84901f244b08ee6b6b954372fcb0a7d33318da6bf1854ae48f94fe8af2d3147bdc7302cc12daa1a306511122a700000001")) = true).
Check (eq_refl true <: (if list_eq_dec N.eq_dec (bc_personal NewBeam) (ascii_bytes "Beam-PoW") then true else false) = true).
