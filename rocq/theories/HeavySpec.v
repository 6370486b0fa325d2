(** HeavyHash, written from its definition. *)
From Coq Require Import NArith ZArith List Bool.
From Verif Require Import Base CryptoSpec.
Import ListNotations.
Open Scope N_scope.

(** Little-endian value of the [k]-th group of eight bytes. *)
Definition seed_word (hash : list N) (k : nat) : N := le_value (firstn 8 (skipn (8 * k) hash)).
Definition seed_state (hash : list N) : xostate :=
  (seed_word hash 0, seed_word hash 1, seed_word hash 2, seed_word hash 3).

(** Output [n] of the generator, counting from 0. *)
Definition xo_nth (s : xostate) (n : N) : N := xo_output (N.iter n xo_step s).
(** Entry (i, j) of candidate matrix [t], counting from 0: 64 rows of 64 entries of four bits, each
    row taken from four consecutive outputs, the low bits of an output first. *)
Definition candidate (s : xostate) (t i j : N) : N := xo_nth s (256 * t + 4 * i + j / 16) / 16 ^ (j mod 16) mod 16.

Section Digest.
(** cSHAKE256 of the first argument customised by the second, 32 bytes. *)
Variable cshake : list N -> list N -> list N.
Variable pow_name heavy_name : list N.

Definition heavy_header (hash : list N) (timestamp : Z) (nonce : N) : list N :=
  hash ++ le_bytes 8 (Z.to_N (timestamp mod 2 ^ 64)) ++ repeat 0 32 ++ le_bytes 8 nonce.
(** Nibble [j] of a byte string, high nibble first. *)
Definition nibble (b : list N) (j : N) : N :=
  let x := nth (N.to_nat (j / 2)) b 0 in if N.even j then x / 16 else x mod 16.
Definition dot (M : N -> N) (v : N -> N) : N := fold_right N.add 0 (tab 64 (fun j => M j * v j)).
Definition heavy_spec (M : N -> N -> N) (hash : list N) (timestamp : Z) (nonce : N) : list N :=
  let pow := cshake (heavy_header hash timestamp nonce) pow_name in
  let p i := dot (M i) (nibble pow) / 2 ^ 10 in
  rev (cshake (tab 32 (fun i => N.lxor (nth (N.to_nat i) pow 0) (16 * p (2 * i) + p (2 * i + 1)))) heavy_name).
End Digest.
