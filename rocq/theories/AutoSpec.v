(** Autolykos v2, written from its definition. *)
From Coq Require Import NArith List Bool.
From Verif Require Import Base DagSpec.
Import ListNotations.
Open Scope N_scope.

(** The table size: [base] below height 614400; at that height and every 51200 blocks after it
    the size grows by five percent of its whole hundreds; final from height 4198400 on. *)
Definition grow (n : N) : N := n / 100 * 105.
Definition periods (height : N) : N :=
  if height <? 614400 then 0 else (N.min height 4198400 - 614400) / 51200 + 1.
Definition table_size (base height : N) : N := N.iter (periods height) grow base.

Definition big_endian (n : nat) (x : N) : list N := rev (map (fun i => x / 256 ^ N.of_nat i mod 256) (seq 0 n)).

Section Digest.
Variable H : list N -> list N.

(** The padding constant: 0 .. 1023 as 8-byte integers. *)
Definition pad_M : list N := concat (map (fun i => big_endian 8 (N.of_nat i)) (seq 0 1024)).
(** Element [i] of the table for a height: 31 bytes. *)
Definition element (height i : N) : list N := tl (H (big_endian 4 i ++ big_endian 4 height ++ pad_M)).
(** The seed of the index generator. *)
Definition auto_seed (msg : list N) (nonce height size : N) : list N :=
  let i := be_value (skipn 24 (H (msg ++ big_endian 8 nonce))) mod size in
  element height i ++ msg ++ big_endian 8 nonce.
(** Index [j]: four bytes of the seed's hash, repeated cyclically, from byte [j] on. *)
Definition auto_index (seed : list N) (size j : N) : N :=
  be_value (firstn 4 (skipn (N.to_nat j) (H seed ++ H seed))) mod size.
Definition auto_indexes (k : N) (msg : list N) (nonce height size : N) : list N :=
  tab k (auto_index (auto_seed msg nonce height size) size).
Definition auto_sum (k : N) (msg : list N) (nonce height size : N) : N :=
  fold_right N.add 0 (map (fun i => be_value (element height i)) (auto_indexes k msg nonce height size)).
(** The published definition hashes the sum as 32 bytes. *)
Definition auto_spec (k : N) (msg : list N) (nonce height size : N) : list N :=
  H (big_endian 32 (auto_sum k msg nonce height size)).
End Digest.
