(** Eaglesong, written from its definition.  The bit matrix, the rotation amounts and the injected
    constants are parameters of the definition; the published constants are the first bytes of the
    SHAKE256 of a text. *)
From Coq Require Import NArith List Bool.
From Verif Require Import Base CryptoSpec EagleTables.
Import ListNotations.
Open Scope N_scope.

Definition word (s : list N) (j : N) : N := nth (N.to_nat j) s 0.
Definition xor_all (l : list N) : N := fold_right N.lxor 0 l.
(** Bit matrix: output word [j] is the sum, without carries, of the input words selected by column [j]. *)
Definition selected (k j : N) : bool := word bitMatrix (16 * k + j) =? 1.
Definition bit_mix (s : list N) : list N :=
  tab 16 (fun j => xor_all (tab 16 (fun k => if selected k j then word s k else 0))).
(** Circulant: each word plus two rotations of itself. *)
Definition circ (a b v : N) : N := N.lxor v (N.lxor (rotate 32 v a) (rotate 32 v b)).
Definition circulant (s : list N) : list N :=
  tab 16 (fun j => circ (word coefficients (3 * j + 1)) (word coefficients (3 * j + 2)) (word s j)).
Definition inject (i : N) (s : list N) : list N :=
  tab 16 (fun j => N.lxor (word s j) (word injectionConstants (16 * i + j))).
(** Addition, rotation, addition on pairs of words. *)
Definition arx_pair (x y : N) : N * N :=
  let x' := rotate 32 ((x + y) mod 2 ^ 32) 8 in (x', (x' + rotate 32 y 24) mod 2 ^ 32).
Fixpoint arx (s : list N) : list N :=
  match s with
  | x :: y :: t => let (x', y') := arx_pair x y in x' :: y' :: arx t
  | _ => s
  end.
Definition eagle_round (i : N) (s : list N) : list N := arx (inject i (circulant (bit_mix s))).
Fixpoint eagle_perm (rounds : nat) (s : list N) : list N :=
  match rounds with O => s | S n => eagle_round (N.of_nat n) (eagle_perm n s) end.

(** Word [w] absorbed for an input: the bytes [4 w .. 4 w + 3] of the input followed by the delimiter,
    as far as they exist, as a big-endian number; 0 beyond. *)
Definition eagle_word (delim : N) (input : list N) (w : N) : N :=
  be_value (firstn 4 (skipn (N.to_nat (4 * w)) (input ++ [delim]))).
(** Blocks of [r] words, as many as needed to hold the input and the delimiter. *)
Definition eagle_blocks (r len : N) : N := (len + 1 + 4 * r - 1) / (4 * r).
Definition absorb_block (rounds : nat) (r : N) (s : list N) (block : N -> N) : list N :=
  eagle_perm rounds (tab 16 (fun j => if j <? r then N.lxor (word s j) (block j) else word s j)).
Fixpoint absorb (rounds : nat) (r : N) (words : N -> N) (blocks : nat) : list N :=
  match blocks with
  | O => repeat 0 16
  | S n => absorb_block rounds r (absorb rounds r words n) (fun j => words (r * N.of_nat n + j))
  end.
(** Output block [i]: the first [r] words of the state after [i] more permutations, little-endian. *)
Fixpoint squeezed (rounds : nat) (s : list N) (i : nat) : list N :=
  match i with O => s | S n => eagle_perm rounds (squeezed rounds s n) end.
Definition out_block (rounds : nat) (r : N) (s : list N) (i : nat) : list N :=
  flat_map (le_bytes 4) (firstn (N.to_nat r) (squeezed rounds s i)).
Definition eagle_spec (rounds capacity r delim : N) (input : list N) : list N :=
  let s := absorb (N.to_nat rounds) r (eagle_word delim input) (N.to_nat (eagle_blocks r (lenN input))) in
  let n := capacity / (4 * r) in
  concat (map (out_block (N.to_nat rounds) r s) (seq 0 (N.to_nat n))) ++ zeros (capacity - 4 * r * n).
