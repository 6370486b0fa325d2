(** Hashimoto, written from the ethash specification: lists and unbounded integers, a dataset
    given as a function from item numbers to items of 16 words. *)
From Coq Require Import NArith List.
From Verif Require Import Base DagSpec.
Import ListNotations.
Open Scope N_scope.

Section Hashimoto.
Variable H512 H256 : list N -> list N.

(** The seed: H512 of the header hash followed by the nonce, least significant byte first. *)
Definition nonce_seed (header : list N) (nonce : N) : list N := H512 (header ++ le_bytes 8 nonce).

(** The mix after [i] accesses to a dataset of [pages] pages of two items: initially the seed
    words twice; access [i] picks the page fnv(i xor s[0], mix[i mod 32]) mod pages. *)
Fixpoint hashimoto_mix (seed : list N) (pages : N) (item : N -> list N) (i : nat) : list N :=
  match i with
  | O => le_words 16 seed ++ le_words 16 seed
  | S j =>
      let mix := hashimoto_mix seed pages item j in
      let p := fnv (N.lxor (N.of_nat j) (le_value (firstn 4 seed))) (nth (Nat.modulo j 32) mix 0) mod pages in
      map (fun '(a, b) => fnv a b) (combine mix (item (2 * p) ++ item (2 * p + 1)))
  end.

(** Four words into one, repeatedly. *)
Fixpoint fold_words (mix : list N) : list N :=
  match mix with
  | a :: b :: c :: d :: t => fnv (fnv (fnv a b) c) d :: fold_words t
  | _ => []
  end.

Definition hashimoto_spec (header : list N) (nonce pages : N) (item : N -> list N) : list N * list N :=
  let seed := nonce_seed header nonce in
  let cmix := words_bytes (fold_words (hashimoto_mix seed pages item 64)) in
  (cmix, H256 (seed ++ cmix)).
End Hashimoto.
