(** Octopus, written from its definition (Conflux): arithmetic modulo the prime p = 1032193 with
    the primitive root 11, on unbounded integers. *)
From Coq Require Import NArith List Bool.
From Verif Require Import Base CryptoSpec DagSpec EthashSpec.
Import ListNotations.
Open Scope N_scope.

Definition p : N := 1032193.

Definition sum (l : list N) : N := fold_right N.add 0 l.
Definition upto (n : N) : list N := map N.of_nat (seq 1 (N.to_nat n)).

(** The largest divisor of [e] that is coprime to p - 1. *)
Definition unit_part (e : N) : N :=
  fold_right N.max 1 (filter (fun d => (e mod d =? 0) && (N.gcd d (p - 1) =? 1)) (upto e)).
(** The coefficient derived from a 64-bit word. *)
Definition coefficient (h : N) : N := 11 ^ unit_part (h mod (p - 2) + 1) mod p.
(** [g] generates the multiplicative group modulo p. *)
Definition generator (g : N) : Prop := forall y, 1 <= y -> y < p -> exists k, g ^ k mod p = y.
(** The quadratic a x^2 + b x + c is degenerate when b^2 = 4 a c. *)
Definition degenerate (a b c : N) : Prop := (b * b) mod p = (4 * a * c) mod p.

(** Coefficient [32 j + i] of the polynomial: SipHash-2-4 on the number of thread [i] of the
    nonce's group of 32, then [j + 1] more rounds. *)
Definition sip_coefficient (key : sipstate) (nonce k : N) : N :=
  let s := sip_compress 2 4 key (32 * (nonce / 32) + k mod 32) in
  sip_out (N.iter (k / 32 + 1) sipround s) mod 2 ^ 32 mod p.
Definition poly_value (coeff : N -> N) (x : N) : N :=
  sum (map (fun k => coeff (N.of_nat k) * x ^ N.of_nat k) (seq 0 (N.to_nat 1024))) mod p.
(** Evaluation point [i] of a nonce. *)
Definition eval_point (a b c w nonce i : N) : N :=
  let m := nonce mod 32 + 32 * i in (a * w ^ (2 * m) + b * w ^ m + c) mod p.

(** FNV-1 on 64-bit words. *)
Definition fnv64 (u v : N) : N := N.lxor ((u * 16777619) mod 2 ^ 64) v.

(** The mix of 64 words after [i] accesses to a dataset of [pages] pages of four items. *)
Fixpoint octopus_mix (half : list N) (values : list N) (pages : N) (item : N -> list N) (i : nat) : list N :=
  match i with
  | O => le_words 16 half ++ le_words 16 half ++ le_words 16 half ++ le_words 16 half
  | S j =>
      let mix := octopus_mix half values pages item j in
      let q := fnv (N.lxor (N.lxor (le_value (firstn 4 half)) (N.of_nat j)) (nth j values 0)) (nth j mix 0) mod pages in
      map (fun '(a, b) => fnv a b)
        (combine mix (item (4 * q) ++ item (4 * q + 1) ++ item (4 * q + 2) ++ item (4 * q + 3)))
  end.
(** Sixteen words from the mix, four into one; then the first eight against the last eight. *)
Definition octopus_compress (mix : list N) : list N :=
  let r := fold_words mix in
  map (fun '(a, b) => fnv a b) (combine (firstn 8 r) (skipn 8 r)).

Section Digest.
Variables H512 H256 : list N -> list N.

Definition word64 (header : list N) (i : nat) : N := le_value (firstn 8 (skipn (8 * i) header)).
(** The digest, for the coefficient [c] of the quadratic. *)
Definition octopus_spec (header : list N) (c nonce pages : N) (item : N -> list N) : list N :=
  let key := (word64 header 0, word64 header 1, word64 header 2, word64 header 3) in
  let a := coefficient (word64 header 0) in
  let b := coefficient (word64 header 1) in
  let w := coefficient (word64 header 3) in
  let values := tab 32 (fun i => poly_value (sip_coefficient key nonce) (eval_point a b c w nonce i)) in
  let half := H512 (header ++ le_bytes 8 (fold_left fnv64 values 0)) in
  let mix := octopus_mix half values pages item 32 in
  H256 (half ++ words_bytes (octopus_compress mix)).
End Digest.
