(** Specification of epochs, sizes, seeds, the verification cache and dataset items, written
    from the ethash specification (row lists, unbounded integers), without reference to the
    model. *)
From Coq Require Import NArith ZArith List Bool Znumtheory.
From Verif Require Import Base.
Import ListNotations.
Open Scope N_scope.

(** [pp] answers primality correctly for 64-bit numbers. *)
Definition primality_test (pp : N -> bool) : Prop :=
  forall n, n < 2 ^ 64 -> (pp n = true <-> prime (Z.of_N n)).

(** [s] is the size for the nominal size [nominal] (bytes) in units of [unit] bytes: the
    largest number of bytes below [nominal] that is an odd number of units short of it
    and whose number of units is prime. *)
Definition candidate (nominal unit s : N) : Prop :=
  exists k, s + (2 * k + 1) * unit = nominal.
Definition prime_size (nominal unit s : N) : Prop :=
  candidate nominal unit s /\ N.divide unit s /\ prime (Z.of_N (s / unit)) /\
  forall s', candidate nominal unit s' -> s < s' -> ~ prime (Z.of_N (s' / unit)).

(** Position [n] of the seed chain. *)
Fixpoint seed_chain (H : list N -> list N) (n : nat) : list N :=
  match n with
  | O => repeat 0 32
  | S m => H (seed_chain H m)
  end.

(** A hash function with outputs of [k] bytes. *)
Definition hash_ok (k : nat) (H : list N -> list N) : Prop :=
  forall b, length (H b) = k /\ bytes (H b).

(** ** The verification cache: a list of 64-byte rows *)

Definition xor_rows (a b : list N) : list N := map (fun '(x, y) => N.lxor x y) (combine a b).

(** Rows 0..n-1 of the initial fill: H(seed), H(H(seed)), ... *)
Fixpoint initial_rows (H : list N -> list N) (seed : list N) (n : nat) : list (list N) :=
  match n with
  | O => []
  | S m => H seed :: initial_rows H (H seed) m
  end.

(** One replacement of RandMemoHash: row [i] becomes H(row[i-1 mod n] xor row[v]) with [v]
    the little-endian first word of row [i], modulo n. *)
Definition memo_row (H : list N -> list N) (rows : list (list N)) (i : nat) : list (list N) :=
  let n := length rows in
  let v := N.to_nat (le_value (firstn 4 (nth i rows [])) mod N.of_nat n) in
  let p := Nat.modulo (i + n - 1) n in
  firstn i rows ++ [H (xor_rows (nth p rows []) (nth v rows []))] ++ skipn (S i) rows.

Definition memo_round (H : list N -> list N) (rows : list (list N)) : list (list N) :=
  fold_left (memo_row H) (seq 0 (length rows)) rows.

Definition cache_rows (H : list N -> list N) (seed : list N) (n rounds : nat) : list (list N) :=
  Nat.iter rounds (memo_round H) (initial_rows H seed n).

(** ** Dataset items, over caches given as rows of 16 words *)

(** Words of a byte row (little endian) and back. *)
Fixpoint le_words (n : nat) (b : list N) : list N :=
  match n with
  | O => []
  | S m => le_value (firstn 4 b) :: le_words m (skipn 4 b)
  end.
Definition words_bytes (l : list N) : list N := flat_map (le_bytes 4) l.

Definition fnv (u v : N) : N := N.lxor ((u * 0x01000193) mod 2 ^ 32) v.

(** H512 on words. *)
Definition hash_words (H : list N -> list N) (l : list N) : list N := le_words 16 (H (words_bytes l)).

Definition xor_head (i : N) (l : list N) : list N :=
  match l with
  | [] => []
  | x :: t => N.lxor x i :: t
  end.

(** The mix after [j] parents. *)
Fixpoint item_mix (H : list N -> list N) (cache : list (list N)) (i : N) (j : nat) : list N :=
  let n := N.of_nat (length cache) in
  match j with
  | O => hash_words H (xor_head i (nth (N.to_nat (i mod n)) cache []))
  | S j' =>
      let mix := item_mix H cache i j' in
      let p := fnv (N.lxor i (N.of_nat j')) (nth (Nat.modulo j' 16) mix 0) mod n in
      map (fun '(a, b) => fnv a b) (combine mix (nth (N.to_nat p) cache []))
  end.

(** Dataset item [i] (16 words). *)
Definition dataset_item (H : list N -> list N) (parents : nat) (cache : list (list N)) (i : N)
  : list N := hash_words H (item_mix H cache i parents).

(** A well-formed cache: at least one row, 16 words of 32 bits each. *)
Definition cache_ok (cache : list (list N)) : Prop :=
  cache <> [] /\ Forall (fun r => length r = 16%nat /\ words 32 r) cache.

(** ** Reading back a generated table *)

(** The decimal numbers in a text: each maximal group of ASCII digits. *)
Fixpoint read_numbers (cur : option N) (text : list N) : list N :=
  match text with
  | [] => match cur with Some v => [v] | None => [] end
  | c :: t =>
      if (48 <=? c) && (c <=? 57)
      then read_numbers (Some (10 * match cur with Some v => v | None => 0 end + (c - 48))) t
      else match cur with
           | Some v => v :: read_numbers None t
           | None => read_numbers None t
           end
  end.
(** The part of a text after the first opening brace. *)
Fixpoint after_brace (text : list N) : list N :=
  match text with
  | [] => []
  | c :: t => if c =? 123 then t else after_brace t
  end.
(** The entries of a Go composite literal of numbers. *)
Definition literal_entries (text : list N) : list N := read_numbers None (after_brace text).
