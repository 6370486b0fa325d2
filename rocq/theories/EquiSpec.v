(** Equihash, written from its definition. *)
From Coq Require Import NArith List Bool.
From Verif Require Import Base.
Import ListNotations.
Open Scope N_scope.

(** ** Bit groups *)
(** Group [g] of [b] bits of a byte string read as one big-endian bit string. *)
Definition group (b : N) (l : list N) (g : N) : N := be_value l / 2 ^ (8 * lenN l - b * (g + 1)) mod 2 ^ b.
Definition groups (b : N) (l : list N) : list N := tab (8 * lenN l / b) (group b l).
(** Bytes needed for [b] bits. *)
Definition bytes_of_bits (b : N) : N := (b + 7) / 8.
(** Every group as a big-endian number with [pad] extra zero bytes in front. *)
Definition expanded (b pad : N) (l : list N) : list N :=
  concat (map (fun v => repeat 0 (N.to_nat pad) ++ be_bytes (N.to_nat (bytes_of_bits b)) v) (groups b l)).
(** The number made of [b]-bit digits, most significant first. *)
Definition packed (b : N) (vs : list N) : N := fold_left (fun a v => a * 2 ^ b + v) vs 0.

(** ** Solutions *)
Section Conditions.
  (** [digit i d]: digit [d] of the hash of index [i]. *)
  Variable digit : N -> N -> N.
  Definition xor_digit (d : N) (l : list N) : N := fold_right (fun i a => N.lxor (digit i d) a) 0 l.
  (** A tree of height [h] over a list of [2 ^ h] indices: both halves are trees, the first index of the
      left half is below that of the right half, the halves share no index, and the halves collide on
      the digit of their level. *)
  Fixpoint tree (h : nat) (l : list N) : Prop :=
    match h with
    | O => True
    | S h' =>
        let a := firstn (Nat.pow 2 h') l in
        let b := skipn (Nat.pow 2 h') l in
        tree h' a /\ tree h' b /\ hd 0 a < hd 0 b /\ (forall i, In i a -> ~ In i b) /\
        xor_digit (N.of_nat h') a = xor_digit (N.of_nat h') b
    end.
  (** A solution: a tree whose digits above those of the levels cancel. *)
  Definition solution (k : N) (l : list N) : Prop :=
    length l = N.to_nat (2 ^ k) /\ tree (N.to_nat k) l /\ xor_digit k l = 0.
End Conditions.

(** Bits per digit. *)
Definition digit_bits (n k : N) : N := n / (k + 1).
(** Length in bytes of a packed solution: [2 ^ k] indices of one bit more than a digit. *)
Definition solution_length (n k : N) : N := 2 ^ k * (digit_bits n k + 1) / 8.
(** Bytes of one leaf hash, leaf hashes per BLAKE2b output. *)
Definition leaf_length (n : N) : N := bytes_of_bits n.
Definition leaves_per_hash (n : N) : N := 512 / n.
(** The bytes of leaf [i], given the hash of each group of leaves. *)
Definition leaf (n : N) (hash : N -> list N) (i : N) : list N :=
  firstn (N.to_nat (leaf_length n))
    (skipn (N.to_nat (i mod leaves_per_hash n * leaf_length n)) (hash (i / leaves_per_hash n))).
Definition leaf_digit (n k : N) (hash : N -> list N) (i d : N) : N := group (digit_bits n k) (leaf n hash i) d.

(** Hash of group [g]: BLAKE2b of the header and [g], personalised with the text, [n] and [k]. *)
Definition plain_hash (blake : N -> list N -> list N -> list N) (n k : N) (personal header : list N) (g : N) : list N :=
  blake (leaves_per_hash n * leaf_length n) (personal ++ le_bytes 4 n ++ le_bytes 4 k) (header ++ le_bytes 4 g).
(** ZelHash: the lane-wise sum modulo [2 ^ 32] of the hashes of the groups from [g] rounded down to a
    multiple of 16 up to [g], with the low three bits of every sixteenth byte cleared. *)
Definition lane (h : list N) (i : N) : N := le_value (firstn 4 (skipn (N.to_nat (4 * i)) h)).
Definition sum_lanes (hs : list (list N)) : list N :=
  tab 16 (fun i => fold_right (fun h a => (lane h i + a) mod 2 ^ 32) 0 hs).
Definition clear_low3 (h : list N) : list N :=
  tab (lenN h) (fun j => let b := nth (N.to_nat j) h 0 in if j mod 16 =? 15 then b - b mod 8 else b).
Definition twisted_hash (blake : N -> list N -> list N -> list N) (n k : N) (personal header : list N) (g : N) : list N :=
  let first := g / 16 * 16 in
  clear_low3 (flat_map (le_bytes 4)
    (sum_lanes (tab (g - first + 1) (fun t => plain_hash blake n k personal header (first + t))))).
Definition group_hash blake (n k : N) (personal header : list N) (twist : bool) : N -> list N :=
  if twist then twisted_hash blake n k personal header else plain_hash blake n k personal header.
