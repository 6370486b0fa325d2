(** BeamHash III, written from its definition. *)
From Coq Require Import NArith List Bool.
From Verif Require Import Base CryptoSpec.
Import ListNotations.
Open Scope N_scope.

(** The number with the given 25-bit digits, least significant first. *)
Definition pack25 (l : list N) : N := fold_right (fun i a => i + 2 ^ 25 * a) 0 l.
(** Bits of work left at height [h] of the tree. *)
Definition width (h : nat) : N := nth h [448; 424; 400; 376; 288; 24] 24.
(** As many 25-bit indices as are needed to fill up 512 bits. *)
Definition fill (h : nat) : nat := N.to_nat ((512 - width h + 24) / 25).
(** The work bits followed by the first indices of the subtree. *)
Definition lined (h : nat) (x : N) (l : list N) : N := x + 2 ^ width h * pack25 (firstn (fill h) l).
(** Sum of the eight 64-bit words, word [i] rotated by [29 (i + 1)], rotated by 24. *)
Definition word64 (t i : N) : N := t / 2 ^ (64 * i) mod 2 ^ 64.
Definition mix_word (t : N) : N :=
  rotate 64 (fold_right N.add 0 (tab 8 (fun i => rotate 64 (word64 t i) (29 * (i + 1) mod 64))) mod 2 ^ 64) 24.
(** The work bits with their low 64 bits replaced by the mix. *)
Definition mix (h : nat) (x : N) (l : list N) : N := x / 2 ^ 64 * 2 ^ 64 + mix_word (lined h x l).

Section Tree.
  Variable leaf : N -> N.
  (** Work bits of the subtree over [2 ^ h] indices. *)
  Fixpoint work (h : nat) (l : list N) : N :=
    match h with
    | O => leaf (hd 0 l)
    | S h' =>
        let a := firstn (Nat.pow 2 h') l in
        let b := skipn (Nat.pow 2 h') l in
        N.lxor (mix h' (work h' a) a) (mix h' (work h' b) b) / 2 ^ 24 mod 2 ^ width h
    end.
  (** Both halves are trees, in order of their first index, disjoint, and collide on the low 24 bits of
      their mixed work. *)
  Fixpoint btree (h : nat) (l : list N) : Prop :=
    match h with
    | O => True
    | S h' =>
        let a := firstn (Nat.pow 2 h') l in
        let b := skipn (Nat.pow 2 h') l in
        btree h' a /\ btree h' b /\ hd 0 a < hd 0 b /\ (forall i, In i a -> ~ In i b) /\
        mix h' (work h' a) a mod 2 ^ 24 = mix h' (work h' b) b mod 2 ^ 24
    end.
  Definition beam_solution (l : list N) : Prop := length l = 32%nat /\ btree 5 l /\ work 5 l = 0.
End Tree.

(** Key: BLAKE2b-256 of header and nonce, personalised with the text, 448 and 5; four little-endian words. *)
Definition beam_key (blake : N -> list N -> list N -> list N) (personal header nonce : list N) : sipstate :=
  let h := blake 32 (personal ++ le_bytes 4 448 ++ le_bytes 4 5) (header ++ nonce) in
  let w i := le_value (firstn 8 (skipn (8 * i) h)) in (w 0%nat, w 1%nat, w 2%nat, w 3%nat).
(** Leaf of index [i]: seven SipHash-2-4 words of messages [8 i + j]. *)
Definition beam_leaf (key : sipstate) (i : N) : N :=
  fold_right N.add 0 (tab 7 (fun j => 2 ^ (64 * j) * sip_out (sip_compress 2 4 key (8 * i + j)))).
(** The indices of a solution: the 25-bit digits of its first 100 bytes read as a little-endian number. *)
Definition beam_indices (soln : list N) : list N :=
  tab 32 (fun i => le_value (firstn 100 soln) / 2 ^ (25 * i) mod 2 ^ 25).
Definition beam_nonce (soln : list N) : list N := skipn 100 soln.
