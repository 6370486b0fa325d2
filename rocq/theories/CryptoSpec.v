(** Independent specifications for the crypto primitives: positional arithmetic, no Go idioms. *)
From Coq Require Import NArith List.
From Verif Require Import Base.
Import ListNotations.
Open Scope N_scope.

(** Rotation to the left by [s < w] of a [w]-bit word, arithmetically. *)
Definition rotate (w x s : N) : N := (x * 2 ^ s) mod 2 ^ w + x / 2 ^ (w - s).

(** Byte [j] (little-endian numbering) of a number. *)
Definition byte_of (x j : N) : N := (x / 256 ^ j) mod 256.

(** Byte at position [j] of the [k]-byte encoding of [x] in the given byte order. *)
Definition digit (o : order) (k : N) (x j : N) : N :=
  match o with LittleEndian => byte_of x j | BigEndian => byte_of x (k - 1 - j) end.

(** ** SipHash (Aumasson, Bernstein), on four 64-bit words. *)
Definition sipstate := (N * N * N * N)%type.
Definition sip_valid (s : sipstate) : Prop :=
  let '(a, b, c, d) := s in a < 2 ^ 64 /\ b < 2 ^ 64 /\ c < 2 ^ 64 /\ d < 2 ^ 64.
Definition half_left (s : sipstate) : sipstate :=   (* first column of ARX operations *)
  let '(a, b, c, d) := s in
  let a' := (a + b) mod 2 ^ 64 in
  let c' := (c + d) mod 2 ^ 64 in
  (rotate 64 a' 32, N.lxor (rotate 64 b 13) a', c', N.lxor (rotate 64 d 16) c').
Definition half_right (s : sipstate) : sipstate :=  (* second column *)
  let '(a, b, c, d) := s in
  let a' := (a + d) mod 2 ^ 64 in
  let c' := (c + b) mod 2 ^ 64 in
  (a', N.lxor (rotate 64 b 17) c', rotate 64 c' 32, N.lxor (rotate 64 d 21) a').
Definition sipround (s : sipstate) : sipstate := half_right (half_left s).

(** SipHash-c-d compression of one message word followed by finalisation, whole state. *)
Definition sip_compress (c d : N) (s : sipstate) (m : N) : sipstate :=
  let '(v0, v1, v2, v3) := s in
  let '(v0, v1, v2, v3) := N.iter c sipround (v0, v1, v2, N.lxor v3 m) in
  N.iter d sipround (N.lxor v0 m, v1, N.lxor v2 255, v3).
Definition sip_out (s : sipstate) : N :=
  let '(a, b, c, d) := s in N.lxor (N.lxor a b) (N.lxor c d).

(** Endpoint of an edge in the Cuckoo graph. *)
Definition cuckoo_node (mask : N) (key : sipstate) (edge side : N) : N :=
  N.land (sip_out (sip_compress 2 4 key ((2 * edge + side) mod 2 ^ 64))) mask.
Definition cuckoo_node_rot (mask : N) (key : sipstate) (edge side : N) : N :=
  N.land (rotate 64 (sip_out (sip_compress 2 4 key ((2 * edge + side) mod 2 ^ 64))) 17) mask.

(** Cuckaroo: edges in blocks of 64; the hash state runs through the block; every value but the
    last is xored with the last. *)
Fixpoint block_state (key : sipstate) (e0 : N) (k : nat) : sipstate :=
  match k with
  | O => key
  | S j => sip_compress 4 8 (block_state key e0 j) (e0 + N.of_nat j)
  end.
Definition block_value (key : sipstate) (e0 : N) (j : N) : N :=
  sip_out (block_state key e0 (S (N.to_nat j))).
Definition cuckaroo_block (key : sipstate) (edge : N) : N :=
  let e0 := 64 * (edge / 64) in
  let j := edge mod 64 in
  if j =? 63 then block_value key e0 63
  else N.lxor (block_value key e0 j) (block_value key e0 63).

(** ** xoshiro256++ (Blackman, Vigna), transcription of the reference. *)
Definition xostate := (N * N * N * N)%type.
Definition xo_output (s : xostate) : N :=
  let '(a, b, c, d) := s in (rotate 64 ((a + d) mod 2 ^ 64) 23 + a) mod 2 ^ 64.
Definition xo_step (s : xostate) : xostate :=
  let '(a, b, c, d) := s in
  let t := (b * 2 ^ 17) mod 2 ^ 64 in
  (N.lxor a (N.lxor d b), N.lxor b (N.lxor c a), N.lxor (N.lxor c a) t,
   rotate 64 (N.lxor d b) 45).
