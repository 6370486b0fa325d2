(** What a Cuckoo cycle proof is, independently of the verifier's algorithm. *)
From Coq Require Import Arith NArith List Permutation.
Import ListNotations.
Open Scope nat_scope.

(** An edge is given by its two endpoints (U side, V side).  A list of edges is laid out as a
    cycle when, going round it, consecutive edges share alternately their U and their V endpoint,
    and no other two of its edges share an endpoint: edges number [a] and [b] have the same U
    endpoint exactly when they are the two of a pair (0,1), (2,3), ..., and the same V endpoint
    exactly when they are the two of a pair (1,2), (3,4), ..., (last,0). *)
Definition alternating (c : list (N * N)) : Prop :=
  let L := length c in
  L <> 0 /\ Nat.even L = true /\
  forall a b, a < L -> b < L -> a <> b ->
    (fst (nth a c (0, 0)%N) = fst (nth b c (0, 0)%N) <-> a / 2 = b / 2) /\
    (snd (nth a c (0, 0)%N) = snd (nth b c (0, 0)%N) <->
       ((a + 1) mod L) / 2 = ((b + 1) mod L) / 2).

(** A set of edges (in any order) is one cycle when some order of it is laid out as one. *)
Definition single_cycle (edges : list (N * N)) : Prop :=
  exists c, Permutation c edges /\ alternating c.

(** ** Defects *)

(** Endpoint of edge number [e] on the given side. *)
Definition endpoint (edges : list (N * N)) (side : bool) (e : nat) : N :=
  if side then snd (nth e edges (0, 0)%N) else fst (nth e edges (0, 0)%N).

(** Three different edges meet in one node. *)
Definition has_branch (edges : list (N * N)) : Prop :=
  exists side a b c, a < length edges /\ b < length edges /\ c < length edges /\
    a <> b /\ b <> c /\ a <> c /\
    endpoint edges side a = endpoint edges side b /\ endpoint edges side b = endpoint edges side c.

(** Some endpoint of some edge belongs to no other edge. *)
Definition has_dead_end (edges : list (N * N)) : Prop :=
  exists side a, a < length edges /\
    forall b, b < length edges -> b <> a -> endpoint edges side b <> endpoint edges side a.

(** Some but not all of the edges form a cycle. *)
Definition has_short_cycle (edges : list (N * N)) : Prop :=
  exists c rest, Permutation (c ++ rest) edges /\ alternating c /\ rest <> [].

(** The endpoints of one side do not cancel. *)
Definition unmatched (edges : list (N * N)) : Prop :=
  fold_left N.lxor (map fst edges) 0%N <> 0%N \/ fold_left N.lxor (map snd edges) 0%N <> 0%N.

(** SipHash key from a 32-byte digest: four little-endian 64-bit words. *)
Fixpoint le_number (l : list N) : N :=
  match l with [] => 0%N | b :: t => (b + 256 * le_number t)%N end.
Definition digest_key (h : list N) : N * N * N * N :=
  (le_number (firstn 8 h), le_number (firstn 8 (skipn 8 h)),
   le_number (firstn 8 (skipn 16 h)), le_number (firstn 8 (skipn 24 h))).
