(** The walk through the edges of a Cuckoo proof that names its defect. *)
From Coq Require Import Arith NArith List.
From Verif Require Import CuckooSpec.
Import ListNotations.
Open Scope nat_scope.

(** Edge [e'] is the only other edge with the endpoint of edge [e] on the given side. *)
Definition only_other (E : list (N * N)) (side : bool) (e e' : nat) : Prop :=
  e' < length E /\ e' <> e /\ endpoint E side e' = endpoint E side e /\
  forall x, x < length E -> x <> e -> endpoint E side x = endpoint E side e -> x = e'.
(** The walk starts at the U endpoint of the first edge.  A step goes to the only other edge with this endpoint, and
    through it to its endpoint on the other side.  Back at the start it stops.  [reached n side e]: after [n] steps it is
    at the endpoint of edge [e] on that side. *)
Inductive reached (E : list (N * N)) : nat -> bool -> nat -> Prop :=
| reached_start : reached E 0 false 0
| reached_step n side e e' : reached E n side e -> ~ (n <> 0 /\ side = false /\ e = 0) -> only_other E side e e' ->
    reached E (S n) (negb side) e'.
(** Two others have the endpoint. *)
Definition meets_branch (E : list (N * N)) (side : bool) (e : nat) : Prop :=
  exists a b, a < length E /\ b < length E /\ a <> e /\ b <> e /\ a <> b /\
    endpoint E side a = endpoint E side e /\ endpoint E side b = endpoint E side e.
(** No other has it. *)
Definition meets_dead_end (E : list (N * N)) (side : bool) (e : nat) : Prop :=
  forall x, x < length E -> x <> e -> endpoint E side x <> endpoint E side e.
