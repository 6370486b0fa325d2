(** What a data race is, after the Go memory model: two accesses of the same memory location by
    different goroutines, at least one of them a write and not both atomic, that are not
    ordered by happens-before.  Nothing here mentions the model of the code. *)
From Coq Require Import NArith List Bool.
Import ListNotations.
Open Scope N_scope.

(** The mutex of the registry (dag.go:31) and the one inside each cache's sync.Once. *)
Inductive mutex := RegistryMutex | OnceMutex (id : N).

(** Memory locations: the configuration, the registry (the map and [future]) and the fields of
    cache object number [id]: epoch, used, the data (fields cache and l1 with the words behind
    them) and the done flag inside its sync.Once. *)
Inductive location :=
| LCfg | LReg | LEpoch (id : N) | LUsed (id : N) | LData (id : N) | LDone (id : N).

Inductive action :=
| Acquire (m : mutex)                   (* Lock returned *)
| Free (m : mutex)                      (* Unlock *)
| Spawn (u : nat)                       (* go statement that starts goroutine u *)
| Rd (l : location)
| Wr (l : location)
| AtomicLoad (id : N) (seen : bool)     (* of a done flag; [seen]: the value *)
| AtomicStore (id : N).                 (* sets a done flag *)

(** An event: an action of a goroutine; [None] is the goroutine that created the client. *)
Record event := mkEv { ev_by : option nat; ev_act : action }.

(** location, is it a write, is it atomic *)
Definition access (a : action) : option (location * bool * bool) :=
  match a with
  | Rd l => Some (l, false, false)
  | Wr l => Some (l, true, false)
  | AtomicLoad id _ => Some (LDone id, false, true)
  | AtomicStore id => Some (LDone id, true, true)
  | Acquire _ | Free _ | Spawn _ => None
  end.

Definition conflict (a b : action) : Prop :=
  exists l w1 a1 w2 a2, access a = Some (l, w1, a1) /\ access b = Some (l, w2, a2) /\
    (w1 = true \/ w2 = true) /\ ~ (a1 = true /\ a2 = true).

(** The Go memory model's edges between the events of a history, in the order of the history:
    the order within a goroutine, a go statement before everything the goroutine does, an
    Unlock before every later Lock of the mutex, and an atomic store before a load that sees
    it. *)
Inductive edge (tr : list event) (i j : nat) : Prop :=
| edge_program e f :
    nth_error tr i = Some e -> nth_error tr j = Some f -> (i < j)%nat ->
    ev_by e = ev_by f -> edge tr i j
| edge_spawn e f u :
    nth_error tr i = Some e -> nth_error tr j = Some f -> (i < j)%nat ->
    ev_act e = Spawn u -> ev_by f = Some u -> edge tr i j
| edge_mutex e f m :
    nth_error tr i = Some e -> nth_error tr j = Some f -> (i < j)%nat ->
    ev_act e = Free m -> ev_act f = Acquire m -> edge tr i j
| edge_once e f id :
    nth_error tr i = Some e -> nth_error tr j = Some f -> (i < j)%nat ->
    ev_act e = AtomicStore id -> ev_act f = AtomicLoad id true -> edge tr i j.

(** happens-before: the transitive closure *)
Inductive happens_before (tr : list event) : nat -> nat -> Prop :=
| hb_edge i j : edge tr i j -> happens_before tr i j
| hb_trans i j k : happens_before tr i j -> happens_before tr j k -> happens_before tr i k.

Definition data_race (tr : list event) (i j : nat) : Prop :=
  exists e f, nth_error tr i = Some e /\ nth_error tr j = Some f /\ (i < j)%nat /\
    ev_by e <> ev_by f /\ conflict (ev_act e) (ev_act f) /\ ~ happens_before tr i j.
