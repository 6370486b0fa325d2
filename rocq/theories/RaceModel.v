(** The memory accesses of concurrent GetCache calls (dag.go:123-165, cache.go:43-113): each
    step of OnceModel.v with the accesses and synchronisation it performs.

    Where a run may skip an access (the map is not written on a hit, entries are read only when
    evicting) the access is listed anyway: more accesses can only add races.  The clock, the
    file system and math/rand's source (locked inside the library) are not locations.  The
    finalizer (cache.go:116-128) is run by the collector on objects no goroutine can reach
    (GcModel.v) and is not in these histories.  A request is its own goroutine started by the
    one that created the client; several requests made by one goroutine in turn are ordered
    more than that. *)
From Coq Require Import NArith ZArith List Bool Permutation.
From Verif Require Import Base DagModel RegModel OnceModel RaceSpec.
Import ListNotations.
Open Scope N_scope.

Section Race.
Context {V : Type}.

(** &cache{epoch: ...} (dag.go:148,154) writes every field of the new object; the objects
    allocated are those numbered from [a] to [b] - 1. *)
Definition init_object (id : N) : list action :=
  [Wr (LEpoch id); Wr (LUsed id); Wr (LData id); Wr (LDone id)].
Definition init_objects (a b : N) : list action :=
  flat_map (fun k => init_object (a + N.of_nat k)) (seq 0 (N.to_nat (b - a))).

(** What a goroutine at [p] does to memory in its step from [sh] to [sh'], [pc']; [n] is the
    number of goroutines so far, which is the number of the one it starts, if any. *)
Definition accesses (n : nat) (sh : shared V) (p : pc) (sh' : shared V) (pc' : pc)
    (new : list thread) : list action :=
  match p with
  | Lock _ => [Acquire RegistryMutex]                                     (* dag.go:126 *)
  | Read _ =>                                                             (* dag.go:127-139 *)
      Rd LCfg :: Rd LReg ::
      flat_map (fun '(_, c) => [Rd (LEpoch (co_id c)); Rd (LUsed (co_id c))]) (rg_caches (sh_reg sh)) ++
      match rg_future (sh_reg sh) with Some f => [Rd (LEpoch (co_id f))] | None => [] end
  | Write _ r =>                                                          (* dag.go:141-159 *)
      init_objects (rg_next r) (rg_next (sh_reg sh')) ++ [Wr LReg] ++
      match new with [] => [] | _ => [Spawn n] end ++
      match pc' with Unlock c => [Wr (LUsed (co_id c))] | _ => [] end
  | Unlock _ => [Free RegistryMutex]                                      (* dag.go:160 *)
  | Call c => [AtomicLoad (co_id c) (go_done (sh_obj sh (co_id c)))]      (* sync/once.go Do *)
  | Slow c => [Acquire (OnceMutex (co_id c))]                             (* doSlow *)
  | Check c => [Rd (LDone (co_id c))]                                     (* a plain read *)
  | Gen c => [Rd LCfg; Rd (LEpoch (co_id c)); Wr (LData (co_id c))]       (* cache.go:45-111 *)
  | Gen2 c => [Rd LCfg; Rd (LEpoch (co_id c)); Rd (LData (co_id c)); Wr (LData (co_id c))]
  | SetDone c => [AtomicStore (co_id c)]
  | Release c => [Free (OnceMutex (co_id c))]
  | Returned _ => []
  end.

(** Executions with their history.  Besides the steps of OnceModel.v there is the use of a
    returned cache (Cache(), L1() and the lookups, cache.go:34-40, dag.go:171-196), any number
    of times.  The history starts with dag.New (dag.go:36-43). *)
Inductive traced (d : config) (gen : N -> V) : system V -> list event -> Prop :=
| tx_init : traced d gen init_system [mkEv None (Wr LCfg); mkEv None (Wr LReg)]
| tx_step s tr t th sh' pc' new :
    traced d gen s tr ->
    nth_error (sy_threads s) t = Some th ->
    lstep d gen t (sy_shared s) (th_pc th) sh' pc' new ->
    traced d gen (mkSys sh' (set_nth (sy_threads s) t (mkT (th_req th) pc') ++ new))
      (tr ++ map (mkEv (Some t))
               (accesses (length (sy_threads s)) (sy_shared s) (th_pc th) sh' pc' new))
| tx_request s tr e :
    traced d gen s tr -> e < 2 ^ 64 - 1 ->
    traced d gen (mkSys (sy_shared s) (sy_threads s ++ [mkT (Some e) (Lock e)]))
      (tr ++ [mkEv None (Spawn (length (sy_threads s)))])
| tx_use s tr t th c :
    traced d gen s tr ->
    nth_error (sy_threads s) t = Some th -> th_pc th = Returned c ->
    traced d gen s (tr ++ [mkEv (Some t) (Rd LCfg); mkEv (Some t) (Rd (LData (co_id c)))]).
End Race.
