(** Small-step model of concurrent calls of DAG.GetCache (dag.go:123-165) and of the
    background generation it starts (dag.go:154), with the mutex of the registry and the
    sync.Once of each cache object (cache.go:44).

    One step is one action on shared memory.  The locked region is split into reading the
    registry and writing it back, so its atomicity comes from the mutex and is not built in.
    sync.Once is modelled by its implementation (sync/once.go: a done flag checked without
    and with a mutex, the flag being stored after the function returned).  The function
    passed to Once (cache.go:45-112) is one step that starts writing the content and one that
    completes it; [gen epoch] is the content it produces (see FileModel.v for how).
    Simplifications: a panic of that function is not modelled here (RecoverModel.v adds it);
    memory is sequentially consistent, which the Go memory model grants to programs without
    data races (there is none: C69). *)
From Coq Require Import NArith ZArith List Bool Permutation.
From Verif Require Import Base DagModel RegModel.
Import ListNotations.
Open Scope N_scope.

Section Once.
Context {V : Type}.

(** The content of a cache object. *)
Inductive content := NotStarted | Partial | Complete (v : V).

(** cache.go:26-32, the fields once, cache and l1 of an object; [go_runs] counts the
    executions of the generating function. *)
Record gobj := mkG { go_done : bool; go_lock : option nat; go_content : content; go_runs : nat }.
Definition fresh_gobj : gobj := mkG false None NotStarted 0.

(** Program counters. *)
Inductive pc :=
| Lock (e : N)                     (* dag.go:126, before mu.Lock() *)
| Read (e : N)                     (* mutex held, registry not read yet *)
| Write (e : N) (r : registry)     (* registry read, new registry not written yet *)
| Unlock (c : cobj)                (* dag.go:160 *)
| Call (c : cobj)                  (* dag.go:162 / 154, Once.Do: first test of done *)
| Slow (c : cobj)                  (* Once.doSlow: before m.Lock() *)
| Check (c : cobj)                 (* Once.doSlow: second test of done *)
| Gen (c : cobj)                   (* before f() *)
| Gen2 (c : cobj)                  (* inside f() *)
| SetDone (c : cobj)               (* f() returned, done not stored yet *)
| Release (c : cobj)               (* before m.Unlock() *)
| Returned (c : cobj).             (* dag.go:164 *)

(** A goroutine: the epoch it requested (None for background generation) and where it is. *)
Record thread := mkT { th_req : option N; th_pc : pc }.

Record shared := mkSh { sh_reg : registry; sh_mutex : option nat; sh_obj : N -> gobj }.
Definition set_obj (sh : shared) (id : N) (g : gobj) : shared :=
  mkSh (sh_reg sh) (sh_mutex sh) (fun i => if i =? id then g else sh_obj sh i).

(** One step of goroutine [t]; the list holds the goroutines it starts. *)
Inductive lstep (d : config) (gen : N -> V) (t : nat)
  : shared -> pc -> shared -> pc -> list thread -> Prop :=
| s_lock sh e :
    sh_mutex sh = None ->
    lstep d gen t sh (Lock e) (mkSh (sh_reg sh) (Some t) (sh_obj sh)) (Read e) []
| s_read sh e :
    lstep d gen t sh (Read e) sh (Write e (sh_reg sh)) []
| s_write sh e r order now r' c sp :
    (forall m, Permutation m (order m)) ->
    get_locked d order now e r = Done (r', c, sp) ->
    lstep d gen t sh (Write e r) (mkSh r' (sh_mutex sh) (sh_obj sh)) (Unlock c)
      match sp with Some f => [mkT None (Call f)] | None => [] end
| s_unlock sh c :
    lstep d gen t sh (Unlock c) (mkSh (sh_reg sh) None (sh_obj sh)) (Call c) []
| s_call_done sh c :
    go_done (sh_obj sh (co_id c)) = true ->
    lstep d gen t sh (Call c) sh (Returned c) []
| s_call_slow sh c :
    go_done (sh_obj sh (co_id c)) = false ->
    lstep d gen t sh (Call c) sh (Slow c) []
| s_slow sh c :
    let g := sh_obj sh (co_id c) in
    go_lock g = None ->
    lstep d gen t sh (Slow c)
      (set_obj sh (co_id c) (mkG (go_done g) (Some t) (go_content g) (go_runs g))) (Check c) []
| s_check_done sh c :
    go_done (sh_obj sh (co_id c)) = true ->
    lstep d gen t sh (Check c) sh (Release c) []
| s_check_gen sh c :
    go_done (sh_obj sh (co_id c)) = false ->
    lstep d gen t sh (Check c) sh (Gen c) []
| s_gen sh c :
    let g := sh_obj sh (co_id c) in
    lstep d gen t sh (Gen c)
      (set_obj sh (co_id c) (mkG (go_done g) (go_lock g) Partial (S (go_runs g)))) (Gen2 c) []
| s_gen2 sh c :
    let g := sh_obj sh (co_id c) in
    lstep d gen t sh (Gen2 c)
      (set_obj sh (co_id c) (mkG (go_done g) (go_lock g) (Complete (gen (co_epoch c))) (go_runs g)))
      (SetDone c) []
| s_done sh c :
    let g := sh_obj sh (co_id c) in
    lstep d gen t sh (SetDone c)
      (set_obj sh (co_id c) (mkG true (go_lock g) (go_content g) (go_runs g))) (Release c) []
| s_release sh c :
    let g := sh_obj sh (co_id c) in
    lstep d gen t sh (Release c)
      (set_obj sh (co_id c) (mkG (go_done g) None (go_content g) (go_runs g))) (Returned c) [].

Record system := mkSys { sy_shared : shared; sy_threads : list thread }.
Definition init_system : system := mkSys (mkSh empty_registry None (fun _ => fresh_gobj)) [].

(** A step of the system: a goroutine steps. *)
Inductive gstep (d : config) (gen : N -> V) : system -> system -> Prop :=
| g_step s t th sh' pc' new :
    nth_error (sy_threads s) t = Some th ->
    lstep d gen t (sy_shared s) (th_pc th) sh' pc' new ->
    gstep d gen s (mkSys sh' (set_nth (sy_threads s) t (mkT (th_req th) pc') ++ new)).

(** Executions: steps, interleaved with new requests arriving at any time. *)
Inductive execution (d : config) (gen : N -> V) : system -> Prop :=
| ex_init : execution d gen init_system
| ex_step s s' : execution d gen s -> gstep d gen s s' -> execution d gen s'
| ex_request s e : execution d gen s -> e < 2 ^ 64 - 1 ->
    execution d gen (mkSys (sy_shared s) (sy_threads s ++ [mkT (Some e) (Lock e)])).
End Once.
Arguments content : clear implicits.
Arguments gobj : clear implicits.
Arguments shared : clear implicits.
Arguments system : clear implicits.
