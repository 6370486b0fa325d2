(** Garbage collection of cache objects on top of the concurrent requests of OnceModel.v.

    A cache object whose memory is mapped from a file gets a finalizer (cache.go:66) that
    unmaps it (cache.go:115-128).  The runtime may run the finalizer at any time after the
    object became unreachable.  A computation reads the mapped memory through slices
    (cache.go:34-40, dag.go:171-196), which do not keep the object alive.  The closure made
    by NewLookupFunc does, but only until the slice was taken out of the object for the last
    time.  What keeps it alive to the end is the call of runtime.KeepAlive after the last read
    (ethash/client.go:93, kawpow/client.go:67, firopow/client.go:67, octopus/client.go:65).

    [last] is the number of reads still to come when the compiler may already forget the
    reference: 0 for the code, where KeepAlive follows the last read; 1 or more for a program
    without that call.

    Simplifications: an object is collected whole, the cache and the L1 part together (both
    are unmapped by one finalizer); a generation in a background goroutine reads its own
    mapping only inside Once.Do, which holds the object. *)
From Coq Require Import NArith ZArith List Bool.
From Verif Require Import Base DagModel RegModel OnceModel.
Import ListNotations.
Open Scope N_scope.

Section Gc.
Context {V : Type}.

(** What a call of Compute does with the cache after GetCache returned it. *)
Inductive use :=
| NotYet                          (* GetCache has not returned, or nothing was read yet *)
| Reading (n : nat) (held : bool) (* [n] reads to come; is the reference still kept? *)
| Over.                           (* Compute returned *)

Record gcsys := mkGc {
  gc_sys : system V;
  gc_use : nat -> use;            (* by goroutine *)
  gc_unmapped : N -> nat          (* by object: how often its finalizer ran *)
}.

Definition set_use (s : gcsys) (t : nat) (u : use) : gcsys :=
  mkGc (gc_sys s) (fun i => if Nat.eqb i t then u else gc_use s i) (gc_unmapped s).

(** The object a goroutine keeps alive. *)
Definition live_ref (th : thread) (u : use) : option N :=
  match th_pc th with
  | Lock _ | Read _ | Write _ _ => None
  | Unlock c | Call c | Slow c | Check c | Gen c | Gen2 c | SetDone c | Release c => Some (co_id c)
  | Returned c =>
      match th_req th, u with
      | Some _, NotYet => Some (co_id c)
      | Some _, Reading _ true => Some (co_id c)
      | _, _ => None
      end
  end.

(** Objects the registry refers to (dag.go:32-33, the fields caches and future). *)
Definition registered (r : registry) (id : N) : Prop :=
  (exists k c, In (k, c) (rg_caches r) /\ co_id c = id) \/
  (exists f, rg_future r = Some f /\ co_id f = id).

(** Unreachable: neither the registry, nor a copy of it a goroutine works on, nor a goroutine
    refers to the object. *)
Definition unreachable (s : gcsys) (id : N) : Prop :=
  ~ registered (sh_reg (sy_shared (gc_sys s))) id /\
  (forall t th, nth_error (sy_threads (gc_sys s)) t = Some th ->
     live_ref th (gc_use s t) <> Some id /\
     forall e r, th_pc th = Write e r -> ~ registered r id).

Inductive gcstep (d : config) (gen : N -> V) (last : nat) : gcsys -> gcsys -> Prop :=
| gc_code s s' :                               (* a step of GetCache or of a generation *)
    gstep d gen (gc_sys s) s' ->
    gcstep d gen last s (mkGc s' (gc_use s) (gc_unmapped s))
| gc_request s e :                             (* a new call of Compute *)
    e < 2 ^ 64 - 1 ->
    gcstep d gen last s
      (mkGc (mkSys (sy_shared (gc_sys s)) (sy_threads (gc_sys s) ++ [mkT (Some e) (Lock e)]))
            (gc_use s) (gc_unmapped s))
| gc_begin s t e c n :                         (* the cache arrived; [n] reads follow *)
    nth_error (sy_threads (gc_sys s)) t = Some (mkT (Some e) (Returned c)) ->
    gc_use s t = NotYet ->
    gcstep d gen last s (set_use s t (Reading n true))
| gc_read s t e c n h :                        (* one read of the mapped memory *)
    nth_error (sy_threads (gc_sys s)) t = Some (mkT (Some e) (Returned c)) ->
    gc_use s t = Reading (S n) h ->
    gcstep d gen last s (set_use s t (Reading n h))
| gc_forget s t n :                            (* the reference is not used any more *)
    gc_use s t = Reading n true -> (n <= last)%nat ->
    gcstep d gen last s (set_use s t (Reading n false))
| gc_over s t h :                              (* Compute returns *)
    gc_use s t = Reading 0 h ->
    gcstep d gen last s (set_use s t Over)
| gc_finalize s id :                           (* the runtime runs the finalizer, once *)
    id < rg_next (sh_reg (sy_shared (gc_sys s))) ->
    unreachable s id ->
    gc_unmapped s id = 0%nat ->
    gcstep d gen last s
      (mkGc (gc_sys s) (gc_use s) (fun i => if i =? id then S (gc_unmapped s i) else gc_unmapped s i)).

Definition gc_init : gcsys := mkGc init_system (fun _ => NotYet) (fun _ => 0%nat).

Inductive gcexecution (d : config) (gen : N -> V) (last : nat) : gcsys -> Prop :=
| gx_init : gcexecution d gen last gc_init
| gx_step s s' : gcexecution d gen last s -> gcstep d gen last s s' -> gcexecution d gen last s'.

(** Goroutine [t] is about to read the memory of object [id]. *)
Definition about_to_read (s : gcsys) (t : nat) (id : N) : Prop :=
  exists e c n h, nth_error (sy_threads (gc_sys s)) t = Some (mkT (Some e) (Returned c)) /\
    gc_use s t = Reading (S n) h /\ co_id c = id.
End Gc.
Arguments gcsys : clear implicits.
