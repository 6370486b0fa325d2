(** What a panic leaves behind when the caller recovers from it: DAG.GetCache (dag.go:123-165) again, now with
    panics, first with any number of goroutines and then as one client answering call after call.

    A panic inside the function that cache.generate hands to sync.Once (cache.go:44-112) runs the deferred
    calls of Once.doSlow (sync/once.go: the flag done is stored, then the mutex is released) and leaves the
    goroutine.  So it does to shared memory what a return does, but for the content, which is what had been
    written by then.  A panic between mu.Lock() and mu.Unlock() (dag.go:126-160) leaves the mutex locked, since
    the Unlock is not deferred.  A panic of a goroutine started at dag.go:154 ends the process, since nothing
    recovers there; the deferred calls run before. *)
From Coq Require Import NArith ZArith List Bool Permutation.
From Verif Require Import Base DagModel DagSpec RegModel OnceModel ClientModel EthashModel ProgpowModel OctopusModel.
Import ListNotations.
Open Scope N_scope.

(** ** Concurrent requests *)
Section Concurrent.
Context {V : Type}.

(** What one run of the generating function makes: all of the content, or the part of it that was there when
    it panicked. *)
Inductive made := Whole (v : V) | Cut (v : V).
Definition is_cut (m : made) : bool := match m with Whole _ => false | Cut _ => true end.

(** The state of OnceModel.v, the goroutines that panicked or are unwinding, whether the process has ended. *)
Record rsystem := mkR { rs_sys : system made; rs_panics : nat -> bool; rs_ended : bool }.
Definition init_rsystem : rsystem := mkR init_system (fun _ => false) false.
Definition panic_of (p : nat -> bool) (t : nat) : nat -> bool := fun u => if Nat.eqb u t then true else p u.

(** What a step from [p] adds: the function run by Once panics at the end of it; a goroutine without a caller
    takes the process with it. *)
Definition panics_at (gen : N -> made) (p : pc) : bool :=
  match p with Gen2 c => is_cut (gen (co_epoch c)) | _ => false end.
Definition ends_at (panicking : bool) (th : thread) : bool :=
  match th_pc th, th_req th with Release _, None => panicking | _, _ => false end.

Inductive rstep (d : config) (gen : N -> made) : rsystem -> rsystem -> Prop :=
| r_step x t th sh' pc' new :
    rs_ended x = false ->
    nth_error (sy_threads (rs_sys x)) t = Some th ->
    lstep d gen t (sy_shared (rs_sys x)) (th_pc th) sh' pc' new ->
    rstep d gen x
      (mkR (mkSys sh' (set_nth (sy_threads (rs_sys x)) t (mkT (th_req th) pc') ++ new))
           (if panics_at gen (th_pc th) then panic_of (rs_panics x) t else rs_panics x)
           (ends_at (rs_panics x t) th))
(** dag.go:141 with a nil pointer: the goroutine leaves with the mutex locked and does nothing any more. *)
| r_locked x t req e r order now :
    rs_ended x = false ->
    nth_error (sy_threads (rs_sys x)) t = Some (mkT req (Write e r)) ->
    rs_panics x t = false ->
    (forall m, Permutation m (order m)) ->
    get_locked d order now e r = Panic ->
    rstep d gen x (mkR (rs_sys x) (panic_of (rs_panics x) t) false).

Inductive rexecution (d : config) (gen : N -> made) : rsystem -> Prop :=
| rx_init : rexecution d gen init_rsystem
| rx_step x x' : rexecution d gen x -> rstep d gen x x' -> rexecution d gen x'
| rx_request x e : rexecution d gen x -> rs_ended x = false -> e < 2 ^ 64 - 1 ->
    rexecution d gen (mkR (mkSys (sy_shared (rs_sys x)) (sy_threads (rs_sys x) ++ [mkT (Some e) (Lock e)]))
                          (rs_panics x) false).

(** How a request for [e] ended for its caller: it got an object, or a panic. *)
Definition answered (x : rsystem) (t : nat) (e : N) (c : cobj) : Prop :=
  nth_error (sy_threads (rs_sys x)) t = Some (mkT (Some e) (Returned c)) /\ rs_panics x t = false.
Definition panicked (x : rsystem) (t : nat) (e : N) : Prop :=
  rs_panics x t = true /\
  ((exists c, nth_error (sy_threads (rs_sys x)) t = Some (mkT (Some e) (Returned c))) \/
   (exists r, nth_error (sy_threads (rs_sys x)) t = Some (mkT (Some e) (Write e r)))).
End Concurrent.
Arguments made : clear implicits.
Arguments rsystem : clear implicits.

(** ** One client, call after call *)
Section Calls.
Variables keccak256 keccak512 : list N -> list N.
Variable pp : N -> bool.
Variable fuel : nat.
(** What the fields cache and l1 of an object for an epoch hold when its generation has panicked. *)
Variable left : N -> list N * list N.

(** The client between two calls: its registry, the content of the objects generated so far, and whether a
    panic has left its mutex locked. *)
Record memory := mkMem { me_reg : registry; me_content : N -> option (list N * list N); me_locked : bool }.
Definition new_memory : memory := mkMem empty_registry (fun _ => None) false.
Definition put_content (m : memory) (id : N) (x : list N * list N) : memory :=
  mkMem (me_reg m) (fun i => if i =? id then Some x else me_content m i) (me_locked m).

(** What the caller sees: the returned value (None is an error), a panic (which it recovers from), a call that
    does not come back, the end of the process; [Unknown] when the fuel was not enough to tell. *)
Inductive seen {R : Type} := Answered (a : option R) | Panicked | Hangs | ProcessEnds | Unknown.
Arguments seen : clear implicits.

(** cache.go:43-113, generate on an object: nothing when it was run before. *)
Definition run_generate (d : config) (m : memory) (c : cobj) : memory * outcome (list N * list N) :=
  match me_content m (co_id c) with
  | Some x => (m, Done x)
  | None =>
      match generate keccak256 keccak512 pp fuel d (co_epoch c) with
      | Done x => (put_content m (co_id c) x, Done x)
      | Panic => (put_content m (co_id c) (left (co_epoch c)), Panic)
      | OutOfFuel => (m, OutOfFuel)
      end
  end.

(** The Compute methods (see ClientModel.computeWith).  Simplification: the background generation of dag.go:154
    is over before the call goes on, so a panic there comes first. *)
Definition computeRecovering {R} (eval : N -> list N -> list N -> outcome R) (d : config)
    (order : list (N * cobj) -> list (N * cobj)) (now : Z) (m : memory) (hash : list N) (height : N) : memory * seen R :=
  if negb (lenN hash =? 32) then (m, Answered None)
  else
    match (epoch <- CalcEpoch d height ;; size <- DatasetSize pp fuel d epoch ;; Done (epoch, size)) with
    | Panic => (m, Panicked)
    | OutOfFuel => (m, Unknown)
    | Done (epoch, size) =>
        if me_locked m then (m, Hangs)
        else
          match get_locked d order now epoch (me_reg m) with
          | Panic => (mkMem (me_reg m) (me_content m) true, Panicked)
          | OutOfFuel => (m, Unknown)
          | Done (r, c, spawned) =>
              let m := mkMem r (me_content m) false in
              let '(m, b) := match spawned with Some f => run_generate d m f | None => (m, Done ([], [])) end in
              match b with
              | Panic => (m, ProcessEnds)
              | OutOfFuel => (m, Unknown)
              | Done _ =>
                  let '(m, x) := run_generate d m c in
                  match (a <- x ;; eval size (fst a) (snd a)) with
                  | Done v => (m, Answered (Some v))
                  | Panic => (m, Panicked)
                  | OutOfFuel => (m, Unknown)
                  end
              end
          end
    end.

(** A client whose caller recovers from every panic, until the process ends or a call hangs. *)
Fixpoint serveRecovering {R} (eval : list N -> N -> N -> N -> list N -> list N -> outcome R) (d : config)
    (calls : list call) (m : memory) : memory * list (seen R) :=
  match calls with
  | [] => (m, [])
  | q :: rest =>
      let '(m, s) := computeRecovering (eval (cl_hash q) (cl_height q) (cl_nonce q)) d (cl_order q) (cl_now q) m (cl_hash q) (cl_height q) in
      match s with
      | ProcessEnds | Hangs | Unknown => (m, [s])
      | _ => let '(m, ss) := serveRecovering eval d rest m in (m, s :: ss)
      end
  end.

(** The last calls of ethash/client.go:82-96, kawpow/client.go:56-70, firopow/client.go:56-70 and
    octopus/client.go:54-68 *)
Definition eval_ethash d (hash : list N) (height nonce size : N) (cache l1 : list N) :=
  hashimoto keccak512 keccak256 hash nonce size (NewLookupFunc512 keccak512 d cache).
Definition eval_kawpow d (hash : list N) (height nonce size : N) (cache l1 : list N) :=
  kawpow hash height nonce size (NewLookupFunc2048 keccak512 d cache) l1.
Definition eval_firopow d (hash : list N) (height nonce size : N) (cache l1 : list N) :=
  firopow hash height nonce size (NewLookupFunc2048 keccak512 d cache) l1.
Definition eval_octopus d (hash : list N) (height nonce size : N) (cache l1 : list N) :=
  octopus fuel keccak512 keccak256 hash nonce size (NewLookupFunc512 keccak512 d cache).
End Calls.
Arguments seen : clear implicits.
