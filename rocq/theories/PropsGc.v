(** C62: memory is not unmapped under a running computation. *)
From Coq Require Import NArith ZArith List Bool Permutation Arith Lia ZifyBool ZifyN ZifyNat.
From Verif Require Import Base BaseFacts DagModel RegModel RegSpec RegProofs OnceModel OnceProofs GcModel GcProofs.
Import ListNotations.
Open Scope N_scope.

Section C62.
Context {V : Type}.

(** In every interleaving of calls of Compute, background generations, evictions and runs of
    the collector: whenever a call is about to read the cache it was given, that cache has
    not been unmapped, and it is the complete content of the epoch the call asked for. *)
Theorem C62_no_read_after_unmap (d : config) (gen : N -> V) s t id :
  (1 <= cf_caches_count d)%Z -> gcexecution d gen 0 s -> about_to_read s t id ->
  gc_unmapped s id = 0%nat /\
  exists e, nth_error (map th_req (sy_threads (gc_sys s))) t = Some (Some e) /\
    go_content (sh_obj (sy_shared (gc_sys s)) id) = Complete (gen e).
Proof.
  intros Hc EX (e & c & n & h & H & U & <-).
  destruct (gcexecution_inv d gen Hc 0 s EX) as [I1 I2 I3 I4].
  destruct (execution_inv d gen Hc _ I1) as (ep & I).
  split.
  - destruct (Nat.eq_dec (gc_unmapped s (co_id c)) 0) as [|NZ]; auto. exfalso.
    destruct (I2 _ NZ) as (_ & _ & U3). apply (U3 _ _ H).
    destruct h; [|specialize (I4 _ _ U); lia].
    unfold live_ref. cbn [th_pc th_req]. rewrite U. auto.
  - exists e. split; [rewrite nth_error_map, H; auto|].
    assert (T := inv_threads _ _ _ _ I _ _ H). cbn in T. destruct T as [[[T1 T2] T3] T4].
    specialize (T3 e eq_refl). destruct (inv_done _ _ _ _ I _ T4) as (D1 & _). rewrite D1. congruence.
Qed.

(** An unmapped object is never handed out again: no call that has not returned yet, and no
    entry of the registry, refers to it. *)
Theorem C62_unmapped_is_gone (d : config) (gen : N -> V) s id :
  (1 <= cf_caches_count d)%Z -> gcexecution d gen 0 s -> gc_unmapped s id <> 0%nat ->
  gc_unmapped s id = 1%nat /\
  (forall k c, In (k, c) (rg_caches (sh_reg (sy_shared (gc_sys s)))) -> co_id c <> id) /\
  (forall f, rg_future (sh_reg (sy_shared (gc_sys s))) = Some f -> co_id f <> id) /\
  (forall t th, nth_error (sy_threads (gc_sys s)) t = Some th -> gc_use s t = NotYet ->
     forall e, th_req th = Some e ->
     forall c, In (th_pc th) [Unlock c; Call c; Slow c; Check c; Gen c; Gen2 c; SetDone c; Release c; Returned c] ->
     co_id c <> id).
Proof.
  intros Hc EX NZ. destruct (gcexecution_inv d gen Hc 0 s EX) as [I1 I2 I3 I4].
  destruct (I2 _ NZ) as (U1 & U2 & U3). split; [specialize (I3 id); lia|split; [|split]].
  - intros k c IN E. apply U2. left. eauto.
  - intros f F E. apply U2. right. eauto.
  - intros t th H U e R c IN E. apply (U3 _ _ H). unfold live_ref. rewrite U.
    destruct th as [req p]. cbn [th_req th_pc] in *. subst req.
    cbn in IN. repeat destruct IN as [<-|IN]; auto; try congruence. destruct IN.
Qed.

(** When every goroutine has finished, all but at most [CachesCount + 1] of the objects ever
    made can be collected: memory does not grow with the number of epochs visited. *)
Theorem C62_bounded_when_idle (d : config) (gen : N -> V) s :
  (1 <= cf_caches_count d)%Z -> gcexecution d gen 0 s ->
  (forall t th, nth_error (sy_threads (gc_sys s)) t = Some th ->
     exists c, th_pc th = Returned c /\ (th_req th = None \/ gc_use s t = Over)) ->
  exists kept : list N, (Z.of_N (lenN kept) <= cf_caches_count d + 1)%Z /\
    forall id, id < rg_next (sh_reg (sy_shared (gc_sys s))) -> ~ In id kept ->
      gc_unmapped s id = 1%nat \/
      exists s', gcstep d gen 0 s s' /\ gc_sys s' = gc_sys s /\ gc_unmapped s' id = 1%nat.
Proof.
  intros Hc EX IDLE. destruct (gcexecution_inv d gen Hc 0 s EX) as [I1 I2 I3 I4].
  destruct (execution_inv d gen Hc _ I1) as (ep & I). assert (W := inv_wf _ _ _ _ I).
  set (r := sh_reg (sy_shared (gc_sys s))) in *.
  exists (map (fun x => co_id (snd x)) (rg_caches r) ++
          match rg_future r with Some f => [co_id f] | None => [] end).
  split.
  - assert (L := wf_len _ _ W). unfold lenN in *. rewrite app_length, map_length.
    destruct (rg_future r); cbn [length]; lia.
  - intros id L NI. destruct (Nat.eq_dec (gc_unmapped s id) 0) as [Z|NZ]; [|left; specialize (I3 id); lia].
    right. eexists. split; [apply (gc_finalize d gen 0 s id); auto|].
    + split.
      * fold r. intros [(k & c & IN & E)|(f & F & E)]; apply NI; apply in_or_app.
        -- left. apply in_map_iff. exists (k, c). auto.
        -- right. rewrite F. left. auto.
      * intros t th H. destruct (IDLE _ _ H) as (c & P & Q). split.
        -- unfold live_ref. rewrite P. destruct Q as [->| ->]; [discriminate|].
           destruct (th_req th); discriminate.
        -- intros e r' E. congruence.
    + cbn [gc_sys gc_unmapped]. split; auto. rewrite N.eqb_refl. lia.
Qed.
End C62.
Print Assumptions C62_no_read_after_unmap.
Print Assumptions C62_unmapped_is_gone.
Print Assumptions C62_bounded_when_idle.

(** Goroutine [t] makes its [k] next steps. *)
Definition steps (t k : nat) : list action := repeat (Step t) k.

(** Ethereum keeps three caches.  A call for epoch 0 gets its cache (goroutine 0; goroutine 1
    prepares epoch 1); then calls for epochs 10, 20 and 30 run, and the last one evicts it. *)
Definition before_reads : list action := Request 0 :: steps 0 11.
Definition evicting : list action :=
  Request 10 :: steps 2 11 ++ Request 20 :: steps 4 11 ++ Request 30 :: steps 6 11.

Definition eth_gen (e : N) : N := e * 7.
Definition sys1 := srun (cfg_ethereum []) eth_gen 0 before_reads init_system.
Definition sys2 := match sys1 with Some s => srun (cfg_ethereum []) eth_gen 20 evicting s | None => None end.

Definition is_some {A} (o : option A) : bool := match o with Some _ => true | None => false end.
Definition get_sys (o : option (system N)) : system N := match o with Some s => s | None => init_system end.

(** The object of the first call is not in the registry any more, and no goroutine but the
    first refers to it. *)
Definition ids_of_registry (r : registry) : list N :=
  map (fun x => co_id (snd x)) (rg_caches r) ++ match rg_future r with Some f => [co_id f] | None => [] end.
Definition ids_of_thread (th : thread) : list N :=
  match th_pc th with
  | Lock _ | Read _ => []
  | Write _ r => ids_of_registry r
  | Unlock c | Call c | Slow c | Check c | Gen c | Gen2 c | SetDone c | Release c | Returned c => [co_id c]
  end.
Definition mentions (id : N) (l : list N) : bool := existsb (N.eqb id) l.

Lemma registered_ids r id : registered r id -> mentions id (ids_of_registry r) = true.
Proof.
  intros R. unfold mentions. apply existsb_exists. exists id. split; [|apply N.eqb_refl].
  unfold ids_of_registry. apply in_or_app.
  destruct R as [(k & c & IN & <-)|(f & -> & <-)]; [left|right; left; auto].
  apply in_map_iff. exists (k, c). auto.
Qed.

Lemma unreachable_by_search s id t0 e0 c0 n :
  mentions id (ids_of_registry (sh_reg (sy_shared (gc_sys s)))) = false ->
  nth_error (sy_threads (gc_sys s)) t0 = Some (mkT (Some e0) (Returned c0)) ->
  gc_use s t0 = Reading n false ->
  forallb (fun i => Nat.eqb i t0 || match nth_error (sy_threads (gc_sys s)) i with
    | Some th => negb (mentions id (ids_of_thread th)) | None => true end)
    (seq 0 (length (sy_threads (gc_sys s)))) = true ->
  @unreachable N s id.
Proof.
  intros R H U F. split; [intros X; apply registered_ids in X; congruence|].
  intros t th E. destruct (Nat.eq_dec t t0) as [->|NE].
  - rewrite H in E. inversion E; subst th. split.
    + unfold live_ref. cbn [th_pc th_req]. rewrite U. discriminate.
    + cbn [th_pc]. discriminate.
  - assert (L : (t < length (sy_threads (gc_sys s)))%nat) by (apply nth_error_Some; congruence).
    rewrite forallb_forall in F. specialize (F t). rewrite in_seq in F.
    specialize (F ltac:(lia)). apply Nat.eqb_neq in NE. rewrite NE, E in F. cbn [orb] in F.
    apply negb_true_iff in F. unfold ids_of_thread in F.
    assert (SELF : mentions id [id] = true) by (cbn; rewrite N.eqb_refl; auto).
    split.
    + unfold live_ref. destruct (th_pc th) as [?|?|? ?|c|c|c|c|c|c|c|c|c]; try discriminate;
        try (intros X; inversion X as [X0]; rewrite X0 in F; congruence).
      intros X. assert (co_id c = id) as X0.
      { destruct (th_req th); [|discriminate]. destruct (gc_use s t) as [|? []|]; congruence. }
      rewrite X0 in F. congruence.
    + intros e r P X. rewrite P in F. apply registered_ids in X. congruence.
Qed.

(** Without the call of KeepAlive (the reference may be forgotten when one read is still to
    come) the claim is false: the collector unmaps the cache, then the call reads it. *)
Theorem C62_without_keepalive_refuted :
  ~ (forall (d : config) (gen : N -> N) s t id,
     (1 <= cf_caches_count d)%Z -> gcexecution d gen 1 s -> about_to_read s t id ->
     gc_unmapped s id = 0%nat).
Proof.
  intros A.
  set (d := cfg_ethereum []) in *.
  assert (E0 : gcexecution d eth_gen 1 gc_init) by constructor.
  assert (S1 : sys1 = Some (get_sys sys1)) by (unfold sys1; vm_compute; reflexivity).
  assert (E1 : gcexecution d eth_gen 1 (mkGc (get_sys sys1) (fun _ => NotYet) (fun _ => 0%nat)))
    by (eapply srun_gc; [exact S1|exact E0]).
  set (c0 := mkObj 0 0 3).
  assert (H1 : nth_error (sy_threads (get_sys sys1)) 0 = Some (mkT (Some 0) (Returned c0)))
    by (vm_compute; reflexivity).
  assert (E2 := gx_step _ _ _ _ _ E1 (gc_begin d eth_gen 1 (mkGc (get_sys sys1) (fun _ => NotYet) (fun _ => 0%nat)) 0%nat 0 c0 1%nat H1 eq_refl)).
  assert (E3 := gx_step _ _ _ _ _ E2 (gc_forget d eth_gen 1 (mkGc (get_sys sys1) (fun i => if Nat.eqb i 0 then Reading 1 true else NotYet) (fun _ => 0%nat)) 0%nat 1%nat eq_refl (le_n 1))).
  cbn [set_use gc_sys gc_use gc_unmapped] in E3.
  assert (S2 : srun d eth_gen 20 evicting (get_sys sys1) = Some (get_sys sys2))
    by (vm_compute; reflexivity).
  assert (E4 := srun_gc _ _ _ _ _ _ _ _ _ S2 E3).
  assert (H4 : nth_error (sy_threads (get_sys sys2)) 0 = Some (mkT (Some 0) (Returned c0)))
    by (vm_compute; reflexivity).
  assert (U : unreachable (mkGc (get_sys sys2)
     (fun i => if Nat.eqb i 0 then Reading 1 false else if Nat.eqb i 0 then Reading 1 true else NotYet)
     (fun _ => 0%nat)) 0).
  { apply (unreachable_by_search _ 0 0%nat 0 c0 1%nat); try (vm_compute; reflexivity). }
  assert (L : 0 < rg_next (sh_reg (sy_shared (get_sys sys2)))) by (vm_compute; reflexivity).
  assert (E5 := gx_step _ _ _ _ _ E4 (gc_finalize d eth_gen 1 (mkGc (get_sys sys2) _ (fun _ => 0%nat)) 0 L U eq_refl)).
  specialize (A d eth_gen _ 0%nat 0 ltac:(cbn; lia) E5).
  assert (B := A ltac:(exists 0, c0, 0%nat, false; split; [exact H4|split; reflexivity])).
  cbn in B. discriminate.
Qed.
Print Assumptions C62_without_keepalive_refuted.

(** The hypotheses are met: the same schedule with KeepAlive, where the first call still has
    two reads to make after its cache was evicted. *)
Example C62_instance :
  exists s, gcexecution (cfg_ethereum []) eth_gen 0%nat s /\ about_to_read s 0%nat 0 /\
    ~ registered (sh_reg (sy_shared (gc_sys s))) 0.
Proof.
  set (d := cfg_ethereum []) in *.
  assert (E0 : gcexecution d eth_gen 0 gc_init) by constructor.
  assert (S1 : sys1 = Some (get_sys sys1)) by (unfold sys1; vm_compute; reflexivity).
  assert (E1 : gcexecution d eth_gen 0 (mkGc (get_sys sys1) (fun _ => NotYet) (fun _ => 0%nat)))
    by (eapply srun_gc; [exact S1|exact E0]).
  set (c0 := mkObj 0 0 3).
  assert (H1 : nth_error (sy_threads (get_sys sys1)) 0 = Some (mkT (Some 0) (Returned c0)))
    by (vm_compute; reflexivity).
  assert (E2 := gx_step _ _ _ _ _ E1 (gc_begin d eth_gen 0 (mkGc (get_sys sys1) (fun _ => NotYet) (fun _ => 0%nat)) 0%nat 0 c0 2%nat H1 eq_refl)).
  cbn [set_use gc_sys gc_use gc_unmapped] in E2.
  assert (S2 : srun d eth_gen 20 evicting (get_sys sys1) = Some (get_sys sys2))
    by (vm_compute; reflexivity).
  assert (E4 := srun_gc _ _ _ _ _ _ _ _ _ S2 E2).
  eexists. split; [exact E4|]. split.
  - exists 0, c0, 1%nat, true. split; [vm_compute; reflexivity|split; reflexivity].
  - intros R. apply registered_ids in R. vm_compute in R. discriminate.
Qed.
