(** Proofs about the collection of cache objects. *)
From Coq Require Import NArith ZArith List Bool Permutation Arith Lia ZifyBool ZifyN ZifyNat.
From Verif Require Import Base BaseFacts DagModel RegModel RegSpec RegProofs OnceModel OnceProofs GcModel.
Import ListNotations.
Open Scope N_scope.

Section Proofs.
Context {V : Type}.
Variable d : config.
Variable gen : N -> V.
Hypothesis count_pos : (1 <= cf_caches_count d)%Z.

(** What a step of the registry refers to afterwards was referred to before, or is new. *)
Lemma write_refs order now e r r' c sp :
  (forall m, Permutation m (order m)) -> e < 2 ^ 64 - 1 -> wf (cf_caches_count d) r ->
  get_locked d order now e r = Done (r', c, sp) ->
  rg_next r <= rg_next r' /\
  (forall id, registered r' id -> registered r id \/ rg_next r <= id) /\
  (registered r (co_id c) \/ rg_next r <= co_id c) /\
  (forall f, sp = Some f -> rg_next r <= co_id f).
Proof.
  intros Ho He W G.
  destruct (get_locked_spec d order now e r) as (r1 & c1 & sp1 & E & W' & Ec & Eu & Hn & S); auto.
  rewrite G in E. inversion E; subst r1 c1 sp1. clear E. split; auto.
  assert (CR : registered r (co_id c) \/ rg_next r <= co_id c).
  { destruct (map_get e (rg_caches r)) as [c0|] eqn:M.
    - destruct S as (S1 & _). left. left. exists e, c0. split; auto. apply map_get_In; auto.
    - destruct S as (_ & [S|(f & F1 & F2 & F3)] & _); [right; lia|].
      left. right. exists f. auto. }
  split; [|split; auto].
  - intros id [(k & x & IX & EI)|(f & F & EI)].
    + assert (CASE : (k, x) = (e, c) \/ In (k, x) (rg_caches r)).
      { destruct (map_get e (rg_caches r)).
        - destruct S as (_ & _ & S & _). rewrite S in IX. destruct IX as [IX|IX]; auto.
          apply In_map_delete in IX. tauto.
        - destruct S as ((m & K & S) & _). rewrite S in IX. destruct IX as [IX|IX]; auto.
          apply In_map_delete in IX. destruct IX as [IX _]. right.
          unfold kept in K. destruct (_ <=? _)%Z.
          + destruct K as (k0 & ev & _ & _ & ->). apply In_map_delete in IX. tauto.
          + subst m. auto. }
      destruct CASE as [E|IR]; [inversion E; subst; auto|]. left. left. eauto.
    + destruct (map_get e (rg_caches r)).
      * destruct S as (_ & _ & _ & S & _). left. right. exists f. split; congruence.
      * destruct S as (_ & _ & S). destruct sp as [f0|].
        -- destruct S as (F1 & F2 & F3). right. assert (f0 = f) by congruence. subst. auto.
        -- destruct S as (F1 & _). left. right. exists f. split; congruence.
  - intros f ->. destruct (map_get e (rg_caches r)); [destruct S as (_ & S & _); discriminate|].
    destruct S as (_ & _ & _ & _ & S). auto.
Qed.

(** An object that nobody refers to stays so. *)
Definition unref (s : system V) (u : nat -> use) (id : N) : Prop :=
  id < rg_next (sh_reg (sy_shared s)) /\ ~ registered (sh_reg (sy_shared s)) id /\
  forall t th, nth_error (sy_threads s) t = Some th -> live_ref th (u t) <> Some id.

Lemma gstep_unref ep s s' u id :
  inv d gen ep s -> gstep d gen s s' -> unref s u id -> unref s' u id.
Proof.
  intros I ST (U1 & U2 & U3). destruct ST as [s t [req p] sh' pc' new H L].
  assert (OK := inv_threads _ _ _ _ I _ _ H). assert (U := U3 _ _ H).
  assert (W := inv_wf _ _ _ _ I).
  unfold unref. cbn [sy_shared sy_threads].
  assert (K : rg_next (sh_reg (sy_shared s)) <= rg_next (sh_reg sh') /\
    (registered (sh_reg sh') id -> registered (sh_reg (sy_shared s)) id) /\
    (live_ref (mkT req pc') (u t) <> Some id) /\
    (forall x w, In x new -> live_ref x w <> Some id)).
  { cbn [th_pc th_req] in *.
    destruct L; cbn [sh_reg set_obj] in *; unfold thread_ok in OK; cbn [th_pc th_req] in OK;
      try (split; [lia|split; [auto|split; [|intros ? ? []]]]; unfold live_ref in *;
           cbn [th_pc th_req] in *; auto; try discriminate;
           destruct req; try discriminate; destruct (u t) as [|? []|]; try discriminate; auto; fail).
    destruct OK as (_ & HE & _ & ER). subst r.
    destruct (write_refs order now e (sh_reg sh) r' c sp) as (W1 & W2 & W3 & W4); auto.
    split; [auto|split; [|split]].
    - intros R. destruct (W2 _ R); auto. lia.
    - unfold live_ref. cbn [th_pc]. intros E. inversion E; subst id. destruct W3; auto. lia.
    - destruct sp as [f|]; [|intros ? ? []]. intros x w [<-|[]]. unfold live_ref. cbn [th_pc].
      intros E. inversion E; subst id. specialize (W4 f eq_refl). lia. }
  destruct K as (K1 & K2 & K3 & K4). split; [lia|split; [auto|]].
  intros v x E. destruct (threads_after _ _ _ _ _ _ _ H E) as [[-> ->]|[[NE E']|IX]]; auto.
Qed.

(** The invariant of the collector. *)
Record gcinv (last : nat) (s : gcsys V) : Prop := mkGcInv {
  gi_ex : execution d gen (gc_sys s);
  gi_unmapped : forall id, gc_unmapped s id <> 0%nat -> unref (gc_sys s) (gc_use s) id;
  gi_once : forall id, (gc_unmapped s id <= 1)%nat;
  gi_held : forall t n, gc_use s t = Reading n false -> (n <= last)%nat
}.

Lemma set_use_unref s t u id :
  unref (gc_sys s) (gc_use s) id ->
  (forall th, nth_error (sy_threads (gc_sys s)) t = Some th ->
     live_ref th u = Some id -> live_ref th (gc_use s t) = Some id) ->
  unref (gc_sys (set_use s t u)) (gc_use (set_use s t u)) id.
Proof.
  intros (U1 & U2 & U3) H. split; [auto|split; [auto|]]. cbn [set_use gc_sys gc_use].
  intros v th E. destruct (Nat.eqb_spec v t) as [->|]; [|apply U3; auto].
  intros L. apply (U3 _ _ E). auto.
Qed.

Lemma gcstep_inv last s s' : gcinv last s -> gcstep d gen last s s' -> gcinv last s'.
Proof.
  intros [I1 I2 I3 I4] ST.
  assert (SU : forall t u, (forall m, u = Reading m false -> (m <= last)%nat) ->
    (forall id th, nth_error (sy_threads (gc_sys s)) t = Some th ->
       live_ref th u = Some id -> live_ref th (gc_use s t) = Some id) ->
    gcinv last (set_use s t u)).
  { intros t u Hu HL. constructor; cbn [set_use gc_sys gc_use gc_unmapped]; auto.
    - intros id N0. apply (set_use_unref s t u id); auto.
    - intros v m. destruct (Nat.eqb_spec v t); [apply Hu|apply I4]. }
  destruct ST as [s s' G|s e He|s t e c n H U|s t e c n h H U|s t n U L|s t h U|s id L U Z].
  - destruct (execution_inv d gen count_pos _ I1) as (ep & I).
    constructor; cbn [gc_sys gc_use gc_unmapped]; auto.
    + eapply ex_step; eauto.
    + intros id N0. eapply gstep_unref; eauto.
  - constructor; cbn [gc_sys gc_use gc_unmapped]; auto.
    + apply ex_request; auto.
    + intros id N0. destruct (I2 id N0) as (U1 & U2 & U3).
      split; [auto|split; [auto|]]. cbn [sy_threads]. intros v x E.
      destruct (Nat.lt_ge_cases v (length (sy_threads (gc_sys s)))).
      * rewrite nth_error_app1 in E by auto. apply U3; auto.
      * rewrite nth_error_app2 in E by auto. apply nth_error_In in E. destruct E as [<-|[]].
        cbn. discriminate.
  - apply SU.
    + intros m E. discriminate.
    + intros id th E. rewrite E in H. inversion H; subst th. rewrite U. auto.
  - apply SU.
    + intros m E. inversion E; subst. specialize (I4 _ _ U). lia.
    + intros id th E. rewrite E in H. inversion H; subst th. rewrite U. auto.
  - apply SU.
    + intros m E. inversion E; subst. auto.
    + intros id th E. unfold live_ref. rewrite U. destruct (th_pc th); auto; destruct (th_req th); discriminate.
  - apply SU.
    + intros m E. discriminate.
    + intros id th E. unfold live_ref. rewrite U. destruct (th_pc th); auto; destruct (th_req th); discriminate.
  - constructor; cbn [gc_sys gc_use gc_unmapped]; auto.
    + intros i. destruct (N.eqb_spec i id) as [->|]; auto. intros _.
      destruct U as (U1 & U2). split; [auto|split; [auto|]]. intros t th E. apply (U2 t th E).
    + intros i. destruct (N.eqb_spec i id) as [->|]; auto. lia.
Qed.

Lemma gcexecution_inv last s : gcexecution d gen last s -> gcinv last s.
Proof.
  induction 1 as [|s s' EX IH ST].
  - constructor; cbn; try discriminate; auto; [constructor|tauto].
  - eapply gcstep_inv; eauto.
Qed.
End Proofs.

(** ** A scheduler *)

Section Sched.
Context {V : Type}.

(** One step of goroutine [t], with the map iterated in its own order and the clock at
    [now]. *)
Definition lrun (d : config) (gen : N -> V) (now : Z) (t : nat) (sh : shared V) (p : pc)
  : option (shared V * pc * list thread) :=
  let g c := sh_obj sh (co_id c) in
  match p with
  | Lock e => match sh_mutex sh with
              | None => Some (mkSh (sh_reg sh) (Some t) (sh_obj sh), Read e, [])
              | Some _ => None end
  | Read e => Some (sh, Write e (sh_reg sh), [])
  | Write e r => match get_locked d (fun m => m) now e r with
                 | Done (r', c, sp) =>
                     Some (mkSh r' (sh_mutex sh) (sh_obj sh), Unlock c,
                           match sp with Some f => [mkT None (Call f)] | None => [] end)
                 | _ => None end
  | Unlock c => Some (mkSh (sh_reg sh) None (sh_obj sh), Call c, [])
  | Call c => if go_done (g c) then Some (sh, Returned c, []) else Some (sh, Slow c, [])
  | Slow c => match go_lock (g c) with
              | None => Some (set_obj sh (co_id c) (mkG (go_done (g c)) (Some t) (go_content (g c)) (go_runs (g c))), Check c, [])
              | Some _ => None end
  | Check c => if go_done (g c) then Some (sh, Release c, []) else Some (sh, Gen c, [])
  | Gen c => Some (set_obj sh (co_id c) (mkG (go_done (g c)) (go_lock (g c)) Partial (S (go_runs (g c)))), Gen2 c, [])
  | Gen2 c => Some (set_obj sh (co_id c) (mkG (go_done (g c)) (go_lock (g c)) (Complete (gen (co_epoch c))) (go_runs (g c))), SetDone c, [])
  | SetDone c => Some (set_obj sh (co_id c) (mkG true (go_lock (g c)) (go_content (g c)) (go_runs (g c))), Release c, [])
  | Release c => Some (set_obj sh (co_id c) (mkG (go_done (g c)) None (go_content (g c)) (go_runs (g c))), Returned c, [])
  | Returned _ => None
  end.

Lemma lrun_sound d gen now t sh p sh' p' new :
  lrun d gen now t sh p = Some (sh', p', new) -> lstep d gen t sh p sh' p' new.
Proof.
  destruct p; cbn [lrun]; intros E.
  - destruct (sh_mutex sh) eqn:M; inversion E; subst. constructor; auto.
  - inversion E; subst. constructor.
  - destruct (get_locked d (fun m => m) now e r) as [[[r' c] sp]| |] eqn:G; inversion E; subst.
    eapply s_write; [|exact G]. intros; apply Permutation_refl.
  - inversion E; subst. constructor.
  - destruct (go_done _) eqn:D; inversion E; subst; constructor; auto.
  - destruct (go_lock _) eqn:D; inversion E; subst; constructor; auto.
  - destruct (go_done _) eqn:D; inversion E; subst; constructor; auto.
  - inversion E; subst. constructor.
  - inversion E; subst. constructor.
  - inversion E; subst. constructor.
  - inversion E; subst. constructor.
  - discriminate.
Qed.

(** A schedule: which goroutine steps next, or a new request. *)
Inductive action := Step (t : nat) | Request (e : N).

Fixpoint srun (d : config) (gen : N -> V) (now : Z) (l : list action) (s : system V) : option (system V) :=
  match l with
  | [] => Some s
  | Step t :: l' =>
      match nth_error (sy_threads s) t with
      | None => None
      | Some th =>
          match lrun d gen now t (sy_shared s) (th_pc th) with
          | None => None
          | Some (sh', p', new) =>
              srun d gen (now + 1) l' (mkSys sh' (set_nth (sy_threads s) t (mkT (th_req th) p') ++ new))
          end
      end
  | Request e :: l' =>
      if e <? 2 ^ 64 - 1
      then srun d gen (now + 1) l' (mkSys (sy_shared s) (sy_threads s ++ [mkT (Some e) (Lock e)]))
      else None
  end.

Lemma srun_gc d gen last l : forall now s s' u un,
  srun d gen now l s = Some s' ->
  gcexecution d gen last (mkGc s u un) -> gcexecution d gen last (mkGc s' u un).
Proof.
  induction l as [|[t|e] l IH]; intros now s s' u un; cbn [srun].
  - intros E. inversion E; subst. auto.
  - destruct (nth_error (sy_threads s) t) as [th|] eqn:H; [|discriminate].
    destruct (lrun d gen now t (sy_shared s) (th_pc th)) as [[[sh' p'] new]|] eqn:L; [|discriminate].
    intros E EX. eapply IH; eauto. eapply gx_step; [exact EX|].
    apply (gc_code d gen last (mkGc s u un)). econstructor; eauto. apply lrun_sound in L. exact L.
  - destruct (N.ltb_spec e (2 ^ 64 - 1)); [|discriminate].
    intros E EX. eapply IH; eauto. eapply gx_step; [exact EX|].
    apply (gc_request d gen last (mkGc s u un)). auto.
Qed.
End Sched.
