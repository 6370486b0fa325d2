(** C18: concurrent requests. *)
From Coq Require Import NArith ZArith List Bool Permutation Lia ZifyBool ZifyN ZifyNat.
From Verif Require Import Base BaseFacts DagModel RegModel RegSpec RegProofs OnceModel OnceProofs.
Import ListNotations.
Open Scope N_scope.

Section C18.
Context {V : Type}.

(** In every state of every execution: a request for epoch [e] that has returned holds an
    object for [e] whose content is complete and was generated exactly once. *)
Theorem C18_returns_complete (d : config) (gen : N -> V) s t e c :
  (1 <= cf_caches_count d)%Z -> execution d gen s ->
  nth_error (sy_threads s) t = Some (mkT (Some e) (Returned c)) ->
  co_epoch c = e /\
  go_content (sh_obj (sy_shared s) (co_id c)) = Complete (gen e) /\
  go_runs (sh_obj (sy_shared s) (co_id c)) = 1%nat.
Proof.
  intros Hc EX H. destruct (execution_inv d gen Hc s EX) as (ep & I).
  assert (T := inv_threads _ _ _ _ I _ _ H). cbn in T. destruct T as [[[T1 T2] T3] T4].
  specialize (T3 e eq_refl).
  destruct (inv_done _ _ _ _ I _ T4) as (D1 & D2 & _). split; auto. split; auto.
  rewrite D1. congruence.
Qed.

(** No object's content is ever generated twice. *)
Theorem C18_generated_once (d : config) (gen : N -> V) s id :
  (1 <= cf_caches_count d)%Z -> execution d gen s ->
  (go_runs (sh_obj (sy_shared s) id) <= 1)%nat.
Proof.
  intros Hc EX. destruct (execution_inv d gen Hc s EX) as (ep & I).
  destruct (go_done (sh_obj (sy_shared s) id)) eqn:D.
  - destruct (inv_done _ _ _ _ I _ D) as (_ & E & _). lia.
  - destruct (go_lock (sh_obj (sy_shared s) id)) as [t|] eqn:L.
    + destruct (inv_lock _ _ _ _ I _ _ L) as (th & H & F).
      assert (T := inv_threads _ _ _ _ I _ _ H). unfold thread_ok in T.
      destruct (th_pc th); cbn in F; try discriminate; inversion F; subst id.
      * destruct T as (_ & _ & T). destruct (T D). lia.
      * intuition lia.
      * intuition lia.
      * intuition lia.
      * intuition congruence.
    + destruct (inv_free _ _ _ _ I _ L D). lia.
Qed.

(** The registry section is executed by at most one goroutine at a time, it holds at most
    [CachesCount] objects, no two for the same epoch, and they are distinct objects. *)
Theorem C18_registry (d : config) (gen : N -> V) s :
  (1 <= cf_caches_count d)%Z -> execution d gen s ->
  (forall t u th uh, nth_error (sy_threads s) t = Some th -> nth_error (sy_threads s) u = Some uh ->
     holds_mutex (th_pc th) = true -> holds_mutex (th_pc uh) = true -> t = u) /\
  (Z.of_N (lenN (rg_caches (sh_reg (sy_shared s)))) <= cf_caches_count d)%Z /\
  NoDup (map (fun x => co_epoch (snd x)) (rg_caches (sh_reg (sy_shared s)))) /\
  NoDup (map (fun x => co_id (snd x)) (rg_caches (sh_reg (sy_shared s)))).
Proof.
  intros Hc EX. destruct (execution_inv d gen Hc s EX) as (ep & I).
  assert (W := inv_wf _ _ _ _ I). split; [|split; [apply W|]].
  - intros t u th uh H1 H2 F1 F2.
    assert (T1 := inv_threads _ _ _ _ I _ _ H1). assert (T2 := inv_threads _ _ _ _ I _ _ H2).
    unfold thread_ok in *.
    destruct (th_pc th); try discriminate; destruct (th_pc uh); try discriminate;
      intuition congruence.
  - assert (ND := wf_nodup _ _ W). assert (K := wf_key _ _ W). assert (J := wf_idinj _ _ W).
    revert ND K J. generalize (rg_caches (sh_reg (sy_shared s))). intros l.
    induction l as [|[k c] l IH]; intros ND K J; [split; constructor|].
    cbn in ND. inversion ND as [|x y NI ND']; subst.
    destruct IH as [IH1 IH2]; auto.
    { intros; apply K; right; auto. } { intros; eapply J; [right; eauto|right; eauto|auto]. }
    cbn. split; constructor; auto.
    + intros IN. apply in_map_iff in IN. destruct IN as ((k' & c') & E & IN). cbn in E.
      apply NI. apply in_map_iff. exists (k', c'). split; auto. cbn.
      rewrite <- (K k c), <- (K k' c'); auto; [right; auto|left; auto].
    + intros IN. apply in_map_iff in IN. destruct IN as ((k' & c') & E & IN). cbn in E.
      apply NI. apply in_map_iff. exists (k', c'). split; auto. cbn.
      apply (J k' c' k c); auto; [right; auto|left; auto].
Qed.

(** No deadlock: as long as a goroutine has not returned, some goroutine can step. *)
Theorem C18_no_deadlock (d : config) (gen : N -> V) s t th :
  (1 <= cf_caches_count d)%Z -> execution d gen s ->
  nth_error (sy_threads s) t = Some th -> (forall c, th_pc th <> Returned c) ->
  exists s', gstep d gen s s'.
Proof.
  intros Hc EX H F. apply (progress d gen Hc s t th); auto.
  unfold finished. destruct (th_pc th) eqn:E; auto. destruct (F c); auto.
Qed.

(** Once no further requests arrive, every schedule is finite, with a bound known in advance,
    and one that cannot be extended has served every request. *)
Theorem C18_terminates (d : config) (gen : N -> V) s :
  (1 <= cf_caches_count d)%Z -> execution d gen s ->
  exists bound, forall n s', gsteps d gen n s s' ->
    (n <= bound)%nat /\
    ((forall s'', ~ gstep d gen s' s'') ->
      forall t th e, nth_error (sy_threads s) t = Some th -> th_req th = Some e ->
      exists c, nth_error (sy_threads s') t = Some (mkT (Some e) (Returned c)) /\
        co_epoch c = e /\ go_content (sh_obj (sy_shared s') (co_id c)) = Complete (gen e)).
Proof.
  intros Hc EX. exists (total_rank s). intros n s' GS. split.
  - apply gsteps_rank in GS. lia.
  - intros STOP t th e H R.
    assert (EX' := gsteps_execution _ _ _ _ _ EX GS).
    destruct (gsteps_req _ _ _ _ _ _ _ GS H) as ([req p] & H' & R'). cbn in R'.
    rewrite R in R'. subst req.
    assert (FIN : finished (mkT (Some e) p) = true).
    { destruct (finished (mkT (Some e) p)) eqn:F; auto.
      destruct (progress d gen Hc s' t _ EX' H' F) as (s'' & ST). destruct (STOP s'' ST). }
    unfold finished in FIN. cbn in FIN. destruct p; try discriminate. exists c. split; auto.
    destruct (C18_returns_complete d gen s' t e c Hc EX' H') as (A & B & _). auto.
Qed.
End C18.
Print Assumptions C18_returns_complete.
Print Assumptions C18_generated_once.
Print Assumptions C18_registry.
Print Assumptions C18_no_deadlock.
Print Assumptions C18_terminates.

(** Two requests for the same epoch and one for another, interleaved: an execution in which
    all three return exists, so the theorems above are about something. *)
Example C18_instance :
  exists s c0 c1 c2, execution (cfg_ethereum []) (fun e => e * 7) s /\
    nth_error (sy_threads s) 0 = Some (mkT (Some 5) (Returned c0)) /\
    nth_error (sy_threads s) 1 = Some (mkT (Some 5) (Returned c1)) /\
    nth_error (sy_threads s) 2 = Some (mkT (Some 9) (Returned c2)) /\
    go_content (sh_obj (sy_shared s) (co_id c1)) = Complete 35 /\
    go_content (sh_obj (sy_shared s) (co_id c2)) = Complete 63.
Proof.
  set (d := cfg_ethereum []). set (gen := fun e => e * 7).
  assert (Hc : (1 <= cf_caches_count d)%Z) by (cbn; lia).
  assert (EX : execution d gen (mkSys (sy_shared (@init_system N))
    [mkT (Some 5) (Lock 5); mkT (Some 5) (Lock 5); mkT (Some 9) (Lock 9)])).
  { apply (ex_request d gen (mkSys (sy_shared (@init_system N)) [mkT (Some 5) (Lock 5); mkT (Some 5) (Lock 5)]) 9); [|lia].
    apply (ex_request d gen (mkSys (sy_shared (@init_system N)) [mkT (Some 5) (Lock 5)]) 5); [|lia].
    apply (ex_request d gen init_system 5); [constructor|lia]. }
  destruct (gsteps_finish d gen Hc _ EX) as (n & s' & GS & A).
  assert (EX' := gsteps_execution _ _ _ _ _ EX GS).
  assert (R : forall t th e, nth_error [mkT (Some 5) (Lock 5); mkT (Some 5) (Lock 5); mkT (Some 9) (Lock 9)] t = Some th ->
    th_req th = Some e ->
    exists c, nth_error (sy_threads s') t = Some (mkT (Some e) (Returned c)) /\
      go_content (sh_obj (sy_shared s') (co_id c)) = Complete (gen e)).
  { intros t th e H Er. destruct (gsteps_req _ _ _ _ _ _ _ GS H) as ([req p] & H' & R'). cbn in R'.
    rewrite Er in R'. subst req.
    assert (F := proj1 (Forall_forall _ _) A _ (nth_error_In _ _ H')).
    unfold finished in F. cbn in F. destruct p; try discriminate. exists c. split; auto.
    destruct (C18_returns_complete d gen s' t e c Hc EX' H') as (_ & B & _). auto. }
  destruct (R 0%nat _ 5 eq_refl eq_refl) as (c0 & E0 & _).
  destruct (R 1%nat _ 5 eq_refl eq_refl) as (c1 & E1 & G1).
  destruct (R 2%nat _ 9 eq_refl eq_refl) as (c2 & E2 & G2).
  exists s', c0, c1, c2. repeat (split; auto).
Qed.
