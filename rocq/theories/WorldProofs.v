(** Proofs about several programs on one storage directory. *)
From Coq Require Import NArith ZArith List Bool Permutation Arith Lia ZifyBool ZifyN ZifyNat.
From Verif Require Import Base BaseFacts DagModel DagSpec RegModel RegSpec RegProofs OnceModel OnceProofs GcModel GcProofs
  FileModel FileProofs FileJob FileJobProofs PropsFiles PropsGc WorldModel.
Import ListNotations.
Open Scope N_scope.

(** ** Runs of generate that start later *)

Lemma set_nth_app {A} (l l' : list A) t x y : nth_error l t = Some y -> set_nth (l ++ l') t x = set_nth l t x ++ l'.
Proof.
  revert t. induction l as [|a l IH]; intros [|t] H; cbn in *; try discriminate; auto. f_equal. auto.
Qed.

Lemma distinct_temps_app f ps j : distinct_temps (mkState f ps) -> distinct_temps (mkState f (ps ++ [(j, Some (start j))])).
Proof.
  intros D t u j1 j2 p1 p2 n H1 H2 E1 E2. cbn [st_procs] in *.
  assert (LAST : forall t j1 p1, nth_error (ps ++ [(j, Some (start j))]) t = Some (j1, Some p1) -> temp_of p1 = Some n ->
    nth_error ps t = Some (j1, Some p1)).
  { intros v jj q H E. destruct (Nat.ltb_spec v (length ps)).
    - rewrite nth_error_app1 in H by auto. auto.
    - rewrite nth_error_app2 in H by auto. destruct (v - length ps)%nat as [|[|]]; cbn in H; try discriminate.
      inversion H; subst. unfold start, temp_of in E. cbn [pr_pc] in E. destruct (jb_disk jj); discriminate. }
  eapply D; cbn [st_procs]; eauto.
Qed.

Lemma run_append f js s j : run (initial f js) s ->
  run (initial f (js ++ [j])) (mkState (st_fs s) (st_procs s ++ [(j, Some (start j))])).
Proof.
  induction 1 as [|s s' R IH ST DT].
  - cbn [initial st_fs st_procs]. unfold initial. rewrite map_app. apply run_refl.
  - eapply run_step; [exact IH| |].
    + destruct ST as [f0 f' ps t j0 p p' H ST|f0 ps t j0 p H]; cbn [st_fs st_procs] in *.
      * rewrite <- (set_nth_app ps _ t _ _ H). eapply f_step; [|exact ST].
        rewrite nth_error_app1; auto. apply nth_error_Some. congruence.
      * rewrite <- (set_nth_app ps _ t _ _ H). eapply f_kill.
        rewrite nth_error_app1; eauto. apply nth_error_Some. congruence.
    + destruct s' as [f' ps']. apply distinct_temps_app. exact DT.
Qed.

(** A run without L1 cache has no L1 cache. *)
Definition kind_of (c : FileModel.pc) : option kind :=
  match c with
  | Open k _ | Map k _ _ | FileModel.Check k _ _ | Mkdir k | Create k | Trunc k _ _ | MapW k _ _ | Fill k _ _
  | Unmap k _ _ | Close k _ _ | Rename k _ _ | RemoveTmp k _ | InMem k => Some k
  | _ => None
  end.
Definition plain (j : job) (p : proc) : Prop :=
  jb_l1 j = false -> pr_l1 p = None /\ kind_of (pr_pc p) <> Some KL1.

Lemma plain_step j f p f' p' : pstep j f p f' p' -> plain j p -> plain j p'.
Proof.
  intros ST P L. specialize (P L). destruct P as (P1 & P2).
  assert (PF : forall k d, kind_of (pr_pc p) = Some k -> pr_l1 (fill_slot p k d) = None).
  { intros [|] dd E; cbn; auto. congruence. }
  assert (PL : forall k b dd, kind_of (pr_pc p) = Some k ->
     pr_l1 (loaded j p k b dd) = None /\ kind_of (pr_pc (loaded j p k b dd)) <> Some KL1).
  { intros [|] b dd E; [|congruence]. unfold loaded. destruct b.
    - rewrite L. unfold decide. cbn. rewrite L. split; auto. destruct dd; cbn; discriminate.
    - destruct dd; unfold after; cbn; rewrite ?L; cbn; split; auto; discriminate. }
  destruct ST; match goal with H : pr_pc p = _ |- _ => rewrite H in * end; cbn [kind_of] in *;
    try (apply PL; reflexivity);
    try (split; [cbn [go pr_l1 fill_slot]; auto; try (destruct k; [auto|congruence])|cbn; auto; congruence]; fail).
  - unfold after. destruct k; [|congruence]. cbn. rewrite L. cbn. split; auto. discriminate.
Qed.

Lemma run_plain f js s : run (initial f js) s ->
  forall t j p, nth_error (st_procs s) t = Some (j, Some p) -> plain j p.
Proof.
  induction 1 as [|s s' R IH ST _]; intros t j p H.
  - cbn in H. rewrite nth_error_map in H. destruct (nth_error js t); inversion H; subst.
    intros _. split; auto. unfold start. cbn. destruct (jb_disk j); discriminate.
  - destruct ST as [f0 f' ps u j0 p0 p' H0 ST|f0 ps u j0 p0 H0]; cbn [st_procs] in *;
      destruct (set_nth_cases _ _ _ _ _ H) as [(-> & E)|(NE & E)]; eauto; inversion E; subst; eauto.
    eapply plain_step; eauto.
Qed.

Lemma pstep_not_finished j f p f' p' : pstep j f p f' p' -> pr_pc p <> Finished.
Proof. intros ST. destruct ST; congruence. Qed.

(** ** Epochs of objects *)

Definition obj_in (p : OnceModel.pc) : option cobj :=
  match p with
  | Lock _ | Read _ | Write _ _ => None
  | Unlock c | Call c | Slow c | OnceModel.Check c | Gen c | Gen2 c | SetDone c | Release c | Returned c => Some c
  end.

Section Bound.
Context {V : Type}.
Variable d : config.
Variable gen : N -> V.
Variable top : N.
Hypothesis count_pos : (1 <= cf_caches_count d)%Z.

Record bounded (s : system V) : Prop := mkBounded {
  bd_reg : forall k c, In (k, c) (rg_caches (sh_reg (sy_shared s))) -> co_epoch c <= top;
  bd_fut : forall f, rg_future (sh_reg (sy_shared s)) = Some f -> co_epoch f <= top;
  bd_req : forall t th e, nth_error (sy_threads s) t = Some th -> th_req th = Some e -> e < top;
  bd_obj : forall t th c, nth_error (sy_threads s) t = Some th -> obj_in (th_pc th) = Some c -> co_epoch c <= top
}.

Lemma write_bounded order now e r r' c sp :
  (forall m, Permutation m (order m)) -> e < 2 ^ 64 - 1 -> e < top -> wf (cf_caches_count d) r ->
  get_locked d order now e r = Done (r', c, sp) ->
  (forall k x, In (k, x) (rg_caches r) -> co_epoch x <= top) ->
  (forall f, rg_future r = Some f -> co_epoch f <= top) ->
  (forall k x, In (k, x) (rg_caches r') -> co_epoch x <= top) /\
  (forall f, rg_future r' = Some f -> co_epoch f <= top) /\
  co_epoch c <= top /\ (forall f, sp = Some f -> co_epoch f <= top).
Proof.
  intros Ho He Ht W G B1 B2.
  destruct (get_locked_spec d order now e r) as (r1 & c1 & sp1 & E & W' & Ec & Eu & Hn & S); auto.
  rewrite G in E. inversion E; subst r1 c1 sp1. clear E.
  assert (C : co_epoch c <= top) by lia.
  assert (SET : forall m, (forall k x, In (k, x) m -> co_epoch x <= top) ->
    forall k x, In (k, x) (map_set e c m) -> co_epoch x <= top).
  { intros m Hm k x [X|X]; [inversion X; subst; auto|]. apply In_map_delete in X. apply (Hm k x). apply X. }
  destruct (map_get e (rg_caches r)).
  - destruct S as (_ & -> & S1 & S2 & _). split; [rewrite S1; exact (SET _ B1)|]. split; [rewrite S2; auto|]. split; auto. discriminate.
  - destruct S as ((m & K & S1) & _ & S2).
    assert (KM : forall k x, In (k, x) m -> co_epoch x <= top).
    { unfold kept in K. destruct (_ <=? _)%Z; [|subst m; auto].
      destruct K as (k0 & ev & _ & _ & ->). intros k x X. apply In_map_delete in X. apply (B1 k x). apply X. }
    split; [rewrite S1; exact (SET _ KM)|].
    destruct sp as [f0|].
    + destruct S2 as (F1 & F2 & _). split; [rewrite F1; intros f X; inversion X; subst; lia|]. split; auto.
      intros f X. inversion X; subst. lia.
    + destruct S2 as (F1 & _). split; [rewrite F1; auto|]. split; auto. discriminate.
Qed.

Lemma gstep_bounded ep s s' : OnceProofs.inv d gen ep s -> gstep d gen s s' -> bounded s -> bounded s'.
Proof.
  intros I ST [B1 B2 B3 B4]. destruct ST as [s t [req p] sh' pc' new H L].
  assert (OK := inv_threads _ _ _ _ I _ _ H). assert (W := inv_wf _ _ _ _ I).
  assert (K : (forall k c, In (k, c) (rg_caches (sh_reg sh')) -> co_epoch c <= top) /\
    (forall f, rg_future (sh_reg sh') = Some f -> co_epoch f <= top) /\
    (forall c, obj_in pc' = Some c -> co_epoch c <= top) /\
    (forall th, In th new -> th_req th = None /\ forall c, obj_in (th_pc th) = Some c -> co_epoch c <= top)).
  { assert (B4' := fun c => B4 _ _ c H). cbn [th_pc] in B4'. clear B4.
    assert (B3' := fun e => B3 _ _ e H). cbn [th_req] in B3'. clear B3. cbn [th_pc th_req] in *.
    destruct L; cbn [sh_reg set_obj obj_in] in *; unfold thread_ok in OK; cbn [th_pc th_req] in OK;
      try (split; [exact B1|split; [exact B2|split; [auto; try discriminate|intros ? []]]]; fail).
    destruct OK as (EQ & HE & _ & ER). subst r.
    destruct (write_bounded order now e (sh_reg sh) r' c sp) as (W1 & W2 & W3 & W4); auto.
    split; [auto|split; [auto|split]].
    - intros c' X. inversion X; subst; auto.
    - destruct sp as [f|]; [|intros ? []]. intros th [<-|[]]. cbn. split; auto. }
  destruct K as (K1 & K2 & K3 & K4).
  constructor; cbn [sy_shared sy_threads]; auto.
  - intros u x e E R. destruct (threads_after _ _ _ _ _ _ _ H E) as [[-> ->]|[[NE E']|IX]].
    + cbn in R. apply (B3 _ _ e H). auto.
    + eapply B3; eauto.
    + destruct (K4 x IX). congruence.
  - intros u x c E R. destruct (threads_after _ _ _ _ _ _ _ H E) as [[-> ->]|[[NE E']|IX]].
    + auto. + eapply B4; eauto. + destruct (K4 x IX). auto.
Qed.
End Bound.

(** ** The invariant *)

Section World.
Variables k256 k512 : list N -> list N.
Variable pp : N -> bool.
Variable fuel : nat.
Variable d : config.
Variable top : N.
Variable f0 : fs.
Hypothesis count_pos : (1 <= cf_caches_count d)%Z.
Notation step := (wstep k256 k512 pp fuel d top).
Notation hist := (history k256 k512 pp fuel d top f0).

(** What is known about the generation of an object. *)
Definition linked (w : world) (es : list N) (i : nat) (g : gcsys N) (id : N) : Prop :=
  exists r j p e, w_run w i id = Some r /\ nth_error (w_owner w) r = Some i /\
    nth_error (st_procs (w_files w)) r = Some (j, Some p) /\ nth_error es r = Some e /\
    (forall v, content_of g id = Complete v -> v = e /\ pr_pc p = Finished) /\
    (forall t th c, nth_error (sy_threads (gc_sys g)) t = Some th -> th_pc th = Gen2 c -> co_id c = id -> co_epoch c = e).

Record winv (w : world) (es : list N) : Prop := mkWinv {
  wi_owner : length (w_owner w) = length (st_procs (w_files w));
  wi_top : Forall (fun e => e <= top) es;
  wi_jobs : Forall2 (fun e j => job_of k256 k512 pp fuel d e = Done j) es (map fst (st_procs (w_files w)));
  wi_run : run (initial f0 (map fst (st_procs (w_files w)))) (w_files w);
  wi_gc : forall i g, nth_error (w_progs w) i = Some (Some g) -> gcexecution d epoch_of 0 g /\ bounded top (gc_sys g);
  wi_link : forall i g id, nth_error (w_progs w) i = Some (Some g) ->
     content_of g id = NotStarted \/ linked w es i g id
}.

Lemma map_fst_set_nth (l : list (job * option proc)) r j x y :
  nth_error l r = Some (j, x) -> map fst (set_nth l r (j, y)) = map fst l.
Proof.
  revert r. induction l as [|a l IH]; intros [|r] H; cbn in *; try discriminate.
  - inversion H; subst. reflexivity.
  - f_equal. auto.
Qed.

(** A step of a program that does not touch contents. *)
Lemma quiet_gen2 g g' : gcexecution d epoch_of 0 g -> gcstep d epoch_of 0 g g' ->
  (forall id, content_of g' id = content_of g id) ->
  forall t th c, nth_error (sy_threads (gc_sys g')) t = Some th -> th_pc th = Gen2 c ->
  exists th0, nth_error (sy_threads (gc_sys g)) t = Some th0 /\ th_pc th0 = Gen2 c.
Proof.
  intros EX ST Q t th c H P.
  destruct (gcexecution_inv d epoch_of count_pos 0 g EX) as [I1 _ _ _].
  destruct (execution_inv d epoch_of count_pos _ I1) as (ep & I).
  destruct ST as [s s' ST|s e He|s u e c' n H' U|s u e c' n h H' U|s u n U|s u h U|s id]; cbn [gc_sys set_use] in *;
    try (exists th; split; auto; fail).
  - unfold content_of in Q. cbn [gc_sys] in Q. remember (gc_sys s) as sy eqn:ESY. clear ESY. destruct ST as [s1 u th1 sh' pc' new H1 L].
    assert (OK := inv_threads _ _ _ _ I _ _ H1).
    cbn [gc_sys sy_threads] in H.
    destruct (threads_after _ _ _ _ _ _ _ H1 H) as [[-> ->]|[[NE E']|IX]].
    + cbn [th_pc] in P. subst pc'. cbn [sy_shared] in Q.
      destruct th1 as [req1 p1]. cbn [th_pc] in *. unfold thread_ok in OK. cbn [th_pc] in OK.
      remember (Gen2 c) as q eqn:EQ. destruct L; try discriminate.
      exfalso. injection EQ as ->. specialize (Q (co_id c)). cbn in Q. rewrite N.eqb_refl in Q. cbn in Q.
      destruct OK as (_ & _ & _ & C & _). congruence.
    + exists th. auto.
    + exfalso. destruct L; cbn in IX; try destruct IX. destruct sp; [destruct IX as [<-|[]]; discriminate|destruct IX].
  - cbn [sy_threads] in H. destruct (Nat.ltb_spec t (length (sy_threads (gc_sys s)))).
    + rewrite nth_error_app1 in H by auto. exists th. auto.
    + rewrite nth_error_app2 in H by auto. destruct (t - _)%nat as [|[|]]; cbn in H; try discriminate.
      inversion H; subst. discriminate.
Qed.

Lemma gcstep_bounded g g' : gcexecution d epoch_of 0 g -> gcstep d epoch_of 0 g g' ->
  (forall t th e, nth_error (sy_threads (gc_sys g')) t = Some th -> th_req th = Some e -> e < top) ->
  bounded top (gc_sys g) -> bounded top (gc_sys g').
Proof.
  intros EX ST Q B.
  destruct (gcexecution_inv d epoch_of count_pos 0 g EX) as [I1 _ _ _].
  destruct (execution_inv d epoch_of count_pos _ I1) as (ep & I).
  destruct ST as [s s' ST|s e He|s u e c' n H' U|s u e c' n h H' U|s u n U|s u h U|s id]; cbn [gc_sys set_use] in *; auto.
  - eapply gstep_bounded; eauto.
  - destruct B as [B1 B2 B3 B4]. constructor; cbn [sy_shared sy_threads]; auto.
    intros t th c H P. destruct (Nat.ltb_spec t (length (sy_threads (gc_sys s)))).
    + rewrite nth_error_app1 in H by auto. eapply B4; eauto.
    + rewrite nth_error_app2 in H by auto. destruct (t - _)%nat as [|[|]]; cbn in H; try discriminate.
      inversion H; subst. discriminate.
Qed.

Lemma Forall2_len {A B} (R : A -> B -> Prop) l l' : Forall2 R l l' -> length l = length l'.
Proof. induction 1; cbn; congruence. Qed.

Lemma Forall2_snoc {A B} (R : A -> B -> Prop) l l' a b : Forall2 R l l' -> R a b -> Forall2 R (l ++ [a]) (l' ++ [b]).
Proof. intros H H'. apply Forall2_app; auto. Qed.

(** One step of goroutine [t] as a step of its program. *)
Lemma stepped_gc g t th sh pc new : nth_error (sy_threads (gc_sys g)) t = Some th ->
  lstep d epoch_of t (sy_shared (gc_sys g)) (th_pc th) sh pc new -> gcstep d epoch_of 0 g (stepped g t th sh pc new).
Proof. intros H L. unfold stepped. apply gc_code. eapply g_step; eauto. Qed.

Lemma step_winv w w' es : winv w es -> step w w' -> exists es', winv w' es'.
Proof.
  intros [W1 W2 W3 W4 W5 W6] ST.
  destruct ST as [w|w i g g' H ST Q RQ|w i g t th c j sh pc new H HT HP J L|w i g t th c r j p sh pc new H HT HP HR HJ HF L
    |w r j p f' p' i g HJ HO HG ST DT|w i g H|w r j p i HJ HO HG].
  - (* a new program *)
    exists es. constructor; cbn [w_files w_owner w_progs w_run]; auto.
    + intros i g H. destruct (Nat.ltb_spec i (length (w_progs w))).
      * rewrite nth_error_app1 in H by auto. eauto.
      * rewrite nth_error_app2 in H by auto. destruct (i - _)%nat as [|[|]]; cbn in H; try discriminate.
        inversion H; subst. split; [constructor|]. constructor; cbn; try discriminate; try tauto; intros [|] ? ?; discriminate.
    + intros i g id H. destruct (Nat.ltb_spec i (length (w_progs w))).
      * rewrite nth_error_app1 in H by auto. destruct (W6 i g id H) as [X|X]; auto.
      * rewrite nth_error_app2 in H by auto. destruct (i - _)%nat as [|[|]]; cbn in H; try discriminate.
        inversion H; subst. left. reflexivity.
  - (* code *)
    exists es. destruct (W5 i g H) as (EX & B). constructor; cbn [w_files w_owner w_progs w_run]; auto.
    + intros i' g1 H1. destruct (set_nth_cases _ _ _ _ _ H1) as [(-> & E)|(NE & E)]; [|eauto].
      inversion E; subst g1. split; [eapply gx_step; eauto|]. eapply gcstep_bounded; eauto.
    + intros i' g1 id H1. destruct (set_nth_cases _ _ _ _ _ H1) as [(-> & E)|(NE & E)].
      * inversion E; subst g1. destruct (W6 i g id H) as [X|(r & j & p & e & L1 & L2 & L3 & L4 & L5 & L6)].
        -- left. rewrite Q. auto.
        -- right. exists r, j, p, e. repeat (split; [assumption|]). split.
           ++ intros v. rewrite Q. auto.
           ++ intros t th c HT HP. destruct (quiet_gen2 g g' EX ST Q t th c HT HP) as (th0 & A & A'). eapply L6; eauto.
      * apply W6; auto.
  - (* a generation starts *)
    destruct (W5 i g H) as (EX & B).
    assert (ST : gcstep d epoch_of 0 g (stepped g t th sh pc new)) by (apply stepped_gc; auto; rewrite HP; auto).
    destruct (gcexecution_inv d epoch_of count_pos 0 g EX) as [I1 _ _ _].
    destruct (execution_inv d epoch_of count_pos _ I1) as (ep & I).
    assert (OK := inv_threads _ _ _ _ I _ _ HT). unfold thread_ok in OK. rewrite HP in OK.
    destruct OK as (GD & GL & _ & GC & _).
    assert (LL : sh = set_obj (sy_shared (gc_sys g)) (co_id c)
       (mkG (go_done (sh_obj (sy_shared (gc_sys g)) (co_id c))) (go_lock (sh_obj (sy_shared (gc_sys g)) (co_id c))) Partial
          (S (go_runs (sh_obj (sy_shared (gc_sys g)) (co_id c))))) /\ pc = Gen2 c /\ new = []).
    { remember (Gen c) as q eqn:EQ. destruct L; try discriminate. injection EQ as ->. auto. }
    destruct LL as (-> & -> & ->). clear L.
    exists (es ++ [co_epoch c]).
    assert (LEN : length es = length (st_procs (w_files w))).
    { apply Forall2_len in W3. rewrite map_length in W3. auto. }
    constructor; cbn [w_files w_owner w_progs w_run st_fs st_procs].
    + rewrite !app_length. cbn. lia.
    + apply Forall_app. split; auto. constructor; auto. eapply (bd_obj _ _ B); [exact HT|]. rewrite HP. reflexivity.
    + rewrite map_app. apply Forall2_snoc; auto.
    + rewrite map_app. cbn [map fst]. apply run_append. auto.
    + intros i' g1 H1. destruct (set_nth_cases _ _ _ _ _ H1) as [(-> & E)|(NE & E)]; [|eauto].
      inversion E; subst g1. split; [eapply gx_step; eauto|]. eapply gcstep_bounded; eauto.
      intros t' th' e' HT' HR'. cbn [stepped gc_sys sy_threads] in HT'.
      destruct (threads_after _ _ _ _ _ _ _ HT HT') as [[-> ->]|[[NE E']|[]]].
      * cbn in HR'. eapply (bd_req _ _ B); eauto.
      * eapply (bd_req _ _ B); eauto.
    + assert (OLD : forall i' g1 id, linked w es i' g1 id -> (Nat.eqb i' i && (id =? co_id c))%bool = false ->
        forall g2, (forall v, content_of g2 id = Complete v -> content_of g1 id = Complete v) ->
        (forall t th c, nth_error (sy_threads (gc_sys g2)) t = Some th -> th_pc th = Gen2 c -> co_id c = id ->
           exists th', nth_error (sy_threads (gc_sys g1)) t = Some th' /\ th_pc th' = Gen2 c) ->
        linked (mkW (mkState (st_fs (w_files w)) (st_procs (w_files w) ++ [(j, Some (start j))])) (w_owner w ++ [i])
           (set_nth (w_progs w) i (Some (stepped g t th
              (set_obj (sy_shared (gc_sys g)) (co_id c)
                (mkG (go_done (sh_obj (sy_shared (gc_sys g)) (co_id c))) (go_lock (sh_obj (sy_shared (gc_sys g)) (co_id c))) Partial
                (S (go_runs (sh_obj (sy_shared (gc_sys g)) (co_id c)))))) (Gen2 c) [])))
           (fun i' id => if (Nat.eqb i' i && (id =? co_id c))%bool then Some (length (st_procs (w_files w))) else w_run w i' id))
           (es ++ [co_epoch c]) i' g2 id).
      { intros i' g1 id (r & j1 & p1 & e1 & L1 & L2 & L3 & L4 & L5 & L6) NE g2 CC GG.
        exists r, j1, p1, e1. cbn [w_files w_owner w_progs w_run st_fs st_procs]. rewrite NE.
        split; auto. split; [rewrite nth_error_app1; auto; apply nth_error_Some; congruence|].
        split; [rewrite nth_error_app1; auto; apply nth_error_Some; congruence|].
        split; [rewrite nth_error_app1; auto; apply nth_error_Some; congruence|]. split; [auto|].
        intros t' th' c' A A' A''. destruct (GG t' th' c' A A' A'') as (th0 & Z & Z'). eapply L6; eauto. }
      intros i' g1 id H1. destruct (set_nth_cases _ _ _ _ _ H1) as [(-> & E)|(NE & E)].
      * inversion E; subst g1. destruct (N.eqb_spec id (co_id c)) as [->|NI].
        -- right. exists (length (st_procs (w_files w))), j, (start j), (co_epoch c).
           cbn [w_files w_owner w_progs w_run st_fs st_procs]. rewrite Nat.eqb_refl, N.eqb_refl. cbn [andb].
           split; auto. split; [rewrite nth_error_app2, W1, Nat.sub_diag by lia; auto|].
           split; [rewrite nth_error_app2, Nat.sub_diag by lia; auto|].
           split; [rewrite nth_error_app2, LEN, Nat.sub_diag by lia; auto|]. split.
           ++ intros v. unfold content_of. cbn. rewrite N.eqb_refl. discriminate.
           ++ intros t' th' c' A A' A''. cbn [stepped gc_sys sy_threads] in A.
              destruct (threads_after _ _ _ _ _ _ _ HT A) as [[-> ->]|[[NE E']|[]]].
              ** cbn in A'. congruence.
              ** exfalso. assert (OK' := inv_threads _ _ _ _ I _ _ E'). unfold thread_ok in OK'. rewrite A' in OK'.
                 destruct OK' as (_ & GL' & _). rewrite A'' in GL'. congruence.
        -- assert (CN : content_of (stepped g t th
              (set_obj (sy_shared (gc_sys g)) (co_id c)
                (mkG (go_done (sh_obj (sy_shared (gc_sys g)) (co_id c))) (go_lock (sh_obj (sy_shared (gc_sys g)) (co_id c))) Partial
                (S (go_runs (sh_obj (sy_shared (gc_sys g)) (co_id c)))))) (Gen2 c) []) id = content_of g id).
           { unfold content_of. cbn. destruct (N.eqb_spec id (co_id c)); [contradiction|auto]. }
           destruct (W6 i g id H) as [X|X]; [left; congruence|right].
           apply (OLD i g); auto.
           ++ destruct (N.eqb_spec id (co_id c)); [contradiction|]. apply andb_false_r.
           ++ intros v. rewrite CN. auto.
           ++ intros t' th' c' A A' A''. cbn [stepped gc_sys sy_threads] in A.
              destruct (threads_after _ _ _ _ _ _ _ HT A) as [[-> ->]|[[NE E']|[]]]; [|eauto].
              cbn in A'. exfalso. congruence.
      * destruct (W6 i' g1 id E) as [X|X]; [left; auto|right]. apply (OLD i' g1); auto.
        -- destruct (Nat.eqb_spec i' i); [congruence|reflexivity].
        -- intros t' th' c' A A' A''. eauto.
  - (* a generation ends *)
    destruct (W5 i g H) as (EX & B).
    assert (ST : gcstep d epoch_of 0 g (stepped g t th sh pc new)) by (apply stepped_gc; auto; rewrite HP; auto).
    destruct (gcexecution_inv d epoch_of count_pos 0 g EX) as [I1 _ _ _].
    destruct (execution_inv d epoch_of count_pos _ I1) as (ep & I).
    assert (OK := inv_threads _ _ _ _ I _ _ HT). unfold thread_ok in OK. rewrite HP in OK.
    destruct OK as (GD & GL & _ & GC & _).
    assert (LL : sh = set_obj (sy_shared (gc_sys g)) (co_id c)
       (mkG (go_done (sh_obj (sy_shared (gc_sys g)) (co_id c))) (go_lock (sh_obj (sy_shared (gc_sys g)) (co_id c)))
          (Complete (epoch_of (co_epoch c))) (go_runs (sh_obj (sy_shared (gc_sys g)) (co_id c)))) /\ pc = SetDone c /\ new = []).
    { remember (Gen2 c) as q eqn:EQ. destruct L; try discriminate. injection EQ as ->. auto. }
    destruct LL as (-> & -> & ->). clear L.
    exists es. constructor; cbn [w_files w_owner w_progs w_run]; auto.
    + intros i' g1 H1. destruct (set_nth_cases _ _ _ _ _ H1) as [(-> & E)|(NE & E)]; [|eauto].
      inversion E; subst g1. split; [eapply gx_step; eauto|]. eapply gcstep_bounded; eauto.
      intros t' th' e' HT' HR'. cbn [stepped gc_sys sy_threads] in HT'.
      destruct (threads_after _ _ _ _ _ _ _ HT HT') as [[-> ->]|[[NE E']|[]]].
      * cbn in HR'. eapply (bd_req _ _ B); eauto.
      * eapply (bd_req _ _ B); eauto.
    + intros i' g1 id H1. destruct (set_nth_cases _ _ _ _ _ H1) as [(-> & E)|(NE & E)].
      * inversion E; subst g1. destruct (W6 i g id H) as [X|(r1 & j1 & p1 & e1 & L1 & L2 & L3 & L4 & L5 & L6)].
        -- left. unfold content_of in *. cbn. destruct (N.eqb_spec id (co_id c)) as [->|]; [congruence|auto].
        -- right. exists r1, j1, p1, e1. cbn [w_files w_owner w_progs w_run]. repeat (split; [assumption|]). split.
           ++ intros v CV. unfold content_of in CV. cbn in CV. destruct (N.eqb_spec id (co_id c)) as [->|NI].
              ** cbn in CV. injection CV as <-. unfold epoch_of. rewrite HR in L1. injection L1 as <-.
                 split; [eapply L6; eauto|]. rewrite HJ in L3. injection L3 as <- <-. auto.
              ** apply L5. auto.
           ++ intros t' th' c' A A' A''. cbn [stepped gc_sys sy_threads] in A.
              destruct (threads_after _ _ _ _ _ _ _ HT A) as [[-> ->]|[[NE E']|[]]]; [discriminate A'|]. eapply L6; eauto.
      * apply W6; auto.
  - (* a file operation *)
    assert (MF : map fst (set_nth (st_procs (w_files w)) r (j, Some p')) = map fst (st_procs (w_files w)))
      by (eapply map_fst_set_nth; eauto).
    exists es. constructor; cbn [w_files w_owner w_progs w_run st_procs]; rewrite ?MF; auto.
    + rewrite <- (map_length fst), MF, map_length. auto.
    + eapply run_step; [exact W4| |exact DT]. destruct (w_files w) as [fs ps]. cbn [st_fs st_procs] in *.
      eapply f_step; eauto.
    + intros i' g1 id H1. destruct (W6 i' g1 id H1) as [X|(r1 & j1 & p1 & e1 & L1 & L2 & L3 & L4 & L5 & L6)]; [auto|right].
      destruct (Nat.eq_dec r1 r) as [->|NE].
      * rewrite HJ in L3. injection L3 as <- <-.
        exists r, j, p', e1. cbn [w_files w_owner w_progs w_run st_procs]. repeat (split; [assumption|]).
        split; [eapply nth_error_set_nth_same; eauto|]. split; auto. split; auto.
        intros v CV. exfalso. destruct (L5 v CV) as (_ & FIN). revert FIN. eapply pstep_not_finished; eauto.
      * exists r1, j1, p1, e1. cbn [w_files w_owner w_progs w_run st_procs].
        rewrite nth_error_set_nth_other by auto. auto 10.
  - (* a kill *)
    exists es. constructor; cbn [w_files w_owner w_progs w_run]; auto.
    + intros i' g1 H1. destruct (set_nth_cases _ _ _ _ _ H1) as [(-> & E)|(NE & E)]; [discriminate|eauto].
    + intros i' g1 id H1. destruct (set_nth_cases _ _ _ _ _ H1) as [(-> & E)|(NE & E)]; [discriminate|].
      apply W6; auto.
  - (* a run of a killed program ends *)
    assert (MF : map fst (set_nth (st_procs (w_files w)) r (j, None)) = map fst (st_procs (w_files w)))
      by (eapply map_fst_set_nth; eauto).
    exists es. constructor; cbn [w_files w_owner w_progs w_run st_procs]; rewrite ?MF; auto.
    + rewrite <- (map_length fst), MF, map_length. auto.
    + eapply run_step; [exact W4| |].
      * destruct (w_files w) as [fs ps]. cbn [st_fs st_procs] in *. eapply f_kill; eauto.
      * assert (D0 : distinct_temps (w_files w)).
        { clear - W4. inversion W4; auto. intros t u j j' p p' n A A' E. cbn in A. rewrite nth_error_map in A.
          destruct (nth_error _ t) as [j0|]; inversion A; subst. unfold start, temp_of in E. cbn in E.
          destruct (jb_disk j); discriminate. }
        intros t u j1 j2 p1 p2 n A A' E E'. cbn [st_procs] in *.
        destruct (set_nth_cases _ _ _ _ _ A) as [(-> & X)|(NE & X)]; [discriminate|].
        destruct (set_nth_cases _ _ _ _ _ A') as [(-> & X')|(NE' & X')]; [discriminate|].
        eapply D0; eauto.
    + intros i' g1 id H1. destruct (W6 i' g1 id H1) as [X|(r1 & j1 & p1 & e1 & L1 & L2 & L3 & L4 & L5 & L6)]; [auto|right].
      assert (NE : r1 <> r) by (intros ->; rewrite HO in L2; injection L2 as ->; congruence).
      exists r1, j1, p1, e1. cbn [w_files w_owner w_progs w_run st_procs].
      rewrite nth_error_set_nth_other by auto. auto 10.
Qed.

Lemma hist_winv w : hist w -> exists es, winv w es.
Proof.
  induction 1 as [|w w' _ (es & I) ST].
  - exists []. constructor; cbn; auto; try (intros [|]; discriminate). apply run_refl.
  - eapply step_winv; eauto.
Qed.
End World.
