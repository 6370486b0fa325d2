(** Proofs about requests whose generation can panic. *)
From Coq Require Import NArith ZArith List Bool Permutation Lia ZifyBool ZifyN ZifyNat.
From Verif Require Import Base BaseFacts DagModel RegModel RegSpec RegProofs OnceModel OnceProofs RecoverModel.
Import ListNotations.
Open Scope N_scope.

Section Proofs.
Context {V : Type}.
Variable d : config.
Variable gen : N -> made V.

Lemma rstep_execution x x' : execution d gen (rs_sys x) -> rstep d gen x x' -> execution d gen (rs_sys x').
Proof.
  intros EX ST. destruct ST as [x t th sh' pc' new NE H L|x t req e r order now NE H NP PO G]; cbn [rs_sys]; auto.
  eapply ex_step; [exact EX|]. econstructor; eauto.
Qed.

Lemma rexecution_execution x : rexecution d gen x -> execution d gen (rs_sys x).
Proof.
  induction 1 as [|x x' _ IH ST|x e _ IH NE He]; [constructor|eapply rstep_execution; eauto|].
  cbn [rs_sys]. apply ex_request; auto.
Qed.

Section Capacity.
Hypothesis count_pos : (1 <= cf_caches_count d)%Z.

(** With room in the registry nothing panics under the mutex. *)
Lemma no_locked_panic x t req e r order now :
  execution d gen (rs_sys x) -> nth_error (sy_threads (rs_sys x)) t = Some (mkT req (Write e r)) ->
  (forall m, Permutation m (order m)) -> get_locked d order now e r <> Panic.
Proof.
  intros EX H PO G. destruct (execution_inv d gen count_pos _ EX) as (ep & I).
  pose proof (inv_threads _ _ _ _ I _ _ H) as T. unfold thread_ok in T. cbn [th_pc th_req] in T.
  destruct T as (_ & He & _ & ->).
  destruct (get_locked_spec d order now e _ count_pos PO He (inv_wf _ _ _ _ I)) as (r' & c & sp & E & _). congruence.
Qed.

(** Where a goroutine is once its function has panicked. *)
Definition unwinding (p : pc) (c : cobj) : Prop := p = SetDone c \/ p = Release c \/ p = Returned c.

Record rinv (x : rsystem V) : Prop := mkRInv {
  ri_where : forall t th, nth_error (sy_threads (rs_sys x)) t = Some th -> rs_panics x t = true ->
    exists c, unwinding (th_pc th) c /\ is_cut (gen (co_epoch c)) = true;
  ri_new : forall t, (length (sy_threads (rs_sys x)) <= t)%nat -> rs_panics x t = false;
  ri_some : forall id m, go_content (sh_obj (sy_shared (rs_sys x)) id) = Complete m -> is_cut m = true ->
    exists t th c, nth_error (sy_threads (rs_sys x)) t = Some th /\ rs_panics x t = true /\
      unwinding (th_pc th) c /\ co_id c = id;
  ri_one : forall t u th uh c c', nth_error (sy_threads (rs_sys x)) t = Some th -> nth_error (sy_threads (rs_sys x)) u = Some uh ->
    rs_panics x t = true -> rs_panics x u = true -> unwinding (th_pc th) c -> unwinding (th_pc uh) c' ->
    co_id c = co_id c' -> t = u;
  ri_ended : rs_ended x = true <-> exists t c, nth_error (sy_threads (rs_sys x)) t = Some (mkT None (Returned c)) /\ rs_panics x t = true
}.

Lemma rinv_init : rinv init_rsystem.
Proof.
  constructor; cbn; intros; try discriminate; auto.
  split; [discriminate|]. intros (t & c & E & _). destruct t; discriminate.
Qed.

Lemma new_calls x t th sh' pc' new :
  lstep d gen t x (th_pc th) sh' pc' new -> forall y, In y new -> exists f, th_pc y = Call f.
Proof.
  intros L y IY. inversion L; subst; try (destruct IY; fail).
  destruct sp as [f|]; [|destruct IY]. destruct IY as [<-|[]]. eexists; reflexivity.
Qed.

Lemma unwinding_inj p c c' : unwinding p c -> unwinding p c' -> c = c'.
Proof. intros [-> | [-> | ->]] [E|[E|E]]; congruence. Qed.

(** An object that some goroutine has unwound from is done, or held by that goroutine. *)
Lemma unwinding_obj ep s u uh c :
  inv d gen ep s -> nth_error (sy_threads s) u = Some uh -> unwinding (th_pc uh) c ->
  go_done (sh_obj (sy_shared s) (co_id c)) = true \/ go_lock (sh_obj (sy_shared s) (co_id c)) = Some u.
Proof.
  intros I H U. pose proof (inv_threads _ _ _ _ I _ _ H) as T. unfold thread_ok in T.
  destruct U as [E|[E|E]]; rewrite E in T; intuition.
Qed.

Lemma rinv_step x x' : rexecution d gen x -> rinv x -> rstep d gen x x' -> rinv x'.
Proof.
  intros EX [I1 I2 I3 I4 I5] ST. apply rexecution_execution in EX.
  destruct ST as [x t th sh' pc' new NE H L|x t req e r order now NE H NP PO G];
    [|exfalso; eapply no_locked_panic; eauto].
  destruct (execution_inv d gen count_pos _ EX) as (ep & I).
  assert (LT : (t < length (sy_threads (rs_sys x)))%nat) by (apply nth_error_Some; congruence).
  assert (NC := new_calls _ _ _ _ _ _ L).
  set (pan := if panics_at gen (th_pc th) then panic_of (rs_panics x) t else rs_panics x).
  assert (PO : forall u, u <> t -> pan u = rs_panics x u).
  { intros u N. unfold pan, panic_of. destruct (panics_at gen (th_pc th)); auto.
    destruct (Nat.eqb_spec u t); congruence. }
  assert (NB : forall u y, nth_error (set_nth (sy_threads (rs_sys x)) t (mkT (th_req th) pc') ++ new) u = Some y ->
    pan u = true -> (u = t /\ y = mkT (th_req th) pc') \/ (u <> t /\ nth_error (sy_threads (rs_sys x)) u = Some y)).
  { intros u y E P. destruct (threads_after _ _ _ _ _ _ _ H E) as [A|[A|A]]; auto. exfalso.
    destruct (Nat.lt_ge_cases u (length (sy_threads (rs_sys x)))) as [B|B].
    - rewrite nth_error_app1 in E by (rewrite set_nth_length; auto).
      destruct (NC _ A) as (f & F). destruct (Nat.eq_dec u t) as [->|N].
      + rewrite (nth_error_set_nth_same _ _ _ _ H) in E. inversion E; subst y. cbn in F.
        subst pc'. unfold pan in P. destruct (panics_at gen (th_pc th)) eqn:PA.
        * destruct (th_pc th); try discriminate. inversion L.
        * destruct (I1 _ _ H P) as (c & U & _). destruct U as [U|[U|U]]; rewrite U in L; inversion L.
      + rewrite nth_error_set_nth_other in E by auto. rewrite PO in P by auto.
        destruct (I1 _ _ E P) as (c & U & _). destruct U as [U|[U|U]]; congruence.
    - assert (u <> t) by lia. rewrite PO in P by auto. rewrite I2 in P by auto. discriminate. }
  (* the stepping goroutine, if it panics now or has *)
  assert (ME : pan t = true ->
    (panics_at gen (th_pc th) = true /\ exists c, th_pc th = Gen2 c /\ pc' = SetDone c) \/
    (rs_panics x t = true /\ exists c, unwinding (th_pc th) c /\ unwinding pc' c)).
  { intros P. unfold pan in P. destruct (panics_at gen (th_pc th)) eqn:PA.
    - left. split; auto. destruct (th_pc th) eqn:TP; try discriminate. exists c. split; auto. inversion L; auto.
    - right. split; auto. destruct (I1 _ _ H P) as (c & U & _). exists c. split; auto.
      destruct U as [U|[U|U]]; rewrite U in L; inversion L; subst; unfold unwinding; auto. }
  constructor; cbn [rs_sys rs_panics rs_ended sy_threads]; fold pan.
  - intros u y E P. destruct (NB _ _ E P) as [[-> ->]|[N HU]].
    + cbn [th_pc]. destruct (ME P) as [(PA & c & E1 & E2)|(P' & c & U & U')].
      * exists c. rewrite E1 in PA. cbn in PA. split; auto. rewrite E2. left; auto.
      * exists c. split; auto. destruct (I1 _ _ H P') as (c0 & U0 & C0). rewrite (unwinding_inj _ _ _ U U0). auto.
    + rewrite PO in P by auto. apply (I1 _ _ HU P).
  - intros u Hu. rewrite app_length, set_nth_length in Hu. rewrite PO by lia. apply I2. lia.
  - intros id m CT CU. cbn [sy_shared] in CT.
    assert (CASE : go_content (sh_obj (sy_shared (rs_sys x)) id) = Complete m \/
      exists c, th_pc th = Gen2 c /\ co_id c = id /\ m = gen (co_epoch c)).
    { inversion L; subst; auto; cbn [sh_obj set_obj] in CT;
        match type of CT with context [if id =? co_id ?c then _ else _] =>
          destruct (N.eqb_spec id (co_id c)) as [Ei|Ei]; auto; cbn [go_content] in CT; subst id; auto; try discriminate end.
      right. exists c. split; auto. split; auto. inversion CT; auto. }
    destruct CASE as [CT'|(c & E1 & E2 & E3)].
    + destruct (I3 _ _ CT' CU) as (u & y & c & HU & P & U & Ec). destruct (Nat.eq_dec u t) as [->|N].
      * assert (y = th) by congruence. subst y.
        exists t, (mkT (th_req th) pc'), c. split; [eapply threads_same; eauto|].
        assert (PT : pan t = true).
        { unfold pan, panic_of. destruct (panics_at gen (th_pc th)); auto. rewrite Nat.eqb_refl. auto. }
        split; auto. split; auto. cbn [th_pc].
        destruct (ME PT) as [(_ & c0 & A1 & _)|(_ & c0 & A1 & A2)].
        -- destruct U as [U|[U|U]]; congruence.
        -- rewrite (unwinding_inj _ _ _ U A1). auto.
      * exists u, y, c. split; [eapply threads_other; eauto|]. rewrite PO by auto. auto.
    + exists t, (mkT (th_req th) pc'), c. split; [eapply threads_same; eauto|].
      assert (PA : panics_at gen (th_pc th) = true) by (rewrite E1; cbn; congruence).
      split; [unfold pan, panic_of; rewrite PA, Nat.eqb_refl; auto|]. split; auto. cbn [th_pc].
      rewrite E1 in L. inversion L; subst. left; auto.
  - intros u v y z c c' E1 E2 P1 P2 U1 U2 EI.
    destruct (NB _ _ E1 P1) as [[-> ->]|[N1 H1]], (NB _ _ E2 P2) as [[-> ->]|[N2 H2]]; auto.
    + cbn [th_pc] in U1. rewrite PO in P2 by auto. exfalso.
      destruct (ME P1) as [(PA & c0 & A1 & A2)|(P' & c0 & A1 & A2)].
      * assert (c0 = c) by (subst pc'; destruct U1 as [U1|[U1|U1]]; congruence). subst c0.
        pose proof (inv_threads _ _ _ _ I _ _ H) as T. unfold thread_ok in T. rewrite A1 in T.
        destruct (unwinding_obj _ _ _ _ _ I H2 U2) as [B|B]; rewrite <- EI in B; intuition congruence.
      * assert (c0 = c) by (eapply unwinding_inj; eauto). subst c0. apply N2. symmetry.
        eapply (I4 t v); eauto.
    + cbn [th_pc] in U2. rewrite PO in P1 by auto. exfalso.
      destruct (ME P2) as [(PA & c0 & A1 & A2)|(P' & c0 & A1 & A2)].
      * assert (c0 = c') by (subst pc'; destruct U2 as [U2|[U2|U2]]; congruence). subst c0.
        pose proof (inv_threads _ _ _ _ I _ _ H) as T. unfold thread_ok in T. rewrite A1 in T.
        destruct (unwinding_obj _ _ _ _ _ I H1 U1) as [B|B]; rewrite EI in B; intuition congruence.
      * assert (c0 = c') by (eapply unwinding_inj; eauto). subst c0. apply N1.
        eapply (I4 u t); eauto.
    + rewrite PO in P1, P2 by auto. eapply (I4 u v); eauto.
  - split.
    + intros EN. unfold ends_at in EN. destruct (th_pc th) eqn:TP; try discriminate.
      destruct (th_req th) eqn:TR; try discriminate. exists t, c. split.
      * rewrite <- TR. inversion L; subst. eapply threads_same; eauto.
      * unfold pan. cbn [panics_at]. auto.
    + intros (u & c & E & P). destruct (NB _ _ E P) as [[-> E']|[N HU]].
      * inversion E' as [[Eq Ec]]. subst pc'. destruct (ME P) as [(PA & c0 & A1 & A2)|(P' & c0 & A1 & A2)]; [discriminate|].
        unfold ends_at. destruct A1 as [A1|[A1|A1]]; rewrite A1 in L |- *; inversion L; subst. rewrite <- Eq. auto.
      * rewrite PO in P by auto. assert (rs_ended x = true) by (apply I5; eauto). congruence.
Qed.

Lemma rinv_request x e : rinv x -> rs_ended x = false ->
  rinv (mkR (mkSys (sy_shared (rs_sys x)) (sy_threads (rs_sys x) ++ [mkT (Some e) (Lock e)])) (rs_panics x) false).
Proof.
  intros [I1 I2 I3 I4 I5] NE.
  assert (NB : forall u y, nth_error (sy_threads (rs_sys x) ++ [mkT (Some e) (Lock e)]) u = Some y ->
    nth_error (sy_threads (rs_sys x)) u = Some y \/ (rs_panics x u = false /\ y = mkT (Some e) (Lock e))).
  { intros u y E. destruct (Nat.lt_ge_cases u (length (sy_threads (rs_sys x)))) as [B|B].
    - rewrite nth_error_app1 in E by auto. auto.
    - right. split; [apply I2; auto|]. apply nth_error_app2 with (l' := [mkT (Some e) (Lock e)]) in B. rewrite B in E.
      apply nth_error_In in E. destruct E as [E|[]]. auto. }
  constructor; cbn [rs_sys rs_panics rs_ended sy_threads].
  - intros u y E P. destruct (NB _ _ E) as [E'|[P' _]]; [|congruence]. eauto.
  - intros u Hu. rewrite app_length in Hu. apply I2. lia.
  - intros id m CT CU. destruct (I3 _ _ CT CU) as (u & y & c & HU & P & U & Ec).
    exists u, y, c. split; auto. rewrite nth_error_app1; auto. apply nth_error_Some; congruence.
  - intros u v y z c c' E1 E2 P1 P2 U1 U2 EI.
    destruct (NB _ _ E1) as [H1|[P' _]]; [|congruence]. destruct (NB _ _ E2) as [H2|[P' _]]; [|congruence]. eauto.
  - split; [discriminate|]. intros (u & c & E & P). destruct (NB _ _ E) as [H1|[P' _]]; [|congruence].
    rewrite <- NE. apply I5. eauto.
Qed.

Lemma rexecution_rinv x : rexecution d gen x -> rinv x.
Proof.
  induction 1 as [|x x' EX IH ST|x e _ IH NE He]; [apply rinv_init|eapply rinv_step; eauto|apply rinv_request; auto].
Qed.

(** ** Progress *)
Lemma rprogress x t th : rexecution d gen x -> rs_ended x = false ->
  nth_error (sy_threads (rs_sys x)) t = Some th -> finished th = false -> exists x', rstep d gen x x'.
Proof.
  intros EX NE H F. apply rexecution_execution in EX.
  destruct (progress d gen count_pos _ t th EX H F) as (s' & ST).
  destruct x as [s p en]. cbn [rs_sys rs_ended] in *. destruct ST as [s u uh sh' pc' new HU L].
  eexists. eapply (r_step d gen (mkR s p en)); eauto.
Qed.

Inductive rsteps : nat -> rsystem V -> rsystem V -> Prop :=
| rs_refl x : rsteps 0 x x
| rs_cons n x x1 x' : rstep d gen x x1 -> rsteps n x1 x' -> rsteps (S n) x x'.

Lemma rsteps_execution n x x' : rexecution d gen x -> rsteps n x x' -> rexecution d gen x'.
Proof. intros E S. induction S; auto. apply IHS. eapply rx_step; eauto. Qed.

Lemma rstep_gstep x x' : rexecution d gen x -> rstep d gen x x' -> gstep d gen (rs_sys x) (rs_sys x').
Proof.
  intros EX ST. apply rexecution_execution in EX.
  destruct ST as [x t th sh' pc' new NE H L|x t req e r order now NE H NP PO G];
    [|exfalso; eapply no_locked_panic; eauto].
  cbn [rs_sys]. econstructor; eauto.
Qed.

Lemma rsteps_gsteps n x x' : rexecution d gen x -> rsteps n x x' -> gsteps d gen n (rs_sys x) (rs_sys x').
Proof.
  intros EX S. induction S as [x|n x x1 x' ST S IH]; [constructor|].
  econstructor; [apply rstep_gstep; eauto|]. apply IH. eapply rx_step; eauto.
Qed.
End Capacity.

(** ** No room in the registry *)
Section NoCapacity.
Hypothesis count_none : (cf_caches_count d <= 0)%Z.

Lemma none_panics order now e : (forall m, Permutation m (order m)) -> get_locked d order now e empty_registry = Panic.
Proof.
  intros Ho. unfold get_locked. cbn [rg_caches empty_registry map_get].
  change (lenN (@nil (N * cobj))) with 0.
  destruct (Z.leb_spec (cf_caches_count d) (Z.of_N 0)); [|lia].
  rewrite (Permutation_nil (Ho [])). reflexivity.
Qed.

(** Every goroutine waits for the mutex, or is the one that has it. *)
Record ninv (x : rsystem V) : Prop := mkNInv {
  ni_reg : sh_reg (sy_shared (rs_sys x)) = empty_registry;
  ni_where : forall t th, nth_error (sy_threads (rs_sys x)) t = Some th ->
    exists e, th_req th = Some e /\
      ((th_pc th = Lock e /\ rs_panics x t = false) \/
       (th_pc th = Read e /\ rs_panics x t = false /\ sh_mutex (sy_shared (rs_sys x)) = Some t) \/
       (th_pc th = Write e empty_registry /\ sh_mutex (sy_shared (rs_sys x)) = Some t));
  ni_new : forall t, (length (sy_threads (rs_sys x)) <= t)%nat -> rs_panics x t = false;
  ni_mutex : forall t, sh_mutex (sy_shared (rs_sys x)) = Some t ->
    exists th, nth_error (sy_threads (rs_sys x)) t = Some th /\ forall e, th_pc th <> Lock e;
  ni_ended : rs_ended x = false
}.

Lemma ninv_all x : rexecution d gen x -> ninv x.
Proof.
  induction 1 as [|x x' EX [I1 I2 I3 I5 I4] ST|x e _ [I1 I2 I3 I5 I4] NE He].
  - constructor; cbn; auto; [|discriminate]. intros t th E. destruct t; discriminate.
  - destruct ST as [x t th sh' pc' new NE H L|x t req e r order now NE H NP PO G].
    + destruct (I2 _ _ H) as (e & RQ & C).
      assert (LT : (t < length (sy_threads (rs_sys x)))%nat) by (apply nth_error_Some; congruence).
      destruct C as [(P & B)|[(P & B & M)|(P & M)]]; rewrite P in L |- *; cbn [panics_at ends_at].
      * inversion L; subst. constructor; cbn [rs_sys rs_panics rs_ended sy_threads sy_shared sh_reg sh_mutex]; auto.
        -- intros u y E. destruct (threads_after _ _ _ _ _ _ _ H E) as [(-> & ->)|[(N & E')|[]]].
           ++ exists e. cbn [th_req th_pc]. split; auto.
           ++ destruct (I2 _ _ E') as (e' & R' & [C|[(_ & _ & M)|(_ & M)]]); try congruence.
              exists e'. split; auto.
        -- intros u Hu. apply I3. rewrite app_nil_r, set_nth_length in Hu. auto.
        -- intros u Eu. inversion Eu; subst u. eexists. split; [eapply threads_same; eauto|]. cbn. congruence.
        -- unfold ends_at. rewrite P. auto.
      * inversion L; subst. constructor; cbn [rs_sys rs_panics rs_ended sy_threads sy_shared sh_reg sh_mutex]; auto.
        -- intros u y E. destruct (threads_after _ _ _ _ _ _ _ H E) as [(-> & ->)|[(N & E')|[]]]; auto.
           exists e. cbn [th_req th_pc]. rewrite I1. split; auto.
        -- intros u Hu. apply I3. rewrite app_nil_r, set_nth_length in Hu. auto.
        -- intros u Eu. assert (u = t) by congruence. subst u.
           eexists. split; [eapply threads_same; eauto|]. cbn. congruence.
        -- unfold ends_at. rewrite P. auto.
      * inversion L; subst. rewrite none_panics in * by auto. discriminate.
    + assert (LT : (t < length (sy_threads (rs_sys x)))%nat) by (apply nth_error_Some; congruence).
      constructor; cbn [rs_sys rs_panics rs_ended]; auto.
      * intros u y E. destruct (I2 _ _ E) as (e' & R' & C). exists e'. split; auto.
        unfold panic_of. destruct (Nat.eqb_spec u t) as [->|N]; auto.
        rewrite H in E. inversion E; subst y. cbn [th_pc] in C. destruct C as [(C & _)|[(C & _)|C]]; try discriminate. auto.
      * intros u Hu. unfold panic_of. destruct (Nat.eqb_spec u t); [lia|auto].
  - constructor; cbn [rs_sys rs_panics rs_ended sy_threads sy_shared]; auto.
    + intros u y E. destruct (Nat.lt_ge_cases u (length (sy_threads (rs_sys x)))) as [B|B].
      * rewrite nth_error_app1 in E by auto. auto.
      * assert (P := I3 u B). rewrite nth_error_app2 in E by auto. apply nth_error_In in E. destruct E as [<-|[]].
        exists e. cbn [th_req th_pc]. auto.
    + intros u Hu. apply I3. rewrite app_length in Hu. lia.
    + intros u Eu. destruct (I5 u Eu) as (th & A & B). exists th. split; auto.
      rewrite nth_error_app1; auto. apply nth_error_Some. congruence.
Qed.
End NoCapacity.
End Proofs.
