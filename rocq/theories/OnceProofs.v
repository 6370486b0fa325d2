(** Proofs about concurrent cache requests. *)
From Coq Require Import NArith ZArith List Bool Permutation Lia ZifyBool ZifyN ZifyNat.
From Verif Require Import Base BaseFacts DagModel RegModel RegSpec RegProofs OnceModel.
Import ListNotations.
Open Scope N_scope.

Section Proofs.
Context {V : Type}.
Variable d : config.
Variable gen : N -> V.
Hypothesis count_pos : (1 <= cf_caches_count d)%Z.

Definition holds_mutex (p : pc) : bool :=
  match p with Read _ | Write _ _ | Unlock _ => true | _ => false end.
Definition holds_obj (p : pc) : option N :=
  match p with
  | Check c | Gen c | Gen2 c | SetDone c | Release c => Some (co_id c)
  | _ => None
  end.

Section Inv.
Variable ep : N -> N.

Definition obj_ok (next : N) (c : cobj) : Prop := co_id c < next /\ co_epoch c = ep (co_id c).
Definition good (next : N) (req : option N) (c : cobj) : Prop :=
  obj_ok next c /\ forall e, req = Some e -> co_epoch c = e.

Definition thread_ok (sh : shared V) (t : nat) (th : thread) : Prop :=
  let nx := rg_next (sh_reg sh) in
  let g c := sh_obj sh (co_id c) in
  match th_pc th with
  | Lock e => th_req th = Some e /\ e < 2 ^ 64 - 1
  | Read e => th_req th = Some e /\ e < 2 ^ 64 - 1 /\ sh_mutex sh = Some t
  | Write e r => th_req th = Some e /\ e < 2 ^ 64 - 1 /\ sh_mutex sh = Some t /\ r = sh_reg sh
  | Unlock c => good nx (th_req th) c /\ sh_mutex sh = Some t
  | Call c | Slow c => good nx (th_req th) c
  | Check c => good nx (th_req th) c /\ go_lock (g c) = Some t /\
      (go_done (g c) = false -> go_content (g c) = NotStarted /\ go_runs (g c) = 0%nat)
  | Gen c => good nx (th_req th) c /\ go_lock (g c) = Some t /\ go_done (g c) = false /\
      go_content (g c) = NotStarted /\ go_runs (g c) = 0%nat
  | Gen2 c => good nx (th_req th) c /\ go_lock (g c) = Some t /\ go_done (g c) = false /\
      go_content (g c) = Partial /\ go_runs (g c) = 1%nat
  | SetDone c => good nx (th_req th) c /\ go_lock (g c) = Some t /\ go_done (g c) = false /\
      go_content (g c) = Complete (gen (co_epoch c)) /\ go_runs (g c) = 1%nat
  | Release c => good nx (th_req th) c /\ go_lock (g c) = Some t /\ go_done (g c) = true
  | Returned c => good nx (th_req th) c /\ go_done (g c) = true
  end.

Record inv (s : system V) : Prop := mkInv {
  inv_wf : wf (cf_caches_count d) (sh_reg (sy_shared s));
  inv_reg : forall k c, In (k, c) (rg_caches (sh_reg (sy_shared s))) -> co_epoch c = ep (co_id c);
  inv_fut : forall f, rg_future (sh_reg (sy_shared s)) = Some f -> co_epoch f = ep (co_id f);
  inv_threads : forall t th, nth_error (sy_threads s) t = Some th -> thread_ok (sy_shared s) t th;
  inv_mutex : forall t, sh_mutex (sy_shared s) = Some t ->
     exists th, nth_error (sy_threads s) t = Some th /\ holds_mutex (th_pc th) = true;
  inv_lock : forall id t, go_lock (sh_obj (sy_shared s) id) = Some t ->
     exists th, nth_error (sy_threads s) t = Some th /\ holds_obj (th_pc th) = Some id;
  inv_free : forall id, go_lock (sh_obj (sy_shared s) id) = None ->
     go_done (sh_obj (sy_shared s) id) = false ->
     go_content (sh_obj (sy_shared s) id) = NotStarted /\ go_runs (sh_obj (sy_shared s) id) = 0%nat;
  inv_done : forall id, go_done (sh_obj (sy_shared s) id) = true ->
     go_content (sh_obj (sy_shared s) id) = Complete (gen (ep id)) /\ go_runs (sh_obj (sy_shared s) id) = 1%nat /\
     id < rg_next (sh_reg (sy_shared s))
}.
End Inv.

Lemma nth_error_set_nth_same {A} (l : list A) i v x :
  nth_error l i = Some x -> nth_error (set_nth l i v) i = Some v.
Proof.
  intros H. rewrite nth_error_set_nth, Nat.eqb_refl.
  assert (i < length l)%nat by (apply nth_error_Some; congruence).
  destruct (Nat.ltb_spec i (length l)); auto. lia.
Qed.

Lemma nth_error_set_nth_other {A} (l : list A) i j v :
  i <> j -> nth_error (set_nth l i v) j = nth_error l j.
Proof. intros H. rewrite nth_error_set_nth. destruct (Nat.eqb_spec i j); congruence. Qed.

(** Threads after a step: the stepping one, the others, the new ones. *)
Lemma threads_after (l : list thread) t th th' new u x :
  nth_error l t = Some th ->
  nth_error (set_nth l t th' ++ new) u = Some x ->
  (u = t /\ x = th') \/ (u <> t /\ nth_error l u = Some x) \/ In x new.
Proof.
  intros H E. destruct (Nat.lt_ge_cases u (length l)) as [L|L].
  - rewrite nth_error_app1 in E by (rewrite set_nth_length; auto).
    destruct (Nat.eq_dec t u) as [->|NE].
    + rewrite (nth_error_set_nth_same _ _ _ _ H) in E. left. split; congruence.
    + rewrite nth_error_set_nth_other in E by auto. auto.
  - rewrite nth_error_app2 in E by (rewrite set_nth_length; auto).
    right. right. eapply nth_error_In; eauto.
Qed.

Lemma threads_same (l : list thread) t th th' new :
  nth_error l t = Some th -> nth_error (set_nth l t th' ++ new) t = Some th'.
Proof.
  intros H. assert (t < length l)%nat by (apply nth_error_Some; congruence).
  rewrite nth_error_app1 by (rewrite set_nth_length; auto). eapply nth_error_set_nth_same; eauto.
Qed.

Lemma threads_other (l : list thread) t th th' new u x :
  nth_error l t = Some th -> u <> t -> nth_error l u = Some x ->
  nth_error (set_nth l t th' ++ new) u = Some x.
Proof.
  intros H NE E. assert (u < length l)%nat by (apply nth_error_Some; congruence).
  rewrite nth_error_app1 by (rewrite set_nth_length; auto). rewrite nth_error_set_nth_other; auto.
Qed.

(** Steps that leave the shared state alone, change the mutex, or change one object. *)
Lemma step_quiet ep s t th pc' :
  inv ep s -> nth_error (sy_threads s) t = Some th ->
  holds_mutex pc' = holds_mutex (th_pc th) -> holds_obj pc' = holds_obj (th_pc th) ->
  thread_ok ep (sy_shared s) t (mkT (th_req th) pc') ->
  inv ep (mkSys (sy_shared s) (set_nth (sy_threads s) t (mkT (th_req th) pc') ++ [])).
Proof.
  intros I H HM HO OK. destruct I as [I1 I2 I3 I4 I5 I6 I7 I8].
  constructor; cbn [sy_shared sy_threads]; auto.
  - intros u x E. destruct (threads_after _ _ _ _ _ _ _ H E) as [[-> ->]|[[NE E']|[]]]; auto.
  - intros u E. destruct (I5 u E) as (x & E1 & E2). destruct (Nat.eq_dec u t) as [->|NE].
    + eexists; split; [eapply threads_same; eauto|]. cbn. congruence.
    + exists x. split; auto. eapply threads_other; eauto.
  - intros id u E. destruct (I6 id u E) as (x & E1 & E2). destruct (Nat.eq_dec u t) as [->|NE].
    + eexists; split; [eapply threads_same; eauto|]. cbn. congruence.
    + exists x. split; auto. eapply threads_other; eauto.
Qed.

Lemma step_obj ep s t th pc' id g' :
  inv ep s -> nth_error (sy_threads s) t = Some th ->
  holds_mutex pc' = holds_mutex (th_pc th) ->
  let g := sh_obj (sy_shared s) id in
  let sh' := set_obj (sy_shared s) id g' in
  (go_lock g = None \/ go_lock g = Some t) ->
  (go_lock g' = None \/ go_lock g' = Some t) ->
  (holds_obj pc' = if go_lock g' then Some id else None) ->
  (holds_obj (th_pc th) = if go_lock g then Some id else None) ->
  (go_done g = true -> go_done g' = true) ->
  (go_done g' = true -> go_content g' = Complete (gen (ep id)) /\ go_runs g' = 1%nat /\
     id < rg_next (sh_reg (sy_shared s))) ->
  (go_lock g' = None -> go_done g' = false -> go_content g' = NotStarted /\ go_runs g' = 0%nat) ->
  thread_ok ep sh' t (mkT (th_req th) pc') ->
  inv ep (mkSys sh' (set_nth (sy_threads s) t (mkT (th_req th) pc') ++ [])).
Proof.
  intros I H HM g sh' L L' HO' HO DM D' F' OK. destruct I as [I1 I2 I3 I4 I5 I6 I7 I8].
  assert (OTH : forall u x, u <> t -> nth_error (sy_threads s) u = Some x -> holds_obj (th_pc x) <> Some id).
  { intros u x NE E C. specialize (I4 u x E). unfold thread_ok in I4.
    destruct (th_pc x); cbn in C; try discriminate; inversion C; subst id;
      destruct I4 as (_ & E2 & _); fold g in E2; destruct L; congruence. }
  constructor; cbn [sy_shared sy_threads sh' set_obj sh_reg sh_mutex sh_obj]; auto.
  - intros u x E. destruct (threads_after _ _ _ _ _ _ _ H E) as [[-> ->]|[[NE E']|[]]]; auto.
    specialize (I4 u x E'). specialize (OTH u x NE E').
    clear OK E. subst sh'. unfold thread_ok in *. cbn [set_obj sh_reg sh_mutex sh_obj].
    destruct (th_pc x) as [e|e|e r|c|c|c|c|c|c|c|c|c]; auto; cbn [holds_obj] in OTH;
      destruct (N.eqb_spec (co_id c) id); auto; try (exfalso; apply OTH; congruence).
    destruct I4 as [GD DN]. split; auto. subst id. apply DM. auto.
  - intros u E. destruct (I5 u E) as (x & E1 & E2). destruct (Nat.eq_dec u t) as [->|NE].
    + eexists; split; [eapply threads_same; eauto|]. cbn. congruence.
    + exists x. split; auto. eapply threads_other; eauto.
  - intros i u E. destruct (N.eqb_spec i id) as [->|NI].
    + assert (u = t) by (destruct L'; congruence). subst u.
      eexists; split; [eapply threads_same; eauto|]. cbn. rewrite HO', E. auto.
    + destruct (I6 i u E) as (x & E1 & E2). destruct (Nat.eq_dec u t) as [->|NE].
      * exfalso. assert (x = th) by congruence. subst x. rewrite E2 in HO.
        destruct (go_lock g); congruence.
      * exists x. split; auto. eapply threads_other; eauto.
  - intros i E1 E2. destruct (N.eqb_spec i id) as [Ei|NI]; [subst i|]; auto.
  - intros i E1. destruct (N.eqb_spec i id) as [Ei|NI]; [subst i|]; auto.
Qed.

Lemma good_obj ep nx req c : good ep nx req c -> obj_ok ep nx c.
Proof. intros [H _]. auto. Qed.

Lemma step_inv ep s s' :
  inv ep s -> gstep d gen s s' ->
  exists ep', inv ep' s' /\ forall i, i < rg_next (sh_reg (sy_shared s)) -> ep' i = ep i.
Proof.
  intros I ST. destruct ST as [s t th sh' pc' new H ST].
  assert (OK := inv_threads _ _ I _ _ H).
  destruct th as [req p]. cbn [th_pc th_req] in *.
  inversion ST; subst; unfold thread_ok in OK; cbn [th_pc th_req] in OK.
  - (* lock *)
    exists ep. split; auto. destruct OK as [OR OE].
    destruct I as [I1 I2 I3 I4 I5 I6 I7 I8].
    constructor; cbn [sy_shared sy_threads sh_reg sh_mutex sh_obj]; auto.
    + intros u x E. destruct (threads_after _ _ _ _ _ _ _ H E) as [[-> ->]|[[NE E']|[]]]; cbn; auto.
      specialize (I4 u x E'). unfold thread_ok in *. cbn [sh_reg sh_mutex sh_obj].
      destruct (th_pc x); auto; exfalso; intuition congruence.
    + intros u E. inversion E; subst u. eexists; split; [eapply threads_same; eauto|]. reflexivity.
    + intros id u E. destruct (I6 id u E) as (x & E1 & E2). destruct (Nat.eq_dec u t) as [->|NE].
      * exfalso. rewrite H in E1. inversion E1; subst. discriminate.
      * exists x. split; auto. eapply threads_other; eauto.
  - (* read *)
    exists ep. split; auto.
    apply (step_quiet ep s t (mkT req (Read e))); auto. cbn. intuition.
  - (* write *)
    rename r into r0. destruct OK as (OR & OE & OM & ->).
    assert (ID := I). destruct I as [I1 I2 I3 I4 I5 I6 I7 I8].
    match goal with G : get_locked _ _ _ _ _ = _, P : forall m, Permutation _ _ |- _ =>
      rename G into GL; rename P into PO end.
    destruct (get_locked_spec d order now e _ count_pos PO OE I1) as (r1 & c1 & sp1 & E1 & W1 & Ec & Eu & Hn & S).
    rewrite GL in E1. inversion E1; subst r1 c1 sp1. clear E1.
    set (r := sh_reg (sy_shared s)) in *.
    assert (IN : In (e, c) (rg_caches r')).
    { destruct (map_get e (rg_caches r)).
      - destruct S as (_ & _ & S & _). rewrite S. left; auto.
      - destruct S as ((m & _ & S) & _). rewrite S. left; auto. }
    set (ep' := fun i => if i <? rg_next r then ep i else if i =? co_id c then e else e + 1).
    assert (EP : forall i, i < rg_next r -> ep' i = ep i).
    { intros i Hi. unfold ep'. destruct (N.ltb_spec i (rg_next r)); auto. lia. }
    assert (CEP : ep' (co_id c) = e /\ (forall f, sp = Some f -> ep' (co_id f) = e + 1) /\
       (forall k x, In (k, x) (rg_caches r') -> co_epoch x = ep' (co_id x)) /\
       (forall f, rg_future r' = Some f -> co_epoch f = ep' (co_id f))).
    { assert (CC : ep' (co_id c) = e).
      { destruct (map_get e (rg_caches r)) as [c0|] eqn:G.
        - destruct S as (S1 & _). rewrite S1. apply map_get_In in G.
          rewrite EP by (apply (wf_ids _ _ I1 _ _ G)). rewrite <- (I2 _ _ G). apply (wf_key _ _ I1 _ _ G).
        - destruct S as (_ & [S2|(f & F1 & F2 & F3)] & _).
          + unfold ep'. rewrite S2. destruct (N.ltb_spec (rg_next r) (rg_next r)); [lia|].
            rewrite N.eqb_refl. auto.
          + rewrite F3. rewrite EP by (apply (wf_future _ _ I1 f F1)).
            rewrite <- (I3 f F1). auto. }
      assert (SF : forall f, sp = Some f -> ep' (co_id f) = e + 1).
      { intros f ->. destruct (map_get e (rg_caches r)); [destruct S as (_ & S & _); discriminate|].
        destruct S as (_ & _ & F1 & F2 & F3).
        destruct (wf_future _ _ W1 f F1) as [_ FA]. destruct (FA _ _ IN) as [FN _].
        unfold ep'. destruct (N.ltb_spec (co_id f) (rg_next r)); [lia|].
        destruct (N.eqb_spec (co_id f) (co_id c)); congruence. }
      split; auto. split; auto. split.
      - intros k x IX.
        assert (CASE : (k, x) = (e, c) \/ In (k, x) (rg_caches r)).
        { destruct (map_get e (rg_caches r)).
          - destruct S as (_ & _ & S & _). rewrite S in IX. destruct IX as [IX|IX]; auto.
            apply In_map_delete in IX. tauto.
          - destruct S as ((m & K & S) & _). rewrite S in IX. destruct IX as [IX|IX]; auto.
            apply In_map_delete in IX. destruct IX as [IX _]. right.
            unfold kept in K. destruct (_ <=? _)%Z.
            + destruct K as (k0 & ev & _ & _ & ->). apply In_map_delete in IX. tauto.
            + subst m. auto. }
        destruct CASE as [E|IR]; [inversion E; subst; congruence|].
        rewrite EP by (apply (wf_ids _ _ I1 _ _ IR)). eauto.
      - intros f F. destruct (map_get e (rg_caches r)).
        + destruct S as (_ & _ & _ & S & _). rewrite S in F.
          rewrite EP by (apply (wf_future _ _ I1 f F)). auto.
        + destruct S as (_ & _ & S). destruct sp as [f0|].
          * destruct S as (F1 & F2 & F3). assert (f0 = f) by congruence. subst f0.
            rewrite (SF f eq_refl). auto.
          * destruct S as (F1 & _). rewrite F1 in F.
            rewrite EP by (apply (wf_future _ _ I1 f F)). auto. }
    destruct CEP as (CC & SF & CR & CF).
    assert (GN : forall q x, good ep (rg_next r) q x -> good ep' (rg_next r') q x).
    { intros q x ((G1 & G2) & G3). split; auto. split; [lia|]. rewrite EP by auto. auto. }
    exists ep'. split; auto.
    constructor; cbn [sy_shared sy_threads sh_reg sh_mutex sh_obj]; auto.
    + intros u x E. destruct (threads_after _ _ _ _ _ _ _ H E) as [[-> ->]|[[NE E']|IX]].
      * cbn. split; auto. split; [|intros e' E0; congruence].
        split; [apply (wf_ids _ _ W1 _ _ IN)|]. congruence.
      * specialize (I4 u x E'). unfold thread_ok in *. cbn [sh_reg sh_mutex sh_obj].
        destruct (th_pc x) as [x0|x0|x0 x1|x0|x0|x0|x0|x0|x0|x0|x0|x0]; auto;
          try (destruct I4 as [G4 I4]; split; [apply GN; exact G4|exact I4]).
        exfalso. intuition congruence.
      * destruct sp as [f|]; [|destruct IX]. destruct IX as [<-|[]].
        cbn. destruct (map_get e (rg_caches r)); [destruct S as (_ & S & _); discriminate|].
        destruct S as (_ & _ & F1 & F2 & F3).
        destruct (wf_future _ _ W1 f F1) as [FI _].
        split; [|discriminate]. split; [exact FI|]. rewrite (SF f eq_refl). exact F2.
    + intros u E. rewrite OM in E. inversion E; subst u.
      eexists; split; [eapply threads_same; eauto|]. reflexivity.
    + intros id u E. destruct (I6 id u E) as (x & E1 & E2). destruct (Nat.eq_dec u t) as [->|NE].
      * exfalso. rewrite H in E1. inversion E1; subst. discriminate.
      * exists x. split; auto. eapply threads_other; eauto.
    + intros id E. destruct (I8 id E) as (E1 & E2 & E3). fold r in E3. split; [|split; [auto|lia]].
      rewrite E1. do 2 f_equal. symmetry. apply EP. auto.
  - (* unlock *)
    exists ep. split; auto. destruct OK as [OG OM].
    destruct I as [I1 I2 I3 I4 I5 I6 I7 I8].
    constructor; cbn [sy_shared sy_threads sh_reg sh_mutex sh_obj]; auto.
    + intros u x E. destruct (threads_after _ _ _ _ _ _ _ H E) as [[-> ->]|[[NE E']|[]]]; cbn; auto.
      specialize (I4 u x E'). unfold thread_ok in *. cbn [sh_reg sh_mutex sh_obj].
      destruct (th_pc x); auto; exfalso; intuition congruence.
    + discriminate.
    + intros id u E. destruct (I6 id u E) as (x & E1 & E2). destruct (Nat.eq_dec u t) as [->|NE].
      * exfalso. rewrite H in E1. inversion E1; subst. discriminate.
      * exists x. split; auto. eapply threads_other; eauto.
  - exists ep. split; auto. apply (step_quiet ep s t (mkT req (Call c))); auto. cbn. auto.
  - exists ep. split; auto. apply (step_quiet ep s t (mkT req (Call c))); auto.
  - (* slow *)
    exists ep. split; auto.
    apply (step_obj ep s t (mkT req (Slow c))); cbn [holds_mutex holds_obj th_pc go_lock go_done go_content go_runs]; auto.
    + fold g. destruct (go_lock g); congruence.
    + apply (inv_done _ _ I).
    + discriminate.
    + unfold thread_ok. cbn [th_pc th_req set_obj sh_reg sh_mutex sh_obj]. rewrite N.eqb_refl.
      cbn [go_lock go_done go_content go_runs]. split; auto. split; auto.
      intros D. apply (inv_free _ _ I); auto.
  - exists ep. split; auto. apply (step_quiet ep s t (mkT req (Check c))); auto.
    unfold thread_ok. cbn [th_pc th_req]. intuition.
  - exists ep. split; auto. apply (step_quiet ep s t (mkT req (Check c))); auto.
    unfold thread_ok. cbn [th_pc th_req]. intuition.
  - (* gen *)
    destruct OK as (O1 & O2 & O3 & O4 & O5). fold g in O2, O3, O4, O5.
    exists ep. split; auto.
    apply (step_obj ep s t (mkT req (Gen c))); cbn [holds_mutex holds_obj th_pc go_lock go_done go_content go_runs]; auto.
    + rewrite O2. auto.
    + fold g. rewrite O2. auto.
    + congruence.
    + congruence.
    + unfold thread_ok. cbn [th_pc th_req set_obj sh_reg sh_mutex sh_obj]. rewrite N.eqb_refl.
      cbn [go_lock go_done go_content go_runs]. rewrite O5. auto.
  - (* gen2 *)
    destruct OK as (O1 & O2 & O3 & O4 & O5). fold g in O2, O3, O4, O5.
    exists ep. split; auto.
    apply (step_obj ep s t (mkT req (Gen2 c))); cbn [holds_mutex holds_obj th_pc go_lock go_done go_content go_runs]; auto.
    + rewrite O2. auto.
    + fold g. rewrite O2. auto.
    + congruence.
    + congruence.
    + unfold thread_ok. cbn [th_pc th_req set_obj sh_reg sh_mutex sh_obj]. rewrite N.eqb_refl.
      cbn [go_lock go_done go_content go_runs]. auto.
  - (* set done *)
    destruct OK as (O1 & O2 & O3 & O4 & O5). fold g in O2, O3, O4, O5.
    assert (O6 := good_obj _ _ _ _ O1). destruct O6 as [O7 O6].
    exists ep. split; auto.
    apply (step_obj ep s t (mkT req (SetDone c))); cbn [holds_mutex holds_obj th_pc go_lock go_done go_content go_runs]; auto.
    + rewrite O2. auto.
    + fold g. rewrite O2. auto.
    + intros _. rewrite O4, O6. auto.
    + discriminate.
    + unfold thread_ok. cbn [th_pc th_req set_obj sh_reg sh_mutex sh_obj]. rewrite N.eqb_refl.
      cbn [go_lock go_done go_content go_runs]. auto.
  - (* release *)
    destruct OK as (O1 & O2 & O3). fold g in O2, O3.
    exists ep. split; auto.
    apply (step_obj ep s t (mkT req (Release c))); cbn [holds_mutex holds_obj th_pc go_lock go_done go_content go_runs]; auto.
    + fold g. rewrite O2. auto.
    + apply (inv_done _ _ I).
    + congruence.
    + unfold thread_ok. cbn [th_pc th_req set_obj sh_reg sh_mutex sh_obj]. rewrite N.eqb_refl.
      cbn [go_lock go_done go_content go_runs]. auto.
Qed.

Lemma inv_init : inv (fun _ => 0) init_system.
Proof.
  constructor; cbn; try discriminate; auto; try tauto.
  - apply wf_empty. lia.
  - intros t th E. destruct t; discriminate.
Qed.

Lemma request_inv ep s e :
  inv ep s -> e < 2 ^ 64 - 1 ->
  inv ep (mkSys (sy_shared s) (sy_threads s ++ [mkT (Some e) (Lock e)])).
Proof.
  intros [I1 I2 I3 I4 I5 I6 I7 I8] He. constructor; cbn [sy_shared sy_threads]; auto.
  - intros t th E. destruct (Nat.lt_ge_cases t (length (sy_threads s))) as [L|L].
    + rewrite nth_error_app1 in E by auto. auto.
    + rewrite nth_error_app2 in E by auto. destruct (t - length (sy_threads s))%nat as [|k].
      * inversion E; subst. cbn. auto.
      * destruct k; discriminate.
  - intros t E. destruct (I5 t E) as (th & E1 & E2). exists th. split; auto.
    rewrite nth_error_app1; auto. apply nth_error_Some; congruence.
  - intros id t E. destruct (I6 id t E) as (th & E1 & E2). exists th. split; auto.
    rewrite nth_error_app1; auto. apply nth_error_Some; congruence.
Qed.

Lemma execution_inv s : execution d gen s -> exists ep, inv ep s.
Proof.
  induction 1 as [|s s' _ (ep & I) ST|s e _ (ep & I) He].
  - exists (fun _ => 0). apply inv_init.
  - destruct (step_inv ep s s' I ST) as (ep' & I' & _). eauto.
  - exists ep. apply request_inv; auto.
Qed.

(** ** Progress *)

Definition finished (th : thread) : bool := match th_pc th with Returned _ => true | _ => false end.

(** A thread that is not waiting for a lock can step. *)
Lemma can_step ep s t th :
  inv ep s -> nth_error (sy_threads s) t = Some th -> finished th = false ->
  (forall e, th_pc th = Lock e -> sh_mutex (sy_shared s) = None) ->
  (forall c, th_pc th = Slow c -> go_lock (sh_obj (sy_shared s) (co_id c)) = None) ->
  exists s', gstep d gen s s'.
Proof.
  intros I H F HL HS. assert (OK := inv_threads _ _ I _ _ H).
  destruct th as [req p]. cbn [th_pc th_req] in *. unfold finished in F. cbn [th_pc] in F.
  destruct p as [e|e|e r|c|c|c|c|c|c|c|c|c]; unfold thread_ok in OK; cbn [th_pc th_req] in OK; try discriminate.
  - eexists; econstructor; eauto. apply s_lock. apply (HL e eq_refl).
  - eexists; econstructor; eauto. apply s_read.
  - destruct OK as (_ & OE & _ & ->).
    destruct (get_locked_spec d (fun m => m) 0 e _ count_pos (fun m => Permutation_refl m) OE (inv_wf _ _ I))
      as (r' & c & sp & E & _).
    eexists; econstructor; [exact H|]. eapply s_write; [|exact E]. intros; apply Permutation_refl.
  - eexists; econstructor; eauto. apply s_unlock.
  - destruct (go_done (sh_obj (sy_shared s) (co_id c))) eqn:E;
      eexists; econstructor; eauto; [apply s_call_done|apply s_call_slow]; auto.
  - eexists; econstructor; eauto. apply s_slow. apply (HS c eq_refl).
  - destruct (go_done (sh_obj (sy_shared s) (co_id c))) eqn:E;
      eexists; econstructor; eauto; [apply s_check_done|apply s_check_gen]; auto.
  - eexists; econstructor; eauto. apply s_gen.
  - eexists; econstructor; eauto. apply s_gen2.
  - eexists; econstructor; eauto. apply s_done.
  - eexists; econstructor; eauto. apply s_release.
Qed.

Lemma progress s t th :
  execution d gen s -> nth_error (sy_threads s) t = Some th -> finished th = false ->
  exists s', gstep d gen s s'.
Proof.
  intros EX H F. destruct (execution_inv s EX) as (ep & I).
  destruct (th_pc th) as [e|e|e r|c|c|c|c|c|c|c|c|c] eqn:P;
    try (eapply (can_step ep s t th); eauto; intros; congruence).
  - destruct (sh_mutex (sy_shared s)) as [u|] eqn:M.
    + destruct (inv_mutex _ _ I u M) as (th' & H' & F').
      apply (can_step ep s u th'); auto.
      * unfold finished. destruct (th_pc th'); cbn in F'; congruence.
      * intros x E. rewrite E in F'. discriminate.
      * intros x E. rewrite E in F'. discriminate.
    + apply (can_step ep s t th); auto. intros; congruence.
  - destruct (go_lock (sh_obj (sy_shared s) (co_id c))) as [u|] eqn:M.
    + destruct (inv_lock _ _ I _ u M) as (th' & H' & F').
      apply (can_step ep s u th'); auto.
      * unfold finished. destruct (th_pc th'); cbn in F'; congruence.
      * intros x E. rewrite E in F'. discriminate.
      * intros x E. rewrite E in F'. discriminate.
    + apply (can_step ep s t th); auto.
      * intros x E. congruence.
      * intros x E. congruence.
Qed.

(** ** Termination: every step lowers the total rank. *)

Definition rank (p : pc) : nat :=
  match p with
  | Lock _ => 23 | Read _ => 22 | Write _ _ => 21 | Unlock _ => 11
  | Call _ => 9 | Slow _ => 8 | Check _ => 7 | Gen _ => 6 | Gen2 _ => 5 | SetDone _ => 4
  | Release _ => 3 | Returned _ => 0
  end.
Definition total_rank (s : system V) : nat :=
  fold_right (fun th n => rank (th_pc th) + n)%nat 0%nat (sy_threads s).

Lemma rank_app l m :
  fold_right (fun th n => rank (th_pc th) + n)%nat 0%nat (l ++ m) =
  (fold_right (fun th n => rank (th_pc th) + n)%nat 0%nat l +
   fold_right (fun th n => rank (th_pc th) + n)%nat 0%nat m)%nat.
Proof. induction l; cbn; auto. rewrite IHl. lia. Qed.

Lemma rank_set l t th th' :
  nth_error l t = Some th ->
  (fold_right (fun th n => rank (th_pc th) + n)%nat 0%nat (set_nth l t th') + rank (th_pc th) =
   fold_right (fun th n => rank (th_pc th) + n)%nat 0%nat l + rank (th_pc th'))%nat.
Proof.
  revert t; induction l as [|x l IH]; intros [|t] H; cbn in *; try discriminate.
  - inversion H; subst. lia.
  - specialize (IH t H). lia.
Qed.

Lemma step_rank s s' : gstep d gen s s' -> (total_rank s' < total_rank s)%nat.
Proof.
  intros ST. destruct ST as [s t th sh' pc' new H ST]. unfold total_rank. cbn [sy_threads].
  rewrite rank_app. pose proof (rank_set _ _ _ (mkT (th_req th) pc') H) as R. cbn [th_pc] in R.
  enough (rank pc' + fold_right (fun th n => rank (th_pc th) + n)%nat 0%nat new < rank (th_pc th))%nat by lia.
  inversion ST; subst; cbn; try lia. destruct sp; cbn; lia.
Qed.

(** Schedules without new requests. *)
Inductive gsteps : nat -> system V -> system V -> Prop :=
| gs_refl s : gsteps 0 s s
| gs_cons n s s1 s' : gstep d gen s s1 -> gsteps n s1 s' -> gsteps (S n) s s'.

Lemma gsteps_rank n s s' : gsteps n s s' -> (n + total_rank s' <= total_rank s)%nat.
Proof. induction 1; auto. apply step_rank in H. lia. Qed.

Lemma gsteps_execution n s s' : execution d gen s -> gsteps n s s' -> execution d gen s'.
Proof. intros E S. induction S; auto. apply IHS. eapply ex_step; eauto. Qed.

Lemma gsteps_req n s s' t th :
  gsteps n s s' -> nth_error (sy_threads s) t = Some th ->
  exists th', nth_error (sy_threads s') t = Some th' /\ th_req th' = th_req th.
Proof.
  intros S. revert th. induction S as [|n s s1 s' ST S IH]; intros th H; [eauto|].
  destruct ST as [s u x sh' pc' new HU ST]. cbn [sy_threads] in IH.
  destruct (Nat.eq_dec t u) as [->|NE].
  - destruct (IH _ (threads_same _ _ _ (mkT (th_req x) pc') new HU)) as (th' & E1 & E2).
    exists th'. split; auto. assert (x = th) by congruence. subst. auto.
  - apply (IH th). eapply threads_other; eauto.
Qed.

Lemma all_or_some l : Forall (fun th => finished th = true) l \/
  exists t th, nth_error l t = Some th /\ finished th = false.
Proof.
  induction l as [|x l [IH|(t & th & H & F)]]; [left; constructor| |right; exists (S t), th; auto].
  destruct (finished x) eqn:E; [left; constructor; auto|right; exists 0%nat, x; auto].
Qed.

Lemma gsteps_finish s : execution d gen s ->
  exists n s', gsteps n s s' /\ Forall (fun th => finished th = true) (sy_threads s').
Proof.
  remember (total_rank s) as k eqn:K. revert s K.
  induction k as [k IH] using (well_founded_induction lt_wf). intros s K EX.
  destruct (all_or_some (sy_threads s)) as [A|(t & th & H & F)].
  - exists 0%nat, s. split; [constructor|auto].
  - destruct (progress s t th EX H F) as (s1 & ST).
    destruct (IH (total_rank s1)) with (s := s1) as (n & s' & GS & A); auto.
    { subst k. apply step_rank; auto. }
    { eapply ex_step; eauto. }
    exists (S n), s'. split; auto. econstructor; eauto.
Qed.
End Proofs.
