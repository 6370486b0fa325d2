(** Proofs about the histories of RaceModel.v: what each goroutine and each synchronisation
    object knows of the past, and that every conflicting access is known. *)
From Coq Require Import NArith ZArith List Bool Permutation Lia ZifyBool ZifyN ZifyNat.
From Verif Require Import Base BaseFacts DagModel RegModel RegSpec RegProofs OnceModel OnceProofs
  RaceSpec RaceModel.
Import ListNotations.
Open Scope N_scope.

(** * Knowledge *)
Section Knowledge.
Definition ends (tr : list event) (P : event -> Prop) (i : nat) : Prop :=
  exists j e, nth_error tr j = Some e /\ P e /\ (i = j \/ happens_before tr i j).
Definition reaches (t : option nat) (e : event) : Prop :=
  ev_by e = t \/ exists u, ev_act e = Spawn u /\ t = Some u.
Definition knows (tr : list event) (t : option nat) : nat -> Prop := ends tr (reaches t).
Definition kmutex (tr : list event) (m : mutex) : nat -> Prop := ends tr (fun e => ev_act e = Free m).
Definition kdone (tr : list event) (id : N) : nat -> Prop := ends tr (fun e => ev_act e = AtomicStore id).

Lemma nth_app_l {A} (l m : list A) i x : nth_error l i = Some x -> nth_error (l ++ m) i = Some x.
Proof. intros H. rewrite nth_error_app1; auto. apply nth_error_Some. congruence. Qed.

Lemma edge_app tr tr2 i j : edge tr i j -> edge (tr ++ tr2) i j.
Proof.
  intros [e f A B L E|e f u A B L E F|e f m A B L E F|e f id A B L E F].
  - eapply edge_program; eauto using nth_app_l.
  - eapply edge_spawn; eauto using nth_app_l.
  - eapply edge_mutex; eauto using nth_app_l.
  - eapply edge_once; eauto using nth_app_l.
Qed.
Lemma hb_app tr tr2 i j : happens_before tr i j -> happens_before (tr ++ tr2) i j.
Proof.
  induction 1 as [i j E|i j k _ IH1 _ IH2].
  - apply hb_edge, edge_app; auto.
  - eapply hb_trans; eauto.
Qed.
Lemma ends_app tr tr2 P i : ends tr P i -> ends (tr ++ tr2) P i.
Proof.
  intros (j & e & A & B & C). exists j, e. split; [apply nth_app_l; auto|]. split; auto.
  destruct C; auto. right. apply hb_app; auto.
Qed.
Lemma knows_app tr tr2 t i : knows tr t i -> knows (tr ++ tr2) t i.
Proof. apply ends_app. Qed.
Lemma knows_own tr i e : nth_error tr i = Some e -> knows tr (ev_by e) i.
Proof. intros H. exists i, e. split; auto. split; auto. left; auto. Qed.

Lemma nth_snoc {A} (l : list A) x : nth_error (l ++ [x]) (length l) = Some x.
Proof. rewrite nth_error_app2, Nat.sub_diag; auto. Qed.

(** An event reached by the past of its goroutine. *)
Lemma knows_hb tr e i : knows tr (ev_by e) i -> happens_before (tr ++ [e]) i (length tr).
Proof.
  intros (j & f & A & R & C).
  assert (L : (j < length tr)%nat) by (apply nth_error_Some; congruence).
  assert (E : edge (tr ++ [e]) j (length tr)).
  { destruct R as [R|(u & R1 & R2)].
    - eapply edge_program; eauto using nth_app_l, nth_snoc.
    - eapply edge_spawn; eauto using nth_app_l, nth_snoc. }
  destruct C as [->|C]; [apply hb_edge; auto|].
  eapply hb_trans; [apply hb_app, C|apply hb_edge; auto].
Qed.
Lemma ends_snoc tr (P : event -> Prop) e i :
  P e -> happens_before (tr ++ [e]) i (length tr) -> ends (tr ++ [e]) P i.
Proof. intros H B. exists (length tr), e. split; [apply nth_snoc|]. auto. Qed.

Lemma acquire_knows tr t m i : kmutex tr m i -> knows (tr ++ [mkEv t (Acquire m)]) t i.
Proof.
  intros (j & f & A & R & C).
  assert (L : (j < length tr)%nat) by (apply nth_error_Some; congruence).
  apply ends_snoc; [left; auto|].
  assert (E : edge (tr ++ [mkEv t (Acquire m)]) j (length tr)).
  { eapply edge_mutex; eauto using nth_app_l, nth_snoc. }
  destruct C as [->|C]; [apply hb_edge; auto|].
  eapply hb_trans; [apply hb_app, C|apply hb_edge; auto].
Qed.
Lemma load_knows tr t id i : kdone tr id i -> knows (tr ++ [mkEv t (AtomicLoad id true)]) t i.
Proof.
  intros (j & f & A & R & C).
  assert (L : (j < length tr)%nat) by (apply nth_error_Some; congruence).
  apply ends_snoc; [left; auto|].
  assert (E : edge (tr ++ [mkEv t (AtomicLoad id true)]) j (length tr)).
  { eapply edge_once; eauto using nth_app_l, nth_snoc. }
  destruct C as [->|C]; [apply hb_edge; auto|].
  eapply hb_trans; [apply hb_app, C|apply hb_edge; auto].
Qed.
Lemma free_knows tr t m i : knows tr t i -> kmutex (tr ++ [mkEv t (Free m)]) m i.
Proof. intros K. apply ends_snoc; auto. apply (knows_hb tr (mkEv t (Free m))); auto. Qed.
Lemma store_knows tr t id i : knows tr t i -> kdone (tr ++ [mkEv t (AtomicStore id)]) id i.
Proof. intros K. apply ends_snoc; auto. apply (knows_hb tr (mkEv t (AtomicStore id))); auto. Qed.
Lemma store_self tr t id : kdone (tr ++ [mkEv t (AtomicStore id)]) id (length tr).
Proof. exists (length tr), (mkEv t (AtomicStore id)). split; [apply nth_snoc|auto]. Qed.
Lemma spawn_knows tr t u i : knows tr t i -> knows (tr ++ [mkEv t (Spawn u)]) (Some u) i.
Proof.
  intros K. apply ends_snoc; [right; exists u; auto|]. apply (knows_hb tr (mkEv t (Spawn u))); auto.
Qed.

(** All conflicting accesses ordered. *)
Definition ordered (tr : list event) : Prop :=
  forall i j e f, nth_error tr i = Some e -> nth_error tr j = Some f -> (i < j)%nat ->
    conflict (ev_act e) (ev_act f) -> happens_before tr i j.

Lemma ordered_snoc tr e :
  ordered tr ->
  (forall i f, nth_error tr i = Some f -> conflict (ev_act f) (ev_act e) -> knows tr (ev_by e) i) ->
  ordered (tr ++ [e]).
Proof.
  intros O H i j f g Hi Hj L C.
  assert (LJ : (j < length (tr ++ [e]))%nat) by (apply nth_error_Some; congruence).
  rewrite app_length in LJ. cbn in LJ.
  assert (LI : (i < length tr)%nat) by lia. rewrite nth_error_app1 in Hi by auto.
  destruct (Nat.eq_dec j (length tr)) as [->|NE].
  - rewrite nth_snoc in Hj. inversion Hj; subst g. apply knows_hb. eauto.
  - rewrite nth_error_app1 in Hj by lia. apply hb_app. eauto.
Qed.

Lemma ordered_block tr t acts :
  ordered tr ->
  (forall a i f, In a acts -> nth_error tr i = Some f -> conflict (ev_act f) a -> knows tr t i) ->
  ordered (tr ++ map (mkEv t) acts).
Proof.
  revert tr. induction acts as [|a acts IH]; intros tr O H; cbn [map]; [rewrite app_nil_r; auto|].
  replace (tr ++ mkEv t a :: map (mkEv t) acts) with ((tr ++ [mkEv t a]) ++ map (mkEv t) acts)
    by (rewrite <- app_assoc; auto).
  apply IH.
  - apply ordered_snoc; auto. intros i f Hi C. eapply H; eauto. left; auto.
  - intros b i f IN Hi C.
    destruct (Nat.lt_ge_cases i (length tr)) as [L|L].
    + rewrite nth_error_app1 in Hi by auto. apply knows_app. eapply H; eauto. right; auto.
    + assert (Hi' := Hi). rewrite nth_error_app2 in Hi by auto. destruct (i - length tr)%nat as [|k].
      * cbn in Hi. inversion Hi; subst f. apply (knows_own _ _ _ Hi').
      * destruct k; discriminate.
Qed.

Lemma block_event tr t acts i e :
  nth_error (tr ++ map (mkEv t) acts) i = Some e ->
  nth_error tr i = Some e \/
  ((length tr <= i)%nat /\ exists a, e = mkEv t a /\ In a acts).
Proof.
  intros H. destruct (Nat.lt_ge_cases i (length tr)) as [L|L].
  - rewrite nth_error_app1 in H by auto. auto.
  - right. split; auto. rewrite nth_error_app2 in H by auto.
    apply nth_error_In in H. apply in_map_iff in H. destruct H as (a & <- & IN). eauto.
Qed.
End Knowledge.

(** * The invariant *)
Section Invariant.
Context {V : Type}.

Definition pc_obj (p : pc) : option cobj :=
  match p with
  | Lock _ | Read _ | Write _ _ => None
  | Unlock c | Call c | Slow c | Check c | Gen c | Gen2 c | SetDone c | Release c | Returned c => Some c
  end.

Definition held (tr : list event) (m : mutex) (h : option nat) (i : nat) : Prop :=
  match h with None => kmutex tr m i | Some t => knows tr (Some t) i end.
Definition guarded (s : system V) (tr : list event) (i : nat) : Prop :=
  held tr RegistryMutex (sh_mutex (sy_shared s)) i.
Definition published (s : system V) (tr : list event) (id : N) (i : nat) : Prop :=
  guarded s tr i /\
  forall t th c, nth_error (sy_threads s) t = Some th -> pc_obj (th_pc th) = Some c -> co_id c = id ->
    knows tr (Some t) i.
Definition locked (s : system V) (tr : list event) (id : N) (w : bool) (i : nat) : Prop :=
  held tr (OnceMutex id) (go_lock (sh_obj (sy_shared s) id)) i /\
  (go_done (sh_obj (sy_shared s) id) = true -> w = true -> kdone tr id i /\
   forall t th c, nth_error (sy_threads s) t = Some th -> th_pc th = Returned c -> co_id c = id ->
     knows tr (Some t) i).

Definition ev_ok (s : system V) (tr : list event) (i : nat) (a : action) : Prop :=
  let new id := id < rg_next (sh_reg (sy_shared s)) in
  match access a with
  | None => True
  | Some (LCfg, w, _) => w = true -> i = 0%nat
  | Some (LReg, _, _) => i = 1%nat \/ guarded s tr i
  | Some (LUsed id, _, _) => new id /\ guarded s tr i
  | Some (LEpoch id, w, _) => new id /\ (w = true -> published s tr id i)
  | Some (LData id, w, _) => new id /\
      (published s tr id i \/ locked s tr id w i \/
       (w = false /\ go_done (sh_obj (sy_shared s) id) = true))
  | Some (LDone id, true, false) => new id /\ published s tr id i
  | Some (LDone id, false, true) => new id
  | Some (LDone id, w, _) => new id /\ locked s tr id w i
  end.

Record rinv (s : system V) (tr : list event) : Prop := mkRinv {
  r_init : forall t, (t < length (sy_threads s))%nat -> knows tr (Some t) 0 /\ knows tr (Some t) 1;
  r_main : knows tr None 0 /\ knows tr None 1;
  r_ev : forall i e, nth_error tr i = Some e -> ev_ok s tr i (ev_act e);
  r_ord : ordered tr
}.

(** What carries the events of the past over. *)
Lemma ev_ok_transfer s tr s' tr' i a :
  rg_next (sh_reg (sy_shared s)) <= rg_next (sh_reg (sy_shared s')) ->
  (guarded s tr i -> guarded s' tr' i) ->
  (forall id, published s tr id i -> published s' tr' id i) ->
  (forall id w, locked s tr id w i -> locked s' tr' id w i) ->
  (forall id, go_done (sh_obj (sy_shared s) id) = true -> go_done (sh_obj (sy_shared s') id) = true) ->
  ev_ok s tr i a -> ev_ok s' tr' i a.
Proof.
  intros HN HG HP HL HD. unfold ev_ok. destruct (access a) as [[[l w] at_]|]; auto.
  destruct l as [| |id|id|id|id].
  - auto.
  - intros [E|E]; auto.
  - intros [E F]. split; [lia|auto].
  - intros [E F]. split; [lia|auto].
  - intros [E F]. split; [lia|]. destruct F as [F|[F|[F G]]]; auto.
  - destruct w, at_; try (intros [E F]; split; [lia|auto]). intros E. lia.
Qed.

Lemma step_rinv s tr s' t acts :
  let tr' := tr ++ map (mkEv (Some t)) acts in
  rinv s tr -> (t < length (sy_threads s))%nat ->
  (forall u, (u < length (sy_threads s'))%nat ->
     (u < length (sy_threads s))%nat \/ (knows tr' (Some u) 0 /\ knows tr' (Some u) 1)) ->
  rg_next (sh_reg (sy_shared s)) <= rg_next (sh_reg (sy_shared s')) ->
  (forall i, (i < length tr)%nat -> guarded s tr i -> guarded s' tr' i) ->
  (forall id i, (i < length tr)%nat -> published s tr id i -> published s' tr' id i) ->
  (forall id w i, (i < length tr)%nat -> locked s tr id w i -> locked s' tr' id w i) ->
  (forall id, go_done (sh_obj (sy_shared s) id) = true -> go_done (sh_obj (sy_shared s') id) = true) ->
  (forall a i f, In a acts -> nth_error tr i = Some f -> conflict (ev_act f) a -> knows tr (Some t) i) ->
  (forall a i, In a acts -> (length tr <= i)%nat -> nth_error tr' i = Some (mkEv (Some t) a) -> ev_ok s' tr' i a) ->
  rinv s' tr'.
Proof.
  intros tr' [R1 RM R2 R3] LT NT HN HG HP HL HD HC HE. constructor.
  - intros u Hu. destruct (NT u Hu) as [L|K]; auto.
    destruct (R1 u L). split; apply knows_app; auto.
  - destruct RM. split; apply knows_app; auto.
  - intros i e H. destruct (block_event _ _ _ _ _ H) as [O|(L & a & -> & IN)].
    + apply (ev_ok_transfer s tr); auto;
        assert (L : (i < length tr)%nat) by (apply nth_error_Some; congruence); auto.
    + apply HE; auto.
  - apply ordered_block; auto.
Qed.

(** ** Conflicting accesses of the past are known *)
Section Conflicts.
Variables (s : system V) (tr : list event) (t : nat).
Hypothesis R : rinv s tr.
Hypothesis T : (t < length (sy_threads s))%nat.

Lemma conf_none a i f : access a = None -> conflict (ev_act f) a -> knows tr (Some t) i.
Proof. intros A (l & w1 & a1 & w2 & a2 & _ & E & _). congruence. Qed.

Lemma conf_cfg i f :
  nth_error tr i = Some f -> conflict (ev_act f) (Rd LCfg) -> knows tr (Some t) i.
Proof.
  intros H (l & w1 & a1 & w2 & a2 & A & B & C & _). inversion B; subst l w2 a2.
  assert (E := r_ev _ _ R _ _ H). unfold ev_ok in E. rewrite A in E.
  destruct C as [->|C]; [|discriminate]. rewrite (E eq_refl). apply (r_init _ _ R t T).
Qed.

Lemma conf_reg a i f :
  sh_mutex (sy_shared s) = Some t -> nth_error tr i = Some f ->
  (exists w at_, access a = Some (LReg, w, at_)) -> conflict (ev_act f) a -> knows tr (Some t) i.
Proof.
  intros M H (w & at_ & AA) (l & w1 & a1 & w2 & a2 & A & B & C & _).
  rewrite AA in B. inversion B; subst l w2 a2.
  assert (E := r_ev _ _ R _ _ H). unfold ev_ok, guarded in E. rewrite A, M in E.
  destruct E as [->|E]; auto. apply (r_init _ _ R t T).
Qed.

Lemma conf_used a id i f :
  sh_mutex (sy_shared s) = Some t -> nth_error tr i = Some f ->
  (exists w at_, access a = Some (LUsed id, w, at_)) -> conflict (ev_act f) a -> knows tr (Some t) i.
Proof.
  intros M H (w & at_ & AA) (l & w1 & a1 & w2 & a2 & A & B & C & _).
  rewrite AA in B. inversion B; subst l w2 a2.
  assert (E := r_ev _ _ R _ _ H). unfold ev_ok, guarded in E. rewrite A, M in E. apply E.
Qed.

Lemma published_known th c id i :
  nth_error (sy_threads s) t = Some th -> pc_obj (th_pc th) = Some c -> co_id c = id ->
  published s tr id i -> knows tr (Some t) i.
Proof. intros H P E [_ K]. eauto. Qed.

Lemma published_holder id i :
  sh_mutex (sy_shared s) = Some t -> published s tr id i -> knows tr (Some t) i.
Proof. intros M [K _]. unfold guarded in K. rewrite M in K. auto. Qed.

Lemma conf_epoch id i f :
  (forall i, published s tr id i -> knows tr (Some t) i) ->
  nth_error tr i = Some f -> conflict (ev_act f) (Rd (LEpoch id)) -> knows tr (Some t) i.
Proof.
  intros P H (l & w1 & a1 & w2 & a2 & A & B & C & _). inversion B; subst l w2 a2.
  assert (E := r_ev _ _ R _ _ H). unfold ev_ok in E. rewrite A in E.
  destruct C as [->|C]; [|discriminate]. apply P, E. auto.
Qed.

Lemma conf_init id a i f :
  rg_next (sh_reg (sy_shared s)) <= id -> In a (init_object id) ->
  nth_error tr i = Some f -> conflict (ev_act f) a -> knows tr (Some t) i.
Proof.
  intros N IN H (l & w1 & a1 & w2 & a2 & A & B & C & _). exfalso.
  assert (E := r_ev _ _ R _ _ H). unfold ev_ok in E. rewrite A in E.
  destruct IN as [<-|[<-|[<-|[<-|[]]]]]; cbn in B; inversion B; subst l w2 a2;
    try (destruct E as [E _]; lia).
  destruct w1, a1; try (destruct E as [E _]; lia). lia.
Qed.

Lemma conf_data id a i f :
  (forall i, published s tr id i -> knows tr (Some t) i) ->
  go_lock (sh_obj (sy_shared s) id) = Some t -> go_done (sh_obj (sy_shared s) id) = false ->
  nth_error tr i = Some f ->
  (exists w at_, access a = Some (LData id, w, at_)) -> conflict (ev_act f) a -> knows tr (Some t) i.
Proof.
  intros P L D H (w & at_ & AA) (l & w1 & a1 & w2 & a2 & A & B & C & _).
  rewrite AA in B. inversion B; subst l w2 a2.
  assert (E := r_ev _ _ R _ _ H). unfold ev_ok in E. rewrite A in E.
  destruct E as (_ & [E|[[E _]|[_ E]]]).
  - auto.
  - rewrite L in E. exact E.
  - congruence.
Qed.

Lemma conf_use th c i f :
  nth_error (sy_threads s) t = Some th -> th_pc th = Returned c ->
  go_done (sh_obj (sy_shared s) (co_id c)) = true ->
  nth_error tr i = Some f -> conflict (ev_act f) (Rd (LData (co_id c))) -> knows tr (Some t) i.
Proof.
  intros HT P D H (l & w1 & a1 & w2 & a2 & A & B & C & _). inversion B; subst l w2 a2.
  assert (E := r_ev _ _ R _ _ H). unfold ev_ok in E. rewrite A in E.
  destruct C as [->|C]; [|discriminate].
  destruct E as [_ E]. destruct E as [E|[[_ E]|[E _]]].
  - apply (published_known th c (co_id c)); auto. rewrite P. auto.
  - destruct (E D eq_refl) as [_ K]. eauto.
  - discriminate.
Qed.

Lemma conf_done id a i f :
  (forall i, published s tr id i -> knows tr (Some t) i) ->
  go_lock (sh_obj (sy_shared s) id) = Some t ->
  nth_error tr i = Some f ->
  a = Rd (LDone id) \/ a = AtomicStore id -> conflict (ev_act f) a -> knows tr (Some t) i.
Proof.
  intros P L H AA (l & w1 & a1 & w2 & a2 & A & B & C & D).
  assert (l = LDone id) by (destruct AA; subst a; cbn in B; congruence). subst l.
  assert (E := r_ev _ _ R _ _ H). unfold ev_ok, locked in E. rewrite A, L in E.
  destruct w1, a1.
  - apply E.
  - apply P, E.
  - exfalso. destruct AA; subst a; cbn in B; inversion B; subst w2 a2.
    + destruct C; discriminate.
    + apply D; auto.
  - apply E.
Qed.

Lemma conf_load id b i f :
  (forall i, published s tr id i -> knows tr (Some t) i) ->
  nth_error tr i = Some f ->
  conflict (ev_act f) (AtomicLoad id b) -> knows tr (Some t) i.
Proof.
  intros P H (l & w1 & a1 & w2 & a2 & A & B & C & D). inversion B; subst l w2 a2.
  assert (E := r_ev _ _ R _ _ H). unfold ev_ok in E. rewrite A in E.
  destruct C as [->|C]; [|discriminate]. destruct a1; [exfalso; auto|]. apply P, E.
Qed.
End Conflicts.

(** ** Knowledge carried over a step *)
Lemma held_app tr tr2 m h i : held tr m h i -> held (tr ++ tr2) m h i.
Proof. destruct h; apply ends_app. Qed.

Lemma published_step s tr sh' t th pc' new tr2 id i :
  let s' := mkSys sh' (set_nth (sy_threads s) t (mkT (th_req th) pc') ++ new) in
  nth_error (sy_threads s) t = Some th ->
  (guarded s tr i -> guarded s' (tr ++ tr2) i) ->
  (forall c, pc_obj pc' = Some c -> pc_obj (th_pc th) = Some c \/ sh_mutex (sy_shared s) = Some t) ->
  (forall u, (length (sy_threads s) <= u < length (sy_threads s'))%nat -> guarded s tr i ->
     knows (tr ++ tr2) (Some u) i) ->
  published s tr id i -> published s' (tr ++ tr2) id i.
Proof.
  intros s' H HG HP HN [G K]. split; auto.
  intros u x c E P Ec. cbn [s' sy_threads] in E.
  assert (LU : (u < length (sy_threads s'))%nat) by (apply nth_error_Some; cbn [s' sy_threads]; congruence).
  destruct (Nat.lt_ge_cases u (length (sy_threads s))) as [L|L]; [|apply HN; auto].
  destruct (Nat.eq_dec u t) as [->|NE].
  - rewrite (threads_same _ _ _ _ _ H) in E. inversion E; subst x. cbn [th_pc] in P.
    apply knows_app. destruct (HP c P) as [P'|M]; eauto.
    unfold guarded in G. rewrite M in G. exact G.
  - rewrite nth_error_app1 in E by (rewrite set_nth_length; auto).
    rewrite nth_error_set_nth_other in E by auto. apply knows_app. eauto.
Qed.

Lemma locked_step (d : config) (gen : N -> V) ep s tr sh' t th pc' new tr2 id w i :
  let s' := mkSys sh' (set_nth (sy_threads s) t (mkT (th_req th) pc') ++ new) in
  OnceProofs.inv d gen ep s ->
  nth_error (sy_threads s) t = Some th ->
  (held tr (OnceMutex id) (go_lock (sh_obj (sy_shared s) id)) i ->
   held (tr ++ tr2) (OnceMutex id) (go_lock (sh_obj sh' id)) i) ->
  (go_done (sh_obj sh' id) = true ->
     go_done (sh_obj (sy_shared s) id) = true \/ (kdone (tr ++ tr2) id i)) ->
  (forall c, pc' = Returned c -> co_id c = id -> w = true -> locked s tr id w i -> knows (tr ++ tr2) (Some t) i) ->
  (forall x, In x new -> forall c, th_pc x <> Returned c) ->
  locked s tr id w i -> locked s' (tr ++ tr2) id w i.
Proof.
  intros s' I H HH HD HR HN LK. assert (LK' := LK). destruct LK as [G K].
  split; [exact (HH G)|]. intros D W. cbn [s' sy_shared] in D. split.
  - destruct (HD D) as [D0|KD]; [|exact KD]. apply ends_app. apply K; auto.
  - intros u x c E P Ec. cbn [s' sy_threads] in E.
    destruct (threads_after _ _ _ _ _ _ _ H E) as [[-> ->]|[[NE E']|IX]].
    + eapply HR; eauto.
    + apply knows_app. assert (TOK := inv_threads _ _ _ _ I _ _ E'). unfold thread_ok in TOK.
      rewrite P in TOK. destruct TOK as [_ D0]. rewrite Ec in D0. eapply K; eauto.
    + destruct (HN x IX c P).
Qed.

Section Main.
Variable d : config.
Variable gen : N -> V.
Hypothesis count_pos : (1 <= cf_caches_count d)%Z.

Lemma traced_execution s tr : traced d gen s tr -> execution d gen s.
Proof.
  induction 1 as [|s tr t th sh' pc' new _ IH H L|s tr e _ IH He|s tr t th c _ IH H P]; auto.
  - constructor.
  - eapply ex_step; eauto. econstructor; eauto.
  - constructor; auto.
Qed.

Lemma init_objects_In a x y :
  In a (init_objects x y) -> exists id, x <= id < y /\ In a (init_object id).
Proof.
  unfold init_objects. intros H. apply in_flat_map in H. destruct H as (k & K & A).
  apply in_seq in K. exists (x + N.of_nat k). split; [lia|auto].
Qed.

(** A step that leaves the registry and its mutex alone, does not touch a lock or set a flag. *)
Lemma rinv_quiet ep s tr t th pc' acts :
  let s' := mkSys (sy_shared s) (set_nth (sy_threads s) t (mkT (th_req th) pc') ++ []) in
  let tr' := tr ++ map (mkEv (Some t)) acts in
  OnceProofs.inv d gen ep s -> rinv s tr -> nth_error (sy_threads s) t = Some th ->
  (forall c, pc_obj pc' = Some c -> pc_obj (th_pc th) = Some c) ->
  (forall c w i, pc' = Returned c -> w = true -> locked s tr (co_id c) w i -> knows tr' (Some t) i) ->
  (forall a i f, In a acts -> nth_error tr i = Some f -> conflict (ev_act f) a -> knows tr (Some t) i) ->
  (forall a i, In a acts -> (length tr <= i)%nat -> nth_error tr' i = Some (mkEv (Some t) a) -> ev_ok s' tr' i a) ->
  rinv s' tr'.
Proof.
  intros s' tr' I R H HP HR HC HE.
  assert (LT : (t < length (sy_threads s))%nat) by (apply nth_error_Some; congruence).
  assert (LEN : length (sy_threads s') = length (sy_threads s)).
  { cbn [s' sy_threads]. rewrite app_nil_r. apply set_nth_length. }
  assert (HG : forall i, guarded s tr i -> guarded s' tr' i).
  { intros i G. apply held_app. exact G. }
  apply (step_rinv s tr s' t acts); auto.
  - intros u. rewrite LEN. auto.
  - cbn [s' sy_shared]. lia.
  - intros id i _ P. apply (published_step s tr (sy_shared s) t th pc' [] _ id i); auto.
    + fold s'. rewrite LEN. intros u Hu. lia.
  - intros id w i _ P. apply (locked_step d gen ep s tr (sy_shared s) t th pc' [] _ id w i); auto.
    + apply held_app.
    + intros c E <-. eauto.
Qed.

(** A step on one object's lock, flag or data. *)
Lemma rinv_obj ep s tr t th pc' id0 g' acts :
  let sh' := set_obj (sy_shared s) id0 g' in
  let s' := mkSys sh' (set_nth (sy_threads s) t (mkT (th_req th) pc') ++ []) in
  let tr' := tr ++ map (mkEv (Some t)) acts in
  let g := sh_obj (sy_shared s) id0 in
  OnceProofs.inv d gen ep s -> rinv s tr -> nth_error (sy_threads s) t = Some th ->
  (forall c, pc_obj pc' = Some c -> pc_obj (th_pc th) = Some c) ->
  (forall i, held tr (OnceMutex id0) (go_lock g) i -> held tr' (OnceMutex id0) (go_lock g') i) ->
  (go_done g = true -> go_done g' = true) ->
  (go_done g' = true -> go_done g = true \/
     (forall w i, locked s tr id0 w i -> kdone tr' id0 i)) ->
  (forall c w i, pc' = Returned c -> w = true -> locked s tr (co_id c) w i -> knows tr' (Some t) i) ->
  (forall a i f, In a acts -> nth_error tr i = Some f -> conflict (ev_act f) a -> knows tr (Some t) i) ->
  (forall a i, In a acts -> (length tr <= i)%nat -> nth_error tr' i = Some (mkEv (Some t) a) -> ev_ok s' tr' i a) ->
  rinv s' tr'.
Proof.
  intros sh' s' tr' g I R H HP HH HD1 HD2 HR HC HE.
  assert (LT : (t < length (sy_threads s))%nat) by (apply nth_error_Some; congruence).
  assert (LEN : length (sy_threads s') = length (sy_threads s)).
  { cbn [s' sy_threads]. rewrite app_nil_r. apply set_nth_length. }
  assert (HG : forall i, guarded s tr i -> guarded s' tr' i).
  { intros i G. apply held_app. exact G. }
  apply (step_rinv s tr s' t acts); auto.
  - intros u. rewrite LEN. auto.
  - cbn [s' sy_shared sh' set_obj sh_reg]. lia.
  - intros id i _ P. apply (published_step s tr sh' t th pc' [] _ id i); auto.
    + fold s'. rewrite LEN. intros u Hu. lia.
  - intros id w i _ P. apply (locked_step d gen ep s tr sh' t th pc' [] _ id w i); auto.
    + cbn [sh' set_obj sh_obj]. destruct (N.eqb_spec id id0) as [->|NE]; [apply HH|apply held_app].
    + cbn [sh' set_obj sh_obj]. destruct (N.eqb_spec id id0) as [->|NE]; auto.
      intros D. destruct (HD2 D) as [D0|K]; eauto.
    + intros c E <-. eauto.
  - intros id D. cbn [s' sy_shared sh' set_obj sh_obj].
    destruct (N.eqb_spec id id0) as [->|NE]; auto.
Qed.

Lemma traced_rinv s tr : traced d gen s tr -> rinv s tr.
Proof.
  induction 1 as [|s tr t th sh' pc' new TX R H L|s tr e TX R He|s tr t th c TX R H P].
  - (* init *)
    constructor.
    + cbn. intros t Ht. lia.
    + split; [exists 0%nat, (mkEv None (Wr LCfg))|exists 1%nat, (mkEv None (Wr LReg))];
        (split; [reflexivity|split; [left; reflexivity|left; reflexivity]]).
    + intros i e E. destruct i as [|[|i]]; cbn in E; [| |destruct i; discriminate].
      * inversion E; subst e. cbn. auto.
      * inversion E; subst e. cbn. auto.
    + intros i j e f Hi Hj L _. apply hb_edge. apply (edge_program _ _ _ e f); auto.
      assert (A : forall k x, nth_error [mkEv None (Wr LCfg); mkEv None (Wr LReg)] k = Some x -> ev_by x = None).
      { intros k x E. apply nth_error_In in E. destruct E as [<-|[<-|[]]]; auto. }
      rewrite (A _ _ Hi), (A _ _ Hj). auto.
  - destruct (execution_inv d gen count_pos s (traced_execution _ _ TX)) as (ep & I).
    assert (LT : (t < length (sy_threads s))%nat) by (apply nth_error_Some; congruence).
    assert (OK := inv_threads _ _ _ _ I _ _ H).
    assert (PK : forall c, pc_obj (th_pc th) = Some c -> forall i, published s tr (co_id c) i -> knows tr (Some t) i).
    { intros c E i. apply (published_known s tr t th c); auto. }
    destruct th as [req p]. cbn [th_pc th_req] in *.
    inversion L; subst; unfold thread_ok in OK; cbn [th_pc th_req accesses] in *.
    + (* lock *)
      set (s' := mkSys _ _).
      assert (HG : forall i, guarded s tr i -> guarded s' (tr ++ [mkEv (Some t) (Acquire RegistryMutex)]) i).
      { intros i G. unfold guarded in *. rewrite H0 in G. cbn [s' sy_shared sh_mutex held].
        apply acquire_knows. exact G. }
      assert (LEN : length (sy_threads s') = length (sy_threads s)).
      { cbn [s' sy_threads]. rewrite app_nil_r. apply set_nth_length. }
      apply (step_rinv s tr s' t [Acquire RegistryMutex]); auto.
      * intros u. rewrite LEN. auto.
      * cbn [s' sy_shared sh_reg]. lia.
      * intros id i _ P. apply (published_step s tr _ t (mkT req (Lock e)) (Read e) [] _ id i); auto.
        intros u Hu. cbn [sy_threads th_req] in Hu. rewrite app_nil_r, set_nth_length in Hu. lia.
      * intros id w i _ P. apply (locked_step d gen ep s tr _ t (mkT req (Lock e)) (Read e) [] _ id w i); auto.
        -- apply held_app.
        -- discriminate.
      * intros a i f [<-|[]] _. apply conf_none. auto.
      * intros a i [<-|[]] _ _. cbn. auto.
    + (* read *)
      destruct OK as (OR & OE & OM).
      assert (W := inv_wf _ _ _ _ I).
      apply (rinv_quiet ep s tr t (mkT req (Read e)) (Write e (sh_reg (sy_shared s)))); auto; try discriminate.
      * intros a i f [<-|[<-|IN]] Hf CF.
        -- eapply conf_cfg; eauto.
        -- eapply conf_reg; eauto. cbn. eauto.
        -- apply in_app_or in IN. destruct IN as [IN|IN].
           ++ apply in_flat_map in IN. destruct IN as ((k & c) & IC & [<-|[<-|[]]]).
              ** eapply conf_epoch; eauto. intros j. apply published_holder; auto.
              ** eapply conf_used; eauto. cbn. eauto.
           ++ destruct (rg_future (sh_reg (sy_shared s))) as [fu|]; [|destruct IN].
              destruct IN as [<-|[]]. eapply conf_epoch; eauto. intros j. apply published_holder; auto.
      * intros a i IN _ Hi. assert (OWN := knows_own _ _ _ Hi). cbn [ev_by] in OWN.
        destruct IN as [<-|[<-|IN]].
        -- cbn. discriminate.
        -- cbn. right. unfold guarded. cbn [sy_shared]. rewrite OM. exact OWN.
        -- apply in_app_or in IN. destruct IN as [IN|IN].
           ++ apply in_flat_map in IN. destruct IN as ((k & c) & IC & [<-|[<-|[]]]).
              ** cbn. split; [apply (wf_ids _ _ W _ _ IC)|discriminate].
              ** cbn. split; [apply (wf_ids _ _ W _ _ IC)|]. unfold guarded. cbn [sy_shared]. rewrite OM. exact OWN.
           ++ destruct (rg_future (sh_reg (sy_shared s))) as [fu|] eqn:FU; [|destruct IN].
              destruct IN as [<-|[]]. cbn. split; [apply (wf_future _ _ W _ FU)|discriminate].
    + (* write *)
      rename r into r0. destruct OK as (OR & OE & OM & ->).
      assert (ST : gstep d gen s (mkSys (mkSh r' (sh_mutex (sy_shared s)) (sh_obj (sy_shared s)))
        (set_nth (sy_threads s) t (mkT req (Unlock c)) ++
           match sp with Some f => [mkT None (Call f)] | None => [] end))).
      { apply (g_step d gen s t (mkT req (Write e (sh_reg (sy_shared s))))); auto. }
      destruct (step_inv d gen count_pos ep s _ I ST) as (ep' & I' & _).
      match goal with G : get_locked _ _ _ _ _ = _, P : forall m, Permutation _ _ |- _ =>
        rename G into GL; rename P into PO end.
      assert (HN : rg_next (sh_reg (sy_shared s)) <= rg_next r').
      { destruct (get_locked_spec d order now e _ count_pos PO OE (inv_wf _ _ _ _ I))
          as (r1 & c1 & sp1 & E1 & _ & _ & _ & Hn & _).
        rewrite GL in E1. inversion E1; subst. exact Hn. }
      set (new := match sp with Some f => [mkT None (Call f)] | None => [] end) in *.
      set (s' := mkSys (mkSh r' (sh_mutex (sy_shared s)) (sh_obj (sy_shared s)))
                   (set_nth (sy_threads s) t (mkT req (Unlock c)) ++ new)) in *.
      assert (HC : co_id c < rg_next r').
      { assert (X := inv_threads _ _ _ _ I' t (mkT req (Unlock c)) (threads_same _ _ _ _ _ H)).
        apply X. }
      cbn [sh_reg].
      set (ini := init_objects (rg_next (sh_reg (sy_shared s))) (rg_next r')).
      set (tail := match new with [] => [] | _ => [Spawn (length (sy_threads s))] end ++ [Wr (LUsed (co_id c))]).
      set (tr' := tr ++ map (mkEv (Some t)) (ini ++ [Wr LReg] ++ tail)).
      assert (LEN : length (sy_threads s') = (length (sy_threads s) + length new)%nat).
      { cbn [s' sy_threads]. rewrite app_length, set_nth_length. auto. }
      assert (HG : forall i, guarded s tr i -> guarded s' tr' i).
      { intros i G. apply held_app. exact G. }
      assert (GK : forall i, guarded s tr i -> knows tr (Some t) i).
      { intros i G. unfold guarded in G. rewrite OM in G. exact G. }
      assert (SK : forall i u, (length (sy_threads s) <= u < length (sy_threads s'))%nat ->
        knows (tr ++ map (mkEv (Some t)) (ini ++ [Wr LReg])) (Some t) i -> knows tr' (Some u) i).
      { intros i u Hu K. rewrite LEN in Hu. unfold tr', tail. subst new.
        destruct sp as [f|]; [|cbn [length] in Hu; lia]. cbn [length] in Hu.
        replace u with (length (sy_threads s)) by lia.
        rewrite app_assoc, (map_app _ (ini ++ [Wr LReg])). cbn [app map].
        change (mkEv (Some t) (Spawn (length (sy_threads s))) :: [mkEv (Some t) (Wr (LUsed (co_id c)))])
          with ([mkEv (Some t) (Spawn (length (sy_threads s)))] ++ [mkEv (Some t) (Wr (LUsed (co_id c)))]).
        rewrite !app_assoc. apply knows_app. apply spawn_knows. exact K. }
      assert (PUB : forall a id i, In a (init_object id) -> a <> Wr (LUsed id) ->
        rg_next (sh_reg (sy_shared s)) <= id ->
        nth_error tr' i = Some (mkEv (Some t) a) -> (length tr <= i)%nat -> published s' tr' id i).
      { intros a id i IA NU Hid Hi Li. assert (OWN := knows_own _ _ _ Hi). cbn [ev_by] in OWN.
        split; [unfold guarded; cbn [s' sy_shared sh_mutex]; rewrite OM; exact OWN|].
        intros u x c0 E P Ec.
        assert (LU : (u < length (sy_threads s'))%nat) by (apply nth_error_Some; congruence).
        destruct (Nat.eq_dec u t) as [->|NE]; [exact OWN|].
        destruct (Nat.lt_ge_cases u (length (sy_threads s))) as [LL|LL].
        - exfalso. cbn [s' sy_threads] in E. rewrite nth_error_app1 in E by (rewrite set_nth_length; auto).
          rewrite nth_error_set_nth_other in E by auto.
          assert (TOK := inv_threads _ _ _ _ I _ _ E). unfold thread_ok in TOK.
          destruct (th_pc x); cbn in P; try discriminate P; inversion P; subst c0;
            unfold good, obj_ok in TOK; lia.
        - apply SK; [lia|]. apply (knows_own _ i (mkEv (Some t) a)).
          unfold tr' in Hi. rewrite app_assoc, (map_app _ (ini ++ [Wr LReg])), app_assoc in Hi.
          destruct (Nat.lt_ge_cases i (length (tr ++ map (mkEv (Some t)) (ini ++ [Wr LReg])))) as [LI|LI];
            [rewrite nth_error_app1 in Hi by exact LI; exact Hi|].
          exfalso. rewrite nth_error_app2 in Hi by exact LI. apply nth_error_In in Hi.
          apply in_map_iff in Hi. destruct Hi as (b & Eb & IB). inversion Eb; subst b.
          unfold tail in IB. apply in_app_or in IB. destruct IB as [IB|[IB|[]]].
          + destruct new; [destruct IB|]. destruct IB as [IB|[]]. subst a.
            destruct IA as [IA|[IA|[IA|[IA|[]]]]]; discriminate IA.
          + subst a. destruct IA as [IA|[IA|[IA|[IA|[]]]]]; try discriminate IA. congruence. }
      assert (AIN : forall a, In a (ini ++ [Wr LReg] ++ tail) ->
        (exists id, rg_next (sh_reg (sy_shared s)) <= id < rg_next r' /\ In a (init_object id)) \/
        a = Wr LReg \/ access a = None \/ a = Wr (LUsed (co_id c))).
      { intros a IN. apply in_app_or in IN. destruct IN as [IN|[IN|IN]]; auto.
        - left. apply init_objects_In; auto.
        - apply in_app_or in IN. destruct IN as [[]|IN].
          unfold tail in IN. apply in_app_or in IN. destruct IN as [IN|[IN|[]]]; auto.
          destruct new; [destruct IN|]. destruct IN as [<-|[]]; auto. }
      apply (step_rinv s tr s' t (ini ++ [Wr LReg] ++ tail)); auto.
      * intros u Hu. destruct (Nat.lt_ge_cases u (length (sy_threads s))) as [LL|LL]; auto.
        right. destruct (r_init _ _ R t LT) as [K0 K1].
        split; apply SK; auto; apply knows_app; auto.
      * intros id i _ P.
        apply (published_step s tr _ t (mkT req (Write e (sh_reg (sy_shared s)))) (Unlock c) new _ id i); auto.
        intros u Hu G. apply SK; auto. apply knows_app. auto.
      * intros id w i _ P.
        apply (locked_step d gen ep s tr _ t (mkT req (Write e (sh_reg (sy_shared s)))) (Unlock c) new _ id w i); auto.
        -- apply held_app.
        -- discriminate.
        -- intros x IX c0. subst new. destruct sp; [|destruct IX]. destruct IX as [<-|[]]. discriminate.
      * intros a i f IN Hf CF. destruct (AIN a IN) as [(id & Hid & IA)|[Ea|[NA|Ea]]]; try subst a.
        -- exact (conf_init s tr t R LT id a i f (proj1 Hid) IA Hf CF).
        -- eapply conf_reg; eauto. cbn. eauto.
        -- eapply conf_none; eauto.
        -- eapply conf_used; eauto. cbn. eauto.
      * intros a i IN Li Hi. fold tr'. fold tr' in Hi. assert (OWN := knows_own _ _ _ Hi). cbn [ev_by] in OWN.
        assert (GO : guarded s' tr' i) by (unfold guarded; cbn [s' sy_shared sh_mutex]; rewrite OM; exact OWN).
        destruct (AIN a IN) as [(id & Hid & IA)|[Ea|[NA|Ea]]]; try subst a.
        -- assert (PB := fun NU => PUB a id i IA NU (proj1 Hid) Hi Li).
           destruct IA as [<-|[<-|[<-|[<-|[]]]]]; (split; [apply Hid|]).
           ++ intros _. apply PB. discriminate.
           ++ exact GO.
           ++ left. apply PB. discriminate.
           ++ apply PB. discriminate.
        -- right. exact GO.
        -- unfold ev_ok. rewrite NA. auto.
        -- split; [exact HC|exact GO].
    + (* unlock *)
      destruct OK as (OG & OM).
      set (s' := mkSys _ _).
      assert (HG : forall i, guarded s tr i -> guarded s' (tr ++ [mkEv (Some t) (Free RegistryMutex)]) i).
      { intros i G. unfold guarded in *. rewrite OM in G. cbn [s' sy_shared sh_mutex held].
        apply free_knows. exact G. }
      assert (LEN : length (sy_threads s') = length (sy_threads s)).
      { cbn [s' sy_threads]. rewrite app_nil_r. apply set_nth_length. }
      apply (step_rinv s tr s' t [Free RegistryMutex]); auto.
      * intros u. rewrite LEN. auto.
      * cbn [s' sy_shared sh_reg]. lia.
      * intros id i _ P. apply (published_step s tr _ t (mkT req (Unlock c)) (Call c) [] _ id i); auto.
        intros u Hu. cbn [sy_threads th_req] in Hu. rewrite app_nil_r, set_nth_length in Hu. lia.
      * intros id w i _ P. apply (locked_step d gen ep s tr _ t (mkT req (Unlock c)) (Call c) [] _ id w i); auto.
        -- apply held_app.
        -- discriminate.
      * intros a i f [<-|[]] _. apply conf_none. auto.
      * intros a i [<-|[]] _ _. cbn. auto.
    + (* call, done *)
      apply (rinv_quiet ep s tr t (mkT req (Call c)) (Returned c)); auto; try discriminate.
      * intros c0 w i E W [_ LK]. inversion E; subst c0. rewrite H0 in *.
        apply load_knows. apply LK; auto.
      * intros a i f [<-|[]] Hf CF. refine (conf_load s tr t R (co_id c) _ i f (PK c eq_refl) Hf CF).
      * intros a i [<-|[]] _ _. apply (good_obj _ _ _ _ OK).
    + (* call, not done *)
      apply (rinv_quiet ep s tr t (mkT req (Call c)) (Slow c)); auto; try discriminate.
      * intros a i f [<-|[]] Hf CF. refine (conf_load s tr t R (co_id c) _ i f (PK c eq_refl) Hf CF).
      * intros a i [<-|[]] _ _. apply (good_obj _ _ _ _ OK).
    + (* slow *)
      apply (rinv_obj ep s tr t (mkT req (Slow c)) (Check c)); auto; try discriminate.
      * intros i. fold g. rewrite H0. cbn [go_lock held]. apply acquire_knows.
      * intros a i f [<-|[]] _. apply conf_none. auto.
      * intros a i [<-|[]] _ _. cbn. auto.
    + (* check, done *)
      destruct OK as (OG & OL & _).
      apply (rinv_quiet ep s tr t (mkT req (Check c)) (Release c)); auto; try discriminate.
      * intros a i f [<-|[]] Hf CF. refine (conf_done s tr t R (co_id c) _ i f (PK c eq_refl) _ Hf _ CF); auto.
      * intros a i [<-|[]] _ Hi. assert (OWN := knows_own _ _ _ Hi). cbn.
        split; [apply (good_obj _ _ _ _ OG)|]. split; [cbn [sy_shared]; rewrite OL; exact OWN|discriminate].
    + (* check, not done *)
      destruct OK as (OG & OL & _).
      apply (rinv_quiet ep s tr t (mkT req (Check c)) (Gen c)); auto; try discriminate.
      * intros a i f [<-|[]] Hf CF. refine (conf_done s tr t R (co_id c) _ i f (PK c eq_refl) _ Hf _ CF); auto.
      * intros a i [<-|[]] _ Hi. assert (OWN := knows_own _ _ _ Hi). cbn.
        split; [apply (good_obj _ _ _ _ OG)|]. split; [cbn [sy_shared]; rewrite OL; exact OWN|discriminate].
    + (* gen *)
      destruct OK as (OG & OL & OD & _). fold g in OL, OD.
      apply (rinv_obj ep s tr t (mkT req (Gen c)) (Gen2 c)); auto; try discriminate.
      * intros i. apply held_app.
      * intros a i f [<-|[<-|[<-|[]]]] Hf CF.
        -- eapply conf_cfg; eauto.
        -- refine (conf_epoch s tr t R (co_id c) i f (PK c eq_refl) Hf CF).
        -- refine (conf_data s tr t R (co_id c) _ i f (PK c eq_refl) _ _ Hf _ CF); cbn; eauto.
      * intros a i IN _ Hi. assert (OWN := knows_own _ _ _ Hi). cbn [ev_by] in OWN.
        destruct IN as [<-|[<-|[<-|[]]]]; cbn.
        -- discriminate.
        -- split; [apply (good_obj _ _ _ _ OG)|discriminate].
        -- split; [apply (good_obj _ _ _ _ OG)|]. right; left. unfold locked.
           cbn [sy_shared set_obj sh_obj]. rewrite N.eqb_refl. cbn [go_lock go_done].
           rewrite OL, OD. split; [exact OWN|discriminate].
    + (* gen2 *)
      destruct OK as (OG & OL & OD & _). fold g in OL, OD.
      apply (rinv_obj ep s tr t (mkT req (Gen2 c)) (SetDone c)); auto; try discriminate.
      * intros i. apply held_app.
      * intros a i f [<-|[<-|[<-|[<-|[]]]]] Hf CF.
        -- eapply conf_cfg; eauto.
        -- refine (conf_epoch s tr t R (co_id c) i f (PK c eq_refl) Hf CF).
        -- refine (conf_data s tr t R (co_id c) _ i f (PK c eq_refl) _ _ Hf _ CF); cbn; eauto.
        -- refine (conf_data s tr t R (co_id c) _ i f (PK c eq_refl) _ _ Hf _ CF); cbn; eauto.
      * intros a i IN _ Hi. assert (OWN := knows_own _ _ _ Hi). cbn [ev_by] in OWN.
        assert (LD : forall w, locked (mkSys (set_obj (sy_shared s) (co_id c)
            (mkG (go_done g) (go_lock g) (Complete (gen (co_epoch c))) (go_runs g)))
            (set_nth (sy_threads s) t (mkT req (SetDone c)) ++ []))
            (tr ++ map (mkEv (Some t)) [Rd LCfg; Rd (LEpoch (co_id c)); Rd (LData (co_id c)); Wr (LData (co_id c))])
            (co_id c) w i).
        { intros w. unfold locked.
          cbn [sy_shared set_obj sh_obj]. rewrite N.eqb_refl. cbn [go_lock go_done].
          rewrite OL, OD. split; [exact OWN|discriminate]. }
        destruct IN as [<-|[<-|[<-|[<-|[]]]]].
        -- cbn. discriminate.
        -- cbn. split; [apply (good_obj _ _ _ _ OG)|discriminate].
        -- split; [apply (good_obj _ _ _ _ OG)|]. right; left. apply LD.
        -- split; [apply (good_obj _ _ _ _ OG)|]. right; left. apply LD.
    + (* set done *)
      destruct OK as (OG & OL & OD & _). fold g in OL, OD.
      apply (rinv_obj ep s tr t (mkT req (SetDone c)) (Release c)); auto; try discriminate.
      * intros i. apply held_app.
      * intros _. right. intros w i [LK _]. fold g in LK. rewrite OL in LK. apply store_knows. exact LK.
      * intros a i f [<-|[]] Hf CF. refine (conf_done s tr t R (co_id c) _ i f (PK c eq_refl) _ Hf _ CF); auto.
      * intros a i [<-|[]] LI Hi. assert (OWN := knows_own _ _ _ Hi). cbn [ev_by] in OWN.
        split; [apply (good_obj _ _ _ _ OG)|]. unfold locked.
        cbn [sy_shared set_obj sh_obj]. rewrite N.eqb_refl. cbn [go_lock go_done]. rewrite OL.
        split; [exact OWN|]. intros _ _. split.
        -- assert (i = length tr).
           { assert (LL : (i < length (tr ++ map (mkEv (Some t)) [AtomicStore (co_id c)]))%nat)
               by (apply nth_error_Some; congruence).
             rewrite app_length in LL. cbn in LL. lia. }
           subst i. apply store_self.
        -- intros u x c0 E P Ec. exfalso. cbn [sy_threads] in E.
           destruct (threads_after _ _ _ _ _ _ _ H E) as [[-> ->]|[[NE E']|[]]]; [discriminate P|].
           assert (TOK := inv_threads _ _ _ _ I _ _ E'). unfold thread_ok in TOK.
           rewrite P in TOK. destruct TOK as [_ D0]. rewrite Ec in D0. fold g in D0. congruence.
    + (* release *)
      destruct OK as (OG & OL & OD). fold g in OL, OD.
      apply (rinv_obj ep s tr t (mkT req (Release c)) (Returned c)); auto; try discriminate.
      * intros i. fold g. rewrite OL. cbn [go_lock held]. apply free_knows.
      * intros c0 w i E W [LK _]. inversion E; subst c0. fold g in LK. rewrite OL in LK.
        apply knows_app. exact LK.
      * intros a i f [<-|[]] _. apply conf_none. auto.
      * intros a i [<-|[]] _ _. cbn. auto.
  - (* request *)
    set (s' := mkSys (sy_shared s) _). set (u := length (sy_threads s)).
    set (tr' := tr ++ [mkEv None (Spawn u)]).
    assert (OLD : forall v x c, nth_error (sy_threads s') v = Some x -> pc_obj (th_pc x) = Some c ->
      nth_error (sy_threads s) v = Some x).
    { intros v x c E P. cbn [s' sy_threads] in E.
      destruct (Nat.lt_ge_cases v (length (sy_threads s))) as [LL|LL].
      - rewrite nth_error_app1 in E by auto. auto.
      - rewrite nth_error_app2 in E by auto. destruct (v - length (sy_threads s))%nat as [|k].
        + inversion E; subst x. discriminate P.
        + destruct k; discriminate E. }
    destruct R as [R1 RM R2 R3]. constructor.
    + intros v Hv. cbn [s' sy_threads] in Hv. rewrite app_length in Hv. cbn in Hv.
      destruct (Nat.eq_dec v u) as [->|NE].
      * destruct RM. split; apply spawn_knows; auto.
      * destruct (R1 v) as [A B]; [unfold u in NE; lia|]. split; apply knows_app; auto.
    + destruct RM. split; apply knows_app; auto.
    + intros i e0 E. destruct (block_event tr None [Spawn u] i e0 E) as [E'|(_ & a & -> & [<-|[]])];
        [|cbn; auto].
      apply (ev_ok_transfer s tr); auto.
      * cbn [s' sy_shared]. lia.
      * apply held_app.
      * intros id [G K]. split; [apply held_app; exact G|]. intros v x c Hx P Ec.
        apply knows_app. eapply K; eauto.
      * intros id w [G K]. split; [apply held_app; exact G|]. intros D W. destruct (K D W) as [KD KT].
        split; [apply ends_app; exact KD|]. intros v x c Hx P Ec.
        apply knows_app. eapply KT; eauto. eapply OLD; eauto. rewrite P. reflexivity.
    + apply (ordered_block tr None [Spawn u]); auto.
      intros a i f [<-|[]] _ (l & w1 & a1 & w2 & a2 & _ & B & _). discriminate B.
  - (* use *)
    destruct (execution_inv d gen count_pos s (traced_execution _ _ TX)) as (ep & I).
    assert (LT : (t < length (sy_threads s))%nat) by (apply nth_error_Some; congruence).
    assert (OK := inv_threads _ _ _ _ I _ _ H). unfold thread_ok in OK. rewrite P in OK.
    destruct OK as [OG OD].
    apply (step_rinv s tr s t [Rd LCfg; Rd (LData (co_id c))]); auto.
    + lia.
    + intros i _. apply held_app.
    + intros id i _ [G K]. split; [apply held_app; exact G|]. intros v x c0 Hx Px Ec.
      apply knows_app. eauto.
    + intros id w i _ [G K]. split; [apply held_app; exact G|]. intros D W. destruct (K D W) as [KD KT].
      split; [apply ends_app; exact KD|]. intros v x c0 Hx Px Ec. apply knows_app. eauto.
    + intros a i f [<-|[<-|[]]] Hf CF.
      * eapply conf_cfg; eauto.
      * eapply conf_use; eauto.
    + intros a i [<-|[<-|[]]] _ _.
      * cbn. discriminate.
      * split; [apply (good_obj _ _ _ _ OG)|]. right; right. auto.
Qed.
End Main.
End Invariant.
