(** C17: the cache registry. *)
From Coq Require Import NArith ZArith List Bool Permutation Lia ZifyBool ZifyN ZifyNat.
From Verif Require Import Base BaseFacts DagModel RegModel RegSpec RegProofs.
Import ListNotations.
Open Scope N_scope.

(** After any sequence of requests the retained epochs are exactly the last [count] distinct
    requested ones; the object handed out for an epoch is for that epoch; each retained object
    is stored under its own epoch and is the one handed out by the last request for it; the
    pre-generated object is for an epoch above every requested one.  No request fails. *)
Theorem C17_lru d count t0 l :
  cf_caches_count d = Z.of_nat count -> (1 <= count)%nat -> requests_ok t0 l ->
  exists r objs, run_requests d l empty_registry = Done (r, objs) /\
    Permutation (map fst (rg_caches r)) (lru_content count (map rq_epoch l)) /\
    (length (rg_caches r) <= count)%nat /\
    map co_epoch objs = map rq_epoch l /\
    (forall e c, In (e, c) (rg_caches r) -> co_epoch c = e /\
       exists c0, last_object e (map rq_epoch l) objs None = Some c0 /\ co_id c0 = co_id c) /\
    (forall f e, rg_future r = Some f -> In e (map rq_epoch l) -> e < co_epoch f) /\
    (l <> [] -> rg_future r <> None).
Proof.
  intros Ed Hc R.
  destruct (run_lru d count l Ed Hc [] t0 empty_registry (fun _ => None) R (lru_inv_empty count t0))
    as (r & objs & t' & E & L & M & I & _ & _ & A).
  { intros k c H. discriminate. }
  exists r, objs. split; auto. rewrite app_nil_r in I. destruct I as [W (LL & P & EL & D & U) F].
  split; [|split; [|split; [auto|split; [|split]]]].
  - unfold lru_content. rewrite <- EL. apply keys_perm. symmetry; auto.
  - pose proof (wf_len _ _ W) as H. unfold lenN in H. lia.
  - intros e c I. split; [eapply wf_key; eauto|].
    apply A. apply In_map_get; auto. apply W.
  - intros f e Ef Ie. destruct F as (f' & Ef' & Hf).
    { intros Er. apply (f_equal (@length N)) in Er. rewrite rev_length, map_length in Er.
      destruct l; cbn in Er; [destruct Ie|lia]. }
    assert (f' = f) by congruence. subst. apply Hf. rewrite <- in_rev. auto.
  - intros NE. destruct F as (f' & Ef' & Hf); [|congruence].
    intros Er. apply (f_equal (@length N)) in Er. rewrite rev_length, map_length in Er.
    destruct l; cbn in Er; [congruence|lia].
Qed.
Print Assumptions C17_lru.

(** A request for a retained epoch hands out the object of the last request for it again and
    starts no generation; the retained epochs stay the same. *)
Theorem C17_hit_reuses d count t0 l q r objs :
  cf_caches_count d = Z.of_nat count -> (1 <= count)%nat ->
  requests_ok t0 (l ++ [q]) -> run_requests d l empty_registry = Done (r, objs) ->
  In (rq_epoch q) (lru_content count (map rq_epoch l)) ->
  exists r' c c0, get_locked d (rq_order q) (rq_now q) (rq_epoch q) r = Done (r', c, None) /\
    last_object (rq_epoch q) (map rq_epoch l) objs None = Some c0 /\ co_id c = co_id c0 /\
    rg_future r' = rg_future r /\
    Permutation (map fst (rg_caches r')) (map fst (rg_caches r)).
Proof.
  intros Ed Hc R E IN.
  assert (R1 : requests_ok t0 l /\ exists t1, (t1 < rq_now q)%Z /\ (forall t', (forall q' l', l = l' ++ [q'] -> t' = rq_now q') ->
     (l = [] -> t' = t0) -> t' = t1) /\ (forall m, Permutation m (rq_order q m)) /\ rq_epoch q < 2 ^ 64 - 1).
  { clear - R. revert t0 R; induction l as [|x l IH]; intros t0 R; cbn in R.
    - split; [constructor|]. exists t0. split; [tauto|]. split; [|tauto]. intros t' _ H; auto.
    - destruct R as (A1 & A2 & A3 & R). destruct (IH _ R) as (R' & t1 & B1 & B2 & B3).
      split; [cbn; auto|]. exists t1. split; auto. split; auto.
      intros t' H _. apply B2.
      + intros q' l' ->. apply (H q' (x :: l')). auto.
      + intros ->. apply (H x []). auto. }
  destruct R1 as (R1 & t1 & Ht & Hu & Ho & He).
  destruct (run_lru d count l Ed Hc [] t0 empty_registry (fun _ => None) R1 (lru_inv_empty count t0))
    as (r1 & objs1 & t' & E1 & L & M & I & T1 & T2 & A).
  { intros k c H. discriminate. }
  rewrite E in E1. inversion E1; subst r1 objs1. clear E1.
  specialize (Hu t' T1 T2). subst t1. rewrite app_nil_r in I.
  assert (I' := I). destruct I' as [W _ _].
  destruct (lru_step d count _ t' r (rq_order q) (rq_now q) (rq_epoch q) Ed Hc Ho He Ht I)
    as (r' & c & sp & G & _ & _ & _ & _ & HIT).
  destruct (HIT IN) as (-> & c0 & G0 & Ei).
  destruct (get_locked_spec d (rq_order q) (rq_now q) (rq_epoch q) r) as (r2 & c2 & sp2 & G2 & _ & _ & _ & _ & S); auto.
  { lia. } { rewrite Ed; auto. }
  rewrite G in G2. inversion G2; subst r2 c2 sp2. rewrite G0 in S.
  destruct S as (_ & _ & S1 & S2 & _).
  destruct (A _ _ G0) as (a & La & Ea).
  exists r', c, a. repeat split; auto; try congruence.
  rewrite S1. unfold map_set. cbn [map fst].
  assert (ND := wf_nodup _ _ W). clear - ND G0. apply map_get_In in G0.
  assert (I : In (rq_epoch q) (map fst (rg_caches r))) by (apply in_map_iff; exists (rq_epoch q, c0); auto).
  apply in_split in I. destruct I as (l1 & l2 & E). rewrite keys_delete, E in *.
  assert (N1 : ~ In (rq_epoch q) (l1 ++ l2)) by (apply NoDup_remove_2; auto).
  rewrite filter_app. cbn [filter]. rewrite N.eqb_refl. cbn [negb].
  change (fun x : N => negb (x =? rq_epoch q)) with (ne (rq_epoch q)).
  rewrite !filter_ne_absent by (intros I; apply N1; apply in_or_app; auto).
  apply Permutation_middle.
Qed.
Print Assumptions C17_hit_reuses.

(** An eviction happens only when the registry is full and removes one retained object, one
    that no other retained object is older than - whatever the clock did; with any clock the
    registry stays within its bound and keeps objects under their own epochs. *)
Fixpoint requests_any_clock (l : list request) : Prop :=
  match l with
  | [] => True
  | q :: l' => (forall m, Permutation m (rq_order q m)) /\ rq_epoch q < 2 ^ 64 - 1 /\
               requests_any_clock l'
  end.

Lemma run_any_clock d l : (1 <= cf_caches_count d)%Z ->
  forall r, wf (cf_caches_count d) r -> requests_any_clock l ->
  exists r' objs, run_requests d l r = Done (r', objs) /\ map co_epoch objs = map rq_epoch l /\
    wf (cf_caches_count d) r'.
Proof.
  intros Hc. induction l as [|q l IH]; intros r W R; cbn [run_requests].
  - exists r, []. auto.
  - destruct R as (R1 & R2 & R3).
    destruct (get_locked_spec d (rq_order q) (rq_now q) (rq_epoch q) r Hc R1 R2 W)
      as (r1 & c & sp & E & W1 & Ec & _). rewrite E. cbn [bind].
    destruct (IH r1 W1 R3) as (r2 & objs & E2 & M & W2). rewrite E2. cbn [bind].
    exists r2, (c :: objs). cbn. split; auto. split; auto. congruence.
Qed.

Theorem C17_any_clock d l q :
  (1 <= cf_caches_count d)%Z -> requests_any_clock (l ++ [q]) ->
  exists r objs r' c sp,
    run_requests d l empty_registry = Done (r, objs) /\
    map co_epoch objs = map rq_epoch l /\
    (forall k c, In (k, c) (rg_caches r) -> co_epoch c = k) /\ NoDup (map fst (rg_caches r)) /\
    (Z.of_nat (length (rg_caches r)) <= cf_caches_count d)%Z /\
    get_locked d (rq_order q) (rq_now q) (rq_epoch q) r = Done (r', c, sp) /\
    co_epoch c = rq_epoch q /\ In (rq_epoch q, c) (rg_caches r') /\
    (forall k ev, In (k, ev) (rg_caches r) -> ~ In k (map fst (rg_caches r')) ->
       Z.of_nat (length (rg_caches r)) = cf_caches_count d /\
       forall k' c', In (k', c') (rg_caches r) ->
         (co_used ev <= co_used c')%Z /\ (k' <> k -> In k' (map fst (rg_caches r')))).
Proof.
  intros Hc R.
  assert (R1 : requests_any_clock l /\ (forall m, Permutation m (rq_order q m)) /\ rq_epoch q < 2 ^ 64 - 1).
  { clear - R. induction l; cbn in *; tauto. }
  destruct R1 as (R1 & Ho & He).
  destruct (run_any_clock d l Hc empty_registry ltac:(apply wf_empty; lia) R1) as (r & objs & E & M & W).
  destruct (get_locked_spec d (rq_order q) (rq_now q) (rq_epoch q) r Hc Ho He W)
      as (r1 & c & sp & E1 & W1 & Ec & Eu & _ & S).
  exists r, objs, r1, c, sp. split; auto. split; auto. split; [apply W|]. split; [apply W|].
  split; [pose proof (wf_len _ _ W) as H; unfold lenN in H; lia|].
  split; auto. split; auto. split.
  - destruct (map_get (rq_epoch q) (rg_caches r)).
    + destruct S as (_ & _ & S & _). rewrite S. left; auto.
    + destruct S as ((m & _ & S) & _). rewrite S. left; auto.
  - intros k ev I NI. pose proof (wf_len _ _ W) as LEN. unfold lenN in LEN.
    destruct (map_get (rq_epoch q) (rg_caches r)) eqn:G.
    + exfalso. destruct S as (_ & _ & S & _). rewrite S in NI. apply NI.
      unfold map_set. cbn [map fst].
      destruct (N.eq_dec k (rq_epoch q)) as [->|]; [left; auto|right].
      apply in_map_iff. exists (k, ev). split; auto. apply In_map_delete. auto.
    + destruct S as ((m & K & S) & _). rewrite S in *. unfold kept, lenN in K.
      assert (IM : forall x, In x m -> fst x <> rq_epoch q -> In (fst x) (map fst (map_set (rq_epoch q) c m))).
      { intros x Ix Nx. right. apply in_map. apply In_map_delete. auto. }
      assert (NQ : forall x, In x (rg_caches r) -> fst x <> rq_epoch q).
      { intros x Ix Ex. rewrite map_get_None in G. apply G. rewrite <- Ex. apply in_map; auto. }
      destruct (Z.leb_spec (cf_caches_count d) (Z.of_N (N.of_nat (length (rg_caches r))))).
      * destruct K as (k0 & ev0 & I0 & MIN & ->). split; [lia|].
        assert (k = k0).
        { destruct (N.eq_dec k k0); auto. exfalso. apply NI. apply (IM (k, ev)).
          - apply In_map_delete. auto.
          - apply NQ; auto. }
        subst k0. assert (ev = ev0).
        { apply In_map_get in I, I0; try apply W. congruence. }
        subst ev0. intros k' c' I'. split; [eapply MIN; eauto|].
        intros NK. apply (IM (k', c')); [apply In_map_delete; auto|]. apply NQ; auto.
      * subst m. exfalso. apply NI. apply (IM (k, ev)); [auto|apply NQ; auto].
Qed.
Print Assumptions C17_any_clock.

(** With a limit of zero (or a negative one) the first request already panics. *)
Theorem C17_no_capacity_refuted d order now epoch :
  (cf_caches_count d <= 0)%Z -> (forall m, Permutation m (order m)) ->
  get_locked d order now epoch empty_registry = Panic.
Proof.
  intros Hc Ho. unfold get_locked. cbn [rg_caches empty_registry map_get].
  change (lenN (@nil (N * cobj))) with 0.
  destruct (Z.leb_spec (cf_caches_count d) (Z.of_N 0)); [|lia].
  rewrite (Permutation_nil (Ho [])). reflexivity.
Qed.
Print Assumptions C17_no_capacity_refuted.

Definition rq (e : N) (t : Z) : request := mkReqst e t (fun m => rev m).
Example C17_instance :
  requests_ok 0 (map (fun '(e, t) => rq e t) [(5, 1%Z); (6, 2%Z); (5, 3%Z); (9, 4%Z); (2, 5%Z)]) /\
  lru_content 3 [5; 6; 5; 9; 2] = [2; 9; 5] /\
  match run_requests (cfg_firo []) (map (fun '(e, t) => rq e t)
      [(5, 1%Z); (6, 2%Z); (5, 3%Z); (9, 4%Z); (2, 5%Z)]) empty_registry with
  | Done (r, objs) => (map fst (rg_caches r), map co_id objs, option_map co_epoch (rg_future r)) =
      ([2; 9; 5], [0; 1; 0; 3; 5], Some 10)
  | _ => False
  end.
Proof.
  split; [|split; [reflexivity|vm_compute; reflexivity]].
  cbn [map requests_ok rq rq_now rq_order rq_epoch].
  repeat split; try reflexivity; intros; apply Permutation_rev.
Qed.
