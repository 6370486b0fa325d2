(** Proofs about the cache registry. *)
From Coq Require Import NArith ZArith List Bool Permutation Lia ZifyBool ZifyN ZifyNat.
From Verif Require Import Base BaseFacts DagModel RegModel RegSpec.
Import ListNotations.
Open Scope N_scope.

(** ** Map facts *)

Lemma map_get_In k m c : map_get k m = Some c -> In (k, c) m.
Proof.
  induction m as [|(k' & c') m IH]; cbn; [discriminate|].
  destruct (N.eqb_spec k' k); intros E; [inversion E; subst; auto|auto].
Qed.

Lemma map_get_None k m : map_get k m = None <-> ~ In k (map fst m).
Proof.
  induction m as [|(k' & c') m IH]; cbn; [tauto|].
  destruct (N.eqb_spec k' k); [split; [discriminate|tauto]|].
  rewrite IH. tauto.
Qed.

Lemma In_map_get k m c : NoDup (map fst m) -> In (k, c) m -> map_get k m = Some c.
Proof.
  induction m as [|(k' & c') m IH]; cbn; [tauto|]. intros ND [E|I].
  - inversion E; subst. rewrite N.eqb_refl. auto.
  - inversion ND; subst. destruct (N.eqb_spec k' k); auto.
    subst. exfalso. apply H1. apply in_map_iff. exists (k, c). auto.
Qed.

Lemma In_map_delete k m x : In x (map_delete k m) <-> In x m /\ fst x <> k.
Proof.
  unfold map_delete. rewrite filter_In. destruct x as (k' & c). cbn.
  destruct (N.eqb_spec k' k); cbn; intuition congruence.
Qed.

Lemma keys_delete k m : map fst (map_delete k m) = filter (fun x => negb (x =? k)) (map fst m).
Proof.
  induction m as [|(k' & c') m IH]; cbn; auto. unfold map_delete in IH.
  destruct (N.eqb_spec k' k); cbn; rewrite IH; auto.
Qed.

Lemma NoDup_keys_delete k m : NoDup (map fst m) -> NoDup (map fst (map_delete k m)).
Proof. intros. rewrite keys_delete. apply NoDup_filter; auto. Qed.

Lemma NoDup_keys_set k c m : NoDup (map fst m) -> NoDup (map fst (map_set k c m)).
Proof.
  intros H. unfold map_set. cbn. constructor; [|apply NoDup_keys_delete; auto].
  rewrite keys_delete, filter_In. rewrite N.eqb_refl. cbn. intuition discriminate.
Qed.

Lemma delete_absent k m : ~ In k (map fst m) -> map_delete k m = m.
Proof.
  induction m as [|(k' & c') m IH]; cbn; auto. intros H.
  destruct (N.eqb_spec k' k); cbn; [tauto|]. f_equal. apply IH. tauto.
Qed.

Lemma delete_length k m :
  NoDup (map fst m) -> In k (map fst m) -> S (length (map_delete k m)) = length m.
Proof.
  induction m as [|(k' & c') m IH]; cbn; [tauto|]. intros ND I. inversion ND; subst.
  destruct (N.eqb_spec k' k); cbn.
  - subst. f_equal. fold (map_delete k m). rewrite delete_absent by auto. auto.
  - f_equal. apply IH; auto. destruct I; [congruence|auto].
Qed.

Lemma oldest_fold l acc :
  let f := (fun evict (e : N * cobj) => let '(_, cache) := e in
    match evict with
    | None => Some cache
    | Some ev => if (co_used cache <? co_used ev)%Z then Some cache else evict
    end) in
  match fold_left f l acc with
  | None => acc = None /\ l = []
  | Some ev =>
      ((exists a, acc = Some a /\ ev = a) \/ exists k, In (k, ev) l) /\
      (forall a, acc = Some a -> (co_used ev <= co_used a)%Z) /\
      (forall k c, In (k, c) l -> (co_used ev <= co_used c)%Z)
  end.
Proof.
  intros f. revert acc; induction l as [|(k & c) l IH]; intros acc; cbn [fold_left].
  - destruct acc; auto. split; [left; eauto|]. split; [intros a E; inversion E; lia|cbn; tauto].
  - specialize (IH (f acc (k, c))). destruct (fold_left f l (f acc (k, c))) as [ev|].
    + destruct IH as (I & L1 & L2). cbn [f] in *. unfold f in *. destruct acc as [a|].
      * destruct (Z.ltb_spec (co_used c) (co_used a)).
        -- split; [|split].
           ++ right. destruct I as [(x & E & ->)|(k' & I)]; [inversion E; subst; exists k; left; auto|].
              exists k'. right; auto.
           ++ intros x E. inversion E; subst. specialize (L1 _ eq_refl). lia.
           ++ intros k' c' [E|I']; [inversion E; subst; apply L1; auto|eauto].
        -- split; [|split].
           ++ destruct I as [(x & E & ->)|(k' & I)]; [left; eauto|right; exists k'; right; auto].
           ++ intros x E. apply L1. auto.
           ++ intros k' c' [E|I']; [inversion E; subst; specialize (L1 _ eq_refl); lia|eauto].
      * split; [|split].
        -- right. destruct I as [(x & E & ->)|(k' & I)]; [inversion E; subst; exists k; left; auto|].
           exists k'. right; auto.
        -- intros x E. discriminate.
        -- intros k' c' [E|I']; [inversion E; subst; apply L1; auto|eauto].
    + destruct IH as [E _]. unfold f in E. destruct acc as [a|]; [destruct (co_used c <? co_used a)%Z|]; discriminate.
Qed.

Lemma oldest_spec l :
  match oldest l with
  | None => l = []
  | Some ev => (exists k, In (k, ev) l) /\ forall k c, In (k, c) l -> (co_used ev <= co_used c)%Z
  end.
Proof.
  pose proof (oldest_fold l None) as H. unfold oldest. cbn zeta in H.
  destruct (fold_left _ l None).
  - destruct H as (I & _ & L). split; auto. destruct I as [(a & E & _)|I]; [discriminate|auto].
  - tauto.
Qed.

(** ** Well-formed registries *)

Record wf (count : Z) (r : registry) : Prop := mkWf {
  wf_nodup : NoDup (map fst (rg_caches r));
  wf_key : forall k c, In (k, c) (rg_caches r) -> co_epoch c = k;
  wf_len : (Z.of_N (lenN (rg_caches r)) <= count)%Z;
  wf_ids : forall k c, In (k, c) (rg_caches r) -> co_id c < rg_next r;
  wf_idinj : forall k c k' c', In (k, c) (rg_caches r) -> In (k', c') (rg_caches r) ->
     co_id c = co_id c' -> k = k';
  wf_future : forall f, rg_future r = Some f -> co_id f < rg_next r /\
     forall k c, In (k, c) (rg_caches r) -> co_id c <> co_id f /\ k < co_epoch f;
  wf_none : rg_future r = None -> rg_caches r = []
}.

Lemma wf_empty count : (0 <= count)%Z -> wf count empty_registry.
Proof. intros. constructor; cbn; try tauto; try discriminate; auto. constructor. Qed.

(** What one request does. *)
Definition kept (d : config) (r : registry) (m : list (N * cobj)) : Prop :=
  if (cf_caches_count d <=? Z.of_N (lenN (rg_caches r)))%Z
  then exists k ev, In (k, ev) (rg_caches r) /\
       (forall k' c', In (k', c') (rg_caches r) -> (co_used ev <= co_used c')%Z) /\
       m = map_delete k (rg_caches r)
  else m = rg_caches r.

Lemma get_locked_spec d order now e r :
  (1 <= cf_caches_count d)%Z -> (forall m, Permutation m (order m)) ->
  e < 2 ^ 64 - 1 ->
  wf (cf_caches_count d) r ->
  exists r' c sp, get_locked d order now e r = Done (r', c, sp) /\
    wf (cf_caches_count d) r' /\ co_epoch c = e /\ co_used c = now /\
    rg_next r <= rg_next r' /\
    match map_get e (rg_caches r) with
    | Some c0 =>
        co_id c = co_id c0 /\ sp = None /\ rg_caches r' = map_set e c (rg_caches r) /\
        rg_future r' = rg_future r /\ rg_next r' = rg_next r
    | None =>
        (exists m, kept d r m /\ rg_caches r' = map_set e c m) /\
        (co_id c = rg_next r \/ exists f, rg_future r = Some f /\ co_epoch f = e /\ co_id c = co_id f) /\
        match sp with
        | Some f => rg_future r' = Some f /\ co_epoch f = e + 1 /\ rg_next r <= co_id f
        | None => rg_future r' = rg_future r /\ exists f, rg_future r = Some f /\ e < co_epoch f
        end
    end.
Proof.
  intros Hc Ho He W. destruct W as [ND KEY LEN IDS INJ FUT NONE]. unfold get_locked.
  destruct (map_get e (rg_caches r)) as [c0|] eqn:G.
  - assert (I0 := map_get_In _ _ _ G).
    assert (K0 := KEY _ _ I0).
    do 3 eexists. split; [reflexivity|]. split; [|cbn; repeat split; auto; lia].
    constructor; cbn [rg_caches rg_future rg_next].
    + apply NoDup_keys_set; auto.
    + unfold map_set. intros k c [E|I]; [inversion E; subst; cbn; auto|].
      apply In_map_delete in I. apply KEY. tauto.
    + unfold lenN, map_set in *. cbn [length].
      rewrite delete_length; auto. apply in_map_iff. exists (e, c0). auto.
    + unfold map_set. intros k c [E|I]; [inversion E; subst; cbn; eauto|].
      apply In_map_delete in I. eapply IDS. apply I.
    + unfold map_set. intros k c k' c' [E|I] [E'|I'] EI.
      * inversion E; inversion E'; subst; auto.
      * inversion E; subst. apply In_map_delete in I'. cbn [co_id] in EI. eapply INJ; eauto. apply I'.
      * inversion E'; subst. apply In_map_delete in I. cbn [co_id] in EI. eapply INJ; eauto. apply I.
      * apply In_map_delete in I. apply In_map_delete in I'. eapply INJ; eauto; tauto.
    + intros f F. destruct (FUT f F) as [FI FA]. split; auto.
      unfold map_set. intros k c [E|I]; [inversion E; subst; cbn; eapply FA; eauto|].
      apply In_map_delete in I. apply FA. tauto.
    + intros F. rewrite (NONE F) in I0. destruct I0.
  - set (b := (cf_caches_count d <=? Z.of_N (lenN (rg_caches r)))%Z) in *.
    assert (K : exists m, kept d r m /\ (forall x, In x m -> In x (rg_caches r)) /\
       NoDup (map fst m) /\ (Z.of_N (lenN m) < cf_caches_count d)%Z /\
       (if b
        then match oldest (order (rg_caches r)) with
             | None => Panic
             | Some evict => Done (map_delete (co_epoch evict) (rg_caches r))
             end
        else Done (rg_caches r)) = Done m).
    { unfold kept. fold b. destruct b eqn:B; unfold b in B.
      - pose proof (oldest_spec (order (rg_caches r))) as O.
        destruct (oldest (order (rg_caches r))) as [ev|].
        + destruct O as ((k & I) & L).
          apply (Permutation_in _ (Permutation_sym (Ho (rg_caches r)))) in I.
          assert (EK := KEY _ _ I).
          exists (map_delete k (rg_caches r)). split; [|split; [|split; [|split]]].
          * exists k, ev. split; auto. split; auto. intros k' c' I'. apply (L k').
            apply (Permutation_in _ (Ho (rg_caches r))). auto.
          * intros x I'. apply In_map_delete in I'. tauto.
          * apply NoDup_keys_delete; auto.
          * assert (DL := delete_length k (rg_caches r) ND ltac:(apply in_map_iff; exists (k, ev); auto)).
            unfold lenN in *. lia.
          * rewrite EK. auto.
        + exfalso. assert (P := Ho (rg_caches r)). rewrite O in P.
          apply Permutation_sym, Permutation_nil in P. rewrite P in B. change (lenN (@nil (N * cobj))) with 0 in B. lia.
      - exists (rg_caches r). repeat split; auto. lia. }
    destruct K as (m & Km & Sub & NDm & Lm & ->). cbn [bind].
    assert (Gm : ~ In e (map fst m)).
    { rewrite map_get_None in G. intros I. apply G. apply in_map_iff in I.
      destruct I as (x & <- & I). apply in_map; auto. }
    assert (AE : addw 64 e 1 = e + 1) by (apply trunc_small; lia).
    rewrite AE. unfold map_set. rewrite (delete_absent e m Gm).
    set (r0 := rg_next r) in *.
    assert (WF : forall c fut nx sp,
      co_epoch c = e -> co_used c = now -> r0 <= nx -> co_id c < nx ->
      (forall k c', In (k, c') (rg_caches r) -> co_id c' <> co_id c) ->
      (match sp with
        | Some f => fut = Some f /\ co_epoch f = e + 1 /\ r0 <= co_id f /\ co_id f <> co_id c /\ co_id f < nx /\
            forall k c', In (k, c') (rg_caches r) -> k <= e
        | None => fut = rg_future r /\ exists f, rg_future r = Some f /\ e < co_epoch f /\ co_id f <> co_id c
        end) ->
      (co_id c = r0 \/ exists f, rg_future r = Some f /\ co_epoch f = e /\ co_id c = co_id f) ->
      exists r' c' sp', Done (mkReg ((e, c) :: m) fut nx, c, sp) = Done (r', c', sp') /\
        wf (cf_caches_count d) r' /\ co_epoch c' = e /\ co_used c' = now /\ r0 <= rg_next r' /\
        (exists m, kept d r m /\ rg_caches r' = (e, c') :: map_delete e m) /\
        (co_id c' = r0 \/ exists f, rg_future r = Some f /\ co_epoch f = e /\ co_id c' = co_id f) /\
        match sp' with
        | Some f => rg_future r' = Some f /\ co_epoch f = e + 1 /\ r0 <= co_id f
        | None => rg_future r' = rg_future r /\ exists f, rg_future r = Some f /\ e < co_epoch f
        end).
    { intros c fut nx sp Ec Eu Hnx Hid Hne Hsp Hor. do 3 eexists. split; [reflexivity|].
      split; [|split; [auto|split; [auto|split; [auto|split; [|split; [auto|]]]]]].
      - constructor; cbn [rg_caches rg_future rg_next].
        + cbn. constructor; auto.
        + intros k c' [E|I]; [inversion E; subst; auto|auto].
        + rewrite lenN_cons. lia.
        + intros k c' [E|I]; [inversion E; subst; auto|]. apply Sub, IDS in I. lia.
        + intros k c1 k' c2 [E|I] [E'|I'] EI.
          * inversion E; inversion E'; subst; auto.
          * inversion E; subst. apply Sub, Hne in I'. congruence.
          * inversion E'; subst. apply Sub, Hne in I. congruence.
          * apply Sub in I. apply Sub in I'. eapply INJ; eauto.
        + intros f Ef. subst fut. destruct sp as [f'|].
          * destruct Hsp as (F & E1 & E2 & E3 & E4 & E5). inversion F; subst f'. split; auto.
            intros k c' [E|I]; [inversion E; subst; split; [auto|lia]|].
            apply Sub in I. assert (H1 := IDS _ _ I). assert (H2 := E5 _ _ I). split; lia.
          * destruct Hsp as (F & f' & E1 & E2 & E3). assert (f' = f) by congruence. subst f'.
            destruct (FUT f E1) as [H1 H2]. split; [lia|].
            intros k c' [E|I]; [inversion E; subst; split; auto|]. apply Sub in I. eauto.
        + intros F. destruct sp as [f|]; [destruct Hsp; congruence|].
          destruct Hsp as (E & f & E1 & _). congruence.
      - exists m. split; auto. cbn. rewrite delete_absent; auto.
      - destruct sp as [f|]; cbn [rg_future].
        + destruct Hsp as (F & E1 & E2 & _). repeat split; auto.
        + destruct Hsp as (F & f & E1 & E2 & _). split; auto. exists f. auto. }
    destruct (rg_future r) as [f|] eqn:EF.
    + destruct (FUT f eq_refl) as [FI FA].
      destruct (N.eqb_spec (co_epoch f) e) as [Efe|Nfe].
      * apply WF; cbn; auto; try lia.
        -- intros k c' I. apply FA in I. tauto.
        -- repeat split; auto; try lia. intros k c' I. apply FA in I. lia.
        -- right. exists f. auto.
      * destruct (N.leb_spec (co_epoch f) e).
        -- apply WF; cbn; auto; try lia.
           ++ intros k c' I. apply IDS in I. lia.
           ++ repeat split; auto; try lia. intros k c' I. apply FA in I. lia.
        -- apply WF; cbn; auto; try lia.
           ++ intros k c' I. apply IDS in I. lia.
           ++ split; auto. exists f. repeat split; auto. lia.
    + apply WF; cbn; auto; try lia.
      * intros k c' I. apply IDS in I. lia.
      * repeat split; auto; try lia.
        rewrite (NONE eq_refl). cbn. tauto.
Qed.

(** ** The LRU invariant *)

Definition ne (e : N) : N -> bool := fun x => negb (x =? e).

Lemma Permutation_filter {A} (f : A -> bool) l m : Permutation l m -> Permutation (filter f l) (filter f m).
Proof.
  induction 1; cbn; auto.
  - destruct (f x); auto.
  - destruct (f x), (f y); auto using perm_swap.
  - eapply Permutation_trans; eauto.
Qed.

Lemma filter_ne_absent e l : ~ In e l -> filter (ne e) l = l.
Proof.
  induction l as [|x l IH]; cbn; auto. intros H. unfold ne at 1.
  destruct (N.eqb_spec x e); cbn; [tauto|]. f_equal. apply IH. tauto.
Qed.

Lemma firstn_filter_absent k e l : ~ In e (firstn k l) -> firstn k (filter (ne e) l) = firstn k l.
Proof.
  revert k; induction l as [|x l IH]; intros [|k] H; cbn; auto.
  cbn in H. unfold ne at 1. destruct (N.eqb_spec x e); cbn; [tauto|]. f_equal. apply IH. tauto.
Qed.

Lemma filter_firstn_present k e l :
  NoDup l -> In e (firstn (S k) l) -> filter (ne e) (firstn (S k) l) = firstn k (filter (ne e) l).
Proof.
  revert k; induction l as [|x l IH]; intros k ND I; [destruct I|].
  inversion ND; subst. rewrite firstn_cons in *. cbn [filter].
  assert (EN : ne e x = negb (x =? e)) by reflexivity. rewrite EN.
  destruct (N.eqb_spec x e) as [->|NE]; cbn [negb].
  - rewrite filter_ne_absent.
    + rewrite filter_ne_absent by auto. auto.
    + intros I'. apply H1. rewrite <- (firstn_skipn k l). apply in_or_app. auto.
  - destruct I as [E|I]; [congruence|]. destruct k; [destruct I|].
    rewrite (firstn_cons k). f_equal. apply IH; auto.
Qed.

Lemma recent_NoDup h : NoDup (recent h).
Proof.
  induction h as [|e h IH]; cbn; constructor.
  - rewrite filter_In, N.eqb_refl. cbn. intuition discriminate.
  - apply NoDup_filter; auto.
Qed.

Lemma recent_In h x : In x (recent h) <-> In x h.
Proof.
  induction h as [|e h IH]; cbn; [tauto|]. rewrite filter_In, IH.
  destruct (N.eqb_spec x e); cbn; intuition congruence.
Qed.

Inductive decreasing : list (N * cobj) -> Prop :=
| dec_nil : decreasing []
| dec_cons k c l : (forall k' c', In (k', c') l -> (co_used c' < co_used c)%Z) -> decreasing l ->
    decreasing ((k, c) :: l).

Lemma decreasing_delete k l : decreasing l -> decreasing (map_delete k l).
Proof.
  induction 1 as [|k1 c l H D IH]; [constructor|].
  cbn. destruct (negb (k1 =? k)); auto. constructor; auto.
  intros k' c' I. change (filter (fun '(k', _) => negb (k' =? k)) l) with (map_delete k l) in I.
  apply In_map_delete in I. eapply H. apply I.
Qed.

Lemma decreasing_last l k ev :
  decreasing l -> In (k, ev) l ->
  (forall k' c', In (k', c') l -> (co_used ev <= co_used c')%Z) ->
  exists l0, l = l0 ++ [(k, ev)].
Proof.
  induction 1 as [|k1 c l H D IH]; [intros []|].
  intros [E|I] M.
  - inversion E; subst. destruct l as [|(k2 & c2) l].
    + exists []. auto.
    + exfalso. specialize (H k2 c2 (or_introl eq_refl)). specialize (M k2 c2 (or_intror (or_introl eq_refl))). lia.
  - destruct IH as (l0 & ->); auto.
    + intros k' c' I'. apply (M k'). right; auto.
    + exists ((k1, c) :: l0). auto.
Qed.

Record lru_inv (count : nat) (h : list N) (t : Z) (r : registry) : Prop := mkLru {
  lru_wf : wf (Z.of_nat count) r;
  lru_list : exists L, Permutation L (rg_caches r) /\ map fst L = firstn count (recent h) /\
     decreasing L /\ forall k c, In (k, c) L -> (co_used c <= t)%Z;
  lru_future : h <> [] -> exists f, rg_future r = Some f /\ forall x, In x h -> x < co_epoch f
}.

Lemma lru_inv_empty count t : lru_inv count [] t empty_registry.
Proof.
  constructor.
  - apply wf_empty. lia.
  - exists []. cbn. destruct count; repeat split; auto; try constructor; intros ? ? [].
  - congruence.
Qed.

Lemma keys_perm (L m : list (N * cobj)) : Permutation L m -> Permutation (map fst L) (map fst m).
Proof. apply Permutation_map. Qed.

Lemma lru_step d count h t r order now e :
  cf_caches_count d = Z.of_nat count -> (1 <= count)%nat ->
  (forall m, Permutation m (order m)) -> e < 2 ^ 64 - 1 -> (t < now)%Z ->
  lru_inv count h t r ->
  exists r' c sp, get_locked d order now e r = Done (r', c, sp) /\
    lru_inv count (e :: h) now r' /\ co_epoch c = e /\ map_get e (rg_caches r') = Some c /\
    (forall k, In k (firstn count (recent (e :: h))) -> k <> e ->
       exists c', map_get k (rg_caches r) = Some c' /\ map_get k (rg_caches r') = Some c') /\
    (In e (firstn count (recent h)) -> sp = None /\
       exists c0, map_get e (rg_caches r) = Some c0 /\ co_id c = co_id c0).
Proof.
  intros Ed Hc Ho He Ht [W (L & P & EL & D & U) F].
  destruct (get_locked_spec d order now e r) as (r' & c & sp & E & W' & Ec & Eu & Hn & S); auto.
  { lia. } { rewrite Ed; auto. }
  exists r', c, sp. split; auto. rewrite Ed in W'.
  assert (KP := keys_perm _ _ P).
  assert (NDL : NoDup (map fst L)) by (eapply Permutation_NoDup; [symmetry; exact KP|apply W]).
  assert (FUT : exists f, rg_future r' = Some f /\ forall x, In x (e :: h) -> x < co_epoch f).
  { destruct (map_get e (rg_caches r)) as [c0|] eqn:G.
    - destruct S as (_ & _ & _ & Ef & _).
      assert (IH : In e h).
      { apply recent_In. apply map_get_In in G.
        assert (I : In e (map fst L)).
        { eapply Permutation_in; [symmetry; exact KP|]. apply in_map_iff. exists (e, c0). auto. }
        rewrite EL in I. rewrite <- (firstn_skipn count). apply in_or_app. auto. }
      destruct F as (f & Ff & A). { intros ->. destruct IH. }
      exists f. split; [congruence|]. intros x [<-|I]; auto.
    - destruct S as (_ & _ & S). destruct sp as [f|].
      + destruct S as (Ef & E1 & E2). exists f. split; auto. intros x [<-|I]; [lia|].
        destruct F as (f0 & Ff & A). { intros ->. destruct I. }
        destruct (N.le_gt_cases x e); [lia|]. exfalso.
        clear - Ff A I H E E1 E2 W Ec.
        unfold get_locked in E. destruct (map_get e (rg_caches r)); [inversion E|].
        apply bind_Done in E. destruct E as (m & _ & E). rewrite Ff in E.
        specialize (A x I).
        destruct (N.eqb_spec (co_epoch f0) e); [lia|].
        destruct (N.leb_spec (co_epoch f0) e); [lia|]. inversion E.
      + destruct S as (Ef & f & E1 & E2). exists f. split; [congruence|].
        intros x [<-|I]; auto. destruct F as (f0 & Ff & A). { intros ->. destruct I. }
        assert (f0 = f) by congruence. subst. auto. }
  assert (LI : (length L = length (firstn count (recent h)))%nat) by (rewrite <- EL, map_length; auto).
  assert (LR : (length (rg_caches r) = length L)%nat) by (apply Permutation_length; symmetry; auto).
  assert (MAIN : exists L', Permutation L' (rg_caches r') /\
      map fst L' = firstn count (recent (e :: h)) /\ decreasing L' /\
      (forall k c', In (k, c') L' -> (co_used c' <= now)%Z) /\
      exists T, L' = (e, c) :: T /\ forall x, In x T -> In x L).
  { cbn [recent]. change (filter (fun x => negb (x =? e)) (recent h)) with (filter (ne e) (recent h)).
    destruct count as [|k]; [lia|]. rewrite firstn_cons.
    destruct (map_get e (rg_caches r)) as [c0|] eqn:G.
    - destruct S as (_ & _ & Em & _). exists ((e, c) :: map_delete e L).
      assert (IE : In e (firstn (S k) (recent h))).
      { rewrite <- EL. eapply Permutation_in; [symmetry; exact KP|].
        apply in_map_iff. exists (e, c0). split; auto. apply map_get_In; auto. }
      split; [|split; [|split; [|split]]].
      + rewrite Em. apply perm_skip. apply Permutation_filter; auto.
      + cbn [map fst]. f_equal. rewrite keys_delete, EL.
        apply filter_firstn_present; auto. apply recent_NoDup.
      + constructor; [|apply decreasing_delete; auto].
        intros k' c' I. apply In_map_delete in I. destruct I as [I _]. apply U in I. lia.
      + intros k' c' [I|I]; [inversion I; subst; lia|]. apply In_map_delete in I.
        destruct I as [I _]. apply U in I. lia.
      + exists (map_delete e L). split; auto. intros x I. apply In_map_delete in I. tauto.
    - destruct S as ((m & Km & Em) & _ & _). rewrite map_get_None in G.
      assert (NI : ~ In e (firstn (S k) (recent h))).
      { rewrite <- EL. intros I. apply G. eapply Permutation_in; [exact KP|auto]. }
      unfold kept in Km. rewrite Ed in Km. unfold lenN in Km.
      destruct (Z.leb_spec (Z.of_nat (S k)) (Z.of_N (N.of_nat (length (rg_caches r))))) as [FULL|NF].
      + destruct Km as (k0 & ev & I & M & ->).
        destruct (decreasing_last L k0 ev) as (L0 & ->); auto.
        { eapply Permutation_in; [symmetry; exact P|auto]. }
        { intros k' c' I'. apply (M k'). eapply Permutation_in; [exact P|auto]. }
        rewrite map_app in NDL, EL. cbn [map fst] in NDL, EL.
        assert (NK : ~ In k0 (map fst L0)).
        { intros I'. apply (NoDup_app_remove_l (map fst L0)) in NDL || auto.
          clear - NDL I'. revert NDL. rewrite <- (app_nil_r [k0]). intros ND.
          apply NoDup_remove_2 in ND. apply ND. rewrite app_nil_r. auto. }
        assert (DL : map_delete k0 (L0 ++ [(k0, ev)]) = L0).
        { unfold map_delete. rewrite filter_app. cbn. rewrite N.eqb_refl. cbn. rewrite app_nil_r.
          apply delete_absent; auto. }
        assert (PD : Permutation L0 (map_delete k0 (rg_caches r))).
        { rewrite <- DL. apply Permutation_filter; auto. }
        exists ((e, c) :: L0). split; [|split; [|split; [|split]]].
        * rewrite Em. unfold map_set. rewrite delete_absent; auto.
          rewrite keys_delete, filter_In. tauto.
        * cbn [map fst]. f_equal.
          rewrite firstn_filter_absent.
          2:{ intros I'. apply NI. rewrite <- (firstn_firstn _ k (S k)) || idtac.
              replace (firstn k (recent h)) with (firstn k (firstn (S k) (recent h))) in I'
                by (rewrite firstn_firstn; f_equal; lia).
              rewrite <- (firstn_skipn k (firstn (S k) (recent h))). apply in_or_app. auto. }
          assert (E3 : firstn k (map fst L0 ++ [k0]) = firstn k (firstn (S k) (recent h))) by congruence.
          rewrite firstn_firstn in E3. replace (Nat.min k (S k)) with k in E3 by lia.
          rewrite <- E3. rewrite app_length in LI, LR. cbn [length] in LI, LR.
          assert (length (firstn (S k) (recent h)) <= S k)%nat by apply firstn_le_length.
          rewrite firstn_app, map_length.
          replace (k - length L0)%nat with 0%nat by lia. rewrite firstn_O, app_nil_r.
          rewrite firstn_all2; auto. rewrite map_length. lia.
        * constructor.
          -- intros k' c' I'. assert (co_used c' <= t)%Z; [|lia]. apply (U k'). apply in_or_app; auto.
          -- clear - D. induction L0 as [|(a & b) L0 IH]; [constructor|].
             cbn in D. inversion D; subst. constructor; auto.
             intros k' c' I. apply (H1 k'). apply in_or_app; auto.
        * intros k' c' [I'|I']; [inversion I'; subst; lia|].
          assert (co_used c' <= t)%Z; [|lia]. apply (U k'). apply in_or_app; auto.
        * exists L0. split; auto. intros x Hx. apply in_or_app; auto.
      + subst m. exists ((e, c) :: L).
        assert (LS : (length (firstn (S k) (recent h)) < S k)%nat) by lia.
        rewrite firstn_length in LS.
        split; [|split; [|split; [|split]]].
        * rewrite Em. unfold map_set. rewrite delete_absent; auto.
        * cbn [map fst]. f_equal. rewrite EL.
          rewrite (firstn_all2 (recent h)) by lia.
          rewrite firstn_all2 in NI by lia. rewrite filter_ne_absent by auto.
          rewrite firstn_all2 by lia. auto.
        * constructor; auto. intros k' c' I'. apply U in I'. lia.
        * intros k' c' [I'|I']; [inversion I'; subst; lia|]. apply U in I'. lia.
        * exists L. auto. }
  destruct MAIN as (L' & P' & EL' & D' & U' & T & ET & SUB).
  assert (GE : map_get e (rg_caches r') = Some c).
  { apply In_map_get; [apply W'|]. eapply Permutation_in; [exact P'|]. rewrite ET. left; auto. }
  split; [|split; [auto|split; [auto|split]]].
  - constructor; auto. exists L'. auto.
  - intros k Ik Nk. rewrite <- EL', ET in Ik. cbn in Ik. destruct Ik as [E0|Ik]; [congruence|].
    apply in_map_iff in Ik. destruct Ik as ((k1 & c') & E1 & Ik). cbn in E1. subst k1.
    exists c'. split; apply In_map_get; try apply W; try apply W'.
    + eapply Permutation_in; [exact P|auto].
    + eapply Permutation_in; [exact P'|]. rewrite ET. right; auto.
  - intros IE. destruct (map_get e (rg_caches r)) as [c0|] eqn:G.
    + destruct S as (S1 & S2 & _). split; auto. exists c0. auto.
    + exfalso. rewrite map_get_None in G. apply G. eapply Permutation_in; [exact KP|].
      rewrite EL. auto.
Qed.

(** ** Runs *)

Lemma run_lru d count l : cf_caches_count d = Z.of_nat count -> (1 <= count)%nat ->
  forall h t r acc,
  requests_ok t l -> lru_inv count h t r ->
  (forall k c, map_get k (rg_caches r) = Some c -> exists a, acc k = Some a /\ co_id a = co_id c) ->
  exists r' objs t', run_requests d l r = Done (r', objs) /\
    length objs = length l /\ map co_epoch objs = map rq_epoch l /\
    lru_inv count (rev (map rq_epoch l) ++ h) t' r' /\
    (forall q l', l = l' ++ [q] -> t' = rq_now q) /\ (l = [] -> t' = t) /\
    (forall k c, map_get k (rg_caches r') = Some c ->
       exists a, last_object k (map rq_epoch l) objs (acc k) = Some a /\ co_id a = co_id c).
Proof.
  intros Ed Hc. induction l as [|q l IH]; intros h t r acc R I A; cbn [run_requests].
  - exists r, [], t. cbn. split; auto. split; auto. split; auto. split; auto. split; auto.
    intros q l' E. destruct l'; discriminate.
  - cbn in R. destruct R as (R1 & R2 & R3 & R4).
    destruct (lru_step d count h t r (rq_order q) (rq_now q) (rq_epoch q) Ed Hc R2 R3 R1 I)
      as (r1 & c & sp & E & I1 & Ec & G & KEEP & HIT).
    rewrite E. cbn [bind].
    destruct (IH (rq_epoch q :: h) (rq_now q) r1
       (fun k => if rq_epoch q =? k then Some c else acc k) R4 I1) as (r2 & objs & t' & E2 & L2 & M2 & I2 & T1 & T2 & A2).
    + intros k c' G'. destruct (N.eqb_spec (rq_epoch q) k) as [<-|NE].
      * exists c. split; auto. congruence.
      * destruct (KEEP k) as (c'' & G1 & G2); auto.
        { destruct I1 as [W1 (L & P & EL & _) _]. rewrite <- EL.
          eapply Permutation_in; [symmetry; apply keys_perm; exact P|].
          apply in_map_iff. exists (k, c'). split; auto. apply map_get_In; auto. }
        assert (c'' = c') by congruence. subst. apply A in G1. auto.
    + rewrite E2. cbn [bind]. exists r2, (c :: objs), t'. split; auto.
      split; [cbn; lia|]. split; [cbn; congruence|].
      split; [cbn; rewrite <- app_assoc; exact I2|]. split; [|split].
      * intros q' l' El. destruct l as [|q1 l].
        -- destruct l' as [|x l']; [inversion El; subst; auto|]. destruct l'; discriminate.
        -- destruct l' as [|x l']; [discriminate|]. inversion El; subst. eapply T1; eauto.
      * discriminate.
      * intros k c' G'. apply A2 in G'. destruct G' as (a & L & Ea). exists a. split; auto.
Qed.
