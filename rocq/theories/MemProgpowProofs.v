(** Proofs about MemProgpow.v: the programs do what the models on lists do. *)
From Coq Require Import NArith ZArith Arith List Bool Lia ZifyBool ZifyN ZifyNat.
From Verif Require KeccakProofs.
From Verif Require Import Base BaseFacts CryptoModel KeccakModel DagModel ProgpowModel MemModel MemProofs MemDag MemDagProofs MemProgpow.
Import ListNotations.
Open Scope N_scope.
Ltac Zify.zify_post_hook ::= Z.div_mod_to_equations.

(** *** Discipline *)

Lemma safe_ToBytes me arr o : readable me arr -> safe me (p_Uint32ArrayToBytes arr o) (writable me).
Proof. intros R. unfold p_Uint32ArrayToBytes. safe_go. Qed.
Lemma safe_ToWords me buf o : readable me buf -> safe me (p_BytesToUint32Array buf o) (writable me).
Proof. intros R. unfold p_BytesToUint32Array. safe_go. Qed.
Lemma safe_KeccakF800 me s : writable me s -> safe me (p_KeccakF800 s) (fun _ => True).
Proof. intros W. unfold p_KeccakF800. safe_go. Qed.
Lemma safe_swap me s i j : writable me s -> safe me (p_swap s i j) (fun _ => True).
Proof. intros W. unfold p_swap. safe_go. Qed.
#[global] Hint Resolve safe_ToBytes safe_ToWords safe_KeccakF800 safe_swap : safe.

Definition private (me : N) (s : pstate) : Prop := writable me (ps_src s) /\ writable me (ps_dst s).
Lemma safe_initMixRngState me seed sz : safe me (p_initMixRngState seed sz) (private me).
Proof.
  unfold p_initMixRngState. cbv zeta. eapply safe_bind; [safe_go|]. intros src W1. eapply safe_bind; [safe_go|]. intros dst W2.
  eapply safe_bind; [safe_go|]. intros _ _. eapply safe_bind.
  { apply (safe_for_n _ _ _ _ (fun _ => True)); [exact I|]. intros q r _. destruct (next r) as (v, r').
    eapply safe_bind; [safe_go|]. intros di _. eapply safe_bind; [safe_go|]. intros _ _. destruct (next r') as (v', r'').
    eapply safe_bind; [safe_go|]. intros si _. eapply safe_bind; [safe_go|]. intros _ _. exact I. }
  intros r _. split; [exact W1|exact W2].
Qed.
Lemma safe_nextSrc me s : private me s -> safe me (p_nextSrc s) (fun x => private me (snd x)).
Proof. intros (W1 & W2). unfold p_nextSrc. eapply safe_bind; [safe_go|]. intros i _. eapply safe_bind; [safe_go|]. intros v _. split; auto. Qed.
Lemma safe_nextDst me s : private me s -> safe me (p_nextDst s) (fun x => private me (snd x)).
Proof. intros (W1 & W2). unfold p_nextDst. eapply safe_bind; [safe_go|]. intros i _. eapply safe_bind; [safe_go|]. intros v _. split; auto. Qed.
Lemma private_nextRng me s : private me s -> private me (snd (p_nextRng s)).
Proof. intros (W1 & W2). unfold p_nextRng. destruct (next (ps_rng s)). split; auto. Qed.

Definition own_rows (me : N) (mix : list sl) : Prop := Forall (writable me) mix.
Lemma safe_row me mix l (Q : sl -> Prop) : (forall s, In s mix -> Q s) -> safe me (pure (idx mix l)) Q.
Proof.
  intros F. unfold idx. destruct (nth_error mix (N.to_nat l)) eqn:E; cbn [pure safe]; [|exact I]. apply F. eapply nth_error_In. exact E.
Qed.
Lemma own_in me mix s : own_rows me mix -> In s mix -> writable me s.
Proof. intros F. apply Forall_forall. exact F. Qed.
Lemma safe_own_row me mix l : own_rows me mix -> safe me (pure (idx mix l)) (writable me).
Proof. intros F. apply safe_row. intros s. apply own_in. exact F. Qed.

(** Before they are made the registers are nil. *)
Lemma safe_initMix me seed lanes regs : safe me (p_initMix seed lanes regs) (own_rows me).
Proof.
  unfold p_initMix. cbv zeta. unfold pfor_n at 1.
  apply (safe_weaken me _ (fun mix => own_rows me (firstn (N.to_nat (0 + N.of_nat (N.to_nat lanes))) mix) /\ length mix = N.to_nat lanes)).
  { intros a (O & L). rewrite firstn_all2 in O by lia. exact O. }
  apply (safe_for_ix me (N.to_nat lanes) 0 _ _ (fun i mix => own_rows me (firstn (N.to_nat i) mix) /\ length mix = N.to_nat lanes)).
  { split; [constructor|apply repeat_length]. }
  intros i mix _ Hi (O & L). eapply safe_bind; [safe_go|]. intros row W. eapply safe_bind.
  { apply (safe_for_n _ _ _ _ (fun _ => True)); [exact I|]. intros j r _. destruct (next r). safe_go. }
  intros _ _. unfold upd. destruct (N.ltb_spec i (lenN mix)); [|exact I]. cbn [pure safe].
  split; [|rewrite set_nth_length; exact L].
  apply Forall_forall. intros s IN. apply In_nth_error in IN. destruct IN as (j & IN). rewrite nth_error_firstn_if in IN.
  destruct (Nat.ltb_spec j (N.to_nat (i + 1))); [|discriminate]. rewrite nth_error_set_nth in IN. destruct (Nat.eqb_spec j (N.to_nat i)).
  - destruct (nth_error mix (N.to_nat i)); [|discriminate]. congruence.
  - apply (own_in me (firstn (N.to_nat i) mix) s O). apply nth_error_In with j. rewrite nth_error_firstn_if.
    replace (j <? N.to_nat i)%nat with true by lia. exact IN.
Qed.

Lemma safe_cacheAccess me cfg l1 state mix : readable me l1 -> private me state -> own_rows me mix ->
  safe me (p_cacheAccess cfg l1 state mix) (private me).
Proof.
  intros R P O. unfold p_cacheAccess. eapply safe_bind; [apply safe_nextSrc; exact P|]. intros (src, s1) P1. cbn [snd] in P1.
  eapply safe_bind; [apply safe_nextDst; exact P1|]. intros (dst, s2) P2. cbn [snd] in P2.
  pose proof (private_nextRng me s2 P2) as P3. destruct (p_nextRng s2) as (sel, s3). cbn [snd] in P3.
  eapply safe_bind.
  { apply (safe_for_n _ _ _ _ (fun _ => True)); [exact I|]. intros l [] _. eapply safe_bind; [apply safe_own_row; exact O|]. intros row W. safe_go. }
  intros _ _. exact P3.
Qed.
Lemma safe_mathOperation me cfg state mix : private me state -> own_rows me mix -> safe me (p_mathOperation cfg state mix) (private me).
Proof.
  intros P O. unfold p_mathOperation. pose proof (private_nextRng me state P) as P1. destruct (p_nextRng state) as (v, s1). cbn [snd] in P1.
  eapply safe_bind; [apply safe_pure|]. intros (src1, src2) _. pose proof (private_nextRng me s1 P1) as P2. destruct (p_nextRng s1) as (sel1, s2). cbn [snd] in P2.
  eapply safe_bind; [apply safe_nextDst; exact P2|]. intros (dst, s3) P3. cbn [snd] in P3.
  pose proof (private_nextRng me s3 P3) as P4. destruct (p_nextRng s3) as (sel2, s4). cbn [snd] in P4.
  eapply safe_bind.
  { apply (safe_for_n _ _ _ _ (fun _ => True)); [exact I|]. intros l [] _. eapply safe_bind; [apply safe_own_row; exact O|]. intros row W. safe_go. }
  intros _ _. exact P4.
Qed.
Lemma safe_dagPattern me nw state : private me state -> safe me (p_dagPattern nw state) (fun x => writable me (fst x) /\ writable me (snd x)).
Proof.
  intros P. unfold p_dagPattern. eapply safe_bind; [safe_go|]. intros dsts W1. eapply safe_bind; [safe_go|]. intros sels W2.
  eapply safe_bind.
  { apply (safe_for_n _ _ _ _ (private me)); [exact P|]. intros i s PS. eapply safe_bind.
    { instantiate (1 := private me). destruct (i =? 0).
      - eapply safe_bind; [safe_go|]. intros _ _. exact PS.
      - eapply safe_bind; [apply safe_nextDst; exact PS|]. intros (d, s1) P1. eapply safe_bind; [safe_go|]. intros _ _. exact P1. }
    intros s1 P1. pose proof (private_nextRng me s1 P1) as P2. destruct (p_nextRng s1) as (v, s2). cbn [snd] in P2.
    eapply safe_bind; [safe_go|]. intros _ _. exact P2. }
  intros _ _. split; [exact W1|exact W2].
Qed.
Lemma safe_dagMerge me cfg r nw item dsts sels mix : readable me item -> readable me dsts -> readable me sels -> own_rows me mix ->
  safe me (p_dagMerge cfg r nw item dsts sels mix) (fun _ => True).
Proof.
  intros R1 R2 R3 O. unfold p_dagMerge. apply (safe_for_n _ _ _ _ (fun _ => True)); [exact I|]. intros l [] _.
  eapply safe_bind; [apply safe_pure|]. intros lane _. cbv zeta. apply (safe_for_n _ _ _ _ (fun _ => True)); [exact I|]. intros i [] _.
  eapply safe_bind; [safe_go|]. intros word _. eapply safe_bind; [safe_go|]. intros dst _. eapply safe_bind; [safe_go|]. intros sel _.
  eapply safe_bind; [apply safe_own_row; exact O|]. intros row W. safe_go.
Qed.
Lemma safe_round me cfg seed r mix size lookup l1 : readable me l1 -> own_rows me mix -> (forall i, safe me (lookup i) (writable me)) ->
  safe me (p_round cfg seed r mix size lookup l1) (fun _ => True).
Proof.
  intros R O LK. unfold p_round. cbv zeta. eapply safe_bind; [apply safe_initMixRngState|]. intros st P.
  eapply safe_bind; [apply safe_pure|]. intros lane _. eapply safe_bind; [apply safe_own_row; exact O|]. intros row W.
  eapply safe_bind; [safe_go|]. intros m _. eapply safe_bind; [apply safe_pure|]. intros ix _.
  eapply safe_bind; [apply LK|]. intros item WI. eapply safe_bind; [apply safe_pure|]. intros nw _.
  eapply safe_bind.
  { apply (safe_for_n _ _ _ _ (private me)); [exact P|]. intros i s PS. eapply safe_bind.
    { instantiate (1 := private me). destruct (_ <? _); [apply safe_cacheAccess; assumption|exact PS]. }
    intros s1 P1. destruct (_ <? _); [apply safe_mathOperation; assumption|exact P1]. }
  intros s2 P2. eapply safe_bind; [apply safe_dagPattern; exact P2|]. intros (dsts, sels) (W1 & W2). cbn [fst snd] in *.
  apply safe_dagMerge; [rd|rd|rd|exact O].
Qed.
Lemma safe_Hash me cfg height seed size lookup l1 : readable me l1 -> (forall i, safe me (lookup i) (writable me)) ->
  safe me (p_Hash cfg height seed size lookup l1) (writable me).
Proof.
  intros R LK. unfold p_Hash. eapply safe_bind; [apply safe_initMix|]. intros mix O. eapply safe_bind; [apply safe_pure|]. intros number _.
  eapply safe_bind. { apply (safe_for_n _ _ _ _ (fun _ => True)); [exact I|]. intros i [] _. apply safe_round; assumption. }
  intros _ _. eapply safe_bind; [safe_go|]. intros lh W. eapply safe_bind.
  { apply (safe_for_n _ _ _ _ (fun _ => True)); [exact I|]. intros l [] _. eapply safe_bind; [safe_go|]. intros _ _.
    apply (safe_for_n _ _ _ _ (fun _ => True)); [exact I|]. intros i [] _. eapply safe_bind; [safe_go|]. intros h _.
    eapply safe_bind; [apply safe_own_row; exact O|]. intros row WR. safe_go. }
  intros _ _. safe_go.
Qed.
Lemma safe_absorb_header me hash nonce : readable me hash -> safe me (p_absorb_header hash nonce) (writable me).
Proof. intros R. unfold p_absorb_header. safe_go. Qed.
Lemma safe_seed_head me s : writable me s -> safe me (p_seed_head s) (fun _ => True).
Proof. intros R. unfold p_seed_head. safe_go. Qed.
Lemma safe_absorb_mix me s h : readable me s -> readable me h -> safe me (p_absorb_mix s h) (writable me).
Proof. intros R R'. unfold p_absorb_mix. safe_go. Qed.
Lemma safe_squeeze me s : writable me s -> safe me (p_squeeze_digest s) (writable me).
Proof. intros R. unfold p_squeeze_digest. safe_go. Qed.
#[global] Hint Resolve safe_Hash safe_absorb_header safe_seed_head safe_absorb_mix safe_squeeze : safe.
Lemma safe_kawpow me table hash height nonce size lookup l1 : readable me table -> readable me hash -> readable me l1 ->
  (forall i, safe me (lookup i) (writable me)) ->
  safe me (p_kawpow table hash height nonce size lookup l1) (fun r => writable me (fst r) /\ writable me (snd r)).
Proof.
  intros RT RH RL LK. unfold p_kawpow, p_kawpow_initialize, p_kawpow_finalize.
  eapply safe_bind with (Q := fun x => writable me (fst x)).
  { eapply safe_bind; [safe_go|]. intros seed W. eapply safe_bind; [safe_go|]. intros _ _. eapply safe_bind; [safe_go|]. intros _ _.
    eapply safe_bind; [safe_go|]. intros head _. exact W. }
  intros (seed, head) W. cbn [fst] in W. safe_go.
Qed.
Lemma safe_firopow me hash height nonce size lookup l1 : readable me hash -> readable me l1 ->
  (forall i, safe me (lookup i) (writable me)) ->
  safe me (p_firopow hash height nonce size lookup l1) (fun r => writable me (fst r) /\ writable me (snd r)).
Proof.
  intros RH RL LK. unfold p_firopow, p_firopow_initialize, p_firopow_finalize.
  eapply safe_bind with (Q := fun x => writable me (fst x)).
  { eapply safe_bind; [safe_go|]. intros seed W. eapply safe_bind; [safe_go|]. intros _ _. eapply safe_bind; [safe_go|]. intros _ _.
    eapply safe_bind; [safe_go|]. intros _ _. eapply safe_bind; [safe_go|]. intros head _. exact W. }
  intros (seed, head) W. cbn [fst] in W. safe_go.
Qed.

(** *** Results: the generator of the program *)

Ltac parts := repeat match goal with |- _ /\ _ => split end.
Definition same_state (m : memory) (src dst : sl) (ps : pstate) (s : mixRngState) : Prop :=
  ps_src ps = src /\ ps_dst ps = dst /\ has m src (srcSequence s) /\ has m dst (dstSequence s) /\
  ps_size ps = size s /\ ps_srcCounter ps = srcCounter s /\ ps_dstCounter ps = dstCounter s /\ ps_rng ps = rng s.
Lemma same_state_mem m m' src dst ps s : (forall l, has m src l -> has m' src l) -> (forall l, has m dst l -> has m' dst l) ->
  same_state m src dst ps s -> same_state m' src dst ps s.
Proof. intros A B (E1 & E2 & H1 & H2 & R). unfold same_state. parts; auto; apply R. Qed.

Lemma sim_nextSrc me m n src dst ps s : same_state m src dst ps s ->
  sim me (p_nextSrc ps) m n (nextSrc s) (fun x y m' n' => fst x = fst y /\ same_state m src dst (snd x) (snd y) /\ m' = m /\ n' = n).
Proof.
  intros (E1 & E2 & H1 & H2 & E3 & E4 & E5 & E6). unfold p_nextSrc, nextSrc. rewrite E3, E4, E1, E2, E5, E6.
  apply sim_pure. intros i _. sget. apply sim_ret. cbn [fst snd]. unfold same_state. cbn. parts; auto; congruence.
Qed.
Lemma sim_nextDst me m n src dst ps s : same_state m src dst ps s ->
  sim me (p_nextDst ps) m n (nextDst s) (fun x y m' n' => fst x = fst y /\ same_state m src dst (snd x) (snd y) /\ m' = m /\ n' = n).
Proof.
  intros (E1 & E2 & H1 & H2 & E3 & E4 & E5 & E6). unfold p_nextDst, nextDst. rewrite E3, E4, E1, E2, E5, E6.
  apply sim_pure. intros i _. sget. apply sim_ret. cbn [fst snd]. unfold same_state. cbn. parts; auto; congruence.
Qed.
Lemma nextRng_same m src dst ps s : same_state m src dst ps s ->
  fst (p_nextRng ps) = fst (nextRng s) /\ same_state m src dst (snd (p_nextRng ps)) (snd (nextRng s)).
Proof.
  intros (E1 & E2 & H1 & H2 & E3 & E4 & E5 & E6). unfold p_nextRng, nextRng. rewrite E6. destruct (next (rng s)) as (v, k). cbn [fst snd].
  split; [reflexivity|]. unfold same_state. cbn. parts; auto.
Qed.

Lemma sim_swap me s m n l i j : has m s l -> sim me (p_swap s i j) m n (swap l i j) (wrote m n s l).
Proof.
  intros H. unfold p_swap, swap. sget. sget.
  eapply sim_bind; [apply sim_set; frame|]. intros [] l1 m1 n1 (H1 & L1 & O1 & ->).
  eapply sim_weaken; [apply sim_set; frame|]. intros [] l2 m2 n2 (H2 & L2 & O2 & ->).
  split; [exact H2|]. split; [congruence|]. split; [eapply others_trans; eauto|reflexivity].
Qed.

Lemma sim_initMixRngState me seed sz m n :
  sim me (p_initMixRngState seed sz) m n (initMixRngState seed sz) (fun ps s m' n' =>
    new me n (n + 1) (ps_src ps) /\ new me (n + 1) (n + 2) (ps_dst ps) /\ same_state m' (ps_src ps) (ps_dst ps) ps s /\ kept me n m m' /\ n' = n + 2).
Proof.
  unfold p_initMixRngState, initMixRngState. cbv zeta.
  apply sim_make. intros src m1 E1 N1 H1 K1. apply sim_make. intros dst m2 E2 N2 H2 K2.
  assert (H1' : has m2 src (zeros sz)) by frame.
  replace (n + 1 + 1) with (n + 2) in * by lia.
  assert (OS : forall m' m'', outside me n (n + 2) m' m'' -> kept me n m m' -> kept me n m m'').
  { intros m' m'' O K l OL. rewrite O by lia. apply K. exact OL. }
  assert (K02 : kept me n m m2) by (eapply kept_trans; [|exact K1|exact K2]; lia).
  eapply sim_bind.
  { apply (sim_for_n me sz _ _ tt (zeros sz, zeros sz) m2 (n + 2) (fun _ _ p m' n' =>
      has m' src (fst p) /\ has m' dst (snd p) /\ kept me n m m' /\ n' = n + 2)).
    - cbn [fst snd]. parts; auto.
    - intros j [] (a, b) m3 n3 J (HA & HB & K3 & ->). cbn [fst snd] in *.
      eapply sim_bind; [apply sim_set; frame|]. intros [] b4 m4 n4 (H4 & _ & O4 & ->).
      unfold sim. pose proof (sim_set me src j j m4 (n + 2) a ltac:(frame)) as F. unfold sim in F.
      destruct (run me (set src j j) m4 (n + 2)) as [[[a1| |] ma] na], (upd a j j); cbn [bind]; auto.
      cbn [fst snd]. destruct F as (F1 & _ & F2 & ->). split; [exact F1|]. split; [frame|]. split; [|reflexivity].
      intros l OL. rewrite F2 by apart. rewrite O4 by apart. apply K3. exact OL. }
  intros [] (a, b) m3 n3 (HA & HB & K3 & ->). cbn [fst snd] in *.
  eapply sim_bind.
  { apply (sim_for_n me (sz - 1) _ _ _ (a, b, _) m3 (n + 2) (fun _ r p m' n' =>
      has m' src (fst (fst p)) /\ has m' dst (snd (fst p)) /\ snd p = r /\ kept me n m m' /\ n' = n + 2)).
    - cbn [fst snd]. parts; auto.
    - intros j r ((a', b'), r') m4 n4 J (HA4 & HB4 & ER & K4 & ->). cbn [fst snd] in *. subst r'.
      destruct (next r) as (v, r1). apply sim_pure. intros di _.
      eapply sim_bind; [apply sim_swap; frame|]. intros [] b5 m5 n5 (H5 & _ & O5 & ->).
      destruct (next r1) as (v', r2). apply sim_pure. intros si _.
      eapply sim_bind; [apply sim_swap; frame|]. intros [] b6 m6 n6 (H6 & _ & O6 & ->).
      apply sim_ret. cbn [fst snd]. split; [exact H6|]. split; [frame|]. split; [reflexivity|]. split; [|reflexivity].
      intros l OL. rewrite O6 by apart. rewrite O5 by apart. apply K4. exact OL. }
  intros r ((a', b'), r') m4 n4 (HA4 & HB4 & ER & K4 & ->). cbn [fst snd] in *. subst r'. apply sim_ret. cbn [ps_src ps_dst].
  split; [exact N1|]. split; [exact N2|]. split; [|split; [exact K4|reflexivity]].
  unfold same_state. cbn. parts; auto.
Qed.

(** *** Results: the registers *)

Record rows_at (me a b : N) (m : memory) (rows : list sl) (mix : list (list N)) : Prop := {
  ra_len : length rows = length mix;
  ra_has : forall i s l, nth_error rows i = Some s -> nth_error mix i = Some l -> has m s l;
  ra_own : forall i s, nth_error rows i = Some s -> owner (s_loc s) = me /\ a <= serial (s_loc s) < b;
  ra_apart : forall i j s s', nth_error rows i = Some s -> nth_error rows j = Some s' -> i <> j -> s_loc s <> s_loc s'
}.
Lemma rows_same me a b m m' rows mix : (forall l, owner l = me -> a <= serial l < b -> m' l = m l) -> rows_at me a b m rows mix -> rows_at me a b m' rows mix.
Proof.
  intros E [L H O A]. constructor; auto. intros i s l R X. apply (has_same m); [|eapply H; eauto].
  destruct (O i s R) as (O1 & O2). apply E; auto.
Qed.
Lemma rows_put me a b m m' rows mix i s x : rows_at me a b m rows mix -> nth_error rows i = Some s -> has m' s x -> others m m' s ->
  rows_at me a b m' rows (set_nth mix i x).
Proof.
  intros [L H O A] R HX OT. constructor; auto.
  - rewrite set_nth_length. exact L.
  - intros j s' l R' X. rewrite nth_error_set_nth in X. destruct (Nat.eqb_spec j i) as [->|NE].
    + rewrite R in R'. injection R' as <-. destruct (nth_error mix i); [|discriminate]. injection X as <-. exact HX.
    + apply (has_same m). { apply OT. eapply A; eauto. } eapply H; eauto.
Qed.
Lemma sim_row {C D} me a b m n rows mix l (f : sl -> prog C) (g : list N -> outcome D) Post : rows_at me a b m rows mix ->
  (forall s x, nth_error rows (N.to_nat l) = Some s -> nth_error mix (N.to_nat l) = Some x -> has m s x ->
     owner (s_loc s) = me -> a <= serial (s_loc s) < b -> sim me (f s) m n (g x) Post) ->
  sim me (row <~ pure (idx rows l) ;; f row) m n (row <- idx mix l ;; g row) Post.
Proof.
  intros RA F. unfold idx. destruct (nth_error rows (N.to_nat l)) as [s|] eqn:R, (nth_error mix (N.to_nat l)) as [x|] eqn:X; cbn [pure pbind bind].
  - destruct (ra_own _ _ _ _ _ _ RA _ _ R). apply F; auto. eapply ra_has; eauto.
  - exfalso. apply nth_error_None in X. rewrite <- (ra_len _ _ _ _ _ _ RA) in X. apply nth_error_None in X. congruence.
  - exfalso. apply nth_error_None in R. rewrite (ra_len _ _ _ _ _ _ RA) in R. apply nth_error_None in R. congruence.
  - exact I.
Qed.
Definition rows_changed {T} (me a b : N) (m : memory) (n : N) (rows : list sl) : T -> list (list N) -> memory -> N -> Prop :=
  fun _ mix' m' n' => rows_at me a b m' rows mix' /\ outside me a b m m' /\ n' = n.
Lemma sim_set_row me a b m m0 n rows mix l s x i v : rows_at me a b m rows mix -> outside me a b m0 m ->
  nth_error rows (N.to_nat l) = Some s -> nth_error mix (N.to_nat l) = Some x -> has m s x ->
  sim me (set s i v) m n (row <- upd x i v ;; upd mix l row) (rows_changed me a b m0 n rows).
Proof.
  intros RA OU R X H. pose proof (sim_set me s i v m n x H) as F. unfold sim in *.
  destruct (run me (set s i v) m n) as [[[a1| |] ma] na], (upd x i v) as [x'| |]; cbn [bind]; auto; try contradiction.
  unfold upd. assert (LT : (N.to_nat l < length mix)%nat) by (apply nth_error_Some; congruence).
  replace (l <? lenN mix) with true by (unfold lenN; lia). destruct F as (F1 & _ & F2 & ->).
  split; [eapply rows_put; eauto|]. split; [|reflexivity]. intros l' NE. rewrite F2; [apply OU; exact NE|].
  intros ->. apply NE. exact (ra_own _ _ _ _ _ _ RA _ _ R).
Qed.

Definition clear_of (me a b : N) (s : sl) : Prop := ~ (owner (s_loc s) = me /\ a <= serial (s_loc s) < b).
Lemma has_clear me a b m m' s l : outside me a b m m' -> clear_of me a b s -> has m s l -> has m' s l.
Proof. intros O C. apply has_same. apply O. exact C. Qed.

Lemma sim_cacheAccess me a b cfg l1 l1x src dst ps s m n rows mix :
  rows_at me a b m rows mix -> same_state m src dst ps s -> has m l1 l1x ->
  clear_of me a b src -> clear_of me a b dst -> clear_of me a b l1 ->
  sim me (p_cacheAccess cfg l1 ps rows) m n (cacheAccess cfg l1x s mix) (fun ps' p m' n' =>
    same_state m' src dst ps' (fst p) /\ rows_changed me a b m n rows tt (snd p) m' n').
Proof.
  intros RA SS HL C1 C2 C3. unfold p_cacheAccess, cacheAccess.
  eapply sim_bind; [apply sim_nextSrc; exact SS|]. intros (sr, ps1) (sr', s1) ? ? (E & SS1 & -> & ->). cbn [fst snd] in *. subst sr'.
  eapply sim_bind; [apply sim_nextDst; exact SS1|]. intros (ds, ps2) (ds', s2) ? ? (E & SS2 & -> & ->). cbn [fst snd] in *. subst ds'.
  destruct (nextRng_same _ _ _ _ _ SS2) as (E & SS3). destruct (p_nextRng ps2) as (sel, ps3), (nextRng s2) as (sel', s3). cbn [fst snd] in *. subst sel'.
  eapply sim_bind.
  { apply (sim_for_n me (LaneCount cfg) _ _ tt mix m n (fun _ u => rows_changed me a b m n rows u)).
    - split; [exact RA|]. split; [apply outside_refl|reflexivity].
    - intros j [] t m1 n1 J (RA1 & O1 & ->). assert (HL1 : has m1 l1 l1x) by (eapply has_clear; eauto).
      eapply sim_row; [exact RA1|]. intros r x R X H W SER. sget. apply sim_pure. intros off _. sget. sget.
      eapply sim_set_row; eauto. }
  intros [] mix1 m1 n1 (RA1 & O1 & ->). apply sim_ret. cbn [fst snd]. split; [|split; [exact RA1|split; [exact O1|reflexivity]]].
  eapply same_state_mem; [| |exact SS3]; intros l; eapply has_clear; eauto.
Qed.

Lemma sim_mathOperation me a b cfg src dst ps s m n rows mix :
  rows_at me a b m rows mix -> same_state m src dst ps s -> clear_of me a b src -> clear_of me a b dst ->
  sim me (p_mathOperation cfg ps rows) m n (mathOperation cfg s mix) (fun ps' p m' n' =>
    same_state m' src dst ps' (fst p) /\ rows_changed me a b m n rows tt (snd p) m' n').
Proof.
  intros RA SS C1 C2. unfold p_mathOperation, mathOperation.
  destruct (nextRng_same _ _ _ _ _ SS) as (E & SS1). destruct (p_nextRng ps) as (v, ps1), (nextRng s) as (v', s1). cbn [fst snd] in *. subst v'.
  apply sim_pure. intros (s1', s2') _.
  destruct (nextRng_same _ _ _ _ _ SS1) as (E & SS2). destruct (p_nextRng ps1) as (w, ps2), (nextRng s1) as (w', s2). cbn [fst snd] in *. subst w'.
  eapply sim_bind; [apply sim_nextDst; exact SS2|]. intros (ds, ps3) (ds', s3) ? ? (E & SS3 & -> & ->). cbn [fst snd] in *. subst ds'.
  destruct (nextRng_same _ _ _ _ _ SS3) as (E & SS4). destruct (p_nextRng ps3) as (sel, ps4), (nextRng s3) as (sel', s4). cbn [fst snd] in *. subst sel'.
  eapply sim_bind.
  { apply (sim_for_n me (LaneCount cfg) _ _ tt mix m n (fun _ u => rows_changed me a b m n rows u)).
    - split; [exact RA|]. split; [apply outside_refl|reflexivity].
    - intros j [] t m1 n1 J (RA1 & O1 & ->).
      eapply sim_row; [exact RA1|]. intros r x R X H W SER. sget. sget. cbv zeta. sget.
      eapply sim_set_row; eauto. }
  intros [] mix1 m1 n1 (RA1 & O1 & ->). apply sim_ret. cbn [fst snd]. split; [|split; [exact RA1|split; [exact O1|reflexivity]]].
  eapply same_state_mem; [| |exact SS4]; intros l; eapply has_clear; eauto.
Qed.

Lemma sim_map {A B C} me (p : prog A) m n (o : outcome B) (h : B -> C) Mid (Post : A -> C -> memory -> N -> Prop) :
  sim me p m n o Mid -> (forall a b m' n', Mid a b m' n' -> Post a (h b) m' n') -> sim me p m n (bind o (fun b => Done (h b))) Post.
Proof. unfold sim. intros S F. destruct (run me p m n) as [[[a| |] m'] n'], o; cbn [bind]; auto. Qed.

Lemma sim_dagPattern me nw src dst ps s m n : same_state m src dst ps s -> old me n src -> old me n dst ->
  sim me (p_dagPattern nw ps) m n (dagPattern nw s) (fun x y m' n' =>
    has m' (fst x) (snd (fst y)) /\ has m' (snd x) (snd y) /\ new me n n' (fst x) /\ new me n n' (snd x) /\ kept me n m m' /\ n' = n + 2).
Proof.
  intros SS O1 O2. unfold p_dagPattern, dagPattern.
  apply sim_make. intros dsts m1 E1 N1 H1 K1. apply sim_make. intros sels m2 E2 N2 H2 K2.
  assert (H1' : has m2 dsts (zeros nw)) by frame.
  assert (K02 : kept me n m m2) by (eapply kept_trans; [|exact K1|exact K2]; lia).
  replace (n + 1 + 1) with (n + 2) in * by lia.
  rewrite <- (bind_done (for_n nw _ _)). eapply sim_bind.
  { apply (sim_for_n me nw _ _ ps (s, zeros nw, zeros nw) m2 (n + 2) (fun _ ps' y m' n' =>
      same_state m' src dst ps' (fst (fst y)) /\ has m' dsts (snd (fst y)) /\ has m' sels (snd y) /\ kept me n m m' /\ n' = n + 2)).
    - cbn [fst snd]. parts; auto. eapply same_state_mem; [| |exact SS]; intros l X; frame.
    - intros j ps1 ((s1, ds), se) m3 n3 J (SS3 & HD & HS & K3 & ->). cbn [fst snd] in *.
      apply (sim_bind me _ _ m3 (n + 2) _ _ (fun ps' y m' n' => same_state m' src dst ps' (fst y) /\ has m' dsts (snd y) /\ has m' sels se /\ kept me n m m' /\ n' = n + 2)).
      { destruct (j =? 0).
        - eapply sim_bind; [apply sim_set; frame|]. intros [] b4 m4 n4 (H4 & _ & O4 & ->). apply sim_ret. cbn [fst snd].
          split; [eapply same_state_mem; [| |exact SS3]; intros l X; frame|]. split; [exact H4|]. split; [frame|]. split; [|reflexivity].
          intros l OL. rewrite O4 by apart. apply K3. exact OL.
        - eapply sim_bind; [apply sim_nextDst; exact SS3|]. intros (d, ps2) (d', s2) ? ? (E & SS4 & -> & ->). cbn [fst snd] in *. subst d'.
          eapply sim_bind; [apply sim_set; frame|]. intros [] b4 m4 n4 (H4 & _ & O4 & ->). apply sim_ret. cbn [fst snd].
          split; [eapply same_state_mem; [| |exact SS4]; intros l X; frame|]. split; [exact H4|]. split; [frame|]. split; [|reflexivity].
          intros l OL. rewrite O4 by apart. apply K3. exact OL. }
      intros ps2 (s2, ds2) m4 n4 (SS4 & HD4 & HS4 & K4 & ->). cbn [fst snd] in *.
      destruct (nextRng_same _ _ _ _ _ SS4) as (E & SS5). destruct (p_nextRng ps2) as (v, ps3), (nextRng s2) as (v', s3). cbn [fst snd] in *. subst v'.
      eapply sim_bind; [apply sim_set; frame|]. intros [] b5 m5 n5 (H5 & _ & O5 & ->). apply sim_ret. cbn [fst snd].
      split; [eapply same_state_mem; [| |exact SS5]; intros l X; frame|]. split; [frame|]. split; [exact H5|]. split; [|reflexivity].
      intros l OL. rewrite O5 by apart. apply K4. exact OL. }
  intros ps1 ((s1, ds), se) m3 n3 (SS3 & HD & HS & K3 & ->). cbn [fst snd] in *. apply sim_ret. cbn [fst snd].
  parts; auto; eapply new_le; [| |exact N1| | |exact N2]; lia.
Qed.

Lemma sim_dagMerge me a b cfg r nw item dsts sels itemx dstsx selsx m n rows mix :
  rows_at me a b m rows mix -> has m item itemx -> has m dsts dstsx -> has m sels selsx ->
  clear_of me a b item -> clear_of me a b dsts -> clear_of me a b sels ->
  sim me (p_dagMerge cfg r nw item dsts sels rows) m n (dagMerge cfg r nw itemx dstsx selsx mix) (rows_changed me a b m n rows).
Proof.
  intros RA H1 H2 H3 C1 C2 C3. unfold p_dagMerge, dagMerge.
  apply (sim_for_n me (LaneCount cfg) _ _ tt mix m n (fun _ u => rows_changed me a b m n rows u)).
  - split; [exact RA|]. split; [apply outside_refl|reflexivity].
  - intros j [] t m1 n1 J (RA1 & O1 & ->). apply sim_pure. intros lane _. cbv zeta.
    apply (sim_for_n me nw _ _ tt t m1 n (fun _ u => rows_changed me a b m n rows u)).
    + split; [exact RA1|]. split; [exact O1|reflexivity].
    + intros i [] t2 m2 n2 I2 (RA2 & O2 & ->).
      assert (H1' : has m2 item itemx) by (eapply has_clear; eauto). assert (H2' : has m2 dsts dstsx) by (eapply has_clear; eauto).
      assert (H3' : has m2 sels selsx) by (eapply has_clear; eauto). sget. sget. sget.
      eapply sim_row; [exact RA2|]. intros s x R X H W SER. sget. eapply sim_set_row; eauto.
Qed.

Section Variant.
(** A lookup with a hasher, and a condition on what other calls own, under which it works. *)
Variables (me : N) (st : sl) (ok : memory -> Prop) (lookup : N -> prog sl) (model : N -> outcome (list N)) (l1 : sl) (l1x : list N).
Hypothesis WS : writable me st.
Hypothesis OKK : forall m m', (forall l, owner l <> me -> m' l = m l) -> ok m -> ok m'.
Hypothesis LK : forall i m n, ok m -> state m st -> old me n st -> sim me (lookup i) m n (model i) (looked me st m n).
Hypothesis OL1 : owner (s_loc l1) <> me.
Hypothesis HL1 : forall m, ok m -> has m l1 l1x.

Lemma sim_round a b cfg seed r rows mix size m n :
  rows_at me a b m rows mix -> b <= n -> serial (s_loc st) < a -> a <= b -> state m st -> ok m ->
  sim me (p_round cfg seed r rows size lookup l1) m n (round cfg seed r mix size model l1x) (fun _ mix' m' n' =>
    rows_at me a b m' rows mix' /\ state m' st /\ ok m' /\ n <= n' /\ kept_but me a st m m').
Proof.
  intros RA BN SA AB ST OK. unfold p_round, round. cbv zeta.
  eapply sim_bind; [apply sim_initMixRngState|]. intros ps s m1 n1 (N1 & N2 & SS & K1 & ->).
  set (src := ps_src ps) in *. set (dst := ps_dst ps) in *. clearbody src dst.
  assert (RA1 : rows_at me a b m1 rows mix) by (eapply rows_same; [|exact RA]; intros l O S; apply K1; lia).
  assert (ST1 : state m1 st) by (destruct ST as (v & ST); exists v; frame).
  assert (OK1 : ok m1) by (eapply OKK; [|exact OK]; intros l O; apply K1; auto).
  apply sim_pure. intros lane _.
  eapply sim_row; [exact RA1|]. intros row x R X H W SER. sget. apply sim_pure. intros ix _.
  eapply sim_bind; [apply LK; [exact OK1|exact ST1|unfold old, writable in *; lia]|].
  intros item itemx m2 n2 (H2 & NI & C2 & ST2 & LE2 & K2).
  assert (LI : s_len item = lenN itemx) by apply H2. rewrite LI.
  apply sim_pure. intros nw _.
  assert (RA2 : rows_at me a b m2 rows mix).
  { eapply rows_same; [|exact RA1]. intros l O S. apply K2; [intros ->; lia|lia]. }
  assert (OK2 : ok m2) by (eapply OKK; [|exact OK1]; intros l O; apply K2; [intros ->; unfold writable in *; lia|auto]).
  assert (SS2 : same_state m2 src dst ps s) by (eapply same_state_mem; [| |exact SS]; intros l X2; frame).
  eapply sim_bind.
  { apply (sim_for_n me (maxInt (RoundCacheAccesses cfg) (RoundMathOperations cfg)) _ _ ps (s, mix) m2 n2 (fun _ ps' y m' n' =>
      same_state m' src dst ps' (fst y) /\ rows_changed me a b m2 n2 rows tt (snd y) m' n')).
    - cbn [fst snd]. split; [exact SS2|]. split; [exact RA2|]. split; [apply outside_refl|reflexivity].
    - intros j ps1 (s1, mx) m3 n3 J (SS3 & RA3 & O3 & ->). cbn [fst snd] in *.
      apply (sim_bind me _ _ m3 n2 _ _ (fun ps' y m' n' => same_state m' src dst ps' (fst y) /\ rows_changed me a b m2 n2 rows tt (snd y) m' n')).
      { destruct (j <? RoundCacheAccesses cfg).
        - eapply sim_weaken.
          + eapply (sim_cacheAccess me a b cfg l1 l1x src dst ps1 s1 m3 n2 rows mx); auto; try (unfold clear_of, new in *; lia).
            eapply has_clear; [exact O3|unfold clear_of; lia|apply HL1; exact OK2].
          + intros ps2 (s2, mx2) m4 n4 (SS4 & RA4 & O4 & ->). cbn [fst snd] in *. split; [exact SS4|]. split; [exact RA4|].
            split; [eapply outside_trans; eauto|reflexivity].
        - apply sim_ret. cbn [fst snd]. split; [exact SS3|]. split; [exact RA3|]. split; [exact O3|reflexivity]. }
      intros ps2 (s2, mx2) m4 n4 (SS4 & RA4 & O4 & ->). cbn [fst snd] in *.
      destruct (j <? RoundMathOperations cfg).
      + eapply sim_weaken.
        * eapply (sim_mathOperation me a b cfg src dst ps2 s2 m4 n2 rows mx2); auto; try (unfold clear_of, new in *; lia).
        * intros ps5 (s5, mx5) m5 n5 (SS5 & RA5 & O5 & ->). cbn [fst snd] in *. split; [exact SS5|]. split; [exact RA5|].
          split; [eapply outside_trans; eauto|reflexivity].
      + apply sim_ret. cbn [fst snd]. split; [exact SS4|]. split; [exact RA4|]. split; [exact O4|reflexivity]. }
  intros ps3 (s3, mx3) m3 n3 (SS3 & RA3 & O3 & ->). cbn [fst snd] in *.
  eapply sim_bind; [apply (sim_dagPattern me nw src dst ps3 s3 m3 n2 SS3); unfold old, new in *; lia|].
  intros (dsts, sels) ((s4, dstsx), selsx) m4 n4 (HD & HS & ND & NS & K4 & ->). cbn [fst snd] in *.
  assert (HI4 : has m4 item itemx) by (unfold new in *; frame).
  eapply sim_weaken.
  { apply (sim_dagMerge me a b cfg r nw item dsts sels itemx dstsx selsx m4 (n2 + 2) rows mx3); auto; try (unfold clear_of, new in *; lia).
    eapply rows_same; [|exact RA3]. intros l O S. apply K4. lia. }
  intros [] mix5 m5 n5 (RA5 & O5 & ->).
  split; [exact RA5|]. split; [|split; [|split]].
  - destruct ST2 as (v0 & ST2). exists v0. frame.
  - eapply OKK; [|exact OK2]. intros l O. rewrite O5 by lia. rewrite K4 by auto. apply O3. lia.
  - lia.
  - intros l NE O. rewrite O5 by lia. rewrite K4 by lia. rewrite O3 by lia. rewrite K2 by (auto; lia). apply K1. lia.
Qed.
End Variant.

(** ** The registers at the start *)
Lemma nth_repeat_some {A} (x y : A) k i : nth_error (repeat x k) i = Some y -> y = x.
Proof. intros H. apply nth_error_In, repeat_spec in H. auto. Qed.
Record rows_up_to (me n k : N) (m : memory) (rows : list sl) (mix : list (list N)) : Prop := {
  ru_len : length rows = length mix;
  ru_has : forall i s l, (i < N.to_nat k)%nat -> nth_error rows i = Some s -> nth_error mix i = Some l ->
    has m s l /\ s_loc s = (me, n + N.of_nat i) }.
Lemma sim_initMix me seed lanes regs m n :
  sim me (p_initMix seed lanes regs) m n (initMix seed lanes regs) (fun rows mix m' n' =>
    rows_at me n n' m' rows mix /\ kept me n m m' /\ n <= n').
Proof.
  unfold p_initMix, initMix. cbv zeta. eapply sim_weaken.
  { apply (sim_for_n me lanes _ _ _ _ m n (fun k rows mix m' n' =>
      rows_up_to me n k m' rows mix /\ lenN mix = lanes /\ kept me n m m' /\ n' = n + k)).
    - split; [constructor|].
      + rewrite !repeat_length. reflexivity.
      + intros i s l Hi. change (N.to_nat 0) with 0%nat in Hi. lia.
      + split; [unfold lenN; rewrite repeat_length; lia|]. split; [intros l _; reflexivity|lia].
    - intros lane rows mix m1 n1 LT (RU & LM & K1 & ->).
      apply sim_make. intros row m2 E2 N2 H2 K2.
      eapply sim_bind.
      { apply (sim_for_n me regs _ _ _ (zeros regs, _) m2 (n + lane + 1) (fun _ r st m' n' =>
          r = snd st /\ has m' row (fst st) /\ others m2 m' row /\ n' = n + lane + 1)).
        - cbn [fst snd]. split; [reflexivity|]. split; [exact H2|]. split; [intros l _; reflexivity|reflexivity].
        - intros j r (rw, r') m3 n3 J (-> & H3 & O3 & ->). cbn [fst snd] in *. destruct (next r') as (v, r2).
          eapply sim_bind; [apply sim_set; exact H3|]. intros [] l4 m4 n4 (H4 & _ & O4 & ->). apply sim_ret. cbn [fst snd].
          split; [reflexivity|]. split; [exact H4|]. split; [|reflexivity]. intros l NE. rewrite O4, O3; auto. }
      intros r (rw, r') m3 n3 (-> & H3 & O3 & ->). cbn [fst snd] in *.
      assert (LR : lenN rows = lanes) by (rewrite <- LM; unfold lenN; rewrite (ru_len _ _ _ _ _ _ RU); reflexivity).
      unfold upd. rewrite LR, LM. replace (lane <? lanes) with true by lia. cbn [pure].
      apply sim_ret. split; [constructor|].
      + rewrite !set_nth_length. apply RU.
      + intros i s l Hi R X. rewrite BaseFacts.nth_error_set_nth in R. rewrite BaseFacts.nth_error_set_nth in X.
        destruct (Nat.eqb_spec (N.to_nat lane) i) as [<-|NE].
        * replace (N.to_nat lane <? length rows)%nat with true in R by (symmetry; apply Nat.ltb_lt; unfold lenN in *; lia).
          replace (N.to_nat lane <? length mix)%nat with true in X by (symmetry; apply Nat.ltb_lt; unfold lenN in *; lia).
          cbn [andb] in *. injection R as <-. injection X as <-.
          split; [exact H3|]. subst row. cbn [s_loc]. f_equal. lia.
        * destruct (ru_has _ _ _ _ _ _ RU i s l) as (H & L); [lia|exact R|exact X|]. split; [|exact L].
          apply (has_same m1); [|exact H]. rewrite L, O3, K2; [reflexivity| |].
          -- right. cbn [serial snd]. lia.
          -- subst row. cbn [s_loc]. intros Q. injection Q. lia.
      + split; [unfold lenN in *; rewrite set_nth_length; exact LM|]. split; [|lia].
        intros l O. rewrite O3, K2; [apply K1; exact O| |]; [lia|]. subst row. cbn [s_loc]. intros ->. cbn [owner serial fst snd] in O. lia. }
  intros rows mix m' n' (RU & LM & K & ->). split; [|split; [exact K|lia]].
  pose proof (ru_len _ _ _ _ _ _ RU) as EL.
  assert (G : forall i s, nth_error rows i = Some s -> exists l, nth_error mix i = Some l /\ has m' s l /\ s_loc s = (me, n + N.of_nat i) /\ N.of_nat i < lanes).
  { intros i s R. assert (Li : (i < length rows)%nat) by (apply nth_error_Some; congruence).
    destruct (nth_error mix i) as [l|] eqn:X; [|apply nth_error_None in X; lia].
    exists l. destruct (ru_has _ _ _ _ _ _ RU i s l) as (H & L); auto; [unfold lenN in *; lia|]. parts; auto. unfold lenN in *; lia. }
  constructor.
  - exact EL.
  - intros i s l R X. destruct (G _ _ R) as (l' & X' & H & _). congruence.
  - intros i s R. destruct (G _ _ R) as (l' & X' & H & L & ?). rewrite L. cbn [owner serial fst snd]. lia.
  - intros i j s s' R R' NE. destruct (G _ _ R) as (l1 & _ & _ & L1 & ?). destruct (G _ _ R') as (l2 & _ & _ & L2 & ?).
    rewrite L1, L2. intros Q. injection Q. lia.
Qed.

(** ** Words and bytes *)
Lemma sim_ToBytes me arr o x m n : has m arr x -> old me n arr ->
  sim me (p_Uint32ArrayToBytes arr o) m n (Uint32ArrayToBytes x o) (fun s y m' n' =>
    has m' s y /\ s = mkSl (me, n) 0 (lenN y) (lenN y) /\ lenN y = lenN x * 4 /\ kept me n m m' /\ n' = n + 1).
Proof.
  intros H O. pose proof H as (L & _). unfold p_Uint32ArrayToBytes, Uint32ArrayToBytes. rewrite L.
  apply sim_make. intros buf m1 E1 N1 H1 K1.
  rewrite <- (bind_done (for_n _ _ _)). eapply sim_bind.
  { apply (sim_for_n me (lenN x) _ _ tt (zeros (lenN x * 4)) m1 (n + 1) (fun _ (_ : unit) y m' n' =>
      has m' buf y /\ lenN y = lenN x * 4 /\ kept me n m m' /\ n' = n + 1)).
    - split; [exact H1|]. split; [apply zeros_lenN|]. split; [exact K1|reflexivity].
    - intros j [] y m2 n2 J (H2 & LY & K2 & ->). sget.
      rewrite put32_model_end. eapply sim_weaken; [apply sim_put32_at; frame|].
      intros [] y3 m3 n3 (H3 & L3 & O3 & ->). split; [exact H3|]. split; [lia|]. split; [|reflexivity].
      intros l OL. rewrite O3 by apart. apply K2. exact OL. }
  intros [] y m2 n2 (H2 & LY & K2 & ->). apply sim_ret. parts; auto. subst buf. rewrite LY. reflexivity.
Qed.

(** ** The rounds and what is left of them *)
Section Variant2.
Variables (me : N) (st : sl) (ok : memory -> Prop) (lookup : N -> prog sl) (model : N -> outcome (list N)) (l1 : sl) (l1x : list N).
Hypothesis WS : writable me st.
Hypothesis OKK : forall m m', (forall l, owner l <> me -> m' l = m l) -> ok m -> ok m'.
Hypothesis LK : forall i m n, ok m -> state m st -> old me n st -> sim me (lookup i) m n (model i) (looked me st m n).
Hypothesis OL1 : owner (s_loc l1) <> me.
Hypothesis HL1 : forall m, ok m -> has m l1 l1x.

Lemma sim_Hash cfg height seed size m n : state m st -> ok m -> serial (s_loc st) < n ->
  sim me (p_Hash cfg height seed size lookup l1) m n (Hash cfg height seed size model l1x) (fun s y m' n' =>
    has m' s y /\ new me n n' s /\ s_cap s = s_len s /\ lenN y = 32 /\ state m' st /\ ok m' /\ n <= n' /\ kept_but me n st m m').
Proof.
  intros ST OK SN. unfold p_Hash, Hash.
  eapply sim_bind; [apply sim_initMix|]. intros rows mix m1 n1 (RA1 & K1 & LE1).
  assert (ST1 : state m1 st) by (destruct ST as (v & ST); exists v; frame).
  assert (OK1 : ok m1) by (eapply OKK; [|exact OK]; intros l O; apply K1; auto).
  apply sim_pure. intros number _.
  eapply sim_bind.
  { apply (sim_for_n me (RoundCount cfg) _ _ tt mix m1 n1 (fun _ (_ : unit) mx m' n' =>
      rows_at me n n1 m' rows mx /\ state m' st /\ ok m' /\ n1 <= n' /\ kept_but me n st m1 m')).
    - parts; auto; [lia|]. intros l _ _. reflexivity.
    - intros j [] mx m2 n2 J (RA2 & ST2 & OK2 & LE2 & K2).
      eapply sim_weaken.
      { apply (sim_round me st ok lookup model l1 l1x) with (a := n) (b := n1); auto; lia. }
      intros [] mx3 m3 n3 (RA3 & ST3 & OK3 & LE3 & K3). parts; auto; [lia|].
      intros l NE O. rewrite K3 by auto. apply K2; auto. }
  intros [] mx m2 n2 (RA2 & ST2 & OK2 & LE2 & K2).
  apply sim_make. intros lanes m3 E3 N3 H3 K3.
  eapply sim_bind.
  { apply (sim_for_n me (LaneCount cfg) _ _ tt (zeros (LaneCount cfg)) m3 (n2 + 1) (fun _ (_ : unit) y m' n' =>
      has m' lanes y /\ others m3 m' lanes /\ n' = n2 + 1)).
    - parts; auto. intros l _. reflexivity.
    - intros j [] y m4 n4 J (H4 & O4 & ->).
      eapply sim_bind; [apply sim_set; exact H4|]. intros [] y5 m5 n5 (H5 & _ & O5 & ->).
      apply (sim_for_n me (RegisterCount cfg) _ _ tt y5 m5 (n2 + 1) (fun _ (_ : unit) y m' n' =>
        has m' lanes y /\ others m3 m' lanes /\ n' = n2 + 1)).
      + parts; auto. intros l NE. rewrite O5, O4; auto.
      + intros i [] y6 m6 n6 I6 (H6 & O6 & ->). sget.
        assert (RA6 : rows_at me n n1 m6 rows mx).
        { eapply rows_same; [|exact RA2]. intros l OW SE. rewrite O6 by (subst lanes; cbn [s_loc]; intros ->; cbn [serial snd] in SE; lia). apply K3. lia. }
        eapply sim_row; [exact RA6|]. intros s x R X H W SER. sget.
        eapply sim_weaken; [apply sim_set; exact H6|]. intros [] y7 m7 n7 (H7 & _ & O7 & ->).
        parts; auto. intros l NE. rewrite O7, O6; auto. }
  intros [] lanesx m4 n4 (H4 & O4 & ->).
  apply sim_make. intros mh m5 E5 N5 H5 K5.
  assert (H45 : has m5 lanes lanesx) by frame.
  replace (n2 + 1 + 1) with (n2 + 2) in * by lia.
  eapply sim_bind.
  { apply (sim_for_n me 8 _ _ tt (zeros 8) m5 (n2 + 2) (fun _ (_ : unit) y m' n' =>
      has m' mh y /\ lenN y = 8 /\ others m5 m' mh /\ n' = n2 + 2)).
    - parts; auto. intros l _. reflexivity.
    - intros j [] y m6 n6 J (H6 & L6 & O6 & ->).
      eapply sim_weaken; [apply sim_set; exact H6|]. intros [] y7 m7 n7 (H7 & L7 & O7 & ->).
      parts; auto; [lia|]. intros l NE. rewrite O7, O6; auto. }
  intros [] mhx m6 n6 (H6 & L6 & O6 & ->).
  eapply sim_bind.
  { apply (sim_for_n me (LaneCount cfg) _ _ tt mhx m6 (n2 + 2) (fun _ (_ : unit) y m' n' =>
      has m' mh y /\ lenN y = 8 /\ others m5 m' mh /\ n' = n2 + 2)).
    - parts; auto.
    - intros j [] y m7 n7 J (H7 & L7 & O7 & ->). sget.
      assert (H47 : has m7 lanes lanesx) by frame. sget.
      eapply sim_weaken; [apply sim_set; exact H7|]. intros [] y8 m8 n8 (H8 & L8 & O8 & ->).
      parts; auto; [lia|]. intros l NE. rewrite O8, O7; auto. }
  intros [] mhy m7 n7 (H7 & L7 & O7 & ->).
  eapply sim_weaken; [apply (sim_ToBytes me mh LittleEndian mhy m7 (n2 + 2) H7); locs|].
  intros s y m8 n8 (H8 & -> & L8 & K8 & ->).
  assert (G : forall l, owner l <> me \/ serial l < n2 -> m8 l = m2 l).
  { intros l O. rewrite K8 by lia. rewrite O7 by (subst mh; cbn [s_loc]; intros ->; cbn [owner serial fst snd] in O; lia).
    rewrite K5 by lia. rewrite O4 by (subst lanes; cbn [s_loc]; intros ->; cbn [owner serial fst snd] in O; lia). apply K3. lia. }
  split; [exact H8|]. split; [unfold new; cbn [s_loc owner serial fst snd]; lia|]. split; [reflexivity|]. split; [lia|].
  split; [|split; [|split]].
  - destruct ST2 as (v & ST2). exists v. apply (has_same m2); [|exact ST2]. apply G. lia.
  - eapply OKK; [|exact OK2]. intros l O. apply G. auto.
  - lia.
  - intros l NE O. rewrite G by lia. rewrite K2 by auto. apply K1. exact O.
Qed.
End Variant2.

(** ** The variants *)
Lemma double_round_length rc0 rc1 x y : keccakf800_double_round rc0 rc1 x = Done y -> length x = 25%nat /\ length y = 25%nat.
Proof.
  do 25 (destruct x as [|? x]; [discriminate|]). destruct x; [|discriminate].
  rewrite KeccakProofs.double_round_explicit by reflexivity. intros E. injection E as <-. split; reflexivity.
Qed.
Lemma KeccakF800_length x y : KeccakF800 x = Done y -> lenN y = lenN x.
Proof.
  unfold KeccakF800, for_n. generalize 0. generalize (N.to_nat 11). intros k. revert x.
  induction k as [|k IH]; intros x i; cbn [for_up].
  - intros E. injection E as <-. reflexivity.
  - destruct (idx rck8 (2 * i)); try discriminate. cbn [bind]. destruct (idx rck8 (2 * i + 1)); try discriminate. cbn [bind].
    destruct (keccakf800_double_round a a0 x) as [z| |] eqn:E; try discriminate. intros F. apply IH in F.
    destruct (double_round_length _ _ _ _ E). unfold lenN in *. lia.
Qed.
Lemma sim_KeccakF800 me s x m n : has m s x -> sim me (p_KeccakF800 s) m n (KeccakF800 x) (wrote m n s x).
Proof.
  intros H. unfold p_KeccakF800. eapply sim_left; [apply sim_read; exact H|]. intros ? ? ? (-> & -> & ->).
  destruct (KeccakF800 x) as [y| |] eqn:E; [|exact I|exact I]. cbn [pure pbind]. apply KeccakF800_length in E.
  destruct (run_stores me s m n x 0 y H) as (m' & R & HV & O); [lia|]. rewrite N.add_0_r in R. unfold sim. rewrite R.
  split; [|split; [exact E|split; [exact O|reflexivity]]]. change (N.to_nat 0) with 0%nat in HV.
  replace (overwrite x 0 y) with y in HV; [exact HV|]. unfold overwrite. cbn [firstn app Nat.add]. rewrite skipn_all2 by (unfold lenN in E; lia).
  rewrite app_nil_r, firstn_all2; [reflexivity|]. unfold lenN in E. lia.
Qed.

Lemma sim_absorb_header me hash h nonce m n : has m hash h -> lenN h = 32 -> owner (s_loc hash) <> me ->
  sim me (p_absorb_header hash nonce) m n (absorb_header h nonce) (fun s x m' n' =>
    has m' s x /\ lenN x = 25 /\ s = mkSl (me, n) 0 25 25 /\ kept me n m m' /\ n' = n + 1).
Proof.
  intros H LH OW. unfold p_absorb_header, absorb_header.
  apply sim_make. intros seed m1 E1 N1 H1 K1.
  eapply sim_bind.
  { apply (sim_for_n me 8 _ _ tt (zeros 25) m1 (n + 1) (fun _ (_ : unit) y m' n' =>
      has m' seed y /\ lenN y = 25 /\ kept me n m m' /\ n' = n + 1)).
    - parts; auto.
    - intros j [] y m2 n2 J (H2 & L2 & K2 & ->).
      eapply sim_bind; [apply sim_cut_at; [frame|left; lia]|]. intros t tx ? ? (HT & ET & _ & -> & ->).
      sget32. eapply sim_weaken; [apply sim_set; exact H2|]. intros [] y3 m3 n3 (H3 & L3 & O3 & ->). parts; auto; [lia|].
      intros l O. rewrite O3 by apart. apply K2. exact O. }
  intros [] y m2 n2 (H2 & L2 & K2 & ->).
  eapply sim_bind; [apply sim_set; exact H2|]. intros [] y3 m3 n3 (H3 & L3 & O3 & ->).
  rewrite <- (bind_done (upd y3 9 _)).
  eapply sim_bind; [apply sim_set; exact H3|]. intros [] y4 m4 n4 (H4 & L4 & O4 & ->).
  apply sim_ret. parts; auto; [lia|]. intros l O. rewrite O4, O3 by apart. apply K2. exact O.
Qed.
Lemma sim_seed_head me s x m n : has m s x -> sim me (p_seed_head s) m n (seed_head x) (same m n).
Proof. intros H. unfold p_seed_head, seed_head. sget. sget. apply sim_ret. repeat split. Qed.
Lemma sim_absorb_mix me seed sx mix mx m n : has m seed sx -> has m mix mx -> lenN mx = 32 -> old me n seed -> old me n mix ->
  sim me (p_absorb_mix seed mix) m n (absorb_mix sx mx) (fun s x m' n' =>
    has m' s x /\ lenN x = 25 /\ s = mkSl (me, n) 0 25 25 /\ kept me n m m' /\ n' = n + 1).
Proof.
  intros H HM LM O1 O2. unfold p_absorb_mix, absorb_mix.
  apply sim_make. intros st m1 E1 N1 H1 K1.
  rewrite <- (bind_done (for_n _ _ _)). eapply sim_bind.
  { apply (sim_for_n me 8 _ _ tt (zeros 25) m1 (n + 1) (fun _ (_ : unit) y m' n' =>
      has m' st y /\ lenN y = 25 /\ kept me n m m' /\ n' = n + 1)).
    - parts; auto.
    - intros j [] y m2 n2 J (H2 & L2 & K2 & ->). sget.
      eapply sim_bind; [apply sim_set; exact H2|]. intros [] y3 m3 n3 (H3 & L3 & O3 & ->).
      eapply sim_bind; [apply sim_cut_at; [frame|left; lia]|]. intros t tx ? ? (HT & ET & _ & -> & ->).
      sget32. eapply sim_weaken; [apply sim_set; exact H3|]. intros [] y4 m4 n4 (H4 & L4 & O4 & ->). parts; auto; [lia|].
      intros l O. rewrite O4, O3 by apart. apply K2. exact O. }
  intros [] y m2 n2 (H2 & L2 & K2 & ->). apply sim_ret. parts; auto.
Qed.
Lemma sim_squeeze me s x m n : has m s x -> lenN x = 25 -> old me n s ->
  sim me (p_squeeze_digest s) m n (squeeze_digest x) (fun d y m' n' =>
    has m' d y /\ s_loc d = (me, n) /\ kept me n m m' /\ n' = n + 1).
Proof.
  intros H L O. unfold p_squeeze_digest, squeeze_digest.
  eapply sim_bind; [apply sim_cut_at; [frame|left; lia]|]. intros t tx ? ? (HT & ET & _ & -> & ->).
  eapply sim_weaken; [apply sim_ToBytes; [exact HT|unfold old; rewrite ET; exact O]|].
  intros d y m' n' (HD & -> & _ & K & ->). parts; auto.
Qed.

(** What the two variants give: two new slices. *)
Definition pair_made (me n : N) (s : sl * sl) (b : list N * list N) (m' : memory) (n' : N) : Prop :=
  has m' (fst s) (fst b) /\ has m' (snd s) (snd b) /\ new me n n' (fst s) /\ new me n n' (snd s) /\ s_loc (fst s) <> s_loc (snd s).

Section Variant3.
Variables (me : N) (st : sl) (ok : memory -> Prop) (lookup : N -> prog sl) (model : N -> outcome (list N)) (l1 : sl) (l1x : list N).
Hypothesis WS : writable me st.
Hypothesis OKK : forall m m', (forall l, owner l <> me -> m' l = m l) -> ok m -> ok m'.
Hypothesis LK : forall i m n, ok m -> state m st -> old me n st -> sim me (lookup i) m n (model i) (looked me st m n).
Hypothesis OL1 : owner (s_loc l1) <> me.
Hypothesis HL1 : forall m, ok m -> has m l1 l1x.
Variables (hash : sl) (h : list N).
Hypothesis HH : forall m, ok m -> has m hash h.
Hypothesis OH : owner (s_loc hash) <> me.
Hypothesis LH : lenN h = 32.

Lemma sim_firopow height nonce size m n : state m st -> ok m -> serial (s_loc st) < n ->
  sim me (p_firopow hash height nonce size lookup l1) m n (firopow h height nonce size model l1x) (pair_made me n).
Proof.
  intros ST OK SN. unfold p_firopow, firopow.
  apply (sim_bind me _ _ m n _ _ (fun p q m' n' => has m' (fst p) (fst q) /\ lenN (fst q) = 25 /\ s_loc (fst p) = (me, n) /\ snd p = snd q /\ kept me n m m' /\ n' = n + 1)).
  { unfold p_firopow_initialize, firopow_initialize.
    eapply sim_bind; [apply sim_absorb_header; eauto|]. intros seed x m1 n1 (H1 & L1 & E1 & K1 & ->).
    eapply sim_bind; [apply sim_set; exact H1|]. intros [] x2 m2 n2 (H2 & L2 & O2 & ->).
    eapply sim_bind; [apply sim_set; exact H2|]. intros [] x3 m3 n3 (H3 & L3 & O3 & ->).
    eapply sim_bind; [apply sim_KeccakF800; exact H3|]. intros [] x4 m4 n4 (H4 & L4 & O4 & ->).
    eapply sim_bind; [apply sim_seed_head; exact H4|]. intros ? hd ? ? (-> & -> & ->).
    apply sim_ret. cbn [fst snd]. parts; auto; [lia|subst seed; reflexivity|].
    intros l O. assert (l <> s_loc seed) by (subst seed; cbn [s_loc]; intros ->; cbn [owner serial fst snd] in O; lia).
    rewrite O4, O3, O2 by assumption. apply K1. exact O. }
  intros (seed, head) (sx, head') m1 n1 (H1 & L1 & E1 & EH & K1 & ->). cbn [fst snd] in *. subst head'.
  assert (ST1 : state m1 st) by (destruct ST as (v & ST); exists v; frame).
  assert (OK1 : ok m1) by (eapply OKK; [|exact OK]; intros l O; apply K1; auto).
  eapply sim_bind; [apply (sim_Hash me st ok lookup model l1 l1x); auto; lia|].
  intros mh mx m2 n2 (H2 & N2 & C2 & L2 & ST2 & OK2 & LE2 & K2).
  assert (HS2 : has m2 seed sx).
  { apply (has_same m1); [|exact H1]. apply K2; rewrite E1; [intros E; rewrite <- E in SN|]; cbn [owner serial fst snd] in *; lia. }
  apply (sim_bind me _ _ m2 n2 _ _ (fun d y m' n' => has m' d y /\ new me n2 n' d /\ kept me n2 m2 m' /\ n2 <= n')).
  { unfold p_firopow_finalize, firopow_finalize.
    eapply sim_bind; [apply sim_absorb_mix; eauto; unfold old; [rewrite E1; cbn [owner serial fst snd]; lia|unfold new in *; lia]|].
    intros state x m3 n3 (H3 & L3 & E3 & K3 & ->).
    eapply sim_bind; [apply sim_set; exact H3|]. intros [] x4 m4 n4 (H4 & L4 & O4 & ->).
    eapply sim_bind; [apply sim_set; exact H4|]. intros [] x5 m5 n5 (H5 & L5 & O5 & ->).
    eapply sim_bind; [apply sim_KeccakF800; exact H5|]. intros [] x6 m6 n6 (H6 & L6 & O6 & ->).
    eapply sim_weaken; [apply sim_squeeze; [exact H6|lia|subst state; unfold old; cbn [s_loc owner serial fst snd]; lia]|].
    intros d y m7 n7 (H7 & E7 & K7 & ->). parts; auto; [unfold new; rewrite E7; cbn [owner serial fst snd]; lia| |lia].
    intros l O. assert (l <> s_loc state) by (subst state; cbn [s_loc]; intros ->; cbn [owner serial fst snd] in O; lia).
    rewrite K7 by lia. rewrite O6, O5, O4 by assumption. apply K3. exact O. }
  intros d y m3 n3 (H3 & N3 & K3 & LE3). apply sim_ret. unfold pair_made. cbn [fst snd].
  parts; auto; [apply (has_kept me n2 m2 m3 mh mx K3); [unfold new, old in *; lia|exact H2]|unfold new in *; lia|unfold new in *; lia|].
  intros E. unfold new in *. rewrite E in N2. lia.
Qed.

Variables (table : sl).
Hypothesis HT : forall m, ok m -> has m table ravencoinKawpow.
Hypothesis OT : owner (s_loc table) <> me.

(** The loops over the fifteen words of the table. *)
Lemma sim_words k i dst x m n : ok m -> has m dst x -> owner (s_loc dst) = me ->
  sim me (pfor k i (fun j _ => p <~ get table (j - i) ;; set dst j p) tt) m n
    (for_up k i (fun j x => p <- idx ravencoinKawpow (j - i) ;; upd x j p) x) (wrote m n dst x).
Proof.
  intros OK H OD. apply (sim_for me k i _ _ tt x m n (fun _ u => wrote m n dst x u)).
  - split; [exact H|]. split; [reflexivity|]. split; [intros l _; reflexivity|reflexivity].
  - intros j [] y m1 n1 _ _ (H1 & L1 & O1 & ->).
    assert (HT1 : has m1 table ravencoinKawpow) by (apply (has_same m); [apply O1; apart|apply HT; exact OK]). sget.
    eapply sim_weaken; [apply sim_set; exact H1|]. intros [] y2 m2 n2 (H2 & L2 & O2 & ->).
    split; [exact H2|]. split; [lia|]. split; [|reflexivity]. intros l NE. rewrite O2, O1; auto.
Qed.
Lemma sim_kawpow height nonce size m n : state m st -> ok m -> serial (s_loc st) < n ->
  sim me (p_kawpow table hash height nonce size lookup l1) m n (kawpow h height nonce size model l1x) (pair_made me n).
Proof.
  intros ST OK SN. unfold p_kawpow, kawpow.
  apply (sim_bind me _ _ m n _ _ (fun p q m' n' => has m' (fst p) (fst q) /\ lenN (fst q) = 25 /\ s_loc (fst p) = (me, n) /\ snd p = snd q /\ kept me n m m' /\ n' = n + 1)).
  { unfold p_kawpow_initialize, kawpow_initialize.
    eapply sim_bind; [apply sim_absorb_header; eauto|]. intros seed x m1 n1 (H1 & L1 & E1 & K1 & ->).
    assert (OK1 : ok m1) by (eapply OKK; [|exact OK]; intros l O; apply K1; auto).
    eapply sim_bind; [apply sim_words; [exact OK1|exact H1|subst seed; reflexivity]|]. intros [] x3 m3 n3 (H3 & L3 & O3 & ->).
    eapply sim_bind; [apply sim_KeccakF800; exact H3|]. intros [] x4 m4 n4 (H4 & L4 & O4 & ->).
    eapply sim_bind; [apply sim_seed_head; exact H4|]. intros ? hd ? ? (-> & -> & ->).
    apply sim_ret. cbn [fst snd]. parts; auto; [lia|subst seed; reflexivity|].
    intros l O. assert (l <> s_loc seed) by (subst seed; cbn [s_loc]; intros ->; cbn [owner serial fst snd] in O; lia).
    rewrite O4, O3 by assumption. apply K1. exact O. }
  intros (seed, head) (sx, head') m1 n1 (H1 & L1 & E1 & EH & K1 & ->). cbn [fst snd] in *. subst head'.
  assert (ST1 : state m1 st) by (destruct ST as (v & ST); exists v; frame).
  assert (OK1 : ok m1) by (eapply OKK; [|exact OK]; intros l O; apply K1; auto).
  eapply sim_bind; [apply (sim_Hash me st ok lookup model l1 l1x); auto; lia|].
  intros mh mx m2 n2 (H2 & N2 & C2 & L2 & ST2 & OK2 & LE2 & K2).
  assert (HS2 : has m2 seed sx).
  { apply (has_same m1); [|exact H1]. apply K2; rewrite E1; [intros E; rewrite <- E in SN|]; cbn [owner serial fst snd] in *; lia. }
  apply (sim_bind me _ _ m2 n2 _ _ (fun d y m' n' => has m' d y /\ new me n2 n' d /\ kept me n2 m2 m' /\ n2 <= n')).
  { unfold p_kawpow_finalize, kawpow_finalize.
    eapply sim_bind; [apply sim_absorb_mix; eauto; unfold old; [rewrite E1; cbn [owner serial fst snd]; lia|unfold new in *; lia]|].
    intros state x m3 n3 (H3 & L3 & E3 & K3 & ->).
    assert (OK3 : ok m3) by (eapply OKK; [|exact OK2]; intros l O; apply K3; auto).
    eapply sim_bind; [apply sim_words; [exact OK3|exact H3|subst state; reflexivity]|]. intros [] x5 m5 n5 (H5 & L5 & O5 & ->).
    eapply sim_bind; [apply sim_KeccakF800; exact H5|]. intros [] x6 m6 n6 (H6 & L6 & O6 & ->).
    eapply sim_weaken; [apply sim_squeeze; [exact H6|lia|subst state; unfold old; cbn [s_loc owner serial fst snd]; lia]|].
    intros d y m7 n7 (H7 & E7 & K7 & ->). parts; auto; [unfold new; rewrite E7; cbn [owner serial fst snd]; lia| |lia].
    intros l O. assert (l <> s_loc state) by (subst state; cbn [s_loc]; intros ->; cbn [owner serial fst snd] in O; lia).
    rewrite K7 by lia. rewrite O6, O5 by assumption. apply K3. exact O. }
  intros d y m3 n3 (H3 & N3 & K3 & LE3). apply sim_ret. unfold pair_made. cbn [fst snd].
  parts; auto; [apply (has_kept me n2 m2 m3 mh mx K3); [unfold new, old in *; lia|exact H2]|unfold new in *; lia|unfold new in *; lia|].
  intros E. unfold new in *. rewrite E in N2. lia.
Qed.
End Variant3.
