(** C72: what a panic leaves behind for the calls that follow it. *)
From Coq Require Import NArith ZArith Arith List Bool Lia ZifyBool ZifyN ZifyNat Permutation.
From Verif Require Import Base BaseFacts DagModel DagSpec DagContent RegModel RegSpec RegProofs OnceModel OnceProofs
  EthashModel EthashSpec ProgpowModel ProgpowSpec ProgpowHash OctopusModel OctopusSpec LookupTables
  PropsDagSize PropsDagContent PropsEthash PropsProgpow PropsOctopus ClientModel ClientSpec ClientProofs PropsClients
  RecoverModel RecoverProofs RecoverCalls.
Import ListNotations.
Open Scope N_scope.
Ltac Zify.zify_post_hook ::= Z.div_mod_to_equations.

(** ** Concurrent requests, with a registry that has room *)
Section Concurrent.
Context {V : Type}.
Variable d : config.
Variable gen : N -> made V.
Hypothesis count_pos : (1 <= cf_caches_count d)%Z.

(** A request that is answered holds the object of its epoch with what the one generation of it made.  So if
    that generation panicked, the caller gets its unfinished content without being told. *)
Theorem C72_answered x t e c : rexecution d gen x -> answered x t e c ->
  co_epoch c = e /\
  go_content (sh_obj (sy_shared (rs_sys x)) (co_id c)) = Complete (gen e) /\
  go_runs (sh_obj (sy_shared (rs_sys x)) (co_id c)) = 1%nat.
Proof.
  intros EX (H & _). apply rexecution_execution in EX.
  destruct (execution_inv d gen count_pos _ EX) as (ep & I).
  assert (T := inv_threads _ _ _ _ I _ _ H). cbn in T. destruct T as [[[T1 T2] T3] T4].
  specialize (T3 e eq_refl).
  destruct (inv_done _ _ _ _ I _ T4) as (D1 & D2 & _). split; auto. split; auto.
  rewrite D1. congruence.
Qed.

(** A request panics only if the generation for its epoch does; so requests for other epochs are not harmed. *)
Theorem C72_panics_only_there x t e : rexecution d gen x -> panicked x t e -> exists v, gen e = Cut v.
Proof.
  intros EX (P & W). pose proof (rexecution_rinv d gen count_pos x EX) as RI.
  pose proof (rexecution_execution d gen x EX) as EX'. destruct (execution_inv d gen count_pos _ EX') as (ep & I).
  destruct W as [(c & H)|(r & H)].
  - destruct (ri_where _ _ RI _ _ H P) as (c' & U & C). cbn [th_pc] in U.
    assert (c' = c) by (destruct U as [U|[U|U]]; congruence). subst c'.
    assert (T := inv_threads _ _ _ _ I _ _ H). cbn in T. destruct T as [[_ T3] _]. rewrite (T3 e eq_refl) in C.
    destruct (gen e); [discriminate|eauto].
  - destruct (ri_where _ _ RI _ _ H P) as (c' & U & _). cbn [th_pc] in U. destruct U as [U|[U|U]]; discriminate.
Qed.

(** For each object with unfinished content, exactly one goroutine has panicked or is about to: all others that
    get the object are not told. *)
Theorem C72_told_once x id m : rexecution d gen x ->
  go_content (sh_obj (sy_shared (rs_sys x)) id) = Complete (Cut m) ->
  exists! t, rs_panics x t = true /\ exists th c, nth_error (sy_threads (rs_sys x)) t = Some th /\
    unwinding (th_pc th) c /\ co_id c = id.
Proof.
  intros EX CT. pose proof (rexecution_rinv d gen count_pos x EX) as RI.
  destruct (ri_some _ _ RI id (Cut m) CT eq_refl) as (t & th & c & H & P & U & E).
  exists t. split; [split; eauto|]. intros u (PU & uh & c' & HU & UU & EU).
  apply (ri_one _ _ RI t u th uh c c'); auto. congruence.
Qed.

(** No goroutine is left waiting: as long as the process runs, schedules without new requests end within a
    known number of steps, and when none can be extended every request was answered, or panicked, in the epochs
    whose generation panics. *)
Theorem C72_no_one_waits x : rexecution d gen x ->
  exists bound, forall n x', rsteps d gen n x x' ->
    (n <= bound)%nat /\
    ((forall x'', ~ rstep d gen x' x'') -> rs_ended x' = false ->
      forall t th e, nth_error (sy_threads (rs_sys x)) t = Some th -> th_req th = Some e ->
      (exists c, answered x' t e c) \/ (panicked x' t e /\ exists v, gen e = Cut v)).
Proof.
  intros EX. exists (total_rank (rs_sys x)). intros n x' RS.
  pose proof (rsteps_gsteps d gen count_pos n x x' EX RS) as GS. split.
  - apply gsteps_rank in GS. lia.
  - intros STOP NE t th e H R. pose proof (rsteps_execution d gen n x x' EX RS) as EX'.
    destruct (gsteps_req _ _ _ _ _ _ _ GS H) as ([req p] & H' & R'). cbn in R'. rewrite R in R'. subst req.
    assert (FIN : finished (mkT (Some e) p) = true).
    { destruct (finished (mkT (Some e) p)) eqn:FI; auto.
      destruct (rprogress d gen count_pos x' t _ EX' NE H' FI) as (x'' & ST). destruct (STOP x'' ST). }
    unfold finished in FIN. cbn in FIN. destruct p; try discriminate.
    destruct (rs_panics x' t) eqn:P.
    + right. assert (PK : panicked x' t e) by (split; eauto). split; auto. apply (C72_panics_only_there x' t e EX' PK).
    + left. exists c. split; auto.
Qed.

(** The process ends exactly when background generation for an epoch has panicked. *)
Theorem C72_process_ends x : rexecution d gen x ->
  (rs_ended x = true <->
     exists t c, nth_error (sy_threads (rs_sys x)) t = Some (mkT None (Returned c)) /\ rs_panics x t = true) /\
  (rs_ended x = true ->
     exists t c v, nth_error (sy_threads (rs_sys x)) t = Some (mkT None (Returned c)) /\ gen (co_epoch c) = Cut v).
Proof.
  intros EX. pose proof (rexecution_rinv d gen count_pos x EX) as RI. split; [apply (ri_ended _ _ RI)|]. intros EN.
  apply (ri_ended _ _ RI) in EN. destruct EN as (t & c & H & P).
  destruct (ri_where _ _ RI _ _ H P) as (c' & U & C). cbn [th_pc] in U.
  assert (c' = c) by (destruct U as [U|[U|U]]; congruence). subst c'.
  destruct (gen (co_epoch c)) as [v|v] eqn:G; [discriminate|]. exists t, c, v. auto.
Qed.

(** So in a process that has come to rest and has not ended, behind every object with unfinished content there
    is one caller who was told. *)
Theorem C72_told_a_caller x id m : rexecution d gen x ->
  (forall x', ~ rstep d gen x x') -> rs_ended x = false ->
  go_content (sh_obj (sy_shared (rs_sys x)) id) = Complete (Cut m) ->
  exists t e, panicked x t e /\ gen e = Cut m.
Proof.
  intros EX STOP NE CT. pose proof (rexecution_rinv d gen count_pos x EX) as RI.
  pose proof (rexecution_execution d gen x EX) as EX'. destruct (execution_inv d gen count_pos _ EX') as (ep & I).
  destruct (ri_some _ _ RI id (Cut m) CT eq_refl) as (t & [req p] & c & H & P & U & E).
  assert (FIN : finished (mkT req p) = true).
  { destruct (finished (mkT req p)) eqn:FI; auto.
    destruct (rprogress d gen count_pos x t _ EX NE H FI) as (x' & ST). destruct (STOP x' ST). }
  unfold finished in FIN. cbn in FIN, U. destruct p; try discriminate.
  assert (c0 = c) by (destruct U as [U|[U|U]]; congruence). subst c0.
  destruct req as [e|].
  - exists t, e. split; [split; eauto|]. assert (T := inv_threads _ _ _ _ I _ _ H). cbn in T. destruct T as [[[T1 T2] T3] T4].
    specialize (T3 e eq_refl). destruct (inv_done _ _ _ _ I _ T4) as (D1 & D2 & _). rewrite E in D1. congruence.
  - assert (rs_ended x = true) by (apply (ri_ended _ _ RI); eauto). congruence.
Qed.
End Concurrent.
Print Assumptions C72_answered.
Print Assumptions C72_panics_only_there.
Print Assumptions C72_told_once.
Print Assumptions C72_no_one_waits.
Print Assumptions C72_process_ends.
Print Assumptions C72_told_a_caller.

(** Without room in the registry one request panics with the mutex locked; then nothing ever moves again. *)
Theorem C72_no_capacity_refuted {V} d (gen : N -> made V) x : (cf_caches_count d <= 0)%Z -> rexecution d gen x ->
  (forall t e c, ~ answered x t e c) /\
  (forall t e, panicked x t e ->
     (forall u th, nth_error (sy_threads (rs_sys x)) u = Some th -> u <> t -> exists e', th = mkT (Some e') (Lock e')) /\
     forall x', ~ rstep d gen x x').
Proof.
  intros NC EX. destruct (ninv_all d gen NC x EX) as [I1 I2 I3 I5 I4]. split.
  - intros t e c (H & _). destruct (I2 _ _ H) as (e' & _ & [(C & _)|[(C & _)|(C & _)]]); discriminate.
  - intros t e (P & PW).
    assert (M : sh_mutex (sy_shared (rs_sys x)) = Some t).
    { destruct PW as [(c & H)|(r & H)]; destruct (I2 _ _ H) as (e' & _ & [(C & _)|[(C & _)|(C & M)]]); try discriminate. auto. }
    assert (OT : forall u th, nth_error (sy_threads (rs_sys x)) u = Some th -> u <> t -> exists e', th = mkT (Some e') (Lock e')).
    { intros u [req p] H N. destruct (I2 _ _ H) as (e' & RQ & C). cbn [th_req th_pc] in *.
      destruct C as [(C & _)|[(_ & _ & C)|(_ & C)]]; [|congruence|congruence]. exists e'. congruence. }
    split; auto. intros x' ST.
    destruct ST as [x u th sh' pc' new NE H L|x u req e' r order now NE H NP PO G].
    + destruct (Nat.eq_dec u t) as [->|N].
      * destruct (I2 _ _ H) as (e' & _ & [(C & B)|[(C & B & _)|(C & _)]]); try congruence.
        rewrite C in L. inversion L; subst. rewrite none_panics in * by auto. discriminate.
      * destruct (OT _ _ H N) as (e' & ->). cbn [th_pc] in L. inversion L; subst. congruence.
    + destruct (Nat.eq_dec u t) as [->|N]; [congruence|]. destruct (OT _ _ H N) as (e0 & E). discriminate.
Qed.
Print Assumptions C72_no_capacity_refuted.

(** ** The shipped clients, call after call *)

(** A call in an epoch without table entry, or for Ethereum Classic one beyond the table (C12). *)
Definition lost_call (d : config) (q : call) : Prop :=
  length (cl_hash q) = 32%nat /\
  let e := cl_height q / cf_epoch_length d in 2045 <= e < 2048 \/ (cf_mix_bytes d = 0 /\ 2048 <= e).
(** What each call of a history is to give. *)
Definition right {R} (d : config) (fits : list N -> N -> N -> R -> Prop) (q : call) (s : seen R) : Prop :=
  match s with
  | Answered a => served_call d q /\ answer fits q a
  | Panicked => lost_call d q
  | _ => False
  end.

Section Shipped.
Variables keccak256 keccak512 : list N -> list N.
Variable pp : N -> bool.
Variable fuel : nat.
Variable dir : list N.
Variable left : N -> list N * list N.
Hypothesis H256 : hash_ok 32 keccak256.
Hypothesis H512 : hash_ok 64 keccak512.
Hypothesis PP : primality_test pp.
Hypothesis F : 2 ^ 31 <= N.of_nat fuel.

Lemma lost_panics d q : In d (shipped dir) -> lost_call d q ->
  length (cl_hash q) = 32%nat /\ cf_epoch_length d <> 0 /\ DatasetSize pp fuel d (cl_height q / cf_epoch_length d) = Panic.
Proof.
  clear H256 H512 PP. intros HD (L & E). split; auto. destruct (shipped_facts fuel dir F d HD) as (_ & _ & _ & _ & _ & EL & _).
  split; [lia|]. cbv zeta in E. set (e := cl_height q / cf_epoch_length d) in *. clearbody e.
  destruct E as [E|(Z & E)]; [eapply tables_gap; eauto|].
  assert (FP : exists n, fuel = Datatypes.S n).
  { change (2 ^ 31) with 2147483648 in F. clear -F. destruct fuel; [cbn in F; lia|eauto]. }
  destruct FP as (n & ->).
  assert (LT : (e <? 2048) = false) by (clear -E; lia).
  unfold shipped in HD. cbn [In] in HD. destruct HD as [<-|[<-|[<-|[<-|[<-|[]]]]]]; try discriminate.
  unfold DatasetSize. cbn [cf_dataset_sizes cfg_ethereum_classic NewLookupTable lt_max lt_table]. rewrite LT. reflexivity.
Qed.

Lemma shipped_history {R} d (eval : list N -> N -> N -> N -> list N -> list N -> outcome R) fits :
  In d (shipped dir) ->
  (forall q r, served_call d q -> wf (cf_caches_count d) r ->
     exists r' a, computeWith keccak256 keccak512 pp fuel (eval (cl_hash q) (cl_height q) (cl_nonce q)) d (cl_order q) (cl_now q) r
       (cl_hash q) (cl_height q) = Done (r', a) /\ wf (cf_caches_count d) r' /\ answer fits q a) ->
  forall calls, Forall (fun q => cl_height q < 2 ^ 64) calls ->
  Forall (fun q => served_call d q \/ lost_call d q) calls ->
  Forall2 (right d fits) calls (snd (serveRecovering keccak256 keccak512 pp fuel left eval d calls new_memory)).
Proof.
  intros HD ONE calls HB FA. destruct (shipped_facts fuel dir F d HD) as (_ & CC & _ & _ & _ & EL & _).
  assert (X := serve_recovering keccak256 keccak512 pp fuel left d CC eval
    (fun q => served_call d q /\ cl_height q < 2 ^ 64) (lost_call d) (answer fits)).
  assert (Y : Forall2 (fun q s => match s with Answered a => (served_call d q /\ cl_height q < 2 ^ 64) /\ answer fits q a
      | Panicked => lost_call d q | _ => False end)
    calls (snd (serveRecovering keccak256 keccak512 pp fuel left eval d calls new_memory))).
  { apply X.
    - intros q r (SV & HQ) W. destruct (ONE q r SV W) as (r' & a & E & _ & A).
      split; [apply SV|]. split; [|eauto].
      assert (2 <= cf_epoch_length d).
      { clear -HD. unfold shipped in HD. cbn [In] in HD. destruct HD as [<-|[<-|[<-|[<-|[<-|[]]]]]]; cbn; lia. }
      change (2 ^ 64) with 18446744073709551616 in *. 
      assert (cl_height q / cf_epoch_length d <= cl_height q / 2) by (apply N.div_le_compat_l; lia).
      lia.
    - intros q. apply lost_panics. auto.
    - apply sound_new. auto.
    - clear -FA HB. induction FA; inversion HB; subst; constructor; auto. tauto. }
  clear -Y. induction Y as [|q s calls ss H _ IH]; constructor; auto. unfold right. destruct s; tauto.
Qed.

Theorem C72_ethereum calls : Forall (fun q => cl_height q < 2 ^ 64) calls ->
  let d := cfg_ethereum dir in
  Forall (fun q => served_call d q \/ lost_call d q) calls ->
  Forall2 (right d (ethash_fits keccak256 keccak512 30000 (fun e => e))) calls
    (snd (serveRecovering keccak256 keccak512 pp fuel left (eval_ethash keccak256 keccak512 d) d calls new_memory)).
Proof.
  intros HB d FA. apply shipped_history; auto; [unfold shipped; cbn [In]; auto 10|].
  apply (ethash_one keccak256 keccak512 pp fuel dir); try reflexivity; auto; [cbn; auto|].
  intros e. unfold place. cbn [cf_epoch_length cf_seed_epoch_length cfg_ethereum d]. lia.
Qed.
Theorem C72_ethereum_classic calls : Forall (fun q => cl_height q < 2 ^ 64) calls ->
  let d := cfg_ethereum_classic dir in
  Forall (fun q => served_call d q \/ lost_call d q) calls ->
  Forall2 (right d (ethash_fits keccak256 keccak512 60000 (fun e => 2 * e))) calls
    (snd (serveRecovering keccak256 keccak512 pp fuel left (eval_ethash keccak256 keccak512 d) d calls new_memory)).
Proof.
  intros HB d FA. apply shipped_history; auto; [unfold shipped; cbn [In]; auto 10|].
  apply (ethash_one keccak256 keccak512 pp fuel dir); try reflexivity; auto; [cbn; auto|].
  intros e. unfold place. cbn [cf_epoch_length cf_seed_epoch_length cfg_ethereum_classic d]. lia.
Qed.
Theorem C72_ravencoin calls : Forall (fun q => cl_height q < 2 ^ 64) calls ->
  let d := cfg_ravencoin dir in
  Forall (fun q => served_call d q \/ lost_call d q) calls ->
  Forall2 (right d (progpow_fits keccak256 keccak512 7500 3 (2 ^ 30) kawpow_seed_pad kawpow_digest_pad)) calls
    (snd (serveRecovering keccak256 keccak512 pp fuel left (eval_kawpow keccak512 d) d calls new_memory)).
Proof.
  intros HB d FA. apply shipped_history; auto; [unfold shipped; cbn [In]; auto 10|].
  apply (progpow_one keccak256 keccak512 pp fuel dir); try reflexivity; auto; [cbn; auto| |].
  - intros e. unfold place. cbn [cf_epoch_length cf_seed_epoch_length cfg_ravencoin d]. lia.
  - intros. apply C30_kawpow; auto.
Qed.
Theorem C72_firo calls : Forall (fun q => cl_height q < 2 ^ 64) calls ->
  let d := cfg_firo dir in
  Forall (fun q => served_call d q \/ lost_call d q) calls ->
  Forall2 (right d (progpow_fits keccak256 keccak512 1300 1 (2 ^ 30 + 2 ^ 29) firopow_seed_pad firopow_digest_pad)) calls
    (snd (serveRecovering keccak256 keccak512 pp fuel left (eval_firopow keccak512 d) d calls new_memory)).
Proof.
  intros HB d FA. apply shipped_history; auto; [unfold shipped; cbn [In]; auto 10|].
  apply (progpow_one keccak256 keccak512 pp fuel dir); try reflexivity; auto; [cbn; auto 10| |].
  - intros e. unfold place. cbn [cf_epoch_length cf_seed_epoch_length cfg_firo d]. lia.
  - intros. apply C30_firopow; auto.
Qed.
Theorem C72_conflux calls : Forall (fun q => cl_height q < 2 ^ 64) calls ->
  let d := cfg_conflux dir in
  Forall (fun q => served_call d q \/ lost_call d q) calls ->
  Forall2 (right d (octopus_fits keccak256 keccak512)) calls
    (snd (serveRecovering keccak256 keccak512 pp fuel left (eval_octopus keccak256 keccak512 fuel d) d calls new_memory)).
Proof.
  intros HB d FA. apply shipped_history; auto; [unfold shipped; cbn [In]; auto 10|].
  apply (conflux_one keccak256 keccak512 pp fuel dir); auto.
Qed.
End Shipped.
Print Assumptions C72_ethereum.
Print Assumptions C72_ethereum_classic.
Print Assumptions C72_ravencoin.
Print Assumptions C72_firo.
Print Assumptions C72_conflux.

(** ** A panic in the generation itself *)

(** The shipped tables avoid it, a configuration with a table entry that is not a multiple of 64 does not: the
    first call of a new client panics, and the next one in that epoch works on what was left there. *)
Theorem C72_second_call_refuted keccak256 keccak512 pp fuel left d {R}
    (eval : list N -> N -> N -> N -> list N -> list N -> outcome R) p q e ds :
  (1 <= cf_caches_count d)%Z -> cf_epoch_length d <> 0 -> e < 2 ^ 64 - 1 ->
  (forall l, Permutation l (cl_order p l)) -> (forall l, Permutation l (cl_order q l)) ->
  length (cl_hash p) = 32%nat -> length (cl_hash q) = 32%nat ->
  cl_height p / cf_epoch_length d = e -> cl_height q / cf_epoch_length d = e ->
  DatasetSize pp fuel d e = Done ds ->
  generate keccak256 keccak512 pp fuel d e = Panic -> (exists x, generate keccak256 keccak512 pp fuel d (e + 1) = Done x) ->
  snd (serveRecovering keccak256 keccak512 pp fuel left eval d [p; q] new_memory) =
  [Panicked;
   match eval (cl_hash q) (cl_height q) (cl_nonce q) ds (fst (left e)) (snd (left e)) with
   | Done v => Answered (Some v) | Panic => Panicked | OutOfFuel => Unknown
   end].
Proof. intros. apply second_call; auto. Qed.
Print Assumptions C72_second_call_refuted.

(** In any history of any client with room: what each call sees.  A call whose size cannot be told panics; one in
    an epoch whose generation succeeds is evaluated on its content, whatever panicked before; one in an epoch whose
    generation panics is told, or is evaluated on what was left.  If the generation of the next epoch panics, in the
    background, the process may end.  No call waits for ever. *)
Theorem C72_each_call keccak256 keccak512 pp fuel left d {R}
    (eval : list N -> N -> N -> N -> list N -> list N -> outcome R) calls i q s :
  (1 <= cf_caches_count d)%Z -> cf_epoch_length d <> 0 ->
  Forall (fun q => (forall l, Permutation l (cl_order q l)) /\ cl_height q / cf_epoch_length d < 2 ^ 64 - 1) calls ->
  nth_error calls i = Some q ->
  nth_error (snd (serveRecovering keccak256 keccak512 pp fuel left eval d calls new_memory)) i = Some s ->
  let e := cl_height q / cf_epoch_length d in
  let seen_on x ds :=
    match eval (cl_hash q) (cl_height q) (cl_nonce q) ds (fst x) (snd x) with
    | Done v => Answered (Some v) | Panic => Panicked | OutOfFuel => Unknown
    end in
  if negb (lenN (cl_hash q) =? 32) then s = Answered None else
  match DatasetSize pp fuel d e with
  | Panic => s = Panicked
  | OutOfFuel => s = Unknown
  | Done ds =>
      match generate keccak256 keccak512 pp fuel d e with
      | Done x => s = seen_on x ds
      | Panic => s = Panicked \/ s = seen_on (left e) ds
      | OutOfFuel => s = Unknown
      end \/
      match generate keccak256 keccak512 pp fuel d (e + 1) with
      | Done _ => False
      | Panic => s = ProcessEnds
      | OutOfFuel => s = Unknown
      end
  end.
Proof.
  intros CC NZ F NQ NS.
  exact (each_call keccak256 keccak512 pp fuel left d CC eval calls NZ F new_memory (sound_new d CC _) i q s NQ NS).
Qed.
Print Assumptions C72_each_call.

(** After any history: of two calls in a row for an epoch whose generation panics, the second is evaluated on what
    was left. *)
Theorem C72_next_call_refuted keccak256 keccak512 pp fuel left d {R}
    (eval : list N -> N -> N -> N -> list N -> list N -> outcome R) before p q e ds log sp sq :
  (1 <= cf_caches_count d)%Z -> cf_epoch_length d <> 0 ->
  Forall (fun q => (forall l, Permutation l (cl_order q l)) /\ cl_height q / cf_epoch_length d < 2 ^ 64 - 1) (before ++ [p; q]) ->
  length (cl_hash p) = 32%nat -> length (cl_hash q) = 32%nat ->
  cl_height p / cf_epoch_length d = e -> cl_height q / cf_epoch_length d = e ->
  DatasetSize pp fuel d e = Done ds -> generate keccak256 keccak512 pp fuel d e = Panic ->
  snd (serveRecovering keccak256 keccak512 pp fuel left eval d (before ++ [p; q]) new_memory) = log ++ [sp; sq] ->
  length log = length before ->
  sq = match eval (cl_hash q) (cl_height q) (cl_nonce q) ds (fst (left e)) (snd (left e)) with
       | Done v => Answered (Some v) | Panic => Panicked | OutOfFuel => Unknown
       end.
Proof.
  intros CC NZ F LP LQ EP EQ DS GP ES LL. apply Forall_app in F. destruct F as (FB & F2).
  inversion F2 as [|? ? FP F3]; subst. inversion F3 as [|? ? FQ _]; subst.
  exact (next_call keccak256 keccak512 pp fuel left d CC eval before p q _ ds NZ FB FP FQ LP LQ eq_refl EQ DS GP
    new_memory log sp sq (sound_new d CC _) ES LL).
Qed.
Print Assumptions C72_next_call_refuted.

(** Without room: the first call whose size can be told panics, and whatever is asked next waits for ever. *)
Theorem C72_no_capacity_calls_refuted keccak256 keccak512 pp fuel left d {R}
    (eval : list N -> N -> N -> N -> list N -> list N -> outcome R) p q rest dp dq :
  (cf_caches_count d <= 0)%Z -> cf_epoch_length d <> 0 -> (forall l, Permutation l (cl_order p l)) ->
  length (cl_hash p) = 32%nat -> length (cl_hash q) = 32%nat ->
  DatasetSize pp fuel d (cl_height p / cf_epoch_length d) = Done dp ->
  DatasetSize pp fuel d (cl_height q / cf_epoch_length d) = Done dq ->
  snd (serveRecovering keccak256 keccak512 pp fuel left eval d (p :: q :: rest) new_memory) = [Panicked; Hangs].
Proof.
  intros CC NZ PO LP LQ DP DQ. cbn [serveRecovering]. unfold computeRecovering, lenN. rewrite LP, LQ.
  change (negb (N.of_nat 32 =? 32)) with false. cbv iota. unfold CalcEpoch, divc.
  destruct (N.eqb_spec (cf_epoch_length d) 0); [congruence|]. cbn [bind]. rewrite DP, DQ. cbn [bind].
  cbn [new_memory me_locked me_reg me_content].
  assert (G : get_locked d (cl_order p) (cl_now p) (cl_height p / cf_epoch_length d) empty_registry = Panic) by (apply (@none_panics N d (fun _ => Whole 0)); auto).
  rewrite G. reflexivity.
Qed.
Print Assumptions C72_no_capacity_calls_refuted.

(** With whole rows left, Ethash answers, with the digests over those rows. *)
Theorem C72_leftover_answers keccak256 keccak512 d hash height nonce size rows l1 :
  hash_ok 64 keccak512 -> length hash = 32%nat -> 128 <= size -> size < 2 ^ 38 -> cache_ok rows -> lenN rows < 2 ^ 28 ->
  eval_ethash keccak256 keccak512 d hash height nonce size (concat rows) l1 =
  Done (hashimoto_spec keccak512 keccak256 hash nonce (size / 128)
          (dataset_item keccak512 (N.to_nat (cf_dataset_parents d)) rows)).
Proof.
  intros H5 L S1 S2 OK B. unfold eval_ethash. apply C22_hashimoto; auto; [lia|].
  intros i Hi. destruct (C14_lookup_funcs keccak512 d rows i H5 OK B) as (A & _).
  change (2 ^ 38) with 274877906944 in S2. change (2 ^ 32) with 4294967296 in A.
  rewrite A by (clear -Hi S2; lia). split; auto. split; [apply dataset_item_length|apply dataset_item_words; exact H5].
Qed.
Print Assumptions C72_leftover_answers.

(** With nothing left, no call in that epoch is ever answered.  This is so when the size cannot be told, and
    when the content goes to a file: there the fields are nil until all of it is written. *)
Lemma nd_l {A B} (x : outcome A) (f : A -> outcome B) : (forall a, x <> Done a) -> forall v, bind x f <> Done v.
Proof. intros H v. destruct x as [a| |]; cbn; [destruct (H a); auto|discriminate|discriminate]. Qed.
Lemma nd_r {A B} (x : outcome A) (f : A -> outcome B) : (forall a v, f a <> Done v) -> forall v, bind x f <> Done v.
Proof. intros H v. destruct x as [a| |]; cbn; [apply H|discriminate|discriminate]. Qed.
Lemma nd_for {S} n (body : N -> S -> outcome S) s : n <> 0 -> (forall t v, body 0 t <> Done v) -> forall v, for_n n body s <> Done v.
Proof.
  intros NZ H v. unfold for_n. destruct (N.to_nat n) eqn:E; [lia|]. cbn [for_up]. apply nd_l. auto.
Qed.
Lemma no_item keccak512 d index v : generateDatasetItem keccak512 d [] index <> Done v.
Proof. unfold generateDatasetItem. change (u32 (lenN (@nil N) / hashWords)) with 0. unfold modc. cbn [N.eqb bind]. discriminate. Qed.
Lemma no_items keccak512 d index size v : size <> 0 -> generateDatasetItemUint keccak512 d [] index size <> Done v.
Proof. intros NZ. unfold generateDatasetItemUint. apply nd_for; auto. intros t w. apply nd_l. intros a. apply no_item. Qed.

Theorem C72_nothing_left keccak256 keccak512 fuel d hash height nonce size l1 :
  (forall v, eval_ethash keccak256 keccak512 d hash height nonce size [] l1 <> Done v) /\
  (forall v, eval_kawpow keccak512 d hash height nonce size [] l1 <> Done v) /\
  (forall v, eval_firopow keccak512 d hash height nonce size [] l1 <> Done v) /\
  (forall v, eval_octopus keccak256 keccak512 fuel d hash height nonce size [] l1 <> Done v).
Proof.
  assert (HA : forall cfg h s, RoundCount cfg <> 0 -> forall v, Hash cfg h s size (NewLookupFunc2048 keccak512 d []) l1 <> Done v).
  { intros cfg h s NZ. unfold Hash. apply nd_r; intros mix. apply nd_r; intros number. apply nd_l.
    apply nd_for; auto. intros t. unfold round. do 5 (apply nd_r; intros ?). apply nd_l. intros item. unfold NewLookupFunc2048.
    apply no_items. discriminate. }
  split; [|split; [|split]].
  - unfold eval_ethash, hashimoto. do 6 (apply nd_r; intros ?). apply nd_l. apply nd_for; [discriminate|].
    intros (mix, temp). do 2 (apply nd_r; intros ?). apply nd_l. apply nd_for; [discriminate|]. intros t. apply nd_l.
    intros. unfold NewLookupFunc512. apply no_items. discriminate.
  - unfold eval_kawpow, kawpow. apply nd_r. intros (seed, head). apply nd_l. apply HA. discriminate.
  - unfold eval_firopow, firopow. apply nd_r. intros (seed, head). apply nd_l. apply HA. discriminate.
  - unfold eval_octopus, octopus. apply nd_r. intros (rb, re). apply nd_r. intros pre. unfold dagPart.
    do 3 (apply nd_r; intros ?). apply nd_l. unfold accesses. apply nd_for; [discriminate|]. intros t.
    do 3 (apply nd_r; intros ?). apply nd_for; [discriminate|]. intros t'. apply nd_l.
    intros. unfold NewLookupFunc512. apply no_items. discriminate.
Qed.
Print Assumptions C72_nothing_left.

(** ** Instances *)

(** A client with three caches, whose size table has an entry that is not a multiple of 64. *)
Definition inst_d (count : Z) : config := {|
  cf_name := []; cf_revision := 23; cf_storage_dir := [];
  cf_dataset_init := 512; cf_dataset_growth := 256; cf_cache_init := 256; cf_cache_growth := 128;
  cf_cache_sizes := NewLookupTable [132] 1; cf_dataset_sizes := None;
  cf_mix_bytes := 128; cf_dataset_parents := 4; cf_epoch_length := 10; cf_seed_epoch_length := 10;
  cf_cache_rounds := 3; cf_caches_count := count; cf_caches_lock_mmap := false;
  cf_l1_enabled := false; cf_l1_cache_size := 0; cf_l1_cache_num_items := 0 |}.

(** One goroutine after the other asks for epoch 5, whose generation panics: the first is told, the second gets
    the unfinished content.  The background generation is for epoch 6, and has not started. *)
Definition inst_gen (e : N) : made N := if e =? 5 then Cut 35 else Whole (7 * e).
Ltac inst_step E t :=
  let E' := fresh in
  eassert (E' : rexecution (inst_d 3) inst_gen _);
  [eapply (rx_step _ _ _ _ E); eapply (r_step _ _ _ t);
   [reflexivity|reflexivity|cbn [th_pc]; first
     [eapply (s_write _ _ _ _ _ _ (fun m => m) 1%Z); [intros; apply Permutation_refl|reflexivity]
     |eapply s_call_done; reflexivity|eapply s_check_done; reflexivity
     |eapply s_lock; reflexivity|eapply s_slow; reflexivity|econstructor; reflexivity|econstructor]]
  |clear E; rename E' into E; cbv - [inst_d] in E].
Example C72_concurrent_instance : exists x c, rexecution (inst_d 3) inst_gen x /\
  panicked x 0 5 /\ answered x 2 5 c /\ rs_ended x = false /\
  go_content (sh_obj (sy_shared (rs_sys x)) (co_id c)) = Complete (Cut 35).
Proof.
  assert (E := rx_init (inst_d 3) inst_gen).
  apply (rx_request _ _ _ 5) in E; [|reflexivity|reflexivity].
  do 11 (inst_step E 0%nat).
  apply (rx_request _ _ _ 5) in E; [|reflexivity|reflexivity]. cbv - [inst_d] in E.
  do 5 (inst_step E 2%nat).
  eexists. eexists. split; [exact E|]. split; [|split; [|split]].
  - split; [reflexivity|]. left. eexists. reflexivity.
  - split; reflexivity.
  - reflexivity.
  - reflexivity.
Qed.

(** Without room: the request panics, and another one that arrives then waits for ever. *)
Example C72_no_capacity_instance : exists x, rexecution (inst_d 0) inst_gen x /\ panicked x 0 5 /\
  (forall x', ~ rstep (inst_d 0) inst_gen x x').
Proof.
  assert (E := rx_init (inst_d 0) inst_gen).
  apply (rx_request _ _ _ 5) in E; [|reflexivity|reflexivity].
  eapply rx_step in E; [|eapply (r_step _ _ _ 0); [reflexivity|reflexivity|eapply s_lock; reflexivity]].
  eapply rx_step in E; [|eapply (r_step _ _ _ 0); [reflexivity|reflexivity|eapply s_read]].
  eapply rx_step in E; [|eapply (r_locked _ _ _ 0 _ _ _ (fun m => m) 1%Z); [reflexivity|reflexivity|reflexivity|intros; apply Permutation_refl|reflexivity]].
  apply (rx_request _ _ _ 9) in E; [|reflexivity|reflexivity].
  match type of E with rexecution _ _ ?x => assert (P : panicked x 0 5) by (split; [reflexivity|right; eexists; reflexivity]) end.
  eexists. split; [exact E|].
  split; [exact P|].
  apply (C72_no_capacity_refuted (inst_d 0) inst_gen _ (Z.le_refl 0) E) in P. apply P.
Qed.

(** A history for the Ethereum client that meets the hypotheses: an epoch without table entry, then a served one. *)
Example C72_history_instance :
  let calls := [mkCall (repeat 7 32) (2045 * 30000) 1 1 (fun m => m); mkCall (repeat 7 32) 123456 2 2 (fun m => m)] in
  Forall (fun q => cl_height q < 2 ^ 64) calls /\
  Forall (fun q => served_call (cfg_ethereum []) q \/ lost_call (cfg_ethereum []) q) calls.
Proof.
  split; [repeat constructor; reflexivity|].
  constructor; [right|constructor; [left|constructor]].
  - split; [reflexivity|]. left. split; [discriminate|reflexivity].
  - split; [intros; apply Permutation_refl|]. split; [repeat constructor|]. split; [reflexivity|]. intros _. left. reflexivity.
Qed.

(** The first of two calls in epoch 0 of a client that keeps its caches in memory panics, after the rows that
    fit were hashed; the second is answered from them. *)
Definition inst_left (e : N) : list N * list N :=
  match hash_into toy_hash 64 (zeros 132) 0 (repeat 0 32) with
  | Done b => match slice b 0 64 with
              | Done r0 => match hash_into toy_hash 64 b 64 r0 with Done b => (le_words 33 b, []) | _ => ([], []) end
              | _ => ([], [])
              end
  | _ => ([], [])
  end.
Definition inst_pp (n : N) : bool := (n =? 3) || (n =? 5).
Definition inst_256 (b : list N) : list N := firstn 32 (toy_hash b).
Example C72_second_call_instance :
  DatasetSize inst_pp 50 (inst_d 3) 0 = Done 384 /\
  generate inst_256 toy_hash inst_pp 50 (inst_d 3) 0 = Panic /\
  (exists x, generate inst_256 toy_hash inst_pp 50 (inst_d 3) 1 = Done x).
Proof. split; [reflexivity|]. split; [vm_compute; reflexivity|]. eexists; vm_compute; reflexivity. Qed.
Definition inst_calls : list call := [mkCall (repeat 7 32) 3 1 1 (fun m => m); mkCall (repeat 7 32) 4 2 2 (fun m => m)].
Definition inst_seen : list (seen (list N * list N)) :=
  snd (serveRecovering inst_256 toy_hash inst_pp 50 inst_left (eval_ethash inst_256 toy_hash (inst_d 3)) (inst_d 3) inst_calls new_memory).
Definition told_then_answered (l : list (seen (list N * list N))) : bool :=
  match l with [Panicked; Answered (Some (mix, digest))] => (lenN mix =? 32) && (lenN digest =? 32) | _ => false end.
Check (eq_refl true <: told_then_answered inst_seen = true).
Check (eq_refl true <: (lenN (fst (inst_left 0)) =? 33) && negb (nth 20 (fst (inst_left 0)) 0 =? 0) = true).

(** The same after another call, in epoch 7.  And a client in which the epoch after
    the one asked for has the bad entry: the process ends.  And one without room. *)
Definition inst_calls2 : list call := mkCall (repeat 9 32) 75 1 1 (fun m => m) :: inst_calls.
Definition inst_seen2 : list (seen (list N * list N)) :=
  snd (serveRecovering inst_256 toy_hash inst_pp 50 inst_left (eval_ethash inst_256 toy_hash (inst_d 3)) (inst_d 3) inst_calls2 new_memory).
Check (eq_refl true <: match inst_seen2 with Answered (Some _) :: l => told_then_answered l | _ => false end = true).
Definition inst_bad1 : config := {|
  cf_name := []; cf_revision := 23; cf_storage_dir := [];
  cf_dataset_init := 512; cf_dataset_growth := 256; cf_cache_init := 256; cf_cache_growth := 128;
  cf_cache_sizes := NewLookupTable [192; 132] 2; cf_dataset_sizes := None;
  cf_mix_bytes := 128; cf_dataset_parents := 4; cf_epoch_length := 10; cf_seed_epoch_length := 10;
  cf_cache_rounds := 3; cf_caches_count := 3; cf_caches_lock_mmap := false;
  cf_l1_enabled := false; cf_l1_cache_size := 0; cf_l1_cache_num_items := 0 |}.
Example C72_each_call_instance :
  snd (serveRecovering inst_256 toy_hash inst_pp 50 inst_left (eval_ethash inst_256 toy_hash inst_bad1) inst_bad1 inst_calls new_memory)
  = [ProcessEnds] /\
  generate inst_256 toy_hash inst_pp 50 inst_bad1 1 = Panic.
Proof. split; vm_compute; reflexivity. Qed.
Example C72_no_capacity_calls_instance :
  snd (serveRecovering inst_256 toy_hash inst_pp 50 inst_left (eval_ethash inst_256 toy_hash (inst_d 0)) (inst_d 0) inst_calls new_memory)
  = [Panicked; Hangs] /\
  DatasetSize inst_pp 50 (inst_d 0) 0 = Done 384.
Proof. split; vm_compute; reflexivity. Qed.
