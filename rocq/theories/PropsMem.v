(** C71: calls share nothing but what they only read. *)
From Coq Require Import NArith ZArith Arith List Bool Lia ZifyBool ZifyN ZifyNat.
From Verif Require Import Base BaseFacts DagModel EthashModel ProgpowModel HeavyModel EagleTables BeamModel CuckooModel MemModel MemSpec MemProofs MemDag MemProgpow MemCalls MemCallsProofs.
Import ListNotations.
Open Scope N_scope.

Section C71.
Variable o : outside.
Hypothesis sizes : right_sizes o.

(** [m0] is memory before the calls: the slices of the requests are valid slices of arrays that exist, and the
    package variables have their values.  They may share arrays in any way. *)
Definition set_up (m0 : memory) (reqs : list request) : Prop :=
  (forall r s, In r reqs -> In s (slices r) -> valid m0 s /\ owner (s_loc s) = 0) /\
  initialised m0 /\ (forall r, In r reqs -> in_range r).
(** [s] is a state in which the calls, started together, can be. *)
Definition reached (m0 : memory) (reqs : list request) (s : memory * calls answer) : Prop :=
  csteps (m0, started (map (program o) reqs)) s.

Lemma set_up_fits m0 reqs r : set_up m0 reqs -> In r reqs -> fits m0 r.
Proof. intros (V & T & K) I. split; [|split; [exact T|auto]]. intros s I'. apply (V r); auto. Qed.
Lemma all_safe m0 reqs : set_up m0 reqs -> forall t p, nth_error (map (program o) reqs) t = Some p ->
  safe (N.of_nat t + 1) p (fun _ => True).
Proof.
  intros F t p T. rewrite nth_error_map in T. destruct (nth_error reqs t) as [r|] eqn:R; [|discriminate]. injection T as <-.
  apply (safe_program o _ m0). eapply set_up_fits; eauto. eapply nth_error_In; exact R.
Qed.

(** Whatever the interleaving, at every moment: what was there before the calls is unchanged, and a call that has
    answered has answered what the model of its algorithm says for its arguments alone, in arrays of its own; a
    call that has panicked is one for which the model says so. *)
Theorem C71_calls_together m0 reqs s : set_up m0 reqs -> reached m0 reqs s ->
  (forall l, owner l = 0 -> fst s l = m0 l) /\ length (snd s) = length reqs /\
  forall t r p n, nth_error reqs t = Some r -> nth_error (snd s) t = Some (p, n) ->
    match p with
    | Ret a => exists v, expected o m0 r = Done v /\ answers (N.of_nat t + 1) (fst s) a v
    | Fail => expected o m0 r = Panic
    | Spent => expected o m0 r = OutOfFuel
    | _ => True
    end.
Proof.
  intros F ST. destruct (together _ (fun _ => True) m0 s (all_safe m0 reqs F) ST) as (SH & LEN & X).
  split; [exact SH|]. split; [rewrite LEN; apply map_length|].
  intros t r p n R T. destruct (X t _ p n (map_nth_error _ _ _ R) T) as (mt & E & SV & _).
  pose proof (sim_program o sizes (N.of_nat t + 1) m0 r ltac:(lia)
    (set_up_fits m0 reqs r F (nth_error_In _ _ R))) as S.
  unfold sim in S. rewrite E in S. destruct p; auto; cbn [run] in S;
    destruct (expected o m0 r) as [v| |] eqn:V; try contradiction; auto.
  exists v. split; [reflexivity|]. eapply answers_same; [|exact S]. intros l O. symmetry. apply SV. right. exact O.
Qed.

(** Every access of a call is to an array it made itself, or reads an array that was there before the calls. *)
Theorem C71_accesses m0 reqs s t p n l i w : set_up m0 reqs -> reached m0 reqs s ->
  nth_error (snd s) t = Some (p, n) -> access p = Some (l, i, w) ->
  owner l = N.of_nat t + 1 \/ (owner l = 0 /\ w = false).
Proof.
  intros F ST T A. destruct (together _ (fun _ => True) m0 s (all_safe m0 reqs F) ST) as (_ & LEN & X).
  destruct (nth_error (map (program o) reqs) t) as [q|] eqn:Q.
  2:{ exfalso. apply nth_error_None in Q. assert (Y : nth_error (snd s) t <> None) by congruence. apply nth_error_Some in Y. lia. }
  destruct (X t q p n Q T) as (_ & _ & _ & S). destruct p; try discriminate; injection A as -> -> <-; cbn [safe] in S.
  - destruct S as ([V|V] & _); auto.
  - left. apply S.
Qed.
(** Hence no two calls access the same array, at the same time or one after the other, unless both only read it. *)
Theorem C71_no_conflict m0 reqs s s' t u p q n k l i j w w' : set_up m0 reqs -> reached m0 reqs s -> reached m0 reqs s' ->
  nth_error (snd s) t = Some (p, n) -> nth_error (snd s') u = Some (q, k) -> t <> u ->
  access p = Some (l, i, w) -> access q = Some (l, j, w') -> w = false /\ w' = false.
Proof.
  intros F ST ST' T U NE A B.
  destruct (C71_accesses _ _ _ _ _ _ _ _ _ F ST T A) as [O|(O & ->)], (C71_accesses _ _ _ _ _ _ _ _ _ F ST' U B) as [O'|(O' & ->)]; auto; lia.
Qed.

(** No schedule goes on for ever or gets stuck: from every state all calls can be run to their end, and every
    sequence of steps ends. *)
Theorem C71_every_schedule_ends m0 reqs s : reached m0 reqs s ->
  Acc (fun s' s => cstep s s') s /\
  exists s', csteps s s' /\ reached m0 reqs s' /\ forall p n, In (p, n) (snd s') -> finished p.
Proof.
  intros R. split; [apply csteps_end|]. destruct (csteps_finish s) as (s' & ST & F). exists s'. split; [exact ST|]. split; [|exact F].
  eapply csteps_trans; [exact R|exact ST].
Qed.
End C71.
Print Assumptions C71_calls_together.
Print Assumptions C71_accesses.
Print Assumptions C71_no_conflict.
Print Assumptions C71_every_schedule_ends.

(** Two FiroPow calls with the same cache and header, a KawPow call, Ethash calls with a good header, with one
    that is too short and with an empty dataset, and a call of each of the others, all at once. *)
Definition toy (k : nat) (x : list N) : list N := map (fun i => (fold_right N.add (N.of_nat i * 37) x * 11 + lenN x) mod 256) (seq 0 k).
Definition ex_outside : outside :=
  mkOutside (toy 64) (toy 32) (toy 32) (fun a b => toy 32 (a ++ b)) (fun s _ _ => repeat 0 (N.to_nat s)) (fun x y z => fsub x (fmul y z)) (fun k => 2 * k) 1000.
Definition ex_config : config := mkConfig [] 0 [] 0 0 0 0 None None 128 2 1 1 3 1 false true 0 0.
Definition ex_memory : memory := fun l =>
  match l with
  | (0, 0) => ravencoinKawpow
  | (0, 1) => bitMatrix
  | (0, 2) => EagleTables.coefficients
  | (0, 3) => injectionConstants
  | (0, 4) => [indexMask]
  | (0, 5) => [collisionMask]
  | (0, 6) => [mixMask]
  | (0, 11) => map (fun i => N.of_nat i * 2654435761 mod 2 ^ 32) (seq 0 64)    (* a cache of four rows *)
  | (0, 12) => map (fun i => N.of_nat i * 40503 mod 2 ^ 32) (seq 0 4096)       (* the L1 cache *)
  | (0, 13) => map (fun i => N.of_nat i * 7 mod 256) (seq 0 40)                (* a buffer with a header in it *)
  | (0, 14) => [0; 0; 64; 64; 48; 32; 20; 12; 7] ++ map (fun i => N.of_nat i * 11 mod 256) (seq 0 104)   (* 0 to 7 in nine bits each, and more *)
  | (0, 15) => [66; 101; 97; 109; 45; 80; 111; 87]                                                     (* a personalisation *)
  | _ => []
  end.
Definition ex_cache : sl := mkSl (0, 11) 0 64 64.
Definition ex_l1 : sl := mkSl (0, 12) 0 4096 4096.
Definition ex_hash : sl := mkSl (0, 13) 4 32 36.
Definition ex_personal : sl := mkSl (0, 15) 0 8 8.
Definition ex_cuckoo : client := mkClient Cuckoo 42 (2 ^ 29 - 1) (Some (fun m k e s => Done (CryptoModel.SipNode24Legacy m k e s))) None.   (* NewAeternity *)
Definition ex_requests : list request :=
  [AskFiropow ex_config ex_cache ex_l1 ex_hash 10 5 4096; AskFiropow ex_config ex_cache ex_l1 ex_hash 10 6 4096;
   AskKawpow ex_config ex_cache ex_l1 ex_hash 10 5 4096; AskEthash ex_config ex_cache ex_hash 7 4096;
   AskEthash ex_config ex_cache (mkSl (0, 13) 4 31 36) 7 4096; AskEthash ex_config ex_cache ex_hash 7 0;
   AskOctopus ex_config ex_cache ex_hash 7 4096; AskHeavyhash ex_hash 1650000000 7; AskAutolykos2 32 (2 ^ 26) ex_hash 700000 7;
   AskEaglesong 43 32 256 6 ex_hash; AskCuckoo ex_cuckoo ex_hash (mkSl (0, 14) 9 42 104);
   AskEquihash 32 3 ex_personal ex_hash (mkSl (0, 14) 0 9 113) false; AskEquihash 32 3 ex_personal ex_hash (mkSl (0, 14) 0 9 113) true;
   AskBeam ex_personal (mkSl (0, 13) 0 40 40) (mkSl (0, 14) 9 104 104)].
(** Answers, an error and a panic. *)
Check (eq_refl true <: forallb (fun p : request * N =>
    match expected ex_outside ex_memory (fst p), snd p with
    | Done (Some ([a; b], [])), 0 => (lenN a =? 32) && (lenN b =? 32)
    | Done None, 1 => true
    | Done (Some ([a], [])), 3 => lenN a =? 32
    | Panic, 2 => true
    | Done (Some ([], [0; e])), 4 => e =? 5
    | Done (Some ([], [v])), 5 => v =? 1
    | _, _ => false
    end) (combine (skipn 2 ex_requests) [0; 0; 1; 2; 3; 3; 3; 3; 4; 5; 5; 1]) = true).
Example C71_instance :
  right_sizes ex_outside /\ set_up ex_memory ex_requests /\
  exists s, reached ex_outside ex_memory ex_requests s /\ forall p n, In (p, n) (snd s) -> finished p.
Proof.
  split; [|split].
  - unfold right_sizes, ex_outside, toy, lenN. cbn [MemCalls.keccak512 keccak256 blake2b256 cshake blake2b room].
    repeat split; intros; rewrite ?map_length, ?seq_length, ?repeat_length; try reflexivity; lia.
  - split; [|split].
    + intros r s R S. repeat (destruct R as [<-|R]; [|]); try destruct R;
      cbn [slices In] in S; repeat (destruct S as [<-|S]; [split; [split; vm_compute; discriminate|reflexivity]|]); destruct S.
    + unfold initialised. repeat split; reflexivity.
    + intros r R. repeat (destruct R as [<-|R]; [cbn; try exact I; lia|]). destruct R.
  - destruct (C71_every_schedule_ends ex_outside ex_memory ex_requests _ (cs_refl _)) as (_ & s & _ & R & F).
    exists s. auto.
Qed.

(** The theorems would not hold of calls that share a hasher: with one hasher made before the calls, two lookups
    in the same cache race, and [C71_no_conflict] fails. *)
Example C71_shared_hasher_refuted :
  let shared : sl := mkSl (0, 9) 0 1 1 in
  let lookup := p_generateDatasetItemUint (toy 64) ex_config ex_cache 0 1 shared in
  exists s p q n k i j, csteps (fun l => if loc_eqb l (0, 9) then [0] else ex_memory l, started [lookup; lookup]) s /\
    nth_error (snd s) 0 = Some (p, n) /\ nth_error (snd s) 1 = Some (q, k) /\
    access p = Some ((0, 9), i, true) /\ access q = Some ((0, 9), j, true).
Proof.
  intros shared lookup. set (m0 := fun l => if loc_eqb l (0, 9) then [0] else ex_memory l).
  pose (k := 82%nat).
  destruct (ahead 1 k (m0, lookup, 0)) as [[m1 p1] n1] eqn:E1. destruct (ahead 2 k (m1, lookup, 0)) as [[m2 p2] n2] eqn:E2.
  assert (S1 := ahead_steps k m0 (started [lookup; lookup]) 0 lookup 0 m1 p1 n1 eq_refl E1).
  assert (S2 := ahead_steps k m1 (set_nth (started [lookup; lookup]) 0 (p1, n1)) 1 lookup 0 m2 p2 n2 eq_refl E2).
  exists (m2, [(p1, n1); (p2, n2)]), p1, p2, n1, n2, 0, 0.
  split; [eapply csteps_trans; [exact S1|exact S2]|]. split; [reflexivity|]. split; [reflexivity|].
  assert (A1 : access (snd (fst (ahead 1 k (m0, lookup, 0)))) = Some ((0, 9), 0, true)) by (vm_compute; reflexivity).
  assert (A2 : access (snd (fst (ahead 2 k (fst (fst (ahead 1 k (m0, lookup, 0))), lookup, 0)))) = Some ((0, 9), 0, true)) by (vm_compute; reflexivity).
  rewrite E1 in A1, A2. cbn [fst snd] in A1, A2. rewrite E2 in A2. auto.
Qed.
Print Assumptions C71_shared_hasher_refuted.
