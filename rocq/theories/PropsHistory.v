(** C16, C23, C31, C58, C59: what the answers of the clients depend on, their sizes and their errors. *)
From Coq Require Import NArith ZArith Arith List Bool Lia ZifyBool ZifyN ZifyNat Permutation Znumtheory.
From Verif Require Import Base BaseFacts KeccakSpec CryptoModel DagModel DagSpec DagContent FileModel FileJob FileJobProofs
  RegModel RegSpec RegProofs EthashModel EthashSpec ProgpowModel ProgpowSpec ProgpowHash OctopusModel OctopusSpec
  PropsDagSize PropsDagContent PropsEthash PropsProgpow PropsOctopus ClientModel ClientSpec ClientProofs PropsClients.
Import ListNotations.
Open Scope N_scope.
Ltac Zify.zify_post_hook ::= Z.div_mod_to_equations.

(** ** C23, C31 *)

(** A call with arguments of their Go types. *)
Definition typed_call (q : call) : Prop :=
  (forall m, Permutation m (cl_order q m)) /\ cl_height q < 2 ^ 64.

Section Histories.
Context {R : Type}.
Variables keccak256 keccak512 : list N -> list N.
Variable pp : N -> bool.
Variable fuel : nat.
Variable d : config.
Hypothesis CC : (1 <= cf_caches_count d)%Z.
Hypothesis EL : 2 <= cf_epoch_length d.
Variable ev : list N -> N -> N -> N -> list N -> list N -> outcome R.
Notation compute := (fun order now r hash height nonce =>
  computeWith keccak256 keccak512 pp fuel (ev hash height nonce) d order now r hash height).

Lemma epoch_bound q : typed_call q -> cl_height q / cf_epoch_length d < 2 ^ 64 - 1.
Proof.
  intros (_ & H). change (2 ^ 64) with 18446744073709551616 in *.
  apply N.le_lt_trans with (cl_height q / 2); [apply N.div_le_compat_l; lia|lia].
Qed.

Lemma serve_wf calls r r' xs : Forall typed_call calls -> wf (cf_caches_count d) r ->
  serve compute calls r = Done (r', xs) -> wf (cf_caches_count d) r'.
Proof.
  revert r xs. induction calls as [|q calls IH]; intros r xs FA W E; cbn [serve] in E.
  - injection E as <- _. exact W.
  - inversion FA as [|? ? T FA']; subst.
    destruct (computeWith _ _ _ _ _ _ _ _ r _ _) as [(r1 & a)| |] eqn:C; cbn [bind] in E; try discriminate.
    destruct (serve compute calls r1) as [(r2 & ys)| |] eqn:S; cbn [bind] in E; try discriminate. injection E as <- _.
    apply (IH r1 ys FA'); auto.
    destruct (computeWith_inv keccak256 keccak512 pp fuel d CC _ _ _ r _ _ r1 a (proj1 T) W (epoch_bound q T) C) as [(_ & -> & _)|(_ & X)]; auto.
    cbv zeta in X. destruct X as (? & ? & ? & ? & ? & ? & X). tauto.
Qed.

Lemma serve_length calls r r' xs : serve compute calls r = Done (r', xs) -> length xs = length calls.
Proof.
  revert r xs. induction calls as [|q calls IH]; intros r xs E; cbn [serve] in E.
  - injection E as _ <-. reflexivity.
  - destruct (computeWith _ _ _ _ _ _ _ _ r _ _) as [(r1 & a)| |] eqn:C; cbn [bind] in E; try discriminate.
    destruct (serve compute calls r1) as [(r2 & ys)| |] eqn:S; cbn [bind] in E; try discriminate. injection E as <- <-.
    cbn [length]. f_equal. apply (IH r1); auto.
Qed.

Lemma serve_last calls q r r' xs x : serve compute (calls ++ [q]) r = Done (r', xs ++ [x]) ->
  exists r1 ys, serve compute calls r = Done (r1, ys) /\
    compute (cl_order q) (cl_now q) r1 (cl_hash q) (cl_height q) (cl_nonce q) = Done (r', x).
Proof.
  revert r xs. induction calls as [|p calls IH]; intros r xs E; cbn [app serve] in *.
  - destruct (computeWith _ _ _ _ _ _ _ _ r _ _) as [(r1 & a)| |] eqn:C; cbn [bind] in E; try discriminate.
    injection E as <- E. exists r, []. split; [reflexivity|]. cbv beta. rewrite C.
    destruct xs as [|? xs]; [injection E as ->; reflexivity|]. destruct xs; discriminate.
  - destruct (computeWith _ _ _ _ _ _ _ _ r _ _) as [(r1 & a)| |] eqn:C; cbn [bind] in E; try discriminate.
    destruct (serve compute (calls ++ [q]) r1) as [(r2 & zs)| |] eqn:S; cbn [bind] in E; try discriminate. injection E as <- E.
    destruct xs as [|y xs].
    { injection E as -> ->. apply serve_length in S. rewrite app_length in S. cbn [length] in S. lia. }
    injection E as -> ->. destruct (IH r1 xs S) as (r3 & ys & E3 & E4). exists r3, (y :: ys).
    cbn [bind]. rewrite E3. cbn [bind]. auto.
Qed.

(** Two calls with the same hash whose heights lie in the same epoch and make [ev] the same function. *)
Lemma same_answer calls calls' q q' r r' xs xs' x x' :
  Forall typed_call (calls ++ [q]) -> Forall typed_call (calls' ++ [q']) ->
  cl_hash q = cl_hash q' -> cl_height q / cf_epoch_length d = cl_height q' / cf_epoch_length d ->
  (forall size cache l1, ev (cl_hash q) (cl_height q) (cl_nonce q) size cache l1 = ev (cl_hash q) (cl_height q') (cl_nonce q') size cache l1) ->
  serve compute (calls ++ [q]) empty_registry = Done (r, xs ++ [x]) ->
  serve compute (calls' ++ [q']) empty_registry = Done (r', xs' ++ [x']) -> x = x'.
Proof.
  intros T T' EH EE EV S S'. apply Forall_app in T. apply Forall_app in T'.
  destruct T as (T & TQ), T' as (T' & TQ'). inversion TQ as [|? ? Q _]; subst. inversion TQ' as [|? ? Q' _]; subst.
  destruct (serve_last _ _ _ _ _ _ S) as (r1 & ys & S1 & C). destruct (serve_last _ _ _ _ _ _ S') as (r1' & ys' & S1' & C').
  cbv beta in C, C'.
  assert (CC0 : (0 <= cf_caches_count d)%Z) by lia.
  pose proof (serve_wf _ _ _ _ T (wf_empty _ CC0) S1) as W. pose proof (serve_wf _ _ _ _ T' (wf_empty _ CC0) S1') as W'.
  destruct (computeWith_inv keccak256 keccak512 pp fuel d CC _ _ _ _ _ _ _ _ (proj1 Q) W (epoch_bound q Q) C) as [(L & _ & ->)|(L & X)];
  destruct (computeWith_inv keccak256 keccak512 pp fuel d CC _ _ _ _ _ _ _ _ (proj1 Q') W' (epoch_bound q' Q') C') as [(L' & _ & ->)|(L' & X')];
    try (rewrite EH in L; contradiction); try reflexivity.
  cbv zeta in X, X'. destruct X as (ds & cache & l1 & y & c & sp & _ & D1 & D2 & D3 & -> & _).
  destruct X' as (ds' & cache' & l1' & y' & c' & sp' & _ & D1' & D2' & D3' & -> & _).
  rewrite <- EE in D1', D2'. rewrite D1 in D1'. injection D1' as <-. rewrite D2 in D2'. injection D2' as <- <-.
  rewrite EV in D3. rewrite <- EH in D3'. rewrite D3 in D3'. injection D3' as <-. reflexivity.
Qed.
End Histories.

(** Whatever two clients of the same configuration have served before, two calls in the same epoch get the same
    answer.  Both clients may be one client. *)
Theorem C23_ethash keccak256 keccak512 pp fuel d calls calls' q q' r r' xs xs' x x' :
  (1 <= cf_caches_count d)%Z -> 2 <= cf_epoch_length d ->
  Forall typed_call (calls ++ [q]) -> Forall typed_call (calls' ++ [q']) ->
  cl_hash q = cl_hash q' -> cl_nonce q = cl_nonce q' ->
  cl_height q / cf_epoch_length d = cl_height q' / cf_epoch_length d ->
  serve (Compute_ethash keccak256 keccak512 pp fuel d) (calls ++ [q]) empty_registry = Done (r, xs ++ [x]) ->
  serve (Compute_ethash keccak256 keccak512 pp fuel d) (calls' ++ [q']) empty_registry = Done (r', xs' ++ [x']) ->
  x = x'.
Proof.
  intros CC EL T T' EH EN EE. apply (same_answer keccak256 keccak512 pp fuel d CC EL
    (fun hash height nonce size cache _ => hashimoto keccak512 keccak256 hash nonce size (NewLookupFunc512 keccak512 d cache))); try assumption.
  intros. rewrite EN. reflexivity.
Qed.
Theorem C23_octopus keccak256 keccak512 pp fuel d calls calls' q q' r r' xs xs' x x' :
  (1 <= cf_caches_count d)%Z -> 2 <= cf_epoch_length d ->
  Forall typed_call (calls ++ [q]) -> Forall typed_call (calls' ++ [q']) ->
  cl_hash q = cl_hash q' -> cl_nonce q = cl_nonce q' ->
  cl_height q / cf_epoch_length d = cl_height q' / cf_epoch_length d ->
  serve (Compute_octopus keccak256 keccak512 pp fuel d) (calls ++ [q]) empty_registry = Done (r, xs ++ [x]) ->
  serve (Compute_octopus keccak256 keccak512 pp fuel d) (calls' ++ [q']) empty_registry = Done (r', xs' ++ [x']) ->
  x = x'.
Proof.
  intros CC EL T T' EH EN EE. apply (same_answer keccak256 keccak512 pp fuel d CC EL
    (fun hash height nonce size cache _ => octopus fuel keccak512 keccak256 hash nonce size (NewLookupFunc512 keccak512 d cache))); try assumption.
  intros. rewrite EN. reflexivity.
Qed.
Print Assumptions C23_ethash.
Print Assumptions C23_octopus.

(** KawPoW looks at the height through its period only, and Ravencoin's epochs are whole periods. *)
Lemma kawpow_period hash height height' nonce size lookup l1 : height / 3 = height' / 3 ->
  kawpow hash height nonce size lookup l1 = kawpow hash height' nonce size lookup l1.
Proof.
  intros E. unfold kawpow.
  assert (H : forall s, Hash kawpow_cfg height s size lookup l1 = Hash kawpow_cfg height' s size lookup l1).
  { intros s. unfold Hash, divc. change (PeriodLength kawpow_cfg) with 3. change (3 =? 0) with false. cbv iota. rewrite E. reflexivity. }
  destruct (kawpow_initialize hash nonce) as [(seed & head)| |]; cbn [bind]; auto. rewrite H. reflexivity.
Qed.
Theorem C31_period keccak256 keccak512 pp fuel dir calls calls' q q' r r' xs xs' x x' :
  Forall typed_call (calls ++ [q]) -> Forall typed_call (calls' ++ [q']) ->
  cl_hash q = cl_hash q' -> cl_nonce q = cl_nonce q' -> cl_height q / 3 = cl_height q' / 3 ->
  serve (Compute_kawpow keccak256 keccak512 pp fuel (cfg_ravencoin dir)) (calls ++ [q]) empty_registry = Done (r, xs ++ [x]) ->
  serve (Compute_kawpow keccak256 keccak512 pp fuel (cfg_ravencoin dir)) (calls' ++ [q']) empty_registry = Done (r', xs' ++ [x']) ->
  x = x'.
Proof.
  intros T T' EH EN EE.
  assert (EP : cl_height q / 7500 = cl_height q' / 7500).
  { change 7500 with (3 * 2500). rewrite <- !N.div_div, EE by discriminate. reflexivity. }
  apply (same_answer keccak256 keccak512 pp fuel (cfg_ravencoin dir)) with
    (ev := fun hash height nonce size cache l1 => kawpow hash height nonce size (NewLookupFunc2048 keccak512 (cfg_ravencoin dir) cache) l1); try assumption.
  - cbn. lia.
  - cbn. lia.
  - intros. rewrite EN. apply kawpow_period. exact EE.
Qed.
Print Assumptions C31_period.
(** Firo changes its program at every height, so nothing of the kind holds there; for it only the epoch is shared
    (C12_firo). *)

(** ** C16 *)

(** The lookup answers for the items that lie wholly inside the dataset of [size] bytes; outside it may do
    anything, panic included.  The evaluation returns, and what it returns is a function of the items alone. *)
Theorem C16_ethash H512 H256 hash nonce size lookup item :
  hash_ok 64 H512 -> length hash = 32%nat -> 128 <= size -> size <= 2 ^ 38 ->
  (forall i, (i + 1) * 64 <= size -> lookup i = Done (item i) /\ length (item i) = 16%nat /\ words 32 (item i)) ->
  exists r, hashimoto H512 H256 hash nonce size lookup = Done r /\
    forall lookup', (forall i, (i + 1) * 64 <= size -> lookup' i = lookup i) -> hashimoto H512 H256 hash nonce size lookup' = Done r.
Proof.
  intros HH LH S1 S2 LK.
  assert (IN : forall i, i < 2 * (size / 128) -> (i + 1) * 64 <= size) by (intros; lia).
  eexists. split.
  - apply (C22_hashimoto H512 H256 hash nonce size lookup item); auto.
  - intros lookup' L'. apply (C22_hashimoto H512 H256 hash nonce size lookup' item); auto. intros i Hi. rewrite L' by auto. auto.
Qed.
Theorem C16_octopus fuel H512 H256 hash nonce size lookup item :
  hash_ok 64 H512 -> (64 <= fuel)%nat -> length hash = 32%nat -> bytes hash -> nonce < 2 ^ 64 -> 256 <= size -> size <= 2 ^ 38 ->
  (forall i, (i + 1) * 64 <= size -> lookup i = Done (item i) /\ length (item i) = 16%nat /\ words 32 (item i)) ->
  exists r, octopus fuel H512 H256 hash nonce size lookup = Done r /\
    forall lookup', (forall i, (i + 1) * 64 <= size -> lookup' i = lookup i) -> octopus fuel H512 H256 hash nonce size lookup' = Done r.
Proof.
  intros HH FU LH BH NB S1 S2 LK.
  assert (IN : forall i, i < 4 * (size / 256) -> (i + 1) * 64 <= size) by (intros; lia).
  destruct (C35_digest fuel H512 H256 hash nonce size lookup item HH FU LH BH NB S1 S2 (fun i Hi => LK i (IN i Hi)))
    as (k & K & D1 & D2 & E).
  exists (octopus_spec H512 H256 hash (coefficient ((word64 hash 2 + k) mod 2 ^ 64)) nonce (size / 256) item).
  split; [exact E|]. intros lookup' L'.
  assert (LK' : forall i, i < 4 * (size / 256) -> lookup' i = Done (item i) /\ length (item i) = 16%nat /\ words 32 (item i)).
  { intros i Hi. rewrite L' by (apply IN; exact Hi). apply LK, IN, Hi. }
  destruct (C35_digest fuel H512 H256 hash nonce size lookup' item HH FU LH BH NB S1 S2 LK') as (k' & K' & D1' & D2' & E').
  cbv zeta in D1, D2, D1', D2', E'. rewrite E'. replace k' with k; [reflexivity|].
  destruct (N.lt_trichotomy k k') as [X|[X|X]]; [|exact X|]; exfalso; [apply D2; apply D1'; exact X|apply D2'; apply D1; exact X].
Qed.
(** Pages of 256 bytes. *)
Theorem C16_progpow hash height nonce size lookup page l1 :
  length hash = 32%nat -> bytes hash -> nonce < 2 ^ 64 -> 256 <= size -> size / 256 < 2 ^ 32 ->
  length l1 = N.to_nat 4096 -> words 32 l1 ->
  (forall i, (i + 1) * 256 <= size -> lookup i = Done (page i) /\ length (page i) = 64%nat /\ words 32 (page i)) ->
  forall fn, In fn [kawpow; firopow; progpow094] ->
  exists r, fn hash height nonce size lookup l1 = Done r /\
    forall lookup', (forall i, (i + 1) * 256 <= size -> lookup' i = lookup i) -> fn hash height nonce size lookup' l1 = Done r.
Proof.
  intros LH BH NB S1 S2 L1 L2 LK fn FN.
  assert (IN : forall i, i < size / 256 -> (i + 1) * 256 <= size) by (intros; lia).
  assert (LK' : forall lookup', (forall i, (i + 1) * 256 <= size -> lookup' i = lookup i) ->
    forall i, i < size / 256 -> lookup' i = Done (page i) /\ length (page i) = 64%nat /\ words 32 (page i)).
  { intros lookup' L' i Hi. rewrite L' by auto. auto. }
  cbn [In] in FN. destruct FN as [<-|[<-|[<-|[]]]]; eexists; split.
  - eapply (C30_kawpow hash height nonce size lookup page l1); auto.
  - intros lookup' L'. apply (C30_kawpow hash height nonce size lookup' page l1); auto.
  - eapply (C30_firopow hash height nonce size lookup page l1); auto.
  - intros lookup' L'. apply (C30_firopow hash height nonce size lookup' page l1); auto.
  - eapply (C30_progpow094 hash height nonce size lookup page l1); auto.
  - intros lookup' L'. apply (C30_progpow094 hash height nonce size lookup' page l1); auto.
Qed.
(** The sizes of the shipped clients are within those bounds. *)
Theorem C16_shipped_sizes pp fuel dir d unit e :
  primality_test pp -> 2 ^ 31 <= N.of_nat fuel -> In (d, unit) (shipped_units dir) ->
  e < 2045 \/ (cf_mix_bytes d <> 0 /\ 2048 <= e /\ cf_dataset_init d + cf_dataset_growth d * e <= 2 ^ 38) ->
  exists size, DatasetSize pp fuel d e = Done size /\ 256 <= size /\ size < 2 ^ 38 /\ size / 256 < 2 ^ 32.
Proof.
  intros PP F HI SV. destruct (dataset_size_served pp fuel dir d unit e PP F HI SV) as (s & E & P).
  assert (X : 128 <= unit /\ cf_dataset_growth d <= 16777216 /\ cf_dataset_init d <= 4294967296).
  { clear -HI. unfold shipped_units in HI. cbn [In] in HI.
    destruct HI as [E|[E|[E|[E|[E|[]]]]]]; injection E as <- <-; cbn; lia. }
  destruct (prime_size_bounds _ unit s ltac:(lia) P) as (B1 & B2 & _).
  assert (U : cf_dataset_init d + cf_dataset_growth d * e <= 274877906944).
  { destruct SV as [S|(_ & _ & S)]; [nia|exact S]. }
  exists s. change (2 ^ 38) with 274877906944. change (2 ^ 32) with 4294967296. split; [exact E|lia].
Qed.
Print Assumptions C16_ethash.
Print Assumptions C16_octopus.
Print Assumptions C16_progpow.
Print Assumptions C16_shipped_sizes.

(** ** Instances *)

(** Three calls: one answered from the tables, one refused, one answered by search. *)
Definition some_calls : list call :=
  [mkCall (repeat 7 32) 100 5 0 (fun m => m); mkCall [1; 2; 3] 9 9 1 (fun m => m);
   mkCall (repeat 9 32) (30000 * 2050 + 17) 6 2 (fun m => m)].
Definition big_fuel : nat := N.to_nat (2 ^ 31).
Lemma big_fuel_ok : 2 ^ 31 <= N.of_nat big_fuel.
Proof. unfold big_fuel. rewrite N2Nat.id. apply N.le_refl. Qed.
Lemma some_calls_served : Forall (served_call (cfg_ethereum [])) some_calls.
Proof.
  assert (B : forall b n, b < 256 -> bytes (repeat b n)).
  { intros b n Hb. apply Forall_forall. intros x X. apply repeat_spec in X. subst. exact Hb. }
  unfold some_calls. apply Forall_cons; [|apply Forall_cons; [|apply Forall_cons; [|apply Forall_nil]]];
    (split; [intros m; apply Permutation_refl|]).
  - split; [apply B; reflexivity|]. split; [reflexivity|]. intros _. left. reflexivity.
  - split; [repeat constructor|]. split; [reflexivity|]. intros L. discriminate L.
  - split; [apply B; reflexivity|]. split; [reflexivity|]. intros _. right.
    change (cl_height _ / _) with 2050. repeat split; discriminate.
Qed.
Section RealHashes.
Import Hashes HashesFacts.
Lemma keccak256_ok : hash_ok 32 keccak256.
Proof. intros b; split; [apply keccak256_length|apply keccak256_bytes]. Qed.
Lemma keccak512_ok : hash_ok 64 keccak512.
Proof. intros b; split; [apply keccak512_length|apply keccak512_bytes]. Qed.
Example C12_instance : exists r answers,
  serve (Compute_ethash keccak256 keccak512 slow_prime big_fuel (cfg_ethereum [])) some_calls empty_registry = Done (r, answers) /\
  Forall2 (answer (ethash_fits keccak256 keccak512 30000 (fun e => e))) some_calls answers.
Proof. exact (C12_ethereum keccak256 keccak512 slow_prime big_fuel [] keccak256_ok keccak512_ok slow_prime_ok big_fuel_ok some_calls some_calls_served). Qed.
(** Two clients with different histories asked for two heights of epoch 2050. *)
Example C23_instance : exists r r' xs xs' x,
  serve (Compute_ethash keccak256 keccak512 slow_prime big_fuel (cfg_ethereum [])) some_calls empty_registry = Done (r, xs ++ [x]) /\
  serve (Compute_ethash keccak256 keccak512 slow_prime big_fuel (cfg_ethereum []))
    [mkCall (repeat 9 32) (30000 * 2050 + 29999) 6 0 (fun m => m)] empty_registry = Done (r', xs' ++ [x]) /\ x <> None.
Proof.
  assert (S : Forall (served_call (cfg_ethereum [])) [mkCall (repeat 9 32) (30000 * 2050 + 29999) 6 0 (fun m => m)]).
  { apply Forall_cons; [|apply Forall_nil]. split; [intros m; apply Permutation_refl|].
    split; [apply Forall_forall; intros x X; apply repeat_spec in X; subst; reflexivity|]. split; [reflexivity|]. intros _. right.
    change (cl_height _ / _) with 2050. repeat split; discriminate. }
  destruct (C12_ethereum keccak256 keccak512 slow_prime big_fuel [] keccak256_ok keccak512_ok slow_prime_ok big_fuel_ok _ some_calls_served) as (r & a & E & A).
  destruct (C12_ethereum keccak256 keccak512 slow_prime big_fuel [] keccak256_ok keccak512_ok slow_prime_ok big_fuel_ok _ S) as (r' & a' & E' & A').
  unfold some_calls in A. inversion A as [|q1 x1 l1 m1 X1 A1]; subst. inversion A1 as [|q2 x2 l2 m2 X2 A2]; subst.
  inversion A2 as [|q3 x3 l3 m3 X3 A3]; subst. inversion A3; subst. inversion A' as [|q4 x4 l4 m4 X4 A4]; subst. inversion A4; subst.
  exists r, r', [x1; x2], [], x3. split; [exact E|].
  assert (EQ : x3 = x4).
  { eapply (C23_ethash keccak256 keccak512 slow_prime big_fuel (cfg_ethereum [])
      (firstn 2 some_calls) [] (mkCall (repeat 9 32) (30000 * 2050 + 17) 6 2 (fun m => m))
      (mkCall (repeat 9 32) (30000 * 2050 + 29999) 6 0 (fun m => m)) r r' [x1; x2] [] x3 x4).
    - cbn; lia.
    - cbn; lia.
    - cbn [firstn some_calls app]. repeat (apply Forall_cons; [split; [intros m; apply Permutation_refl|reflexivity]|]). apply Forall_nil.
    - cbn [firstn some_calls app]. repeat (apply Forall_cons; [split; [intros m; apply Permutation_refl|reflexivity]|]). apply Forall_nil.
    - reflexivity.
    - reflexivity.
    - reflexivity.
    - exact E.
    - exact E'. }
  subst x4. split; [exact E'|]. unfold answer in X3. destruct X3 as (y & -> & _). discriminate.
Qed.
End RealHashes.
(** A dataset of three pages of which nothing outside may be read. *)
Example C16_instance : forall i, (i + 1) * 256 <= 900 ->
  small_lookup i = Done (small_page i) /\ length (small_page i) = 64%nat /\ words 32 (small_page i).
Proof. intros i Hi. apply small_lookup_ok. lia. Qed.
Example C16_outside : small_lookup 3 = Panic.
Proof. reflexivity. Qed.
