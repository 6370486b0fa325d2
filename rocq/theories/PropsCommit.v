(** C75: a digest commits to what it was computed from. *)
From Coq Require Import NArith ZArith Arith List Bool Lia ZifyBool ZifyN ZifyNat Permutation.
From Verif Require Import Base BaseFacts CryptoSpec DagSpec DagContent KeccakSpec KeccakProofs EthashModel EthashSpec
  EthashProofs ProgpowModel ProgpowSpec ProgpowHash OctopusModel OctopusSpec HeavyModel HeavySpec AutoSpec.
From Verif Require Import DagModel PropsDagSize RegModel ClientModel ClientSpec PropsClients.
From Verif Require PropsEthash PropsProgpow PropsOctopus PropsHeavy AutoModel PropsHistory Hashes.
Import ListNotations.
Open Scope N_scope.

(** Two different inputs with the same image. *)
Definition collides {A B} (f : A -> B) (x y : A) : Prop := x <> y /\ f x = f y.
(** The lookup answers for the first items, with that many words each. *)
Definition answers (lookup : N -> outcome (list N)) (items : N) (size : nat) : Prop :=
  forall i, i < items -> exists v, lookup i = Done v /\ length v = size /\ words 32 v.

(** ** Facts *)
Lemma le_bytes_inj n x y : x < 256 ^ N.of_nat n -> y < 256 ^ N.of_nat n -> le_bytes n x = le_bytes n y -> x = y.
Proof.
  intros X Y E. apply (f_equal le_value) in E. rewrite !le_bytes_value, !N.mod_small in E by assumption. exact E.
Qed.
Lemma app_inj {A} (a b c d : list A) : length a = length b -> a ++ c = b ++ d -> a = b /\ c = d.
Proof.
  revert b. induction a as [|x a IH]; intros [|y b] L E; try discriminate L; [split; [reflexivity|exact E]|].
  injection E as -> E. injection L as L. destruct (IH b L E) as (-> & ->). split; reflexivity.
Qed.
Lemma words_bytes_inj l m : words 32 l -> words 32 m -> length l = length m -> words_bytes l = words_bytes m -> l = m.
Proof.
  intros Wl Wm L E. rewrite <- (le_words_words_bytes l (length m) Wl L), E. apply le_words_words_bytes; [exact Wm|reflexivity].
Qed.
Lemma le_words_inj n a b : length a = (4 * n)%nat -> length b = (4 * n)%nat -> bytes a -> bytes b ->
  le_words n a = le_words n b -> a = b.
Proof.
  intros La Lb Ba Bb E. rewrite <- (words_bytes_le_words n a La Ba), E. apply words_bytes_le_words; assumption.
Qed.
Lemma collide_or {A B} (dec : forall x y : A, {x = y} + {x <> y}) (f : A -> B) x y : f x = f y -> x = y \/ collides f x y.
Proof. intros E. destruct (dec x y) as [->|NE]; [left; reflexivity|right; split; assumption]. Qed.
Lemma done_pair {A B} (a c : A) (b d : B) : Done (a, b) = Done (c, d) -> a = c /\ b = d.
Proof. intros E. injection E as -> ->. split; reflexivity. Qed.
Lemma done_inj {A} (a b : A) : Done a = Done b -> a = b.
Proof. intros E. injection E as ->. reflexivity. Qed.
Definition list_dec : forall x y : list N, {x = y} + {x <> y} := list_eq_dec N.eq_dec.

Definition item_of (lookup : N -> outcome (list N)) (i : N) : list N := match lookup i with Done v => v | _ => [] end.
Lemma item_of_ok lookup items size : answers lookup items size ->
  forall i, i < items -> lookup i = Done (item_of lookup i) /\ length (item_of lookup i) = size /\ words 32 (item_of lookup i).
Proof. intros V i Hi. destruct (V i Hi) as (v & E & L & W). unfold item_of. rewrite E. tauto. Qed.

(** ** Ethash *)

Lemma hashimoto_commits H512 H256 hash nonce pages item hash' nonce' pages' item' mix mix' digest :
  hash_ok 64 H512 -> length hash = 32%nat -> length hash' = 32%nat -> nonce < 2 ^ 64 -> nonce' < 2 ^ 64 ->
  (mix, digest) = hashimoto_spec H512 H256 hash nonce pages item ->
  (mix', digest) = hashimoto_spec H512 H256 hash' nonce' pages' item' ->
  let seed := hash ++ le_bytes 8 nonce in
  let seed' := hash' ++ le_bytes 8 nonce' in
  (hash = hash' /\ nonce = nonce' /\ mix = mix') \/
  collides H512 seed seed' \/
  collides H256 (H512 seed ++ mix) (H512 seed' ++ mix').
Proof.
  intros HH L L' Hn Hn' E E' seed seed'.
  unfold hashimoto_spec, nonce_seed in E, E'. cbv zeta in E, E'. fold seed in E. fold seed' in E'.
  apply (f_equal (@Done _)), eq_sym, done_pair in E, E'. destruct E as (M & D). destruct E' as (M' & D'). rewrite M in D. rewrite M' in D'. clear M M'.
  destruct (collide_or list_dec H256 (H512 seed ++ mix) (H512 seed' ++ mix')) as [Q|Q]; [congruence| |tauto].
  apply app_inj in Q; [|rewrite !(proj1 (HH _)); reflexivity]. destruct Q as (Q & QM).
  destruct (collide_or list_dec H512 seed seed' Q) as [S1|S1]; [|tauto].
  apply app_inj in S1; [|congruence]. destruct S1 as (S1 & S2).
  apply le_bytes_inj in S2; [|exact Hn|exact Hn']. tauto.
Qed.

(** The same digest for two calls, on whatever datasets: they had the same header hash, nonce and mix, or two
    inputs of Keccak-512 or of Keccak-256 collide, and these. *)
Theorem C75_ethash H512 H256 hash nonce size lookup hash' nonce' size' lookup' mix mix' digest :
  hash_ok 64 H512 -> length hash = 32%nat -> length hash' = 32%nat -> nonce < 2 ^ 64 -> nonce' < 2 ^ 64 ->
  128 <= size <= 2 ^ 38 -> 128 <= size' <= 2 ^ 38 ->
  answers lookup (2 * (size / 128)) 16 -> answers lookup' (2 * (size' / 128)) 16 ->
  hashimoto H512 H256 hash nonce size lookup = Done (mix, digest) ->
  hashimoto H512 H256 hash' nonce' size' lookup' = Done (mix', digest) ->
  let seed := hash ++ le_bytes 8 nonce in
  let seed' := hash' ++ le_bytes 8 nonce' in
  (hash = hash' /\ nonce = nonce' /\ mix = mix') \/
  collides H512 seed seed' \/
  collides H256 (H512 seed ++ mix) (H512 seed' ++ mix').
Proof.
  intros HH L L' Hn Hn' HS HS' V V' E E' seed seed'.
  rewrite (PropsEthash.C22_hashimoto H512 H256 hash nonce size lookup (item_of lookup)) in E;
    [|assumption|assumption|lia|lia|exact (item_of_ok _ _ _ V)].
  rewrite (PropsEthash.C22_hashimoto H512 H256 hash' nonce' size' lookup' (item_of lookup')) in E';
    [|assumption|assumption|lia|lia|exact (item_of_ok _ _ _ V')].
  apply done_inj, eq_sym in E, E'. exact (hashimoto_commits H512 H256 _ _ _ _ _ _ _ _ _ _ _ HH L L' Hn Hn' E E').
Qed.

(** So for the answers in any history of calls of a shipped client. *)
Lemma forall2_at {A B} (R : A -> B -> Prop) l m i x y : Forall2 R l m -> nth_error l i = Some x -> nth_error m i = Some y -> R x y.
Proof.
  intros F. revert i. induction F as [|a b l m AB F IH]; intros [|i] X Y; try discriminate.
  - injection X as <-. injection Y as <-. exact AB.
  - exact (IH i X Y).
Qed.

Theorem C75_ethash_calls keccak256 keccak512 pp fuel dir d calls r replies i j q q' mix mix' digest :
  hash_ok 32 keccak256 -> hash_ok 64 keccak512 -> primality_test pp -> 2 ^ 31 <= N.of_nat fuel ->
  In d [cfg_ethereum dir; cfg_ethereum_classic dir] -> Forall (served_call d) calls ->
  serve (Compute_ethash keccak256 keccak512 pp fuel d) calls empty_registry = Done (r, replies) ->
  nth_error calls i = Some q -> nth_error replies i = Some (Some (mix, digest)) ->
  nth_error calls j = Some q' -> nth_error replies j = Some (Some (mix', digest)) ->
  let seed := cl_hash q ++ le_bytes 8 (cl_nonce q) in
  let seed' := cl_hash q' ++ le_bytes 8 (cl_nonce q') in
  (cl_hash q = cl_hash q' /\ cl_nonce q = cl_nonce q' /\ mix = mix') \/
  collides keccak512 seed seed' \/
  collides keccak256 (keccak512 seed ++ mix) (keccak512 seed' ++ mix').
Proof.
  intros O256 O512 PP FU I FA E Q A Q' A'.
  assert (X : exists EL position, Forall2 (answer (ethash_fits keccak256 keccak512 EL position)) calls replies).
  { destruct I as [<-|[<-|[]]].
    - exists 30000, (fun e => e).
      destruct (C12_ethereum keccak256 keccak512 pp fuel dir O256 O512 PP FU calls FA) as (r0 & s0 & E0 & X).
      rewrite E in E0. apply done_pair in E0. destruct E0 as (_ & ->). exact X.
    - exists 60000, (fun e => 2 * e).
      destruct (C12_ethereum_classic keccak256 keccak512 pp fuel dir O256 O512 PP FU calls FA) as (r0 & s0 & E0 & X).
      rewrite E in E0. apply done_pair in E0. destruct E0 as (_ & ->). exact X. }
  destruct X as (EL & position & X).
  assert (SP : forall k p m, nth_error calls k = Some p -> nth_error replies k = Some (Some (m, digest)) ->
    length (cl_hash p) = 32%nat /\ cl_nonce p < 2 ^ 64 /\
    exists pages item, (m, digest) = hashimoto_spec keccak512 keccak256 (cl_hash p) (cl_nonce p) pages item).
  { intros k p m P M. assert (Y := forall2_at _ _ _ _ _ _ X P M). unfold answer in Y.
    destruct (Nat.eqb_spec (length (cl_hash p)) 32) as [L|L]; [|discriminate Y].
    destruct Y as (x & Y1 & cs & ds & _ & _ & Y2). injection Y1 as <-.
    split; [exact L|]. split; [|eexists; eexists; exact Y2].
    apply nth_error_In in P. rewrite Forall_forall in FA. exact (proj1 (proj2 (proj2 (FA p P)))). }
  destruct (SP i q mix Q A) as (L & Hn & pages & item & S). destruct (SP j q' mix' Q' A') as (L' & Hn' & pages' & item' & S').
  exact (hashimoto_commits keccak512 keccak256 _ _ _ _ _ _ _ _ _ _ _ O512 L L' Hn Hn' S S').
Qed.

(** ** The ProgPoW variants *)

Definition variants : list ((list N -> N -> N -> N -> (N -> outcome (list N)) -> list N -> outcome (list N * list N)) * list N * list N) :=
  [(kawpow, kawpow_seed_pad, kawpow_digest_pad); (firopow, firopow_seed_pad, firopow_digest_pad);
   (progpow094, plain_seed_pad, plain_digest_pad)].
(** Eight words of Keccak-f[800]. *)
Definition squeeze (state : list N) : list N := firstn 8 (keccak_f 32 state).
Definition seed_input (pad hash : list N) (nonce : N) : list N := le_words 8 hash ++ [nonce mod 2 ^ 32; nonce / 2 ^ 32] ++ pad.
Definition digest_input (seed_pad digest_pad hash : list N) (nonce : N) (mix : list N) : list N :=
  squeeze (seed_input seed_pad hash nonce) ++ le_words 8 mix ++ digest_pad.

Lemma seed_input_state pad hash nonce : length pad = 15%nat -> words 32 pad -> length hash = 32%nat -> bytes hash -> nonce < 2 ^ 64 ->
  state25 (seed_input pad hash nonce).
Proof.
  intros LP WP LH BH Hn. split.
  - unfold seed_input. rewrite !app_length, le_words_length, LP. reflexivity.
  - unfold seed_input. apply Forall_app. split; [apply le_words_words; exact BH|].
    apply Forall_app. split; [|exact WP]. constructor; [|constructor; [|constructor]].
    + apply N.mod_lt. discriminate.
    + apply N.div_lt_upper_bound; [discriminate|]. exact Hn.
Qed.
Lemma squeeze_words st : state25 st -> length (squeeze st) = 8%nat /\ words 32 (squeeze st).
Proof.
  intros Hs. destruct (keccak_f_state st Hs) as (L & W). unfold squeeze. split.
  - rewrite firstn_length, L. reflexivity.
  - apply Forall_firstn. exact W.
Qed.

Lemma variant_spec fn sp dp hash height nonce size lookup l1 mix digest : In (fn, sp, dp) variants ->
  length hash = 32%nat -> bytes hash -> nonce < 2 ^ 64 -> 256 <= size < 2 ^ 40 -> answers lookup (size / 256) 64 ->
  length l1 = N.to_nat 4096 -> words 32 l1 ->
  fn hash height nonce size lookup l1 = Done (mix, digest) ->
  (length sp = 15%nat /\ words 32 sp /\ length dp = 9%nat /\ words 32 dp) /\
  length mix = 32%nat /\ bytes mix /\ digest = words_bytes (squeeze (digest_input sp dp hash nonce mix)).
Proof.
  intros I LH BH Hn Hs V L1 W1 E.
  assert (HP : length sp = 15%nat /\ words 32 sp /\ length dp = 9%nat /\ words 32 dp).
  { destruct I as [I|[I|[I|[]]]]; injection I as <- <- <-; repeat split; repeat constructor. }
  split; [exact HP|].
  assert (P : exists period, fn hash height nonce size lookup l1 =
    Done (pow_spec (keccak_f 32) sp dp (standard_mix period height l1 (size / 256) (item_of lookup)) hash nonce) /\
    length (fst (pow_spec (keccak_f 32) sp dp (standard_mix period height l1 (size / 256) (item_of lookup)) hash nonce)) = 32%nat /\
    forall s, words 32 (standard_mix period height l1 (size / 256) (item_of lookup) s)).
  { assert (S40 : size / 256 < 2 ^ 32) by (apply N.div_lt_upper_bound; [discriminate|exact (proj2 Hs)]).
    destruct (PropsProgpow.C29_shipped_configurations l1) as (K1 & K2 & K3); try tauto.
    destruct I as [I|[I|[I|[]]]]; injection I as <- <- <-.
    - exists 3. destruct (PropsProgpow.C30_kawpow hash height nonce size lookup (item_of lookup) l1) as (A & B & _);
        try tauto. { apply item_of_ok. exact V. }
      split; [exact A|]. split; [exact B|]. intros s.
      apply (Hash_refines kawpow_cfg l1 K1 size lookup (item_of lookup)); try tauto. apply item_of_ok. exact V.
    - exists 1. destruct (PropsProgpow.C30_firopow hash height nonce size lookup (item_of lookup) l1) as (A & B & _);
        try tauto. { apply item_of_ok. exact V. }
      split; [exact A|]. split; [exact B|]. intros s.
      apply (Hash_refines firopow_cfg l1 K2 size lookup (item_of lookup)); try tauto. apply item_of_ok. exact V.
    - exists 10. destruct (PropsProgpow.C30_progpow094 hash height nonce size lookup (item_of lookup) l1) as (A & B & _);
        try tauto. { apply item_of_ok. exact V. }
      split; [exact A|]. split; [exact B|]. intros s.
      apply (Hash_refines progpow094_cfg l1 K3 size lookup (item_of lookup)); try tauto. apply item_of_ok. exact V. }
  destruct P as (period & P & LM & WM). rewrite P in E. unfold pow_spec in E, LM. cbv zeta in E, LM. cbn [fst] in LM.
  apply done_pair in E. destruct E as (M & D). rewrite M in LM. split; [exact LM|].
  set (m := standard_mix _ _ _ _ _ _) in *.
  assert (Lm : length m = 8%nat).
  { rewrite <- M, words_bytes_length in LM. lia. }
  split. { rewrite <- M. unfold words_bytes. apply Forall_flat_map. apply Forall_forall. intros x _. apply le_bytes_bytes. }
  rewrite <- D. unfold digest_input. rewrite <- M, le_words_words_bytes by (try exact Lm; apply WM). reflexivity.
Qed.

Definition pads_ok (sp dp : list N) : Prop := length sp = 15%nat /\ words 32 sp /\ length dp = 9%nat /\ words 32 dp.
Lemma sponge_commits sp dp sp' dp' hash nonce mix hash' nonce' mix' : pads_ok sp dp -> pads_ok sp' dp' ->
  length hash = 32%nat -> bytes hash -> length hash' = 32%nat -> bytes hash' -> nonce < 2 ^ 64 -> nonce' < 2 ^ 64 ->
  length mix = 32%nat -> bytes mix -> length mix' = 32%nat -> bytes mix' ->
  words_bytes (squeeze (digest_input sp dp hash nonce mix)) = words_bytes (squeeze (digest_input sp' dp' hash' nonce' mix')) ->
  (sp = sp' /\ hash = hash' /\ nonce = nonce' /\ mix = mix') \/
  collides squeeze (seed_input sp hash nonce) (seed_input sp' hash' nonce') \/
  collides squeeze (digest_input sp dp hash nonce mix) (digest_input sp' dp' hash' nonce' mix').
Proof.
  intros (P1 & P2 & P3 & P4) (P1' & P2' & P3' & P4') L B L' B' Hn Hn' LM BM LM' BM' D.
  assert (ST := seed_input_state _ _ _ P1 P2 L B Hn). assert (ST' := seed_input_state _ _ _ P1' P2' L' B' Hn').
  destruct (squeeze_words _ ST) as (SL & SW). destruct (squeeze_words _ ST') as (SL' & SW').
  assert (DT : forall sp0 dp0 h n m, length dp0 = 9%nat -> words 32 dp0 -> bytes m -> state25 (seed_input sp0 h n) ->
    state25 (digest_input sp0 dp0 h n m)).
  { intros sp0 dp0 h n m A1 A2 A3 A4. destruct (squeeze_words _ A4) as (A5 & A6). unfold digest_input. split.
    - rewrite !app_length, le_words_length, A1, A5. reflexivity.
    - apply Forall_app. split; [exact A6|]. apply Forall_app. split; [apply le_words_words; exact A3|exact A2]. }
  destruct (squeeze_words _ (DT _ _ _ _ _ P3 P4 BM ST)) as (QL & QW).
  destruct (squeeze_words _ (DT _ _ _ _ _ P3' P4' BM' ST')) as (QL' & QW').
  assert (Q : squeeze (digest_input sp dp hash nonce mix) = squeeze (digest_input sp' dp' hash' nonce' mix')).
  { apply words_bytes_inj; congruence. }
  destruct (collide_or list_dec squeeze _ _ Q) as [Q1|Q1]; [|tauto].
  unfold digest_input in Q1. apply app_inj in Q1; [|congruence]. destruct Q1 as (Q1 & Q2).
  destruct (collide_or list_dec squeeze _ _ Q1) as [S1|S1]; [|tauto]. left.
  apply app_inj in Q2; [|rewrite !le_words_length; reflexivity]. destruct Q2 as (Q2 & _).
  apply le_words_inj in Q2; [|assumption..].
  unfold seed_input in S1. apply app_inj in S1; [|rewrite !le_words_length; reflexivity]. destruct S1 as (S1 & S2).
  apply le_words_inj in S1; [|assumption..]. injection S2 as S2 S3 S4.
  split; [exact S4|]. split; [exact S1|]. split; [|exact Q2].
  rewrite (N.div_mod nonce (2 ^ 32)), (N.div_mod nonce' (2 ^ 32)), S2, S3 by discriminate. reflexivity.
Qed.

(** The same digest for two calls of variants, on whatever datasets and heights: it was the same variant with the
    same header hash, nonce and mix, or two inputs of the squeezed permutation collide, and these. *)
Theorem C75_progpow fn seed_pad digest_pad fn' seed_pad' digest_pad' hash height nonce size lookup l1
    hash' height' nonce' size' lookup' l1' mix mix' digest :
  In (fn, seed_pad, digest_pad) variants -> In (fn', seed_pad', digest_pad') variants ->
  length hash = 32%nat -> bytes hash -> length hash' = 32%nat -> bytes hash' -> nonce < 2 ^ 64 -> nonce' < 2 ^ 64 ->
  256 <= size < 2 ^ 40 -> 256 <= size' < 2 ^ 40 -> answers lookup (size / 256) 64 -> answers lookup' (size' / 256) 64 ->
  length l1 = N.to_nat 4096 -> words 32 l1 -> length l1' = N.to_nat 4096 -> words 32 l1' ->
  fn hash height nonce size lookup l1 = Done (mix, digest) ->
  fn' hash' height' nonce' size' lookup' l1' = Done (mix', digest) ->
  (fn = fn' /\ hash = hash' /\ nonce = nonce' /\ mix = mix') \/
  collides squeeze (seed_input seed_pad hash nonce) (seed_input seed_pad' hash' nonce') \/
  collides squeeze (digest_input seed_pad digest_pad hash nonce mix) (digest_input seed_pad' digest_pad' hash' nonce' mix').
Proof.
  intros I I' L B L' B' Hn Hn' HS HS' V V' L1 W1 L1' W1' E E'.
  destruct (variant_spec _ _ _ _ _ _ _ _ _ _ _ I L B Hn HS V L1 W1 E) as (P & LM & BM & D).
  destruct (variant_spec _ _ _ _ _ _ _ _ _ _ _ I' L' B' Hn' HS' V' L1' W1' E') as (P' & LM' & BM' & D').
  destruct (sponge_commits seed_pad digest_pad seed_pad' digest_pad' hash nonce mix hash' nonce' mix') as [(Q & X)|X];
    [assumption..|congruence| |right; exact X].
  left. split; [|exact X].
  destruct I as [I|[I|[I|[]]]]; injection I as <- <- <-; destruct I' as [I'|[I'|[I'|[]]]]; injection I' as <- <- <-;
    reflexivity || discriminate Q.
Qed.

(** The mix has eight 32-bit words whatever the dataset. *)
Lemma standard_words period height l1 pages item seed :
  length (standard_mix period height l1 pages item seed) = 8%nat /\ words 32 (standard_mix period height l1 pages item seed).
Proof.
  unfold standard_mix, progpow_hash. cbv zeta. split; [apply tab_length|]. apply words_tab. intros i _.
  match goal with |- fold_left _ ?l _ < _ => generalize l end. intros l.
  assert (G : forall l a, a < 2 ^ 32 -> fold_left fnv1a l a < 2 ^ 32).
  { clear. induction l; intros; cbn [fold_left]; auto. apply IHl. apply fnv1a_lt. }
  apply G. reflexivity.
Qed.

(** The clients that hash with Progpow, each with what it computes and its two pads. *)
Definition progpow_clients keccak256 keccak512 pp fuel dir :=
  [(cfg_ravencoin dir, Compute_kawpow keccak256 keccak512 pp fuel (cfg_ravencoin dir), kawpow_seed_pad, kawpow_digest_pad);
   (cfg_firo dir, Compute_firopow keccak256 keccak512 pp fuel (cfg_firo dir), firopow_seed_pad, firopow_digest_pad)].

(** Two calls, of one client or of two, each anywhere in the history of its client. *)
Theorem C75_progpow_calls keccak256 keccak512 pp fuel dir d compute sp dp d' compute' sp' dp'
    calls r replies calls' r' replies' i j q q' mix mix' digest :
  hash_ok 32 keccak256 -> hash_ok 64 keccak512 -> primality_test pp -> 2 ^ 31 <= N.of_nat fuel ->
  In (d, compute, sp, dp) (progpow_clients keccak256 keccak512 pp fuel dir) ->
  In (d', compute', sp', dp') (progpow_clients keccak256 keccak512 pp fuel dir) ->
  Forall (served_call d) calls -> Forall (served_call d') calls' ->
  serve compute calls empty_registry = Done (r, replies) -> serve compute' calls' empty_registry = Done (r', replies') ->
  nth_error calls i = Some q -> nth_error replies i = Some (Some (mix, digest)) ->
  nth_error calls' j = Some q' -> nth_error replies' j = Some (Some (mix', digest)) ->
  (d = d' /\ cl_hash q = cl_hash q' /\ cl_nonce q = cl_nonce q' /\ mix = mix') \/
  collides squeeze (seed_input sp (cl_hash q) (cl_nonce q)) (seed_input sp' (cl_hash q') (cl_nonce q')) \/
  collides squeeze (digest_input sp dp (cl_hash q) (cl_nonce q) mix) (digest_input sp' dp' (cl_hash q') (cl_nonce q') mix').
Proof.
  intros O256 O512 PP FU I I' FA FA' E E' Q A Q' A'.
  assert (SP : forall d compute sp dp calls r replies k p m,
    In (d, compute, sp, dp) (progpow_clients keccak256 keccak512 pp fuel dir) -> Forall (served_call d) calls ->
    serve compute calls empty_registry = Done (r, replies) ->
    nth_error calls k = Some p -> nth_error replies k = Some (Some (m, digest)) ->
    pads_ok sp dp /\ length (cl_hash p) = 32%nat /\ bytes (cl_hash p) /\ cl_nonce p < 2 ^ 64 /\ length m = 32%nat /\ bytes m /\
    digest = words_bytes (squeeze (digest_input sp dp (cl_hash p) (cl_nonce p) m))).
  { clear - O256 O512 PP FU. intros d compute sp dp calls r replies k p m I FA E P M.
    assert (X : pads_ok sp dp /\ exists EL period init, Forall2 (answer (progpow_fits keccak256 keccak512 EL period init sp dp)) calls replies).
    { destruct I as [I|[I|[]]]; injection I as <- <- <- <-; (split; [repeat split; repeat constructor|]).
      - destruct (C12_ravencoin keccak256 keccak512 pp fuel dir O256 O512 PP FU calls FA) as (r0 & s0 & E0 & X).
        rewrite E in E0. apply done_pair in E0. destruct E0 as (_ & ->). do 3 eexists. exact X.
      - destruct (C12_firo keccak256 keccak512 pp fuel dir O256 O512 PP FU calls FA) as (r0 & s0 & E0 & X).
        rewrite E in E0. apply done_pair in E0. destruct E0 as (_ & ->). do 3 eexists. exact X. }
    destruct X as (PD & EL & period & init & X). split; [exact PD|].
    assert (Y := forall2_at _ _ _ _ _ _ X P M). unfold answer in Y.
    destruct (Nat.eqb_spec (length (cl_hash p)) 32) as [L|L]; [|discriminate Y]. split; [exact L|].
    apply nth_error_In in P. rewrite Forall_forall in FA. destruct (FA p P) as (_ & BP & NP & _).
    split; [exact BP|]. split; [exact NP|].
    destruct Y as (x & Y1 & cs & ds & _ & _ & Y2). injection Y1 as <-.
    cbv zeta in Y2. unfold pow_spec in Y2. cbv zeta in Y2.
    match type of Y2 with (_, _) = (words_bytes ?t, _) =>
      assert (SW : length t = 8%nat /\ words 32 t) by apply standard_words; set (w := t) in * end.
    clearbody w. destruct SW as (LW & WW).
    assert (Y3 := f_equal fst Y2). assert (Y4 := f_equal snd Y2). cbn [fst snd] in Y3, Y4. clear Y2. subst m.
    split; [rewrite words_bytes_length, LW; reflexivity|].
    split. { unfold words_bytes. apply Forall_flat_map. apply Forall_forall. intros x _. apply le_bytes_bytes. }
    rewrite Y4. unfold digest_input. rewrite le_words_words_bytes by assumption. reflexivity.
  }
  destruct (SP _ _ _ _ _ _ _ _ _ _ I FA E Q A) as (P & L & B & Hn & LM & BM & D).
  destruct (SP _ _ _ _ _ _ _ _ _ _ I' FA' E' Q' A') as (P' & L' & B' & Hn' & LM' & BM' & D').
  destruct (sponge_commits sp dp sp' dp' (cl_hash q) (cl_nonce q) mix (cl_hash q') (cl_nonce q') mix') as [(S & X)|X];
    [assumption..|congruence| |right; exact X].
  left. split; [|exact X].
  destruct I as [I|[I|[]]]; injection I as <- <- <- <-; destruct I' as [I'|[I'|[]]]; injection I' as <- <- <- <-;
    reflexivity || discriminate S.
Qed.

(** ** Octopus *)

(** The third coefficient of the quadratic of a header: the first that does not make it degenerate. *)
Definition third_coefficient (hash : list N) (c : N) : Prop :=
  let a := coefficient (word64 hash 0) in
  let b := coefficient (word64 hash 1) in
  let cand j := coefficient ((word64 hash 2 + j) mod 2 ^ 64) in
  exists k, (forall j, j < k -> degenerate a b (cand j)) /\ ~ degenerate a b (cand k) /\ c = cand k.
(** The 32 values of the polynomial, the 64-bit word made of them, and the 32 bytes into which the pages are folded. *)
Definition octo_values (hash : list N) (c nonce : N) : list N :=
  tab 32 (fun i => poly_value (sip_coefficient (word64 hash 0, word64 hash 1, word64 hash 2, word64 hash 3) nonce)
    (eval_point (coefficient (word64 hash 0)) (coefficient (word64 hash 1)) c (coefficient (word64 hash 3)) nonce i)).
Definition octo_word (hash : list N) (c nonce : N) : list N := le_bytes 8 (fold_left fnv64 (octo_values hash c nonce) 0).
Definition octo_tail (H512 : list N -> list N) (hash : list N) (c nonce pages : N) (item : N -> list N) : list N :=
  words_bytes (octopus_compress (octopus_mix (H512 (hash ++ octo_word hash c nonce)) (octo_values hash c nonce) pages item 32)).
Lemma third_unique hash c c' : third_coefficient hash c -> third_coefficient hash c' -> c = c'.
Proof.
  intros (k & A & B & ->) (k' & A' & B' & ->). destruct (N.lt_trichotomy k k') as [Q|[->|Q]]; [|reflexivity|].
  - destruct (B (A' k Q)).
  - destruct (B' (A k' Q)).
Qed.

Lemma octo_spec_eq H512 H256 hash c nonce pages item : octopus_spec H512 H256 hash c nonce pages item =
  H256 (H512 (hash ++ octo_word hash c nonce) ++ octo_tail H512 hash c nonce pages item).
Proof. unfold octopus_spec, octo_tail, octo_word, octo_values. cbv zeta. reflexivity. Qed.

Lemma octo_commits (H512 H256 : list N -> list N) hash word tail hash' word' tail' : hash_ok 64 H512 ->
  length hash = length hash' -> length word = length word' ->
  H256 (H512 (hash ++ word) ++ tail) = H256 (H512 (hash' ++ word') ++ tail') ->
  (hash = hash' /\ word = word' /\ tail = tail') \/
  collides H512 (hash ++ word) (hash' ++ word') \/
  collides H256 (H512 (hash ++ word) ++ tail) (H512 (hash' ++ word') ++ tail').
Proof.
  intros HH L LW E.
  destruct (collide_or list_dec H256 (H512 (hash ++ word) ++ tail) (H512 (hash' ++ word') ++ tail'))
    as [Q|Q]; [exact E| |tauto].
  apply app_inj in Q; [|rewrite !(proj1 (HH _)); reflexivity]. destruct Q as (Q & QT).
  destruct (collide_or list_dec H512 _ _ Q) as [Q1|Q1]; [|tauto].
  apply app_inj in Q1; [|exact L]. tauto.
Qed.
(** The number of pages and the items of the dataset of the epoch of a height: 2^19 blocks, a cache and a dataset
    whose sizes are those of [prime_size], 256 parents. *)
Definition octopus_dataset keccak256 keccak512 (height pages : N) (item : N -> list N) : Prop :=
  let e := height / 2 ^ 19 in
  exists cs ds, prime_size (2 ^ 24 + 2 ^ 16 * e) 64 cs /\ prime_size (2 ^ 32 + 2 ^ 24 * e) 256 ds /\
    pages = ds / 256 /\ item = dataset keccak256 keccak512 256 e cs.

(** The digest commits to the header hash, to the 64-bit word made from header hash and nonce, and to the folded
    pages. *)
Theorem C75_octopus fuel H512 H256 hash nonce size lookup hash' nonce' size' lookup' digest :
  hash_ok 64 H512 -> (64 <= fuel)%nat ->
  length hash = 32%nat -> bytes hash -> length hash' = 32%nat -> bytes hash' -> nonce < 2 ^ 64 -> nonce' < 2 ^ 64 ->
  256 <= size <= 2 ^ 38 -> 256 <= size' <= 2 ^ 38 -> answers lookup (4 * (size / 256)) 16 -> answers lookup' (4 * (size' / 256)) 16 ->
  octopus fuel H512 H256 hash nonce size lookup = Done digest ->
  octopus fuel H512 H256 hash' nonce' size' lookup' = Done digest ->
  exists c c', third_coefficient hash c /\ third_coefficient hash' c' /\
  let half := hash ++ octo_word hash c nonce in
  let half' := hash' ++ octo_word hash' c' nonce' in
  let tail := octo_tail H512 hash c nonce (size / 256) (item_of lookup) in
  let tail' := octo_tail H512 hash' c' nonce' (size' / 256) (item_of lookup') in
  (hash = hash' /\ octo_word hash c nonce = octo_word hash' c' nonce' /\ tail = tail') \/
  collides H512 half half' \/
  collides H256 (H512 half ++ tail) (H512 half' ++ tail').
Proof.
  intros HH Hf L B L' B' Hn Hn' HS HS' V V' E E'.
  destruct (PropsOctopus.C35_digest fuel H512 H256 hash nonce size lookup (item_of lookup)) as (k & _ & K1 & K2 & O);
    [assumption..|lia|lia|exact (item_of_ok _ _ _ V)|].
  destruct (PropsOctopus.C35_digest fuel H512 H256 hash' nonce' size' lookup' (item_of lookup')) as (k' & _ & K1' & K2' & O');
    [assumption..|lia|lia|exact (item_of_ok _ _ _ V')|].
  rewrite O in E. rewrite O' in E'. apply done_inj in E. apply done_inj in E'. clear O O'.
  set (c := coefficient ((word64 hash 2 + k) mod 2 ^ 64)) in *. set (c' := coefficient ((word64 hash' 2 + k') mod 2 ^ 64)) in *.
  assert (T : third_coefficient hash c) by (exists k; split; [exact K1|split; [exact K2|reflexivity]]).
  assert (T' : third_coefficient hash' c') by (exists k'; split; [exact K1'|split; [exact K2'|reflexivity]]).
  exists c, c'. split; [exact T|]. split; [exact T'|]. clear K1 K2 K1' K2' T T'. clearbody c c'.
  rewrite octo_spec_eq in E, E'.
  apply octo_commits; [assumption|congruence| |congruence].
  unfold octo_word. rewrite !le_bytes_length. reflexivity.
Qed.

(** Two calls anywhere in the history of a Conflux client. The pages are those of the datasets of their epochs. *)
Theorem C75_octopus_calls keccak256 keccak512 pp fuel dir calls r replies i j q q' digest :
  hash_ok 32 keccak256 -> hash_ok 64 keccak512 -> primality_test pp -> 2 ^ 31 <= N.of_nat fuel ->
  Forall (served_call (cfg_conflux dir)) calls ->
  serve (Compute_octopus keccak256 keccak512 pp fuel (cfg_conflux dir)) calls empty_registry = Done (r, replies) ->
  nth_error calls i = Some q -> nth_error replies i = Some (Some digest) ->
  nth_error calls j = Some q' -> nth_error replies j = Some (Some digest) ->
  exists c c' pages item pages' item', third_coefficient (cl_hash q) c /\ third_coefficient (cl_hash q') c' /\
  octopus_dataset keccak256 keccak512 (cl_height q) pages item /\ octopus_dataset keccak256 keccak512 (cl_height q') pages' item' /\
  let half := cl_hash q ++ octo_word (cl_hash q) c (cl_nonce q) in
  let half' := cl_hash q' ++ octo_word (cl_hash q') c' (cl_nonce q') in
  let tail := octo_tail keccak512 (cl_hash q) c (cl_nonce q) pages item in
  let tail' := octo_tail keccak512 (cl_hash q') c' (cl_nonce q') pages' item' in
  (cl_hash q = cl_hash q' /\ octo_word (cl_hash q) c (cl_nonce q) = octo_word (cl_hash q') c' (cl_nonce q') /\ tail = tail') \/
  collides keccak512 half half' \/
  collides keccak256 (keccak512 half ++ tail) (keccak512 half' ++ tail').
Proof.
  intros O256 O512 PP FU FA E Q A Q' A'.
  destruct (C12_conflux keccak256 keccak512 pp fuel dir O256 O512 PP FU calls FA) as (r0 & s0 & E0 & X).
  rewrite E in E0. apply done_pair in E0. destruct E0 as (_ & <-).
  assert (SP : forall k p, nth_error calls k = Some p -> nth_error replies k = Some (Some digest) ->
    length (cl_hash p) = 32%nat /\ exists c pages item, third_coefficient (cl_hash p) c /\
    octopus_dataset keccak256 keccak512 (cl_height p) pages item /\
    digest = octopus_spec keccak512 keccak256 (cl_hash p) c (cl_nonce p) pages item).
  { intros k p P M. assert (Y := forall2_at _ _ _ _ _ _ X P M). unfold answer in Y.
    destruct (Nat.eqb_spec (length (cl_hash p)) 32) as [L|L]; [|discriminate Y]. split; [exact L|].
    destruct Y as (x & Y1 & cs & ds & CS & DS & n & _ & Y2). injection Y1 as <-. cbv zeta in Y2. destruct Y2 as (K1 & K2 & Y2).
    do 3 eexists. split; [exists n; split; [exact K1|split; [exact K2|reflexivity]]|]. split; [|exact Y2].
    exists cs, ds. split; [exact CS|]. split; [exact DS|]. split; reflexivity. }
  destruct (SP i q Q A) as (L & c & pages & item & T & DS & S). destruct (SP j q' Q' A') as (L' & c' & pages' & item' & T' & DS' & S').
  exists c, c', pages, item, pages', item'. do 4 (split; [assumption|]).
  rewrite octo_spec_eq in S, S'. apply octo_commits; [assumption|congruence| |congruence].
  unfold octo_word. rewrite !le_bytes_length. reflexivity.
Qed.

(** ** HeavyHash *)

(** The matrix the code works with: the first candidate that passes its test. *)
Definition matrix_of submul (hash : list N) (M : N -> N -> N) : Prop :=
  exists t, PropsHeavy.accepted submul hash t /\ (forall u, u < t -> ~ PropsHeavy.accepted submul hash u) /\
  M = candidate (seed_state hash) t.
(** A byte string of 32 bytes against its product with the matrix. *)
Definition heavy_step (M : N -> N -> N) (pow : list N) : list N :=
  let p i := dot (M i) (nibble pow) / 2 ^ 10 in
  tab 32 (fun i => N.lxor (nth (N.to_nat i) pow 0) (16 * p (2 * i) + p (2 * i + 1))).

(** The digest commits to header hash, timestamp and nonce up to collisions of cSHAKE, with either of its two
    customisations, and of the matrix step between the two. *)
Theorem C75_heavyhash submul cshake fuel hash timestamp nonce hash' timestamp' nonce' digest :
  (forall s, hash_ok 32 (fun b => cshake b s)) ->
  length hash = 32%nat -> bytes hash -> length hash' = 32%nat -> bytes hash' -> nonce < 2 ^ 64 -> nonce' < 2 ^ 64 ->
  (- 2 ^ 63 <= timestamp < 2 ^ 63)%Z -> (- 2 ^ 63 <= timestamp' < 2 ^ 63)%Z ->
  Compute submul cshake fuel hash timestamp nonce = Done (Some digest) ->
  Compute submul cshake fuel hash' timestamp' nonce' = Done (Some digest) ->
  let first b := cshake b pow_name in
  let last b := cshake b heavy_name in
  let pow := first (heavy_header hash timestamp nonce) in
  let pow' := first (heavy_header hash' timestamp' nonce') in
  exists M M', matrix_of submul hash M /\ matrix_of submul hash' M' /\
  ((hash = hash' /\ timestamp = timestamp' /\ nonce = nonce') \/
   collides first (heavy_header hash timestamp nonce) (heavy_header hash' timestamp' nonce') \/
   (pow <> pow' /\ heavy_step M pow = heavy_step M' pow') \/
   collides last (heavy_step M pow) (heavy_step M' pow')).
Proof.
  intros HH L B L' B' Hn Hn' HT HT' E E' first last pow pow'.
  destruct (PropsHeavy.C51_digest submul cshake fuel hash timestamp nonce _ HH L B E) as (t & T1 & T2 & D).
  destruct (PropsHeavy.C51_digest submul cshake fuel hash' timestamp' nonce' _ HH L' B' E') as (t' & T1' & T2' & D').
  set (M := candidate (seed_state hash) t) in *. set (M' := candidate (seed_state hash') t') in *.
  exists M, M'. split; [exists t; tauto|]. split; [exists t'; tauto|].
  injection D as D. injection D' as D'. 
  assert (Q : last (heavy_step M pow) = last (heavy_step M' pow')).
  { apply (f_equal (@rev N)) in D, D'. unfold heavy_spec in D, D'. cbv zeta in D, D'. rewrite rev_involutive in D, D'.
    unfold last, heavy_step, pow, pow', first. cbv zeta. congruence. }
  destruct (collide_or list_dec last _ _ Q) as [Q1|Q1]; [|tauto].
  destruct (list_dec pow pow') as [Q2|Q2]; [|tauto].
  destruct (collide_or list_dec first _ _ Q2) as [Q3|Q3]; [|tauto]. left.
  unfold heavy_header in Q3. apply app_inj in Q3; [|congruence]. destruct Q3 as (Q3 & Q4).
  apply app_inj in Q4; [|rewrite !le_bytes_length; reflexivity]. destruct Q4 as (Q4 & Q5).
  apply app_inj in Q5; [|reflexivity]. destruct Q5 as (_ & Q5).
  apply le_bytes_inj in Q5; [|exact Hn|exact Hn']. split; [exact Q3|]. split; [|exact Q5].
  apply le_bytes_inj in Q4.
  - change (2 ^ 63)%Z with 9223372036854775808%Z in *. change (2 ^ 64)%Z with 18446744073709551616%Z in Q4.
    apply Z2N.inj in Q4; [|apply Z.mod_pos_bound; reflexivity..].
    pose proof (Z.div_mod timestamp 18446744073709551616 ltac:(discriminate)) as A.
    pose proof (Z.div_mod timestamp' 18446744073709551616 ltac:(discriminate)) as A'.
    pose proof (Z.mod_pos_bound timestamp 18446744073709551616 ltac:(reflexivity)) as R.
    pose proof (Z.mod_pos_bound timestamp' 18446744073709551616 ltac:(reflexivity)) as R'. lia.
  - change (256 ^ N.of_nat 8) with (Z.to_N (2 ^ 64)). apply Z2N.inj_lt; try discriminate; apply Z.mod_pos_bound; reflexivity.
  - change (256 ^ N.of_nat 8) with (Z.to_N (2 ^ 64)). apply Z2N.inj_lt; try discriminate; apply Z.mod_pos_bound; reflexivity.
Qed.

(** ** Autolykos *)

(** Heights beyond the last increase count modulo 2^32 only: the digest does not commit to more. *)
Theorem C75_autolykos_height_refuted H msg height nonce j : 4198400 < height ->
  AutoModel.Compute H AutoModel.newErgo msg (height + 2 ^ 32 * j) nonce = AutoModel.Compute H AutoModel.newErgo msg height nonce.
Proof.
  intros Hh. unfold AutoModel.Compute. destruct (negb _); [reflexivity|].
  assert (E : AutoModel.compute H (fst AutoModel.newErgo) (snd AutoModel.newErgo) msg nonce (height + 2 ^ 32 * j) =
              AutoModel.compute H (fst AutoModel.newErgo) (snd AutoModel.newErgo) msg nonce height).
  { unfold AutoModel.compute. destruct (AutoModel.generateM 1024) as [m| |]; cbn [bind]; try reflexivity.
    replace (u32 (height + 2 ^ 32 * j)) with (u32 height).
    2:{ unfold u32. rewrite !trunc_mod. rewrite N.mul_comm, N.mod_add by discriminate. reflexivity. }
    replace (AutoModel.calcN (snd AutoModel.newErgo) (height + 2 ^ 32 * j)) with (AutoModel.calcN (snd AutoModel.newErgo) height);
      [reflexivity|].
    unfold AutoModel.calcN, AutoModel.nIncreasementHeightMax.
    destruct (N.ltb_spec 4198400 height); [|lia]. destruct (N.ltb_spec 4198400 (height + 2 ^ 32 * j)); [reflexivity|lia]. }
  rewrite E. reflexivity.
Qed.
(** The hypotheses hold, and the second case can occur: a hash function that does not look at the nonce gives
    the same digest for two nonces. *)
Definition blind (b : list N) : list N := PropsDagContent.toy_hash (firstn 32 b).
Example C75_ethash_instance :
  hash_ok 64 blind /\ answers PropsEthash.toy_lookup (2 * (400 / 128)) 16 /\
  (exists mix digest,
    hashimoto blind PropsDagContent.toy_hash (repeat 17 32) 1 400 PropsEthash.toy_lookup = Done (mix, digest) /\
    hashimoto blind PropsDagContent.toy_hash (repeat 17 32) 2 400 PropsEthash.toy_lookup = Done (mix, digest)) /\
  collides blind (repeat 17 32 ++ le_bytes 8 1) (repeat 17 32 ++ le_bytes 8 2).
Proof.
  split; [|split; [|split]].
  - intros b. apply PropsDagContent.toy_hash_ok.
  - intros i Hi. change (2 * (400 / 128)) with 6 in Hi. exists (PropsEthash.toy_item i). unfold PropsEthash.toy_lookup.
    destruct (N.ltb_spec i 6); [|lia]. split; [reflexivity|]. split; [reflexivity|].
    apply words_tab. intros. apply N.mod_lt. discriminate.
  - eexists. eexists. split; [vm_compute; reflexivity|]. vm_compute. reflexivity.
  - split; [discriminate|]. vm_compute. reflexivity.
Qed.
(** Calls of KawPoW and FiroPoW that meet the hypotheses. *)
Example C75_progpow_instance :
  let l1 := tab 4096 (fun i => (i * 2654435769) mod 2 ^ 32) in
  answers PropsProgpow.small_lookup (900 / 256) 64 /\ length l1 = N.to_nat 4096 /\ words 32 l1 /\
  (exists mix digest, kawpow (repeat 200 32) 1219736 5 900 PropsProgpow.small_lookup l1 = Done (mix, digest)) /\
  (exists mix digest, firopow (repeat 200 32) 1219736 5 900 PropsProgpow.small_lookup l1 = Done (mix, digest)).
Proof.
  intros l1.
  assert (V : answers PropsProgpow.small_lookup (900 / 256) 64).
  { intros i Hi. eexists. exact (PropsProgpow.small_lookup_ok i Hi). }
  assert (L : length l1 = N.to_nat 4096) by apply tab_length.
  assert (W : words 32 l1). { apply words_tab. intros. apply N.mod_lt. discriminate. }
  split; [exact V|]. split; [exact L|]. split; [exact W|]. split.
  - destruct (PropsProgpow.C30_kawpow (repeat 200 32) 1219736 5 900 PropsProgpow.small_lookup PropsProgpow.small_page l1) as (E & _);
      [split; [reflexivity|repeat constructor]|reflexivity|split; [discriminate|reflexivity]|exact PropsProgpow.small_lookup_ok|tauto|].
    rewrite E. destruct (pow_spec _ _ _ _ _ _) as (m, d). exists m, d. reflexivity.
  - destruct (PropsProgpow.C30_firopow (repeat 200 32) 1219736 5 900 PropsProgpow.small_lookup PropsProgpow.small_page l1) as (E & _);
      [split; [reflexivity|repeat constructor]|reflexivity|split; [discriminate|reflexivity]|exact PropsProgpow.small_lookup_ok|tauto|].
    rewrite E. destruct (pow_spec _ _ _ _ _ _) as (m, d). exists m, d. reflexivity.
Qed.
Example C75_octopus_instance : answers PropsOctopus.octo_lookup (4 * (800 / 256)) 16 /\
  exists digest, octopus 64 PropsDagContent.toy_hash PropsDagContent.toy_hash (repeat 17 32) 123456789 800 PropsOctopus.octo_lookup = Done digest.
Proof.
  split.
  - intros i Hi. change (4 * (800 / 256)) with 12 in Hi. exists (PropsOctopus.octo_item i). unfold PropsOctopus.octo_lookup.
    destruct (N.ltb_spec i 12); [|lia]. split; [reflexivity|]. split; [reflexivity|].
    apply words_tab. intros. apply N.mod_lt. discriminate.
  - destruct PropsOctopus.C35_instance as (c & E). eexists. exact E.
Qed.
(** For HeavyHash, VecHeavy.v replays a call that returns; the timestamp there is 0x000001848ca87c49. *)
Example C75_heavyhash_instance : (- 2 ^ 63 <= 0x000001848ca87c49 < 2 ^ 63)%Z /\
  heavy_header [] 1 2 <> heavy_header [] (-1) 2 /\ length (heavy_header (repeat 1 32) (-5) 2) = 80%nat.
Proof. split; [split; discriminate || reflexivity|]. split; [discriminate|reflexivity]. Qed.
(** Histories that meet the hypotheses, and whose calls are answered: Keccak itself, two heights, two header hashes. *)
Definition two_calls : list call :=
  [mkCall (repeat 17 32) 1000000 1 0 (fun m => m); mkCall (repeat 18 32) 2 (2 ^ 64 - 1) 5 (fun m => m)].
Example C75_calls_instance :
  Forall (served_call (cfg_ravencoin [])) two_calls /\ Forall (served_call (cfg_firo [])) two_calls /\
  Forall (served_call (cfg_conflux [])) two_calls /\
  (exists r a b, serve (Compute_kawpow Hashes.keccak256 Hashes.keccak512 slow_prime PropsHistory.big_fuel (cfg_ravencoin []))
    two_calls empty_registry = Done (r, [Some a; Some b])) /\
  (exists r a b, serve (Compute_octopus Hashes.keccak256 Hashes.keccak512 slow_prime PropsHistory.big_fuel (cfg_conflux []))
    two_calls empty_registry = Done (r, [Some a; Some b])).
Proof.
  assert (G : forall d, cf_epoch_length d = 7500 \/ cf_epoch_length d = 1300 \/ cf_epoch_length d = 524288 ->
    Forall (served_call d) two_calls).
  { intros d D. apply Forall_cons; [|apply Forall_cons; [|apply Forall_nil]];
      (split; [intros m; apply Permutation_refl|]; split; [repeat constructor|]; split; [reflexivity|]; intros _; left;
       destruct D as [->|[->| ->]]; reflexivity). }
  assert (A : forall R (fits : list N -> N -> N -> R -> Prop) replies, Forall2 (answer fits) two_calls replies ->
    exists a b, replies = [Some a; Some b]).
  { intros R fits replies X. unfold two_calls in X. inversion X as [|? ? ? ? X1 X2]; subst. inversion X2 as [|? ? ? ? X3 X4]; subst.
    inversion X4; subst. destruct X1 as (a & -> & _). destruct X3 as (b & -> & _). eauto. }
  assert (GR : Forall (served_call (cfg_ravencoin [])) two_calls) by (apply G; auto).
  assert (GC : Forall (served_call (cfg_conflux [])) two_calls) by (apply G; auto).
  split; [exact GR|]. split; [apply G; auto|]. split; [exact GC|]. split.
  - destruct (C12_ravencoin Hashes.keccak256 Hashes.keccak512 slow_prime PropsHistory.big_fuel [] PropsHistory.keccak256_ok
      PropsHistory.keccak512_ok slow_prime_ok PropsHistory.big_fuel_ok two_calls GR) as (r & replies & E & X).
    destruct (A _ _ _ X) as (a & b & ->). exists r, a, b. exact E.
  - destruct (C12_conflux Hashes.keccak256 Hashes.keccak512 slow_prime PropsHistory.big_fuel [] PropsHistory.keccak256_ok
      PropsHistory.keccak512_ok slow_prime_ok PropsHistory.big_fuel_ok two_calls GC) as (r & replies & E & X).
    destruct (A _ _ _ X) as (a & b & ->). exists r, a, b. exact E.
Qed.

Print Assumptions C75_ethash.
Print Assumptions C75_ethash_calls.
Print Assumptions C75_progpow.
Print Assumptions C75_progpow_calls.
Print Assumptions C75_octopus.
Print Assumptions C75_octopus_calls.
Print Assumptions C75_heavyhash.
Print Assumptions C75_autolykos_height_refuted.
