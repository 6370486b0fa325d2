(** C74, continued: how often a verification evaluates the hash functions. *)
From Coq Require Import NArith ZArith Arith List Bool Lia ZifyBool ZifyN ZifyNat.
From Verif Require Import Base BaseFacts CryptoModel DagModel EthashModel ProgpowModel OctopusModel PropsDagContent Work PropsWork.
From Verif Require AutoModel HeavyModel CuckooModel EquiModel EquiSpec EquiProofs BeamModel PropsEqui.
Import ListNotations.
Open Scope N_scope.

(** ** Keccak-512 in the light clients *)

Lemma asks_hash_into len buf off data : asks any 1 (fun H : list N -> list N => hash_into H len buf off data).
Proof.
  unfold hash_into. apply asks_bind0. intros t. destruct (len <=? lenN t); [|apply asks_const].
  apply (asks_let 1 0 (fun H => H data) (fun h _ => copy_at buf off h)); [apply asks_one|intros; apply asks_const].
Qed.
Lemma asks_item d cache index : asks any 2 (fun H : list N -> list N => generateDatasetItem H d cache index).
Proof.
  unfold generateDatasetItem. cbv zeta. do 4 (apply asks_bind0; intro).
  apply (asks_bind 1 1 (fun H => _) (fun y H => _)); [apply asks_hash_into|]. intros mix.
  do 3 (apply asks_bind0; intro). apply asks_hash_into.
Qed.
Lemma asks_item_uint d cache index size :
  asks any (N.to_nat size * 2) (fun H : list N -> list N => generateDatasetItemUint H d cache index size).
Proof.
  unfold generateDatasetItemUint. cbv zeta. apply (asks_for_n size 2 (fun j t o => _)). intros j t. apply asks_last. apply asks_item.
Qed.
(** Two evaluations for each item of the dataset, for every configuration and content of the cache. *)
Theorem C74_item_hashes d cache index : asks any 2 (fun H : list N -> list N => generateDatasetItem H d cache index).
Proof. apply asks_item. Qed.
Print Assumptions C74_item_hashes.

(** Light verification: Keccak-512 is evaluated at most 257 times for Ethash and Octopus, 512 times for the ProgPoW
    variants. *)
Theorem C74_light_hashes d cache H256 fuel hash height nonce size l1 :
  asks any 257 (fun H : list N -> list N => hashimoto H H256 hash nonce size (NewLookupFunc512 H d cache)) /\
  asks any 257 (fun H : list N -> list N => octopus fuel H H256 hash nonce size (NewLookupFunc512 H d cache)) /\
  (forall fn, In fn [kawpow; firopow; progpow094] ->
   asks any 512 (fun H : list N -> list N => fn hash height nonce size (NewLookupFunc2048 H d cache) l1)).
Proof.
  split; [|split].
  - unfold hashimoto. cbv zeta. do 4 (apply asks_bind0; intro).
    change 257%nat with (S 256). ask_at x2.
    do 2 (apply asks_bind0; intro). apply (asks_last 256).
    apply (asks_for_n hashimotoRounds 4 (fun i st o => _)). intros i st. destruct st as [mix temp].
    do 2 (apply asks_bind0; intro). apply (asks_last 4).
    apply (asks_for_n (mixBytes / EthashModel.hashBytes) 2 (fun j t o => _)). intros j t.
    apply (asks_last 2). apply (asks_item_uint d cache _ 1).
  - unfold octopus. apply asks_bind0. intros [res r]. apply asks_bind0; intros pre.
    change 257%nat with (S 256). ask_at pre. unfold dagPart. cbv zeta.
    do 3 (apply asks_bind0; intro). apply asks_last. unfold accesses.
    apply (asks_for_n powAccesses 8 (fun j t o => _)). intros j t. do 3 (apply asks_bind0; intro).
    apply (asks_for_n mixNodes 2 (fun j t o => _)). intros j' t'. apply asks_last. apply (asks_item_uint d cache _ 1).
  - intros fn I.
    apply (asks_compose 64 8 (fun l => fn hash height nonce size l l1) (fun i H => NewLookupFunc2048 H d cache i)).
    + apply C74_variants_pages. exact I.
    + intros i. apply (asks_item_uint d cache i 4).
Qed.
Print Assumptions C74_light_hashes.

(** ** HeavyHash and Autolykos2 *)

(** HeavyHash evaluates cSHAKE256 twice. *)
Theorem C74_heavyhash submul fuel hash timestamp nonce :
  asks any 2 (fun cshake : list N * list N -> list N => HeavyModel.Compute submul (fun b s => cshake (b, s)) fuel hash timestamp nonce).
Proof.
  unfold HeavyModel.Compute. destruct (negb _); [apply asks_const|]. apply asks_last. unfold HeavyModel.heavyHash.
  do 10 (apply asks_bind0; intro). cbv zeta.
  ask_at (x8, HeavyModel.pow_name).
  do 3 (apply asks_bind0; intro).
  ask_at (x11, HeavyModel.heavy_name). apply asks_const.
Qed.
Print Assumptions C74_heavyhash.

(** Autolykos2 evaluates BLAKE2b [k + 4] times: 36 times for Ergo. *)
Theorem C74_autolykos k n msg height nonce :
  asks any (N.to_nat k + 4) (fun H : list N -> list N => AutoModel.Compute H (AutoModel.newClient k n) msg height nonce).
Proof.
  unfold AutoModel.Compute. destruct (negb _); [apply asks_const|]. apply asks_last. unfold AutoModel.compute. cbn [fst snd AutoModel.newClient].
  do 4 (apply asks_bind0; intro). cbv zeta.
  replace (N.to_nat k + 4)%nat with (S (N.to_nat k + 3))%nat by lia.
  ask_at (AutoModel.concatBytes msg x1).
  do 3 (apply asks_bind0; intro).
  replace (N.to_nat k + 3)%nat with (S (N.to_nat k + 2))%nat by lia.
  ask_at (AutoModel.concatBytes x5 (AutoModel.concatBytes x0 x)).
  apply asks_bind0; intros f. unfold AutoModel.genIndexes. cbv zeta.
  replace (N.to_nat k + 2)%nat with (S (N.to_nat k + 1))%nat by lia.
  ask_at (AutoModel.concatBytes f (AutoModel.concatBytes msg x1)).
  apply asks_bind_eq. intros indexes E.
  assert (L : length indexes = N.to_nat k).
  { refine (for_up_inv (fun l => length l = N.to_nat k) _ _ _ _ _ _ _ E).
    - unfold zeros. apply repeat_length.
    - intros j t t' LT. destruct (slice _ _ _); cbn [bind]; try discriminate. destruct (be_u32 _); cbn [bind]; try discriminate.
      destruct (modc _ _); cbn [bind]; try discriminate. intros U. apply upd_length in U. congruence. }
  apply (asks_bind (N.to_nat k) 1 (fun H => _) (fun s H => _)).
  - replace (N.to_nat k) with (N.to_nat (lenN indexes) * 1)%nat by (unfold lenN; lia).
    apply (asks_for_n (lenN indexes) 1 (fun j t o => _)). intros j t. do 2 (apply asks_bind0; intro).
    apply asks_last. apply (asks_let 1 0 (fun H => H _) (fun h _ => slice_from h 1)); [apply asks_one|intros; apply asks_const].
  - intros s. apply (asks_let 1 0 (fun H => H _) (fun h _ => Done h)); [apply asks_one|intros; apply asks_const].
Qed.
Print Assumptions C74_autolykos.

(** ** Equihash, BeamHash III, Cuckoo *)

Local Notation oracle := (N * list N * list N -> list N).
Definition uncurried (o : oracle) (size : N) (personal data : list N) : list N := o (size, personal, data).
Lemma asks_blake data personal size : asks any 1 (fun o : oracle => EquiModel.Blake2b (uncurried o) data personal size).
Proof.
  unfold EquiModel.Blake2b, uncurried. cbv zeta. destruct (_ || _); [apply asks_const|].
  ask_at (if u8 size =? 0 then 64 else u8 size, personal, data). apply asks_const.
Qed.
Lemma asks_twist spare header personal g len : g < 2 ^ 32 - 1 -> forall fuel m start sum,
  start + N.of_nat m = g + 1 ->
  asks any m (fun o : oracle => EquiModel.twistLoop (uncurried o) spare fuel header personal g len start sum).
Proof.
  intros G. unfold EquiModel.twistLoop. induction fuel as [|fuel IH]; intros m start sum E; cbn [loop_fuel]; [apply asks_const|].
  destruct (N.leb_spec start g) as [LE|GT].
  - destruct m as [|m]; [lia|]. change (S m) with (1 + m)%nat.
    apply (asks_ext (1 + m) (fun o => bind (EquiModel.hashBlakeWithOffset (uncurried o) header personal start len) (fun tmp =>
      bind (EquiModel.addLanes spare tmp sum) (fun sum' => EquiModel.twistLoop (uncurried o) spare fuel header personal g len (addw 32 start 1) sum')))).
    + intros o _. unfold EquiModel.twistLoop. destruct (EquiModel.hashBlakeWithOffset _ _ _ _ _); cbn [bind]; auto.
      destruct (EquiModel.addLanes _ _ _); reflexivity.
    + apply (asks_bind 1 m (fun o => _) (fun tmp o => _)); [apply asks_blake|]. intros tmp. apply asks_bind0. intros sum'.
      apply IH. unfold addw. rewrite trunc_small by lia. lia.
  - cbn [bind]. apply asks_const.
Qed.
Lemma asks_generate spare fuel header personal g len twist : g < 2 ^ 32 - 1 ->
  asks any (if twist : bool then 16 else 1) (fun o : oracle => EquiModel.generateHash (uncurried o) spare fuel header personal g len twist).
Proof.
  intros G. unfold EquiModel.generateHash. destruct twist; cbn [negb].
  - cbv zeta. apply asks_last.
    rewrite EquiProofs.round16 by lia. pose proof (N.div_mod g 16). pose proof (N.mod_lt g 16).
    apply (asks_mono (N.to_nat (g mod 16) + 1)); [lia|]. apply asks_twist; auto. lia.
  - apply asks_last. apply asks_blake.
Qed.
Lemma asks_node spare fuel n k personal twist header i : i < 2 ^ 32 - 1 ->
  asks any (if twist : bool then 16 else 1) (fun o : oracle => EquiModel.newNode (uncurried o) spare fuel n k personal twist header i).
Proof.
  intros I. unfold EquiModel.newNode. apply asks_bind0. intros per. apply asks_bind_eq. intros g G. apply asks_bind0. intros len.
  apply asks_last. apply asks_generate. unfold divc in G. destruct (per =? 0); inversion G.
  destruct (N.eq_dec per 0) as [->|NZ]; [destruct i; cbn; lia|]. pose proof (N.div_le_upper_bound i per i NZ). nia.
Qed.
Lemma asks_nodes spare fuel n k personal twist header l : Forall (fun i => i < 2 ^ 32 - 1) l ->
  asks any (length l * (if twist : bool then 16 else 1)) (fun o : oracle => EquiModel.newNodes (uncurried o) spare fuel n k personal twist header l).
Proof.
  induction 1 as [|i l I _ IH]; cbn [EquiModel.newNodes length]; [apply asks_const|].
  cbn [Nat.mul]. apply (asks_bind (if twist : bool then 16 else 1) _ (fun o => _) (fun x o => _)).
  - apply asks_node. exact I.
  - intros [x|]; [|apply asks_const]. apply asks_last. exact IH.
Qed.
(** Equihash hashes each of the [2 ^ k] indices once, or at most 16 times when twisted (Flux), whatever the header and
    the solution. *)
Theorem C74_equihash spare fuel c header soln : In c PropsEqui.shipped -> bytes soln -> lenN soln < 2 ^ 32 ->
  asks any (Nat.pow 2 (N.to_nat (EquiModel.c_k c)) * (if EquiModel.c_twist c then 16 else 1))
    (fun o : oracle => EquiModel.Verify (fun size personal data => o (size, personal, data)) spare fuel c header soln).
Proof.
  intros I B L. change (fun o : oracle => EquiModel.Verify (fun size personal data => o (size, personal, data)) spare fuel c header soln)
    with (fun o : oracle => EquiModel.Verify (uncurried o) spare fuel c header soln).
  unfold EquiModel.Verify, EquiModel.verify. cbv zeta. apply asks_bind_eq. intros r E.
  destruct (PropsEqui.C41_decode c soln I B L) as (D1 & D2).
  destruct (N.eq_dec (lenN soln) (PropsEqui.required_length c)) as [LR|LR].
  - destruct (D2 LR) as (l & E' & LL & F & _). rewrite E' in E. injection E as <-.
    destruct (PropsEqui.shipped_ok c I) as (_ & _ & _ & _ & W & _).
    apply asks_last. replace (Nat.pow 2 (N.to_nat (EquiModel.c_k c))) with (length l).
    + apply asks_nodes. revert F. apply Forall_impl. intros i Hi.
      assert (EquiSpec.digit_bits (EquiModel.c_n c) (EquiModel.c_k c) + 1 <= 26).
      { assert (A : forallb (fun c => EquiSpec.digit_bits (EquiModel.c_n c) (EquiModel.c_k c) + 1 <=? 26) PropsEqui.shipped = true) by (vm_compute; reflexivity).
        rewrite forallb_forall in A. specialize (A c I). lia. }
      assert (2 ^ (EquiSpec.digit_bits (EquiModel.c_n c) (EquiModel.c_k c) + 1) <= 2 ^ 26) by (apply N.pow_le_mono_r; lia).
      change (2 ^ 26) with 67108864 in *. lia.
    + unfold lenN in LL. apply Nat2N.inj. rewrite LL, Nat2N.inj_pow, N2Nat.id. reflexivity.
  - rewrite (D1 LR) in E. injection E as <-. apply asks_const.
Qed.
Print Assumptions C74_equihash.

(** BeamHash III evaluates BLAKE2b once. *)
Theorem C74_beam c header soln :
  asks any 1 (fun o : oracle => BeamModel.BeamVerify (fun size personal data => o (size, personal, data)) c header soln).
Proof.
  change (asks any 1 (fun o : oracle => BeamModel.BeamVerify (uncurried o) c header soln)).
  unfold BeamModel.BeamVerify. destruct (negb _); [apply asks_const|]. destruct (negb _); [apply asks_const|].
  unfold BeamModel.beamVerify. apply asks_last. unfold BeamModel.initializePrePow. cbv zeta.
  do 2 (apply asks_bind0; intro). apply asks_last. apply asks_blake.
Qed.
Print Assumptions C74_beam.

(** Cuckoo and Cuckaroo hash the header once and derive the endpoints of each edge once. *)
Theorem C74_cuckoo_header c header sols fuel :
  asks any 1 (fun H : list N -> list N => CuckooModel.Verify H fuel c header sols).
Proof.
  unfold CuckooModel.Verify. destruct (negb _); [apply asks_const|]. cbv zeta. ask_at header. apply asks_const.
Qed.
Print Assumptions C74_cuckoo_header.
Theorem C74_cuckoo_edges edgeBits proofSize blake header sols fuel :
  asks any (2 * Z.to_nat proofSize) (fun node : N * CryptoModel.sip * N * N -> N =>
    c <- CuckooModel.NewCuckoo edgeBits proofSize (Some (fun m k e s => Done (node (m, k, e, s)))) None ;;
    CuckooModel.Verify blake fuel c header sols) /\
  asks any (Z.to_nat proofSize) (fun block : CryptoModel.sip * N -> N =>
    c <- CuckooModel.NewCuckaroo edgeBits proofSize None (Some (fun k e => Done (block (k, e)))) ;;
    CuckooModel.Verify blake fuel c header sols).
Proof.
  unfold CuckooModel.NewCuckoo, CuckooModel.NewCuckaroo, CuckooModel.newClient.
  destruct (edgeBits <? 0)%Z; [split; apply asks_const|]. cbn [bind].
  unfold CuckooModel.Verify. cbn [CuckooModel.c_proofSize CuckooModel.c_variant].
  destruct (negb _); [split; apply asks_const|]. cbv zeta. split; do 4 (apply asks_bind0; intro).
  - unfold CuckooModel.cuckoo. cbn [CuckooModel.c_proofSize]. apply asks_last. unfold CuckooModel.cuckoo_fill.
    apply (asks_mono (N.to_nat (Z.to_N proofSize) * 2)); [lia|].
    apply (asks_for_break _ 2 (fun j t o => _)). intros j [[uvs a] b]. apply asks_bind0. intros e.
    cbn [CuckooModel.c_edgeMask CuckooModel.c_sipnode CuckooModel.call_node].
    destruct (_ <? e); [apply asks_const|]. apply asks_bind0. intros [|]; [apply asks_const|]. cbn [bind].
    ask_at (subw 64 (shlw 64 1 (Z.to_N edgeBits)) 1, CryptoModel.mkSip x x0 x1 x2, e, 0). apply asks_bind0. intros uvs'. cbn [bind].
    ask_at (subw 64 (shlw 64 1 (Z.to_N edgeBits)) 1, CryptoModel.mkSip x x0 x1 x2, e, 1). apply asks_const.
  - unfold CuckooModel.cuckaroo. cbn [CuckooModel.c_proofSize]. apply asks_last. unfold CuckooModel.cuckaroo_fill.
    apply (asks_mono (N.to_nat (Z.to_N proofSize) * 1)); [lia|].
    apply (asks_for_break _ 1 (fun j t o => _)). intros j [[uvs a] b]. apply asks_bind0. intros e.
    cbn [CuckooModel.c_edgeMask CuckooModel.c_sipblock CuckooModel.call_block].
    destruct (_ <? e); [apply asks_const|]. apply asks_bind0. intros [|]; [apply asks_const|]. cbn [bind]. cbv zeta.
    ask_at (CryptoModel.mkSip x x0 x1 x2, e). apply asks_const.
Qed.
Print Assumptions C74_cuckoo_edges.
