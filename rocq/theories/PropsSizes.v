(** C58, C59: the lengths that clients accept and return. *)
From Coq Require Import NArith ZArith Arith List Bool Lia ZifyBool ZifyN ZifyNat Permutation.
From Verif Require Import Base BaseFacts CryptoModel DagModel DagSpec RegModel RegProofs EthashModel ProgpowModel OctopusModel
  ClientModel ClientProofs HeavyModel HeavySpec HeavyProofs AutoModel EagleModel CuckooModel CuckooProofs BeamModel BeamSpec EquiModel EquiSpec EquiProofs
  PropsDagContent PropsHeavy PropsAutolykos PropsEagle PropsCuckoo PropsEqui PropsBeam PropsHistory.
Import ListNotations.
Open Scope N_scope.
Ltac Zify.zify_post_hook ::= Z.div_mod_to_equations.

(** ** C58 *)

(** The DAG clients, for any configuration, hash functions and state: an error iff the length is not 32, and
    then the client's state is untouched. *)
Section Dag.
Variables keccak256 keccak512 : list N -> list N.
Variable pp : N -> bool.
Variable fuel : nat.
Variables (d : config) (order : list (N * cobj) -> list (N * cobj)) (now : Z) (r : registry) (hash : list N) (height nonce : N).

Lemma error_iff {R} (eval : N -> list N -> list N -> outcome R) :
  (length hash <> 32%nat -> computeWith keccak256 keccak512 pp fuel eval d order now r hash height = Done (r, None)) /\
  (length hash = 32%nat -> forall r', computeWith keccak256 keccak512 pp fuel eval d order now r hash height <> Done (r', None)).
Proof.
  unfold computeWith, lenN. split; intros L.
  - destruct (N.eqb_spec (N.of_nat (length hash)) 32); [lia|reflexivity].
  - intros r'. rewrite L. change (N.of_nat 32) with 32. change (negb (32 =? 32)) with false. cbv iota.
    destruct (CalcEpoch d height) as [e| |]; cbn [bind]; try discriminate.
    destruct (DatasetSize pp fuel d e) as [s| |]; cbn [bind]; try discriminate.
    destruct (GetCache _ _ _ _ d order now e r) as [(r1 & cache & l1)| |]; cbn [bind]; try discriminate.
    destruct (eval s cache l1); cbn [bind]; discriminate.
Qed.
Theorem C58_dag_clients :
  let checked {R} (out : outcome (registry * option R)) :=
    (length hash <> 32%nat -> out = Done (r, None)) /\ (length hash = 32%nat -> forall r', out <> Done (r', None)) in
  checked (Compute_ethash keccak256 keccak512 pp fuel d order now r hash height nonce) /\
  checked (Compute_kawpow keccak256 keccak512 pp fuel d order now r hash height nonce) /\
  checked (Compute_firopow keccak256 keccak512 pp fuel d order now r hash height nonce) /\
  checked (Compute_octopus keccak256 keccak512 pp fuel d order now r hash height nonce).
Proof. intros checked. subst checked. cbv beta. split; [|split; [|split]]; apply error_iff. Qed.
End Dag.
Print Assumptions C58_dag_clients.

Theorem C58_heavyhash submul cshake fuel hash timestamp nonce :
  (length hash <> 32%nat -> HeavyModel.Compute submul cshake fuel hash timestamp nonce = Done None) /\
  (length hash = 32%nat -> HeavyModel.Compute submul cshake fuel hash timestamp nonce <> Done None).
Proof.
  split; [apply C51_hash_length|]. intros L. unfold HeavyModel.Compute, lenN. rewrite L. change (negb (N.of_nat 32 =? 32)) with false. cbv iota.
  destruct (heavyHash _ _ _ _ _ _); discriminate.
Qed.
Print Assumptions C58_heavyhash.

Theorem C58_autolykos H k n msg height nonce :
  (length msg <> 32%nat -> AutoModel.Compute H (AutoModel.newClient k n) msg height nonce = Done None) /\
  (length msg = 32%nat -> AutoModel.Compute H (AutoModel.newClient k n) msg height nonce <> Done None).
Proof.
  split; [apply C53_message_length|]. intros L. unfold AutoModel.Compute, lenN. rewrite L. change (negb (N.of_nat 32 =? 32)) with false. cbv iota.
  destruct (compute _ _ _ _ _ _); discriminate.
Qed.
Print Assumptions C58_autolykos.

Theorem C58_beam blake c header soln :
  (length header <> 40%nat \/ length soln <> 104%nat -> BeamVerify blake c header soln = Done None) /\
  (length header = 40%nat -> length soln = 104%nat -> EquiProofs.blake_ok blake -> lenN (bc_personal c) <= 8 -> bytes soln ->
   (BeamVerify blake c header soln = Done None <-> ~ btree (leaves blake c header soln) 5 (beam_indices soln))).
Proof.
  split.
  - intros L. apply C48_lengths. unfold lenN. lia.
  - intros LH LS OK P B. destruct (C48_verify blake c header soln OK P B) as (r & E & T & _); [unfold lenN; lia|unfold lenN; lia|].
    rewrite E. destruct r as [b|].
    + split; [discriminate|]. intros N. elim N. apply T. discriminate.
    + split; [|reflexivity]. intros _ X. apply T in X. elim X. reflexivity.
Qed.
Print Assumptions C58_beam.

Theorem C58_cuckoo blake edgeBits proofSize (node : N -> sip -> N -> N -> N) (block : sip -> N -> N) node' block' c header sols fuel :
  CuckooProofs.blake_ok blake -> words 64 sols -> (0 < proofSize)%Z -> (Z.to_nat proofSize <= fuel)%nat ->
  NewCuckoo edgeBits proofSize (Some (fun m k e s => Done (node m k e s))) block' = Done c \/
  NewCuckaroo edgeBits proofSize node' (Some (fun k e => Done (block k e))) = Done c ->
  (CuckooModel.Verify blake fuel c header sols = Done (false, Some ErrSolsLength) <-> Z.of_nat (length sols) <> proofSize).
Proof.
  intros OK W P F NEW.
  assert (X : exists r, CuckooModel.Verify blake fuel c header sols = Done r /\
     (r = (false, Some ErrSolsLength) -> Z.of_nat (length sols) <> proofSize)).
  { destruct NEW as [NEW|NEW].
    - destruct (C40_verdicts blake edgeBits proofSize node block node' block' c header sols fuel OK W P F _ (or_introl (conj NEW eq_refl))) as (r & E & V).
      exists r. split; [exact E|]. intros ->. exact V.
    - destruct (C40_verdicts blake edgeBits proofSize node block node' block' c header sols fuel OK W P F _ (or_intror (conj NEW eq_refl))) as (r & E & V).
      exists r. split; [exact E|]. intros ->. exact V. }
  destruct X as (r & E & V). split.
  - intros E'. rewrite E in E'. injection E' as ->. auto.
  - intros L. unfold CuckooModel.Verify.
    assert (PS : c_proofSize c = proofSize).
    { destruct NEW as [NEW|NEW]; unfold NewCuckoo, NewCuckaroo, CuckooModel.newClient in NEW;
      (destruct (edgeBits <? 0)%Z; [discriminate|]);
      injection NEW as <-; reflexivity. }
    rewrite PS. destruct (Z.eqb_spec (Z.of_N (lenN sols)) proofSize) as [Q|Q]; [|reflexivity].
    elim L. rewrite <- Q. unfold lenN. lia.
Qed.
Print Assumptions C58_cuckoo.

(** ** C59 *)

(** A loop that returns keeps an invariant of its state. *)
Lemma for_up_done {S} (I : S -> Prop) body n : forall i s s',
  (forall j t t', I t -> body j t = Done t' -> I t') -> I s -> for_up n i body s = Done s' -> I s'.
Proof.
  induction n as [|n IH]; intros i s s' H0 HS E; cbn [for_up] in E; [injection E as <-; auto|].
  destruct (body i s) as [t| |] eqn:B; cbn [bind] in E; try discriminate. apply (IH (i + 1) t s' H0); [exact (H0 i s t HS B)|exact E].
Qed.
Lemma for_n_done {S} (I : S -> Prop) body n s s' :
  (forall j t t', I t -> body j t = Done t' -> I t') -> I s -> for_n n body s = Done s' -> I s'.
Proof. apply for_up_done. Qed.

Definition block (n : nat) (b : list N) : Prop := length b = n /\ bytes b.

Lemma copy_at_block n b off src b' : block n b -> bytes src -> copy_at b off src = Done b' -> block n b'.
Proof.
  intros (L & B) BS E. unfold copy_at in E. destruct (N.leb_spec off (lenN b)) as [O|O]; [|discriminate]. injection E as <-.
  unfold overwrite, lenN in *. split.
  - rewrite !app_length, !firstn_length, skipn_length. lia.
  - apply Forall_app; split; [apply Forall_firstn_; exact B|]. apply Forall_app; split; [apply Forall_firstn_; exact BS|apply Forall_skipn_; exact B].
Qed.
Lemma slice_bytes b x y t : bytes b -> slice b x y = Done t -> bytes t.
Proof.
  intros B E. unfold slice in E. destruct (_ && _); [|discriminate]. injection E as <-. apply Forall_firstn_, Forall_skipn_. exact B.
Qed.
Lemma put32_bytes o b v t : bytes b -> put_uint32 o b v = Done t -> bytes t.
Proof.
  intros B E. unfold put_uint32 in E. destruct (4 <=? lenN b); [|discriminate].
  eapply (copy_at_block (length b) b 0 _ t); [split; auto| |exact E]. destruct o; [apply le_bytes_bytes|apply be_bytes_bytes].
Qed.
(** One step of the loops that write words into a buffer. *)
Lemma put_step n (b : list N) off v b' o :
  block n b -> (tail <- slice_from b off ;; tail' <- put_uint32 o tail v ;; copy_at b off tail') = Done b' -> block n b'.
Proof.
  intros B E. destruct (slice_from b off) as [t| |] eqn:S; cbn [bind] in E; try discriminate.
  destruct (put_uint32 o t v) as [t'| |] eqn:P; cbn [bind] in E; try discriminate.
  eapply copy_at_block; [exact B| |exact E]. eapply put32_bytes; [|exact P]. eapply slice_bytes; [apply B|exact S].
Qed.
Lemma zeros_block n : block (N.to_nat n) (zeros n).
Proof. unfold zeros. split; [apply repeat_length|]. apply Forall_forall. intros x X. apply repeat_spec in X. subst. reflexivity. Qed.

Lemma array_bytes arr o b : Uint32ArrayToBytes arr o = Done b -> block (4 * length arr) b.
Proof.
  unfold Uint32ArrayToBytes. intros E. eapply (for_n_done (block (4 * length arr))); [|
    |exact E].
  - intros j t t' B E'. cbv beta in E'. destruct (idx arr j) as [v| |]; cbn [bind] in E'; try discriminate.
    eapply put_step; eauto.
  - replace (4 * length arr)%nat with (N.to_nat (lenN arr * 4)) by (unfold lenN; lia). apply zeros_block.
Qed.

(** Any run of these that returns gives 32 bytes each, whatever the dataset and the hashes. *)
Theorem C59_hashimoto H512 H256 hash nonce size lookup mix digest :
  hash_ok 32 H256 -> hashimoto H512 H256 hash nonce size lookup = Done (mix, digest) ->
  (length mix = 32%nat /\ bytes mix) /\ (length digest = 32%nat /\ bytes digest).
Proof.
  intros HH E. unfold hashimoto in E.
  repeat match type of E with
  | bind ?m _ = _ => let X := fresh "X" in destruct m eqn:X; cbn [bind] in E; try discriminate E
  | (let '(_, _) := ?p in _) = _ => destruct p
  end.
  injection E as <- <-. split; [|apply HH].
  match goal with X : for_n _ _ (zeros 32) = Done ?g |- length ?g = _ /\ _ =>
    refine (for_n_done (block 32) _ _ _ _ _ _ X); [|exact (zeros_block 32)] end.
  intros j t t' B E'. cbv beta in E'.
  match type of E' with bind ?m _ = _ => destruct m as [v| |]; cbn [bind] in E'; try discriminate end.
  eapply put_step; eauto.
Qed.
Print Assumptions C59_hashimoto.

Lemma upd_length {A} (l : list A) i v l' : upd l i v = Done l' -> length l' = length l.
Proof. unfold upd. destruct (_ <? _); [|discriminate]. intros E. injection E as <-. apply set_nth_length. Qed.

Lemma Hash_block cfg height seed size lookup l1 m : Hash cfg height seed size lookup l1 = Done m -> block 32 m.
Proof.
  intros E. unfold Hash in E.
  repeat match type of E with
  | bind ?m _ = _ => let X := fresh "X" in destruct m eqn:X; cbn [bind] in E; try discriminate E
  end.
  apply array_bytes in E.
  match type of E with block (4 * length ?a) _ => assert (L : length a = 8%nat) end.
  - match goal with A : for_n 8 _ (zeros 8) = Done ?a, B : for_n (LaneCount cfg) _ ?a = Done ?b |- _ =>
      apply (for_n_done (fun l => length l = 8%nat)) in A; [apply (for_n_done (fun l => length l = 8%nat)) in B; [exact B| |exact A]| |reflexivity] end.
    + intros j t t' L E'. cbv beta in E'.
      repeat match type of E' with bind ?m _ = _ => destruct m; cbn [bind] in E'; try discriminate end.
      apply upd_length in E'. lia.
    + intros j t t' L E'. apply upd_length in E'. lia.
  - rewrite L in E. exact E.
Qed.
Lemma slice_length {A} (l : list A) x y t : slice l x y = Done t -> length t = N.to_nat (y - x).
Proof.
  unfold slice. destruct (_ && _) eqn:C; [|discriminate]. intros E.
  assert (T : t = firstn (N.to_nat (y - x)) (skipn (N.to_nat x) l)) by congruence.
  rewrite T, firstn_length, skipn_length. unfold lenN in C. lia.
Qed.
Lemma squeeze_block s b : squeeze_digest s = Done b -> block 32 b.
Proof.
  unfold squeeze_digest. intros E. destruct (slice s 0 8) as [t| |] eqn:S; cbn [bind] in E; try discriminate.
  apply array_bytes in E. apply slice_length in S. rewrite S in E. exact E.
Qed.

Lemma pow_blocks (init : outcome (list N * N)) (mixf : N -> outcome (list N)) (fin : list N -> list N -> outcome (list N)) mix digest :
  (forall h m, mixf h = Done m -> block 32 m) -> (forall s m b, fin s m = Done b -> block 32 b) ->
  (' x <- init ;; let '(seed, head) := x in m <- mixf head ;; dg <- fin seed m ;; Done (m, dg)) = Done (mix, digest) ->
  block 32 mix /\ block 32 digest.
Proof.
  intros M F E. destruct init as [(seed & head)| |]; cbn [bind] in E; try discriminate.
  destruct (mixf head) as [m| |] eqn:EM; cbn [bind] in E; try discriminate.
  destruct (fin seed m) as [dg| |] eqn:EF; cbn [bind] in E; try discriminate.
  injection E as <- <-. split; [apply (M head); exact EM|apply (F seed m); exact EF].
Qed.
Theorem C59_progpow hash height nonce size lookup l1 mix digest fn :
  In fn [kawpow; firopow; progpow094] -> fn hash height nonce size lookup l1 = Done (mix, digest) ->
  (length mix = 32%nat /\ bytes mix) /\ (length digest = 32%nat /\ bytes digest).
Proof.
  assert (FIN : forall {A} (m : outcome A) (k : A -> outcome (list N)) b, bind m k = Done b -> exists x, m = Done x /\ k x = Done b).
  { intros A m k b E. destruct m as [x| |]; try discriminate. exists x. auto. }
  assert (F1 : forall s m b, kawpow_finalize s m = Done b -> block 32 b).
  { intros s m b E. unfold kawpow_finalize in E.
    do 3 (apply FIN in E; destruct E as (? & _ & E); cbv beta in E). apply squeeze_block in E. exact E. }
  assert (F2 : forall s m b, firopow_finalize s m = Done b -> block 32 b).
  { intros s m b E. unfold firopow_finalize in E.
    do 4 (apply FIN in E; destruct E as (? & _ & E); cbv beta in E). apply squeeze_block in E. exact E. }
  assert (F3 : forall s m b, progpow094_finalize s m = Done b -> block 32 b).
  { intros s m b E. unfold progpow094_finalize in E.
    do 2 (apply FIN in E; destruct E as (? & _ & E); cbv beta in E). apply squeeze_block in E. exact E. }
  cbn [In]. intros [<-|[<-|[<-|[]]]] E.
  - exact (pow_blocks (kawpow_initialize hash nonce) (fun h => Hash kawpow_cfg height h size lookup l1) kawpow_finalize mix digest
      (fun h m => Hash_block kawpow_cfg height h size lookup l1 m) F1 E).
  - exact (pow_blocks (firopow_initialize hash nonce) (fun h => Hash firopow_cfg height h size lookup l1) firopow_finalize mix digest
      (fun h m => Hash_block firopow_cfg height h size lookup l1 m) F2 E).
  - exact (pow_blocks (progpow094_initialize hash nonce) (fun h => Hash progpow094_cfg height h size lookup l1) progpow094_finalize mix digest
      (fun h m => Hash_block progpow094_cfg height h size lookup l1 m) F3 E).
Qed.
Print Assumptions C59_progpow.

Theorem C59_octopus fuel H512 H256 hash nonce size lookup digest :
  hash_ok 32 H256 -> octopus fuel H512 H256 hash nonce size lookup = Done digest -> length digest = 32%nat /\ bytes digest.
Proof.
  intros HH E. unfold octopus, dagPart in E.
  repeat match type of E with
  | bind ?m _ = _ => destruct m; cbn [bind] in E; try discriminate E
  | (let '(_, _) := ?p in _) = _ => destruct p
  end.
  injection E as <-. apply HH.
Qed.
Print Assumptions C59_octopus.

(** HeavyHash, Autolykos and Eaglesong. *)
Theorem C59_heavyhash submul cshake fuel hash timestamp nonce digest :
  (forall s, hash_ok 32 (fun b => cshake b s)) -> bytes hash ->
  HeavyModel.Compute submul cshake fuel hash timestamp nonce = Done (Some digest) -> length digest = 32%nat /\ bytes digest.
Proof.
  intros HC B E. destruct (Nat.eq_dec (length hash) 32) as [L|L].
  2:{ rewrite C51_hash_length in E by auto. discriminate. }
  destruct (C51_digest submul cshake fuel hash timestamp nonce _ HC L B E) as (t & _ & _ & X). injection X as ->.
  unfold heavy_spec. cbv zeta. rewrite rev_length. destruct (HC heavy_name (tab 32 (fun i => N.lxor
    (nth (N.to_nat i) (cshake (heavy_header hash timestamp nonce) pow_name) 0)
    (16 * (dot (candidate (seed_state hash) t (2 * i)) (nibble (cshake (heavy_header hash timestamp nonce) pow_name)) / 2 ^ 10) +
     dot (candidate (seed_state hash) t (2 * i + 1)) (nibble (cshake (heavy_header hash timestamp nonce) pow_name)) / 2 ^ 10)))) as (L1 & B1).
  split; [exact L1|]. apply Forall_rev. exact B1.
Qed.
Print Assumptions C59_heavyhash.
Theorem C59_autolykos H msg height nonce digest :
  hash_ok 32 H -> AutoModel.Compute H newErgo msg height nonce = Done (Some digest) -> length digest = 32%nat /\ bytes digest.
Proof.
  intros HH E. destruct (Nat.eq_dec (length msg) 32) as [L|L].
  - destruct (C53_digest H msg height nonce HH L) as ((b & E' & _) & _). rewrite E in E'. injection E' as ->. apply HH.
  - change newErgo with (AutoModel.newClient 32 26) in E. rewrite C53_message_length in E by auto. discriminate.
Qed.
Print Assumptions C59_autolykos.
Theorem C59_eaglesong input : bytes input ->
  exists digest, EagleModel.Compute NewNervos input = Done digest /\ length digest = 32%nat /\ bytes digest.
Proof. intros B. destruct (C55_nervos input B) as (E & L & D). eauto. Qed.
Print Assumptions C59_eaglesong.

(** Cases that meet the hypotheses. *)
Example C58_instance :
  (exists r, serve (Compute_ethash Hashes.keccak256 Hashes.keccak512 (fun _ => true) 5 (cfg_ethereum []))
     [mkCall (repeat 0 31) 0 0 0 (fun m => m); mkCall (repeat 0 33) 0 0 0 (fun m => m)] empty_registry = Done (r, [None; None])) /\
  AutoModel.Compute auto_toy newErgo (repeat 0 31) 0 0 = Done None /\
  AutoModel.Compute auto_toy newErgo (repeat 0 32) 0 0 <> Done None.
Proof.
  split; [eexists; reflexivity|]. split; [reflexivity|]. apply C58_autolykos. reflexivity.
Qed.
Example C59_instance : exists mix digest,
  hashimoto toy_hash (fun b => firstn 32 (toy_hash b)) (repeat 3 32) 7 400 (fun i => Done (tab 16 (fun j => i + j))) = Done (mix, digest) /\
  mix <> digest.
Proof. eexists _, _. split; [vm_compute; reflexivity|]. discriminate. Qed.
