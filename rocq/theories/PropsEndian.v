(** C70: the machine's byte order. *)
From Coq Require Import NArith ZArith Arith List Bool Lia ZifyBool ZifyN ZifyNat Znumtheory.
From Verif Require Import Base BaseFacts DagModel DagSpec DagSize Chunks DagContent FileModel FileJob FileJobProofs
  RegModel PropsDagContent ClientModel ClientSpec ClientProofs EthashModel EthashSpec PropsEthash KeccakSpec Hashes HashesFacts CryptoModel EndianModel.
Import ListNotations.
Open Scope N_scope.
Ltac Zify.zify_post_hook ::= Z.div_mod_to_equations.

(** ** Specification *)

(** A 32-bit word with its four bytes in the other order. *)
Definition reversed (w : N) : N := le_value (rev (le_bytes 4 w)).
(** What a machine makes of a word that is written with its low byte first. *)
Definition as_read (bo : byteorder) (w : N) : N := match bo with Little => w | Big => reversed w end.

Lemma view_cut bo n b : view bo n b = map (native_word bo) (cut 4 n b).
Proof. revert b. induction n; intros b; cbn [view cut map]; [reflexivity|]. rewrite IHn. reflexivity. Qed.
Lemma view_little n b : view Little n b = le_words n b.
Proof. rewrite view_cut, le_words_cut. reflexivity. Qed.
Lemma native_word_read bo b : bytes b -> length b = 4%nat -> native_word bo b = as_read bo (le_value b).
Proof.
  intros B L. destruct bo; [reflexivity|]. cbn [native_word as_read]. unfold be_value, reversed.
  rewrite <- L, le_value_bytes by exact B. reflexivity.
Qed.
Lemma view_read bo n b : bytes b -> length b = (4 * n)%nat -> view bo n b = map (as_read bo) (le_words n b).
Proof.
  intros B L. revert b B L. induction n; intros b B L; cbn [view le_words map]; [reflexivity|].
  f_equal.
  - apply native_word_read; [|rewrite firstn_length; lia]. apply Forall_firstn; exact B.
  - apply IHn; [apply Forall_skipn; exact B|rewrite skipn_length; lia].
Qed.
Lemma as_read_word bo w : isw 32 w -> isw 32 (as_read bo w).
Proof.
  intros W. destruct bo; [exact W|]. cbn [as_read]. unfold reversed, isw.
  change (2 ^ 32) with (256 ^ 4).
  assert (B : bytes (rev (le_bytes 4 w))) by (apply Forall_rev, le_bytes_bytes).
  pose proof (le_value_lt _ B) as X. unfold lenN in X. rewrite rev_length, le_bytes_length in X. exact X.
Qed.
Lemma reversed_twice w : isw 32 w -> reversed (reversed w) = w.
Proof.
  intros W. unfold reversed at 1. unfold reversed.
  assert (B : bytes (rev (le_bytes 4 w))) by (apply Forall_rev, le_bytes_bytes).
  replace 4%nat with (length (rev (le_bytes 4 w))) at 1 by (rewrite rev_length, le_bytes_length; reflexivity).
  rewrite (le_value_bytes _ B), rev_involutive, le_bytes_value. apply N.mod_small. exact W.
Qed.
Lemma keccak256_ok : hash_ok 32 keccak256.
Proof. intros b. split; [apply keccak256_length|apply keccak256_bytes]. Qed.

(** ** Theorems *)

Section Caches.
Variables keccak256 keccak512 : list N -> list N.
Variable pp : N -> bool.
Variable fuel : nat.
Hypothesis H256 : hash_ok 32 keccak256.
Hypothesis H512 : hash_ok 64 keccak512.
Variable d : config.
Hypothesis SEL : 0 < cf_seed_epoch_length d.
Hypothesis L1a : cf_l1_cache_size d = 4 * cf_l1_cache_num_items d.
Hypothesis L1b : cf_l1_cache_size d mod 64 = 0.
Hypothesis L1c : cf_l1_cache_size d < 2 ^ 38.
Notation eok := (epoch_ok pp fuel d).

(** The rows of the verification cache the algorithm prescribes, sixteen words each, and what a machine of
    either byte order holds instead; the dataset that follows from the latter. *)
Definition rows_of (e size : N) : list (list N) :=
  map (le_words 16) (cache_rows keccak512 (seed_chain keccak256 (N.to_nat ((e * cf_epoch_length d + 1) / cf_seed_epoch_length d)))
    (N.to_nat (size / 64)) (N.to_nat (cf_cache_rounds d))).
Definition rows_on (bo : byteorder) (e size : N) : list (list N) := map (map (as_read bo)) (rows_of e size).
Definition item_on (bo : byteorder) (e size : N) (i : N) : list N :=
  dataset_item keccak512 (N.to_nat (cf_dataset_parents d)) (rows_on bo e size) i.

Lemma rows_on_ok bo e size : eok e size -> cache_ok (rows_on bo e size) /\ lenN (rows_on bo e size) = size / 64.
Proof.
  intros OK. destruct (the_cache_ok keccak256 keccak512 pp fuel H512 d SEL L1a L1b L1c e size OK) as (CO & CL).
  change (the_cache keccak256 keccak512 d e size) with (rows_of e size) in CO, CL. destruct CO as (NE & FA).
  unfold rows_on. split.
  - split; [destruct (rows_of e size); [congruence|discriminate]|].
    apply Forall_map. eapply Forall_impl; [|exact FA]. intros r (L & W). split; [rewrite map_length; exact L|].
    apply Forall_map. eapply Forall_impl; [|exact W]. intros w. apply as_read_word.
  - unfold lenN in *. rewrite map_length. exact CL.
Qed.

(** The words every user of the cache sees: those the algorithm prescribes, as the machine reads them. *)
Theorem C70_words bo e size : eok e size ->
  generate_on keccak256 keccak512 pp fuel bo d e =
  Done (concat (rows_on bo e size),
        if cf_l1_enabled d
        then map (as_read bo) (concat (map (fun i => item_on bo e size (N.of_nat i)) (seq 0 (N.to_nat (cf_l1_cache_num_items d / 16)))))
        else []).
Proof.
  intros OK. pose proof (rows_on_ok bo e size OK) as (CO & CL). destruct OK as (E1 & E2 & E3 & E4 & E5).
  unfold generate_on. rewrite E2. cbn [bind].
  change (SeedHash keccak256 d (addw 64 (mulw 64 e (cf_epoch_length d)) 1)) with (job_seed keccak256 d e).
  rewrite job_seed_spec by (auto; lia). cbn [bind].
  set (rows := size / 64) in *. assert (ER : size = 64 * rows) by (unfold rows; lia).
  rewrite (generateCache_spec keccak512 d _ (epoch_seed keccak256 d e) rows); auto; try lia.
  2:{ unfold lenN, zeros. rewrite repeat_length. lia. }
  cbn [bind].
  destruct (cache_rows_ok keccak512 (epoch_seed keccak256 d e) (N.to_nat rows) (N.to_nat (cf_cache_rounds d)) H512) as (BL & LEN).
  assert (FB := cache_rows_bytes keccak512 (epoch_seed keccak256 d e) (N.to_nat rows) (N.to_nat (cf_cache_rounds d)) H512).
  replace (N.to_nat (size / 4)) with (16 * N.to_nat rows)%nat by lia.
  rewrite view_read.
  2:{ apply Forall_concat. exact FB. }
  2:{ rewrite (concat_blocks_length 64) by exact BL. rewrite LEN. lia. }
  rewrite le_words_concat by auto.
  rewrite concat_map.
  change (map (map (as_read bo)) (map (le_words 16) (cache_rows keccak512 (epoch_seed keccak256 d e) (N.to_nat rows) (N.to_nat (cf_cache_rounds d)))))
    with (rows_on bo e size).
  destruct (cf_l1_enabled d); [|reflexivity].
  set (num := cf_l1_cache_num_items d) in *.
  rewrite (generateL1Cache_spec keccak512 d (rows_on bo e size) _ (num / 16)); auto.
  - cbn [bind]. f_equal. f_equal.
    assert (WI : words 32 (concat (map (fun i => item_on bo e size (N.of_nat i)) (seq 0 (N.to_nat (num / 16)))))).
    { apply Forall_concat, Forall_map, Forall_forall. intros. apply dataset_item_words; auto. }
    assert (LI : length (concat (map (fun i => item_on bo e size (N.of_nat i)) (seq 0 (N.to_nat (num / 16))))) = N.to_nat num).
    { rewrite (concat_blocks_length 16).
      - rewrite map_length, seq_length. lia.
      - apply Forall_map, Forall_forall. intros. apply dataset_item_length. }
    change (concat (tab (num / 16) (dataset_item keccak512 (N.to_nat (cf_dataset_parents d)) (rows_on bo e size))))
      with (concat (map (fun i => item_on bo e size (N.of_nat i)) (seq 0 (N.to_nat (num / 16))))).
    set (I := concat _) in *.
    rewrite view_read.
    + rewrite le_words_words_bytes by auto. reflexivity.
    + unfold words_bytes. apply Forall_flat_map, Forall_forall. intros. apply le_bytes_bytes.
    + rewrite words_bytes_length. lia.
  - rewrite CL. lia.
  - unfold lenN, zeros. rewrite repeat_length. lia.
  - lia.
Qed.

(** On a little-endian machine: the words as prescribed. *)
Theorem C70_little_endian e size : eok e size ->
  generate_on keccak256 keccak512 pp fuel Little d e =
  Done (concat (rows_of e size),
        if cf_l1_enabled d
        then concat (map (fun i => dataset_item keccak512 (N.to_nat (cf_dataset_parents d)) (rows_of e size) (N.of_nat i))
                       (seq 0 (N.to_nat (cf_l1_cache_num_items d / 16))))
        else []).
Proof.
  intros OK. rewrite (C70_words Little e size OK). unfold item_on.
  assert (ID : rows_on Little e size = rows_of e size).
  { unfold rows_on. rewrite (map_ext _ (fun r => r)), map_id; [reflexivity|]. intros. apply map_id. }
  rewrite ID, map_id. reflexivity.
Qed.

(** The dataset the three lookups give, on either machine. *)
Theorem C70_lookups bo e size cache l1 i : eok e size ->
  generate_on keccak256 keccak512 pp fuel bo d e = Done (cache, l1) ->
  (i < 2 ^ 32 -> NewLookupFunc512 keccak512 d cache i = Done (item_on bo e size i)) /\
  (i < 2 ^ 31 -> NewLookupFunc1024 keccak512 d cache i = Done (item_on bo e size (2 * i) ++ item_on bo e size (2 * i + 1))) /\
  (i < 2 ^ 30 -> NewLookupFunc2048 keccak512 d cache i = Done (page (item_on bo e size) i)).
Proof.
  intros OK G. rewrite (C70_words bo e size OK) in G. injection G as <- _.
  destruct (rows_on_ok bo e size OK) as (CO & CL). destruct OK as (E1 & E2 & E3 & E4 & E5).
  apply (C14_lookup_funcs keccak512 d (rows_on bo e size) i H512 CO). rewrite CL. lia.
Qed.

(** The ethash answer, on either machine. *)
Theorem C70_ethash bo e size ds hash nonce : eok e size ->
  DatasetSize pp fuel d e = Done ds -> 128 <= ds -> ds <= 2 ^ 38 -> length hash = 32%nat ->
  ethash_on keccak256 keccak512 pp fuel bo d e hash nonce =
  Done (hashimoto_spec keccak512 keccak256 hash nonce (ds / 128) (item_on bo e size)).
Proof.
  intros OK DS B1 B2 L. unfold ethash_on. rewrite DS. cbn [bind]. rewrite (C70_words bo e size OK). cbn [bind].
  apply C22_hashimoto; auto. intros i Hi. split; [|split; [apply dataset_item_length|apply dataset_item_words; auto]].
  destruct (rows_on_ok bo e size OK) as (CO & CL). destruct OK as (E1 & E2 & E3 & E4 & E5).
  destruct (C14_lookup_funcs keccak512 d (rows_on bo e size) i H512 CO) as (A & _); [rewrite CL; lia|].
  apply A. clear - Hi B2. change (2 ^ 38) with 274877906944 in B2. change (2 ^ 32) with 4294967296. lia.
Qed.

(** The two machines hold the same words only if every word of the cache reads the same both ways. *)
Theorem C70_same_words e size : eok e size ->
  (exists l1 l1' cache, generate_on keccak256 keccak512 pp fuel Little d e = Done (cache, l1) /\
    generate_on keccak256 keccak512 pp fuel Big d e = Done (cache, l1')) <->
  Forall (Forall (fun w => reversed w = w)) (rows_of e size).
Proof.
  intros OK. rewrite (C70_words Little e size OK), (C70_words Big e size OK).
  assert (MI : forall l : list N, map reversed l = l <-> Forall (fun w => reversed w = w) l).
  { induction l as [|x l IH]; cbn [map]; [split; auto|]. rewrite Forall_cons_iff, <- IH. split; [intros E; injection E; auto|intros (-> & ->); reflexivity]. }
  assert (ID : concat (rows_on Little e size) = concat (rows_of e size)).
  { unfold rows_on. rewrite (map_ext _ (fun r => r)), map_id; [reflexivity|]. intros. apply map_id. }
  assert (RB : concat (rows_on Big e size) = map reversed (concat (rows_of e size))) by (rewrite concat_map; reflexivity).
  assert (FC : forall R : list (list N), Forall (fun w => reversed w = w) (concat R) <-> Forall (Forall (fun w => reversed w = w)) R).
  { induction R as [|r R IH]; cbn [concat]; [split; auto|]. rewrite Forall_app, IH, Forall_cons_iff. reflexivity. }
  rewrite ID, RB, <- FC, <- MI. split.
  - intros (l1 & l1' & c & A & B). injection A as <- _. injection B as B _. exact B.
  - intros E. rewrite E. repeat eexists.
Qed.
End Caches.
Print Assumptions C70_words.
Print Assumptions C70_little_endian.
Print Assumptions C70_lookups.
Print Assumptions C70_ethash.
Print Assumptions C70_same_words.

(** Files carry the byte order of their writer in the magic, and a machine of the other order rejects them:
    a cache directory moved between machines is regenerated, never misread. *)
Theorem C70_files writer reader content :
  check_magic_on reader (magic_on writer ++ content) =
  Done (match writer, reader with Little, Little | Big, Big => true | _, _ => false end).
Proof.
  unfold check_magic_on.
  assert (E : view reader (length (magic_on writer ++ content) / 4) (magic_on writer ++ content) =
    view reader 2 (magic_on writer) ++ view reader (length content / 4) content).
  { rewrite app_length. replace (length (magic_on writer)) with 8%nat by (destruct writer; reflexivity).
    replace ((8 + length content) / 4)%nat with (2 + length content / 4)%nat
      by (change 8%nat with (2 * 4)%nat; rewrite Nat.div_add_l by lia; reflexivity).
    destruct writer; reflexivity. }
  rewrite E. destruct writer, reader; reflexivity.
Qed.
Print Assumptions C70_files.
Theorem C70_little_files x : check_magic_on Little x = check_magic x /\ magic_on Little = magic_bytes.
Proof.
  split; [|reflexivity]. unfold check_magic_on, check_magic.
  assert (V : forall n b, view Little n b = map (fun k => le_value (firstn 4 (skipn (4 * k) b))) (seq 0 n)).
  { induction n; intros b; [reflexivity|]. cbn [view seq map]. f_equal. rewrite IHn, <- seq_shift, map_map.
    apply map_ext. intros k. rewrite EthashProofs.skipn_add. do 3 f_equal. lia. }
  rewrite V. reflexivity.
Qed.
Print Assumptions C70_little_files.

(** A network with a cache of three rows and the functions the library uses: the real hashes, and a size test
    that is right for the sizes that occur. *)
Definition small_prime (q : N) : bool := (q =? 2) || (q =? 3) || (q =? 5) || (q =? 7).
Definition small : config := {|
  cf_name := [83]; cf_revision := 23; cf_storage_dir := [];
  cf_dataset_init := 512; cf_dataset_growth := 128; cf_cache_init := 256; cf_cache_growth := 64;
  cf_cache_sizes := None; cf_dataset_sizes := None;
  cf_mix_bytes := 128; cf_dataset_parents := 2; cf_epoch_length := 30000; cf_seed_epoch_length := 30000;
  cf_cache_rounds := 1; cf_caches_count := 3; cf_caches_lock_mmap := false;
  cf_l1_enabled := true; cf_l1_cache_size := 64; cf_l1_cache_num_items := 16 |}.
Lemma small_ok : epoch_ok small_prime 10 small 0 192.
Proof. unfold epoch_ok. split; [reflexivity|]. split; [reflexivity|]. lia. Qed.

(** The full claim, that caches, lookups and answers do not depend on the machine, is false. *)
Theorem C70_byte_order_refuted : exists cache l1 cache' l1',
  generate_on keccak256 keccak512 small_prime 10 Little small 0 = Done (cache, l1) /\
  generate_on keccak256 keccak512 small_prime 10 Big small 0 = Done (cache', l1') /\
  cache <> cache' /\ l1 <> l1' /\ NewLookupFunc512 keccak512 small cache 0 <> NewLookupFunc512 keccak512 small cache' 0.
Proof.
  assert (E : match generate_on keccak256 keccak512 small_prime 10 Little small 0, generate_on keccak256 keccak512 small_prime 10 Big small 0 with
    | Done (c, l), Done (c', l') => negb (hd 0 c =? hd 0 c') && negb (hd 0 l =? hd 0 l') &&
        negb (hd 0 l =? reversed (hd 0 l'))
    | _, _ => false
    end = true) by (vm_compute; reflexivity).
  assert (K : forall bo, exists c l, generate_on keccak256 keccak512 small_prime 10 bo small 0 = Done (c, l) /\
    NewLookupFunc512 keccak512 small c 0 = Done (map (as_read bo) l)).
  { intros bo. pose proof (C70_words keccak256 keccak512 small_prime 10 keccak256_ok keccak512_ok small eq_refl eq_refl eq_refl eq_refl bo 0 192 small_ok) as G.
    cbn [cf_l1_enabled small] in G. eexists. eexists. split; [exact G|].
    rewrite (proj1 (C70_lookups keccak256 keccak512 small_prime 10 keccak256_ok keccak512_ok small eq_refl eq_refl eq_refl eq_refl bo 0 192 _ _ 0 small_ok G) eq_refl).
    f_equal. change (N.to_nat (cf_l1_cache_num_items small / 16)) with 1%nat. cbn [seq map concat].
    rewrite app_nil_r. change (N.of_nat 0) with 0. set (I := item_on _ _ _ bo 0 192 0).
    assert (WI : words 32 I) by (apply dataset_item_words; exact keccak512_ok).
    destruct bo; [rewrite !map_id; reflexivity|]. rewrite map_map. rewrite <- (map_id I) at 1. apply map_ext_in.
    intros w Hw. symmetry. apply reversed_twice. exact (proj1 (Forall_forall _ _) WI w Hw). }
  destruct (K Little) as (c & l & G & KL). destruct (K Big) as (c' & l' & G' & KB).
  exists c, l, c', l'. split; [exact G|]. split; [exact G'|]. rewrite G, G' in E. clear G G' K.
  apply andb_prop in E as (E & E3). apply andb_prop in E as (E1 & E2).
  split; [intros ->; rewrite N.eqb_refl in E1; discriminate|].
  split; [intros ->; rewrite N.eqb_refl in E2; discriminate|].
  rewrite KL, KB. intros X. injection X as X. rewrite map_id in X. subst l.
  destruct l'; [discriminate E2|]. cbn [map hd as_read] in E3. rewrite N.eqb_refl in E3. discriminate.
Qed.
Print Assumptions C70_byte_order_refuted.

(** The ethash answers of the same network differ too. *)
Check (eq_refl true <:
  match ethash_on keccak256 keccak512 small_prime 10 Little small 0 (repeat 7 32) 5,
        ethash_on keccak256 keccak512 small_prime 10 Big small 0 (repeat 7 32) 5 with
  | Done (m, h), Done (m', h') => negb (same m m') && negb (same h h')
  | _, _ => false
  end = true).

(** Cases the theorems above apply to. *)
Example C70_instance_words : exists l1,
  generate_on keccak256 keccak512 small_prime 10 Big small 0 = Done (concat (rows_on keccak256 keccak512 small Big 0 192), l1) /\
  length l1 = 16%nat.
Proof.
  eexists. split.
  - exact (C70_words keccak256 keccak512 small_prime 10 keccak256_ok keccak512_ok small eq_refl eq_refl eq_refl eq_refl Big 0 192 small_ok).
  - cbn [cf_l1_enabled small]. rewrite map_length. change (N.to_nat (cf_l1_cache_num_items small / 16)) with 1%nat.
    cbn [seq map concat]. rewrite app_nil_r. apply dataset_item_length.
Qed.
Example C70_instance_ethash bo :
  ethash_on keccak256 keccak512 small_prime 10 bo small 0 (repeat 7 32) 5 =
  Done (hashimoto_spec keccak512 keccak256 (repeat 7 32) 5 3 (item_on keccak256 keccak512 small bo 0 192)).
Proof.
  apply (C70_ethash keccak256 keccak512 small_prime 10 keccak256_ok keccak512_ok small eq_refl eq_refl eq_refl eq_refl bo 0 192 384);
    [exact small_ok|reflexivity|lia|lia|reflexivity].
Qed.
Example C70_instance_reversed : reversed 0x01020304 = 0x04030201.
Proof. reflexivity. Qed.
