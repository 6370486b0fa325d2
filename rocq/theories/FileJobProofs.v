(** The jobs of a configuration satisfy what FileProofs.v asks for. *)
From Coq Require Import NArith ZArith Arith List Bool Lia ZifyBool ZifyN ZifyNat.
From Verif Require Import Base BaseFacts DagModel DagSpec DagSize Chunks DagContent
  FileModel FileProofs NameModel NameProofs FileJob.
Import ListNotations.
Open Scope N_scope.
Ltac Zify.zify_post_hook ::= Z.div_mod_to_equations.

Lemma le_words_concat R n :
  blocks 64 R -> length R = n -> Forall bytes R ->
  le_words (16 * n) (concat R) = concat (map (le_words 16) R).
Proof.
  intros B L FB. symmetry.
  assert (BB : blocks 16 (map (le_words 16) R)).
  { apply Forall_map, Forall_forall. intros. apply le_words_length. }
  rewrite <- (le_words_words_bytes (concat (map (le_words 16) R)) (16 * n)).
  - f_equal. clear n L BB. induction R as [|r R IH]; auto. cbn [map concat].
    unfold words_bytes in *. rewrite flat_map_app.
    inversion B; inversion FB; subst. f_equal; [|apply IH; auto].
    apply words_bytes_le_words; auto.
  - apply Forall_concat, Forall_map, Forall_forall. intros r Hr. apply le_words_words.
    apply (proj1 (Forall_forall _ _) FB _ Hr).
  - rewrite (concat_blocks_length 16) by auto. rewrite map_length. lia.
Qed.

Lemma cache_rows_bytes H seed n r : hash_ok 64 H -> Forall bytes (cache_rows H seed n r).
Proof.
  intros HH. unfold cache_rows. induction r as [|r IH].
  - change (Nat.iter 0 (memo_round H) (initial_rows H seed n)) with (initial_rows H seed n).
    revert seed. induction n; intros seed; cbn; constructor; auto. apply HH.
  - rewrite iter_S. revert IH. generalize (Nat.iter r (memo_round H) (initial_rows H seed n)).
    intros R. unfold memo_round. generalize (seq 0 (length R)). intros l. revert R.
    induction l as [|i l IHl]; intros R F; cbn [fold_left]; auto. apply IHl.
    unfold memo_row. apply Forall_app. split; [apply Forall_firstn; auto|].
    apply Forall_app. split; [constructor; [apply HH|constructor]|]. apply Forall_skipn; auto.
Qed.

Section Job.
Variables keccak256 keccak512 : list N -> list N.
Variable pp : N -> bool.
Variable fuel : nat.
Hypothesis H256 : hash_ok 32 keccak256.
Hypothesis H512 : hash_ok 64 keccak512.
Variable d : config.
Hypothesis SEL : 0 < cf_seed_epoch_length d.
Hypothesis CC : (0 <= cf_caches_count d)%Z.
Hypothesis NS : no_slash (cf_name d).
Hypothesis L1a : cf_l1_cache_size d = 4 * cf_l1_cache_num_items d.
Hypothesis L1b : cf_l1_cache_size d mod 64 = 0.
Hypothesis L1c : cf_l1_cache_size d < 2 ^ 38.

(** An epoch the configuration can serve. *)
Definition epoch_ok (e size : N) : Prop :=
  e * cf_epoch_length d + 1 < 2 ^ 63 /\
  CacheSize pp fuel d e = Done size /\ size mod 64 = 0 /\ 64 <= size /\ size < 2 ^ 32.

Notation seed := (epoch_seed keccak256 d).
Notation path := (spec_path keccak256 d).
Notation spec := (spec_content keccak256 keccak512 d).

Lemma seed_chain_ok n : length (seed_chain keccak256 n) = 32%nat /\ bytes (seed_chain keccak256 n).
Proof.
  destruct n; cbn; [|apply H256]. split; [reflexivity|]. repeat (constructor; [reflexivity|]). constructor.
Qed.

Lemma seed8_ok e : length (firstn 8 (seed e)) = 8%nat /\ bytes (firstn 8 (seed e)).
Proof.
  destruct (seed_chain_ok (N.to_nat ((e * cf_epoch_length d + 1) / cf_seed_epoch_length d))) as (A & B).
  unfold epoch_seed. split; [rewrite firstn_length, A; auto|apply Forall_firstn; auto].
Qed.

Lemma seed_slice e : slice (seed e) 0 8 = Done (firstn 8 (seed e)).
Proof.
  destruct (seed_chain_ok (N.to_nat ((e * cf_epoch_length d + 1) / cf_seed_epoch_length d))) as (A & B).
  rewrite slice_Done; [reflexivity|lia|]. unfold lenN, epoch_seed. rewrite A. lia.
Qed.

Lemma job_seed_spec e : e * cf_epoch_length d + 1 < 2 ^ 63 -> job_seed keccak256 d e = Done (seed e).
Proof.
  intros He. unfold job_seed.
  assert (E : addw 64 (mulw 64 e (cf_epoch_length d)) 1 = e * cf_epoch_length d + 1).
  { unfold addw, mulw. rewrite !trunc_small; auto; rewrite ?trunc_small; lia. }
  rewrite E. apply SeedHash_spec; auto.
  apply N.le_lt_trans with (e * cf_epoch_length d + 1); [|auto].
  apply N.div_le_upper_bound; nia.
Qed.

Lemma old_names_spec n l :
  (forall m, (m < n)%nat -> N.of_nat m * cf_epoch_length d + 1 < 2 ^ 63) ->
  old_names keccak256 d n = Done l ->
  forall x, In x l -> exists k m, (m < n)%nat /\ x = path (N.of_nat m) k.
Proof.
  revert l; induction n as [|n IH]; intros l HM E x IN; cbn [old_names] in E.
  - inversion E; subst. destruct IN.
  - rewrite job_seed_spec in E by (apply HM; lia). cbn [bind] in E.
    rewrite seed_slice in E. cbn [bind] in E.
    apply bind_Done in E. destruct E as (rest & E1 & E2). inversion E2; subst.
    destruct IN as [<-|[<-|IN]].
    + exists KCache, n. split; [lia|reflexivity].
    + exists KL1, n. split; [lia|reflexivity].
    + destruct (IH rest) with (x := x) as (k & m & Hm & E); auto. exists k, m. split; [lia|auto].
Qed.

Lemma job_of_sizes e size j : epoch_ok e size -> job_of keccak256 keccak512 pp fuel d e = Done j ->
  forall k, jb_size j k mod 4 = 0.
Proof.
  intros (E1 & E2 & E3 & E4 & E5) E k. unfold job_of in E.
  rewrite E2 in E. cbn [bind] in E. rewrite job_seed_spec in E by auto. cbn [bind] in E.
  rewrite seed_slice in E. cbn [bind] in E.
  apply bind_Done in E. destruct E as (old & _ & E). inversion E; subst j; clear E.
  cbn [jb_size]. clear -E3 E4 L1b. destruct k; lia.
Qed.

Lemma job_of_spec e size j :
  epoch_ok e size -> job_of keccak256 keccak512 pp fuel d e = Done j ->
  (forall k, jb_path j k = path e k) /\ jb_l1 j = cf_l1_enabled d /\
  jb_gen j KCache [] (jb_size j KCache) = spec e size KCache /\
  jb_gen j KCache [] (jb_mem j KCache) = spec e size KCache /\
  jb_gen j KL1 (spec e size KCache) (jb_size j KL1) = spec e size KL1 /\
  jb_gen j KL1 (spec e size KCache) (jb_mem j KL1) = spec e size KL1 /\
  (forall n, In n (jb_old j) -> exists k m, n = path m k) /\
  (jb_disk j = true <-> cf_storage_dir d <> []).
Proof.
  intros (E1 & E2 & E3 & E4 & E5) E. unfold job_of in E.
  rewrite E2 in E. cbn [bind] in E. rewrite job_seed_spec in E by auto. cbn [bind] in E.
  rewrite seed_slice in E. cbn [bind] in E.
  apply bind_Done in E. destruct E as (old & EO & E). inversion E; subst j; clear E.
  cbn [jb_path jb_l1 jb_gen jb_size jb_mem jb_old jb_disk].
  set (rows := size / 64) in *. assert (ER : size = 64 * rows) by (unfold rows; lia).
  assert (GC : contents (generateCache keccak512 d (zeros size) (seed e)) = spec e size KCache).
  { rewrite (generateCache_spec keccak512 d (zeros size) (seed e) rows); auto; try lia.
    unfold lenN, zeros. rewrite repeat_length. lia. }
  destruct (cache_rows_ok keccak512 (seed e) (N.to_nat rows) (N.to_nat (cf_cache_rounds d)) H512) as (BL & LEN).
  assert (FB := cache_rows_bytes keccak512 (seed e) (N.to_nat rows) (N.to_nat (cf_cache_rounds d)) H512).
  assert (GL : contents (generateL1Cache keccak512 d (zeros (cf_l1_cache_size d))
     (le_words (Nat.div (length (spec e size KCache)) 4) (spec e size KCache))) = spec e size KL1).
  { cbn [spec_content]. unfold spec_rows. fold rows.
    set (R := cache_rows keccak512 (seed e) (N.to_nat rows) (N.to_nat (cf_cache_rounds d))) in *.
    assert (LC : length (concat R) = (64 * N.to_nat rows)%nat).
    { rewrite (concat_blocks_length 64) by auto. lia. }
    replace (Nat.div (length (concat R)) 4) with (16 * N.to_nat rows)%nat
      by (rewrite LC; replace (64 * N.to_nat rows)%nat with ((16 * N.to_nat rows) * 4)%nat by lia;
          rewrite Nat.div_mul; lia).
    rewrite le_words_concat by auto.
    rewrite (generateL1Cache_spec keccak512 d (map (le_words 16) R) _ (cf_l1_cache_size d / 64)); auto.
    - split; [destruct R; [cbn in LEN; lia|discriminate]|].
      apply Forall_map, Forall_forall. intros r Hr. split; [apply le_words_length|].
      apply le_words_words. apply (proj1 (Forall_forall _ _) FB _ Hr).
    - unfold lenN. rewrite map_length, LEN. lia.
    - unfold lenN, zeros. rewrite repeat_length. lia.
    - lia. }
  split; [auto|]. split; [auto|]. split; [exact GC|].
  split; [replace (4 * (size / 4)) with size by (rewrite ER; lia); exact GC|].
  split; [exact GL|]. split; [rewrite <- L1a; exact GL|]. split.
  - intros n IN. destruct (cf_storage_dir d) eqn:SD; [inversion EO as [EO']; rewrite <- EO' in IN; destruct IN|].
    assert (HM : forall m, (m < Z.to_nat (Z.of_N e - cf_caches_count d + 1))%nat ->
       N.of_nat m * cf_epoch_length d + 1 < 2 ^ 63).
    { intros m Hm. assert (N.of_nat m <= e) by lia.
      apply N.le_lt_trans with (e * cf_epoch_length d + 1); [|auto].
      apply N.add_le_mono_r. apply N.mul_le_mono_r. auto. }
    destruct (old_names_spec _ _ HM EO n IN) as (k & m & _ & ->). eauto.
  - destruct (cf_storage_dir d); split; congruence.
Qed.
End Job.
