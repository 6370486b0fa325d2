(** C67: cache files and power failures. *)
From Coq Require Import NArith ZArith List Bool Lia Arith ZifyBool ZifyN ZifyNat.
From Verif Require Import Base BaseFacts DagModel DagSpec Chunks DagContent FileModel FileProofs FileJob NameModel NameProofs FileJobProofs
  PropsDagContent PropsFiles PropsDisk PowerModel PowerProofs.
Import ListNotations.
Open Scope N_scope.

Lemma skipn_repeat {A} (x : A) a n : skipn a (repeat x n) = repeat x (n - a).
Proof. revert a. induction n as [|n IH]; intros [|a]; cbn; auto. Qed.
Fixpoint list_eqb (a b : list N) : bool :=
  match a, b with [], [] => true | x :: a, y :: b => (x =? y) && list_eqb a b | _, _ => false end.
Lemma list_eqb_refl a : list_eqb a a = true.
Proof. induction a; cbn; rewrite ?N.eqb_refl; auto. Qed.

Section C67.
Variables k256 k512 : list N -> list N.
Variable pp : N -> bool.
Variable fuel : nat.
Hypothesis H256 : hash_ok 32 k256.
Hypothesis H512 : hash_ok 64 k512.
Variable d : config.
Hypothesis NS : ~ In 47 (cf_name d).
Hypothesis SEL : 0 < cf_seed_epoch_length d.
Hypothesis CC : (0 <= cf_caches_count d)%Z.
Hypothesis L1a : cf_l1_cache_size d = 4 * cf_l1_cache_num_items d.
Hypothesis L1b : cf_l1_cache_size d mod 64 = 0.
Hypothesis L1c : cf_l1_cache_size d < 2 ^ 38.

(** Runs of generate for epochs of [es], and the names of cache files. *)
Definition job_for (es : list N) (j : job) : Prop := exists e, In e es /\ job_of k256 k512 pp fuel d e = Done j.
Definition cache_file (n : name) : Prop := exists k e, n = spec_path k256 d e k.

(** If data is on the disk before its file gets a cache name, then after any number of power
    failures, kills, failing calls and interleavings: the cache files on the disk are complete,
    no run panics, and a run that has finished holds the specified caches. *)
Theorem C67_synced page es size f m :
  (forall e, In e es -> epoch_ok pp fuel d e (size e)) ->
  (forall e e', In e es -> In e' es ->
     firstn 8 (epoch_seed k256 d e) = firstn 8 (epoch_seed k256 d e') -> e = e') ->
  no_links f ->
  (forall e k i, In e es -> fs_dir f (spec_path k256 d e k) = Some i ->
     fs_data f i = magic_bytes ++ spec_content k256 k512 d e (size e) k) ->
  mrun page true cache_file (job_for es) f m ->
  (forall t e j p, In e es -> job_of k256 k512 pp fuel d e = Done j ->
     nth_error (st_procs (mc_now m)) t = Some (j, Some p) ->
     pr_pc p <> Panicked /\
     (pr_pc p = Finished ->
        (exists x, pr_cache p = Some x /\
           content (st_fs (mc_now m)) x = spec_content k256 k512 d e (size e) KCache) /\
        (cf_l1_enabled d = true -> exists x, pr_l1 p = Some x /\
           content (st_fs (mc_now m)) x = spec_content k256 k512 d e (size e) KL1))) /\
  (forall e k i, In e es -> fs_dir (mc_disk m) (spec_path k256 d e k) = Some i ->
     fs_data (mc_disk m) i = magic_bytes ++ spec_content k256 k512 d e (size e) k).
Proof.
  intros EO INJ (F1 & F2) FC R.
  set (path := spec_path k256 d) in *. set (spec := fun e => spec_content k256 k512 d e (size e)).
  set (okc := fun (n : name) x => forall e k, In e es -> n = path e k -> x = magic_bytes ++ spec e k).
  set (okm := fun (j : job) k b => forall e, In e es -> (forall k, jb_path j k = path e k) -> b = spec e k).
  assert (PI : forall e e' k k', In e es -> In e' es -> path e k = path e' k' -> e = e' /\ k = k').
  { intros e e' k k' I I' E. unfold path, spec_path in E.
    destruct (seed8_ok k256 H256 d e). destruct (seed8_ok k256 H256 d e').
    apply location_inj in E; auto. destruct E as (-> & _ & _ & E). auto. }
  assert (JOK : forall j, job_for es j -> job_ok cache_file okc okm j).
  { intros j (e & IE & J).
    destruct (job_of_spec k256 k512 pp fuel H256 H512 d SEL CC L1a L1b L1c e (size e) j (EO e IE) J)
      as (P1 & P2 & P3 & P4 & P5 & P6 & P7 & P8).
    constructor.
    + intros k. exists k, e. apply P1.
    + intros k r NUM (k' & e' & E). rewrite P1 in E. unfold spec_path in E.
      destruct (seed8_ok k256 H256 d e). destruct (seed8_ok k256 H256 d e').
      revert E. apply location_temp; auto.
    + intros n I. destruct (P7 n I) as (k & m' & ->). exists k, m'. auto.
    + eapply (job_of_sizes k256 k512 pp fuel); eauto.
    + rewrite P3, P4. split.
      * intros e' k' I' E. rewrite P1 in E. destruct (PI e e' KCache k' IE I' E). subst. auto.
      * intros e' I' A. specialize (A KCache). rewrite P1 in A. destruct (PI _ _ _ _ IE I' A). subst; auto.
    + intros b OK.
      assert (Eb : b = spec e KCache).
      { destruct OK as [(x & O & _ & ->)|O].
        - rewrite (O e KCache IE (P1 KCache)). reflexivity.
        - apply O; auto. }
      subst b. assert (X : spec e KCache = spec_content k256 k512 d e (size e) KCache) by reflexivity.
      rewrite X, P5, P6. split.
      * intros e' k' I' E. rewrite P1 in E. destruct (PI e e' KL1 k' IE I' E). subst. auto.
      * intros e' I' A. specialize (A KL1). rewrite P1 in A. destruct (PI _ _ _ _ IE I' A). subst; auto. }
  assert (I : minv cache_file okc okm m).
  { apply (mrun_inv _ _ _ page (job_for es) JOK f); auto. split; auto. split; auto.
    intros n i _ D e k IE ->. apply FC; auto. }
  destruct I as [I _ I3 _ _]. split.
  - intros t e j p IE J Hp.
    destruct (job_of_spec k256 k512 pp fuel H256 H512 d SEL CC L1a L1b L1c e (size e) j (EO e IE) J)
        as (P1 & P2 & _).
    assert (PO := in_procs _ _ _ _ I _ _ _ Hp).
    assert (CONT : forall k x, slot p k = Some x -> content (st_fs (mc_now m)) x = spec e k).
    { intros k [i|b] E.
      - destruct (po_reads _ _ _ _ _ _ PO k i (or_introl E)) as (_ & O & _).
        cbn. rewrite (O e k IE (P1 k)). reflexivity.
      - cbn. apply (po_mem _ _ _ _ _ _ PO k b E e IE P1). }
    split.
    + intros PN. destruct (po_panic _ _ _ _ _ _ PO PN) as (k & x & O & C).
      rewrite (O e k IE (P1 k)), check_magic_complete in C. discriminate.
    + intros FIN. destruct (po_ended _ _ _ _ _ _ PO) as (C1 & C2); [rewrite FIN; auto|].
      split.
      * destruct (pr_cache p) as [x|] eqn:E; [|congruence]. exists x. split; auto. apply (CONT KCache); auto.
      * intros L. rewrite <- P2 in L. specialize (C2 L).
        destruct (pr_l1 p) as [x|] eqn:E; [|congruence]. exists x. split; auto. apply (CONT KL1); auto.
  - intros e k i IE D. destruct (I3 (path e k) i) as (_ & O & _ & ->); auto; [exists k, e; auto|].
    apply (O e k IE eq_refl).
Qed.

(** ** The code does not do that *)

(** A step of the only process. *)
Lemma mrun_alone page named jobs f j p p' g g' k :
  mrun page false named jobs f (mkM (mkState g [(j, Some p)]) k) -> pstep j g p g' p' ->
  mrun page false named jobs f (mkM (mkState g' [(j, Some p')]) k).
Proof.
  intros R S. eapply m_next; [exact R|]. apply m_step.
  - apply (f_step g g' [(j, Some p)] 0%nat j p p'); auto.
  - intros t u j0 j1 q q' n A B _ _. cbn in A, B. destruct t as [|[|]], u as [|[|]]; cbn in A, B; congruence.
  - discriminate.
Qed.

(** For every epoch whose cache does not fit a page and is not zero after it, on every page size: a
    process makes the cache on an empty disk without failures; the kernel writes back the first page of its file
    and the directory; the power fails.  The next process accepts the file and ends with a
    cache that is not the one of the epoch. *)
Theorem C67_power_failure_refuted page e size :
  (8 <= page)%nat -> cf_storage_dir d <> [] -> epoch_ok pp fuel d e size ->
  skipn (page - 8) (spec_content k256 k512 d e size KCache) <>
    repeat 0 (length (spec_content k256 k512 d e size KCache) - (page - 8)) ->
  exists m j p x,
    mrun page false cache_file (job_for [e]) empty_fs m /\ job_of k256 k512 pp fuel d e = Done j /\
    nth_error (st_procs (mc_now m)) 0 = Some (j, Some p) /\ pr_pc p = Finished /\
    pr_cache p = Some x /\
    content (st_fs (mc_now m)) x <> spec_content k256 k512 d e size KCache.
Proof.
  intros PG SD EO NZ.
  destruct (job_total k256 k512 pp fuel d e size H256) as (j & J); auto.
  { unfold config_ok. auto 10. }
  destruct (job_of_spec k256 k512 pp fuel H256 H512 d SEL CC L1a L1b L1c e size j EO J)
      as (P1 & P2 & P3 & P4 & P5 & P6 & P7 & P8).
  apply P8 in SD.
  set (path := jb_path j KCache). set (C := spec_content k256 k512 d e size KCache) in *.
  assert (NUM : is_numeral [49]) by (split; [discriminate|repeat constructor; lia]).
  assert (JF : Forall (job_for [e]) [j]) by (constructor; [exists e; split; [left|]; auto|constructor]).
  assert (R := m_init page false cache_file (job_for [e]) empty_fs [j] JF).
  unfold initial in R. cbn [map] in R. unfold start in R. rewrite SD in R.
  (* the two attempts to load fail *)
  assert (R2 : mrun page false cache_file (job_for [e]) empty_fs
    (mkM (mkState empty_fs [(j, Some (mkProc (Mkdir KCache) None None))]) empty_fs)).
  { eapply mrun_alone in R; [|eapply p_open_fail; reflexivity]. unfold loaded in R.
    destruct (jb_l1 j) eqn:EL; [|exact R].
    eapply mrun_alone in R; [|eapply p_open_fail; reflexivity]. exact R. }
  clear R. rename R2 into R.
  eapply mrun_alone in R; [|eapply p_mkdir; reflexivity].
  eapply mrun_alone in R; [|eapply (p_create _ _ _ KCache [49]); [reflexivity|exact NUM|reflexivity]].
  fold path in R. set (tmp := temp_name path [49]) in *.
  eapply mrun_alone in R; [|eapply p_trunc; reflexivity].
  eapply mrun_alone in R; [|eapply p_mapw; reflexivity].
  assert (LR : forall f i n, lenN (fs_data (set_data f i (resize (fs_data f i) n)) i) = n).
  { intros f i n. unfold set_data. cbn [fs_data]. rewrite N.eqb_refl.
    unfold resize, lenN. rewrite app_length, firstn_length, repeat_length. lia. }
  eapply mrun_alone in R; [|eapply p_fill; [reflexivity|rewrite LR; lia]].
  erewrite fill_file_whole in R; [|apply LR|eapply (job_of_sizes k256 k512 pp fuel); eauto].
  unfold cache_bytes in R. rewrite P3 in R.
  eapply mrun_alone in R; [|eapply p_unmap; reflexivity].
  eapply mrun_alone in R; [|eapply p_close; reflexivity].
  eapply mrun_alone in R; [|eapply (p_rename _ _ _ _ _ _ 0); [reflexivity|]].
  2: { cbn [set_data set_dir fs_dir empty_fs]. destruct (name_dec tmp tmp); [reflexivity|congruence]. }
  eapply m_next in R; [|eapply (m_data _ _ _ _ _ _ 0 0%nat)].
  eapply m_next in R; [|eapply m_dir].
  eapply m_next in R; [|eapply (m_power _ _ _ _ _ _ [j]); exact JF].
  match type of R with mrun _ _ _ _ _ (mkM (initial ?k _) _) => set (K := k) in R end.
  assert (TP : path <> tmp).
  { unfold tmp, temp_name. intros E. apply (f_equal (@length N)) in E. rewrite !app_length in E. cbn in E. lia. }
  assert (KD : fs_dir K path = Some 0).
  { unfold K. cbn [set_data set_dir fs_dir empty_fs go pr_cache pr_l1 st_fs].
    fold path. destruct (name_dec path path); [reflexivity|congruence]. }
  set (X := overlay page 0 [] (magic_bytes ++ C)).
  assert (KX : fs_data K 0 = X) by reflexivity.
  clearbody K.
  assert (LM : length magic_bytes = 8%nat) by reflexivity.
  assert (EX : X = magic_bytes ++ firstn (page - 8) C ++ repeat 0 (length C - (page - 8))).
  { unfold X, overlay, resize. rewrite !Nat2N.id, Nat.mul_0_r, firstn_nil. cbn [firstn skipn app Nat.add length]. rewrite Nat.sub_0_r.
    rewrite firstn_app, (firstn_all2 magic_bytes) by lia. rewrite <- app_assoc. f_equal. rewrite LM. f_equal.
    rewrite app_length, LM, skipn_repeat. f_equal. lia. }
  assert (WRONG : skipn 8 X <> C).
  { rewrite EX. rewrite skipn_app, (skipn_all2 magic_bytes), LM by lia. cbn [app Nat.sub skipn].
    intros E. apply NZ. destruct (le_lt_dec (length C) (page - 8)) as [L|L].
    - rewrite skipn_all2 by lia. replace (length C - (page - 8))%nat with 0%nat by lia. reflexivity.
    - rewrite <- E at 1. rewrite skipn_app, skipn_all2, firstn_length_le by (rewrite ?firstn_length; lia).
      rewrite Nat.sub_diag. reflexivity. }
  assert (CM : check_magic (fs_data K 0) = Done true) by (rewrite KX, EX; apply check_magic_complete).
  unfold initial in R. cbn [map] in R. unfold start in R. rewrite SD in R.
  eapply mrun_alone in R; [|eapply p_open; [reflexivity|exact KD]].
  eapply mrun_alone in R; [|eapply p_map; [reflexivity|rewrite KX, EX; discriminate]].
  eapply mrun_alone in R; [|eapply p_check; [reflexivity|exact CM]].
  unfold loaded in R. destruct (jb_l1 j) eqn:EL.
  - eapply mrun_alone in R; [|eapply p_open_fail; reflexivity].
    unfold loaded, decide in R. cbn [fill_slot go pr_cache pr_l1 pr_pc missing] in R. rewrite EL in R. cbn [andb] in R.
    eapply mrun_alone in R; [|eapply p_mkdir_fail; reflexivity].
    eapply mrun_alone in R; [|eapply p_inmem; reflexivity].
    unfold after in R. assert (CL : forall l q, pr_cache q = Some (Mapped 0) ->
      mrun page false cache_file (job_for [e]) empty_fs (mkM (mkState K [(j, Some (go q (FileModel.Clean l)))]) K) ->
      exists q', mrun page false cache_file (job_for [e]) empty_fs (mkM (mkState K [(j, Some q')]) K) /\
        pr_pc q' = Finished /\ pr_cache q' = Some (Mapped 0)).
    { induction l as [|n l IH]; intros q Q R'.
      - eapply mrun_alone in R'; [|eapply p_clean_end; reflexivity]. eexists. split; [exact R'|]. auto.
      - eapply mrun_alone in R'; [|eapply p_clean_fail; reflexivity]. eapply (IH (go q (FileModel.Clean (n :: l)))); auto. }
    match type of R with mrun _ _ _ _ _ (mkM (mkState _ [(_, Some (go ?q _))]) _) => assert (Q := CL (jb_old j) q eq_refl R) end.
    destruct Q as (q' & R' & Q1 & Q2).
    exists (mkM (mkState K [(j, Some q')]) K), j, q', (Mapped 0). repeat (split; [assumption || reflexivity|]).
    cbn [mc_now st_fs content]. rewrite KX. exact WRONG.
  - eexists _, j, _, (Mapped 0). split; [exact R|]. split; [exact J|]. split; [reflexivity|].
    unfold decide. cbn [fill_slot go pr_cache pr_l1 pr_pc missing]. rewrite EL. split; [reflexivity|]. split; [reflexivity|].
    cbn [mc_now st_fs content]. rewrite KX. exact WRONG.
Qed.
End C67.
Print Assumptions C67_synced.
Print Assumptions C67_power_failure_refuted.

(** The hypotheses are met: a small configuration, with pages of 64 bytes. *)
Example C67_instance : exists m j p x,
  mrun 64 false (cache_file toy256 small_config) (job_for toy256 toy_hash (fun _ => true) 1 small_config [1]) empty_fs m /\
  job_of toy256 toy_hash (fun _ => true) 1 small_config 1 = Done j /\
  nth_error (st_procs (mc_now m)) 0 = Some (j, Some p) /\ pr_pc p = Finished /\ pr_cache p = Some x /\
  content (st_fs (mc_now m)) x <> spec_content toy256 toy_hash small_config 1 448 KCache.
Proof.
  apply (C67_power_failure_refuted toy256 toy_hash (fun _ => true) 1 toy256_ok toy_hash_ok small_config).
  - cbn. intuition lia.
  - reflexivity.
  - discriminate.
  - reflexivity.
  - reflexivity.
  - reflexivity.
  - lia.
  - discriminate.
  - unfold epoch_ok. cbn [small_config cf_epoch_length]. repeat split; try lia; reflexivity.
  - assert (E : list_eqb (skipn (64 - 8) (spec_content toy256 toy_hash small_config 1 448 KCache))
      (repeat 0 (length (spec_content toy256 toy_hash small_config 1 448 KCache) - (64 - 8))) = false) by (vm_compute; reflexivity).
    intros X. rewrite X, list_eqb_refl in E. discriminate E.
Qed.
