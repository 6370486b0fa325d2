(** C66: clients in many goroutines and processes on one directory, with failures, kills and
    the garbage collector, answer with the right digest. *)
From Coq Require Import NArith ZArith Arith List Bool Lia ZifyBool ZifyN ZifyNat Permutation.
From Verif Require Import Base BaseFacts DagModel DagSpec DagSize Chunks DagContent RegModel RegSpec RegProofs OnceModel OnceProofs
  GcModel GcProofs FileModel FileProofs FileJob FileJobProofs PropsDagSize PropsDagContent PropsFiles PropsGc PropsDisk WorldModel WorldProofs
  EthashModel ProgpowModel OctopusModel ProgpowSpec ClientModel ClientSpec ClientProofs PropsClients.
Import ListNotations.
Open Scope N_scope.
Ltac Zify.zify_post_hook ::= Z.div_mod_to_equations.

Definition words_of (b : list N) : list N := le_words (Nat.div (length b) 4) b.

Lemma words_of_bytes l : words 32 l -> words_of (words_bytes l) = l.
Proof.
  intros W. unfold words_of. apply le_words_words_bytes; auto.
  assert (L : length (words_bytes l) = (length l * 4)%nat).
  { unfold words_bytes. clear W. induction l as [|a l IH]; [reflexivity|]. cbn [flat_map length].
    rewrite app_length, IH, le_bytes_length. lia. }
  rewrite L, Nat.div_mul; lia.
Qed.

Lemma Forall2_nth {A B} (R : A -> B -> Prop) l l' n a b :
  Forall2 R l l' -> nth_error l n = Some a -> nth_error l' n = Some b -> R a b.
Proof.
  intros F. revert n. induction F; intros [|n] HA HB; cbn in *; try discriminate; [congruence|eauto].
Qed.

Section Memory.
Variables k256 k512 : list N -> list N.
Variable pp : N -> bool.
Variable fuel : nat.
Hypothesis H256 : hash_ok 32 k256.
Hypothesis H512 : hash_ok 64 k512.
Variable d : config.
Hypothesis NS : ~ In 47 (cf_name d).
Hypothesis SEL : 0 < cf_seed_epoch_length d.
Hypothesis CC : (1 <= cf_caches_count d)%Z.
Hypothesis L1a : cf_l1_cache_size d = 4 * cf_l1_cache_num_items d.
Hypothesis L1b : cf_l1_cache_size d mod 64 = 0.
Hypothesis L1c : cf_l1_cache_size d < 2 ^ 38.
Variable top : N.
Variable size : N -> N.
Hypothesis EOK : forall e, e <= top -> epoch_ok pp fuel d e (size e).
Hypothesis DIST : forall a b, a <= top -> b <= top ->
  firstn 8 (epoch_seed k256 d a) = firstn 8 (epoch_seed k256 d b) -> a = b.

Lemma cache_words e : epoch_ok pp fuel d e (size e) ->
  words_of (spec_content k256 k512 d e (size e) KCache) = concat (the_cache k256 k512 d e (size e)).
Proof.
  intros (E1 & E2 & E3 & E4 & E5). unfold the_cache, spec_content, spec_rows, words_of.
  destruct (cache_rows_ok k512 (epoch_seed k256 d e) (N.to_nat (size e / 64)) (N.to_nat (cf_cache_rounds d)) H512) as (BL & LEN).
  assert (FB := cache_rows_bytes k512 (epoch_seed k256 d e) (N.to_nat (size e / 64)) (N.to_nat (cf_cache_rounds d)) H512).
  set (R := cache_rows _ _ _ _) in *.
  rewrite (concat_blocks_length 64) by auto.
  replace (Nat.div (64 * length R) 4) with (16 * length R)%nat
    by (replace (64 * length R)%nat with (16 * length R * 4)%nat by lia; rewrite Nat.div_mul; lia).
  apply le_words_concat; auto.
Qed.

Lemma l1_words e : cf_l1_enabled d = true ->
  words_of (spec_content k256 k512 d e (size e) KL1) = the_l1 k256 k512 d e (size e).
Proof.
  intros EN. unfold the_l1. rewrite EN. unfold spec_content.
  replace (cf_l1_cache_size d / 64) with (cf_l1_cache_num_items d / 16) by lia.
  apply words_of_bytes. apply Forall_concat, Forall_map, Forall_forall. intros. apply dataset_item_words; auto.
Qed.

(** Whenever a call of Compute for epoch [e] is about to read its cache, the memory behind it
    is mapped and holds the cache and the L1 cache of [e]. *)
Theorem C66_memory f w i g t id e :
  no_links f ->
  (forall e k i, e <= top -> fs_dir f (spec_path k256 d e k) = Some i ->
     fs_data f i = magic_bytes ++ spec_content k256 k512 d e (size e) k) ->
  history k256 k512 pp fuel d top f w ->
  nth_error (w_progs w) i = Some (Some g) ->
  about_to_read g t id -> nth_error (map th_req (sy_threads (gc_sys g))) t = Some (Some e) ->
  gc_unmapped g id = 0%nat /\ e < top /\
  memory w i id = Some (concat (the_cache k256 k512 d e (size e)), the_l1 k256 k512 d e (size e)).
Proof.
  intros NL FC H HG AR RQ.
  destruct (hist_winv k256 k512 pp fuel d top f CC w H) as (es & [W1 W2 W3 W4 W5 W6]).
  destruct (W5 i g HG) as (EX & B).
  destruct (C62_no_read_after_unmap d epoch_of g t id CC EX AR) as (U & e' & RQ' & CO).
  assert (e' = e) by congruence. subst e'. clear RQ'.
  assert (ET : e < top).
  { rewrite nth_error_map in RQ. destruct (nth_error (sy_threads (gc_sys g)) t) as [th|] eqn:HT; [|discriminate].
    cbn in RQ. eapply (bd_req _ _ B); [exact HT|congruence]. }
  split; auto. split; auto.
  destruct (W6 i g id HG) as [X|(r & j & p & e1 & L1 & L2 & L3 & L4 & L5 & L6)].
  { unfold content_of in X. rewrite CO in X. discriminate. }
  destruct (L5 (epoch_of e) CO) as (EE & FIN). unfold epoch_of in EE. subst e1.
  assert (IN : forall e, In e es -> e <= top) by (intros x IX; rewrite Forall_forall in W2; apply W2; auto).
  destruct (C20_disk_state_irrelevant k256 k512 pp fuel d es (map fst (st_procs (w_files w))) size f (w_files w)) as (A & _); auto; try lia.
  destruct (A r e j p L4 L3) as (_ & A2). destruct (A2 FIN) as ((x & X1 & X2) & A3).
  unfold memory. rewrite L1, L3, X1. rewrite X2.
  change (le_words (Nat.div (length (spec_content k256 k512 d e (size e) KCache)) 4) (spec_content k256 k512 d e (size e) KCache))
    with (words_of (spec_content k256 k512 d e (size e) KCache)).
  rewrite cache_words by (apply EOK; lia).
  destruct (cf_l1_enabled d) eqn:EN.
  - destruct (A3 eq_refl) as (y & Y1 & Y2). rewrite Y1, Y2. do 2 f_equal. rewrite <- l1_words by auto. reflexivity.
  - assert (JL : jb_l1 j = false).
    { assert (J : job_of k256 k512 pp fuel d e = Done j).
      { eapply (Forall2_nth _ es _ r e j W3 L4). rewrite (map_nth_error fst _ _ L3). reflexivity. }
      destruct (job_of_spec k256 k512 pp fuel H256 H512 d SEL ltac:(lia) L1a L1b L1c e (size e) j (EOK e ltac:(lia)) J)
        as (_ & P2 & _). congruence. }
    destruct (run_plain f _ _ W4 r j p L3 JL) as (Y & _). rewrite Y. unfold the_l1. rewrite EN. reflexivity.
Qed.
End Memory.

(** ** The shipped coins *)

Section Coins.
Variables k256 k512 : list N -> list N.
Variable pp : N -> bool.
Variable fuel : nat.
Variable dir : list N.
Hypothesis H256 : hash_ok 32 k256.
Hypothesis H512 : hash_ok 64 k512.
Hypothesis PP : primality_test pp.
Hypothesis F : 2 ^ 31 <= N.of_nat fuel.

(** The directory at the start: what carries the name of a cache file of an epoch up to 2044
    is a complete file of that epoch; the names of these files differ. *)
Definition good_directory (d : config) (f : fs) : Prop :=
  no_links f /\
  (forall e k i size, e <= 2044 -> CacheSize pp fuel d e = Done size -> fs_dir f (spec_path k256 d e k) = Some i ->
     fs_data f i = magic_bytes ++ spec_content k256 k512 d e size k) /\
  (forall a b, a <= 2044 -> b <= 2044 ->
     firstn 8 (epoch_seed k256 d a) = firstn 8 (epoch_seed k256 d b) -> a = b).

(** Goroutine [t] of program [i], called with a height, is about to read its cache, and the
    rest of Compute applied to the memory it sees gives a digest that fits. *)
Definition in_call (d : config) (w : world) (i t : nat) (id height : N) (g : gcsys N) : Prop :=
  nth_error (w_progs w) i = Some (Some g) /\ about_to_read g t id /\
  nth_error (map th_req (sy_threads (gc_sys g))) t = Some (Some (height / cf_epoch_length d)).

Definition right_answer {R} (d : config) (w : world) (i : nat) (id : N) (g : gcsys N)
    (eval : N -> list N -> list N -> outcome R) (fits : R -> Prop) (height : N) : Prop :=
  gc_unmapped g id = 0%nat /\
  exists cache l1 size x, memory w i id = Some (cache, l1) /\
    DatasetSize pp fuel d (height / cf_epoch_length d) = Done size /\ eval size cache l1 = Done x /\ fits x.

Lemma answer_in_world {R} d f w i t id height g hash nonce (eval : list N -> N -> N -> N -> list N -> list N -> outcome R) fits :
  In d (shipped dir) -> good_directory d f -> history k256 k512 pp fuel d 2044 f w -> in_call d w i t id height g ->
  bytes hash -> length hash = 32%nat -> nonce < 2 ^ 64 ->
  (forall calls, Forall (served_call d) calls ->
     exists r answers, serve (fun order now r hash height nonce => computeWith k256 k512 pp fuel (eval hash height nonce) d order now r hash height)
       calls empty_registry = Done (r, answers) /\ Forall2 (answer fits) calls answers) ->
  right_answer d w i id g (eval hash height nonce) (fits hash height nonce) height.
Proof.
  intros HD (NL & FC & DIST) HI (HG & AR & RQ) BH LH NB ONE.
  destruct (shipped_facts fuel dir F d HD) as (F1 & F2 & F3 & F4 & F5 & F6 & F7).
  assert (NS : ~ In 47 (cf_name d)).
  { clear - HD. unfold shipped in HD. cbn [In] in HD. destruct HD as [<-|[<-|[<-|[<-|[<-|[]]]]]]; cbn; intuition discriminate. }
  set (size := fun e => match CacheSize pp fuel d e with Done s => s | _ => 0 end).
  assert (EOK : forall e, e <= 2044 -> epoch_ok pp fuel d e (size e)).
  { intros e He. destruct (epoch_ok_served pp fuel dir d e PP F HD) as (s & OK & _); [left; lia|].
    unfold size. destruct OK as (O1 & O2 & O3). rewrite O2. split; auto. }
  assert (FD : forall e k i, e <= 2044 -> fs_dir f (spec_path k256 d e k) = Some i ->
     fs_data f i = magic_bytes ++ spec_content k256 k512 d e (size e) k).
  { intros e k i' He. apply FC; auto. destruct (EOK e He) as (_ & E2 & _). exact E2. }
  assert (CM := C66_memory k256 k512 pp fuel H256 H512 d).
  assert (M : gc_unmapped g id = 0%nat /\ height / cf_epoch_length d < 2044 /\
    memory w i id = Some (concat (the_cache k256 k512 d (height / cf_epoch_length d) (size (height / cf_epoch_length d))),
                          the_l1 k256 k512 d (height / cf_epoch_length d) (size (height / cf_epoch_length d)))).
  { eapply CM; eauto. }
  clear CM. destruct M as (U & ET & M).
  split; auto.
  set (e := height / cf_epoch_length d) in *.
  destruct (ONE [mkCall hash height nonce 0 (fun m => m)]) as (r' & answers & E & A).
  { constructor; [|constructor]. split; [intros; apply Permutation_refl|]. cbn [cl_hash cl_nonce cl_height]. repeat (split; [assumption|]).
    intros _. left. exact ET. }
  inversion A as [|? a ? l HA HL]; subst. inversion HL; subst. clear A HL. rename HA into A.
  cbn [serve] in E. apply bind_Done in E. destruct E as ((r0 & x0) & E & E'). cbn [bind] in E'. inversion E'; subst r0 x0. clear E'.
  unfold answer in A. cbn [cl_hash cl_nonce cl_height cl_order cl_now] in E, A. rewrite LH in A. cbn [Nat.eqb] in A.
  destruct A as (x & -> & FX).
  unfold computeWith in E. unfold lenN in E. rewrite LH in E. cbn [negb N.eqb N.of_nat Pos.of_succ_nat Pos.succ Pos.eqb] in E.
  assert (CE : CalcEpoch d height = Done e).
  { unfold CalcEpoch, divc. destruct (N.eqb_spec (cf_epoch_length d) 0); [lia|reflexivity]. }
  rewrite CE in E. cbn [bind] in E. apply bind_Done in E. destruct E as (ds & DS & E).
  apply bind_Done in E. destruct E as ((r1 & (cache & l1)) & G & E).
  apply bind_Done in E. destruct E as (y & EV & E). inversion E; subst y r1. clear E.
  unfold GetCache in G. apply bind_Done in G. destruct G as (((r2 & c) & sp) & GL & G).
  apply bind_Done in G. destruct G as (cl & GN & G).
  apply bind_Done in G. destruct G as (u & _ & G). inversion G; subst r2 cl. clear G.
  destruct (get_locked_spec d (fun m => m) 0%Z e empty_registry) as (r3 & c3 & sp3 & GL3 & _ & EC & _); auto.
  { lia. }
  { apply wf_empty. lia. }
  rewrite GL in GL3. inversion GL3; subst r3 c3 sp3. rewrite EC in GN.
  rewrite (generate_spec k256 k512 pp fuel H256 H512 d F1 F3 F4 F5 e (size e)) in GN by (apply EOK; lia).
  inversion GN; subst cache l1.
  exists (concat (the_cache k256 k512 d e (size e))), (the_l1 k256 k512 d e (size e)), ds, x. auto.
Qed.

Section Call.
Variable f : fs.
Variable w : world.
Variables i t : nat.
Variables id height nonce : N.
Variable hash : list N.
Variable g : gcsys N.
Hypothesis BH : bytes hash.
Hypothesis LH : length hash = 32%nat.
Hypothesis NB : nonce < 2 ^ 64.

Theorem C66_ethereum (d := cfg_ethereum dir) :
  good_directory d f -> history k256 k512 pp fuel d 2044 f w -> in_call d w i t id height g ->
  right_answer d w i id g (fun size cache _ => hashimoto k512 k256 hash nonce size (NewLookupFunc512 k512 d cache))
    (ethash_fits k256 k512 30000 (fun e => e) hash height nonce) height.
Proof.
  intros G H C.
  apply (answer_in_world d f w i t id height g hash nonce
    (fun hash height nonce size cache _ => hashimoto k512 k256 hash nonce size (NewLookupFunc512 k512 d cache))
    (ethash_fits k256 k512 30000 (fun e => e))); auto; [cbn; auto 10|].
  intros calls. apply C12_ethereum; auto.
Qed.
Theorem C66_ethereum_classic (d := cfg_ethereum_classic dir) :
  good_directory d f -> history k256 k512 pp fuel d 2044 f w -> in_call d w i t id height g ->
  right_answer d w i id g (fun size cache _ => hashimoto k512 k256 hash nonce size (NewLookupFunc512 k512 d cache))
    (ethash_fits k256 k512 60000 (fun e => 2 * e) hash height nonce) height.
Proof.
  intros G H C.
  apply (answer_in_world d f w i t id height g hash nonce
    (fun hash height nonce size cache _ => hashimoto k512 k256 hash nonce size (NewLookupFunc512 k512 d cache))
    (ethash_fits k256 k512 60000 (fun e => 2 * e))); auto; [cbn; auto 10|].
  intros calls. apply C12_ethereum_classic; auto.
Qed.
Theorem C66_ravencoin (d := cfg_ravencoin dir) :
  good_directory d f -> history k256 k512 pp fuel d 2044 f w -> in_call d w i t id height g ->
  right_answer d w i id g (fun size cache l1 => kawpow hash height nonce size (NewLookupFunc2048 k512 d cache) l1)
    (progpow_fits k256 k512 7500 3 (2 ^ 30) kawpow_seed_pad kawpow_digest_pad hash height nonce) height.
Proof.
  intros G H C.
  apply (answer_in_world d f w i t id height g hash nonce
    (fun hash height nonce size cache l1 => kawpow hash height nonce size (NewLookupFunc2048 k512 d cache) l1)
    (progpow_fits k256 k512 7500 3 (2 ^ 30) kawpow_seed_pad kawpow_digest_pad)); auto; [cbn; auto 10|].
  intros calls. apply C12_ravencoin; auto.
Qed.
Theorem C66_firo (d := cfg_firo dir) :
  good_directory d f -> history k256 k512 pp fuel d 2044 f w -> in_call d w i t id height g ->
  right_answer d w i id g (fun size cache l1 => firopow hash height nonce size (NewLookupFunc2048 k512 d cache) l1)
    (progpow_fits k256 k512 1300 1 (2 ^ 30 + 2 ^ 29) firopow_seed_pad firopow_digest_pad hash height nonce) height.
Proof.
  intros G H C.
  apply (answer_in_world d f w i t id height g hash nonce
    (fun hash height nonce size cache l1 => firopow hash height nonce size (NewLookupFunc2048 k512 d cache) l1)
    (progpow_fits k256 k512 1300 1 (2 ^ 30 + 2 ^ 29) firopow_seed_pad firopow_digest_pad)); auto; [cbn; auto 10|].
  intros calls. apply C12_firo; auto.
Qed.
Theorem C66_conflux (d := cfg_conflux dir) :
  good_directory d f -> history k256 k512 pp fuel d 2044 f w -> in_call d w i t id height g ->
  right_answer d w i id g (fun size cache _ => octopus fuel k512 k256 hash nonce size (NewLookupFunc512 k512 d cache))
    (octopus_fits k256 k512 hash height nonce) height.
Proof.
  intros G H C.
  apply (answer_in_world d f w i t id height g hash nonce
    (fun hash height nonce size cache _ => octopus fuel k512 k256 hash nonce size (NewLookupFunc512 k512 d cache))
    (octopus_fits k256 k512)); auto; [cbn; auto 10|].
  intros calls. apply C12_conflux; auto.
Qed.
End Call.
End Coins.
Print Assumptions C66_memory.
Print Assumptions C66_ethereum.
Print Assumptions C66_ethereum_classic.
Print Assumptions C66_ravencoin.
Print Assumptions C66_firo.
Print Assumptions C66_conflux.

(** The hypotheses are met: on an empty directory a program gets a call for any served epoch,
    its generation runs with every file operation failing, and the call comes to its reads. *)
Inductive path (j : job) (f : fs) : proc -> proc -> Prop :=
| path_refl p : path j f p p
| path_step p p' p'' : pstep j f p f p' -> path j f p' p'' -> path j f p p''.
Lemma path_trans j f p p' p'' : path j f p p' -> path j f p' p'' -> path j f p p''.
Proof. induction 1; auto. intros. eapply path_step; eauto. Qed.

Lemma path_clean j f l p : pr_pc p = Clean l -> exists p', path j f p p' /\ pr_pc p' = Finished.
Proof.
  revert p. induction l as [|n l IH]; intros p H.
  - eexists. split; [eapply path_step; [eapply p_clean_end; eauto|apply path_refl]|reflexivity].
  - destruct (IH (go p (Clean l)) eq_refl) as (p' & A & B). exists p'. split; auto.
    eapply path_step; [eapply p_clean_fail; eauto|auto].
Qed.
Lemma path_l1 j f p : pr_pc p = InMem KL1 -> exists p', path j f p p' /\ pr_pc p' = Finished.
Proof.
  intros H. destruct (path_clean j f (jb_old j) (after j (fill_slot p KL1 (Some (Memory (jb_gen j KL1 (cache_bytes f p KL1) (jb_mem j KL1))))) KL1))
    as (p' & A & B); [reflexivity|].
  exists p'. split; auto. eapply path_step; [eapply p_inmem; eauto|auto].
Qed.
Lemma path_cache j f p : pr_pc p = InMem KCache -> pr_l1 p = None -> exists p', path j f p p' /\ pr_pc p' = Finished.
Proof.
  intros H L. set (q := after j (fill_slot p KCache (Some (Memory (jb_gen j KCache (cache_bytes f p KCache) (jb_mem j KCache))))) KCache).
  assert (X : exists p', path j f q p' /\ pr_pc p' = Finished).
  { subst q. unfold after. cbn [fill_slot pr_l1]. rewrite L. cbn [missing]. rewrite andb_true_r.
    destruct (jb_l1 j); [destruct (jb_disk j)|].
    - edestruct (path_l1 j f) as (p' & A & B); [|exists p'; split; [eapply path_step; [eapply p_mkdir_fail; reflexivity|exact A]|exact B]]. reflexivity.
    - apply path_l1. reflexivity.
    - eapply path_clean. reflexivity. }
  destruct X as (p' & A & B). exists p'. split; auto. eapply path_step; [eapply p_inmem; eauto|auto].
Qed.
Lemma path_start j f : exists p', path j f (start j) p' /\ pr_pc p' = Finished.
Proof.
  unfold start. destruct (jb_disk j); [|apply path_cache; reflexivity].
  destruct (jb_l1 j) eqn:E.
  - edestruct (path_cache j f) as (p' & A & B); cycle 2.
    { exists p'. split; [|exact B].
      eapply path_step; [eapply p_open_fail; reflexivity|]. unfold loaded. rewrite E.
      eapply path_step; [eapply p_open_fail; reflexivity|]. unfold loaded.
      eapply path_step; [eapply p_mkdir_fail; reflexivity|]. exact A. }
    all: reflexivity.
  - edestruct (path_cache j f) as (p' & A & B); cycle 2.
    { exists p'. split; [|exact B].
      eapply path_step; [eapply p_open_fail; reflexivity|]. unfold loaded. rewrite E.
      eapply path_step; [eapply p_mkdir_fail; reflexivity|]. exact A. }
    all: reflexivity.
Qed.

Section Reach.
Variables k256 k512 : list N -> list N.
Variable pp : N -> bool.
Variable fuel : nat.
Variable d : config.
Variable top : N.
Variable f : fs.
Hypothesis CC : (1 <= cf_caches_count d)%Z.
Notation hist := (history k256 k512 pp fuel d top f).

Lemma hist_path j g run p p' :
  hist (mkW (mkState f [(j, Some p)]) [0%nat] [Some g] run) -> path j f p p' ->
  hist (mkW (mkState f [(j, Some p')]) [0%nat] [Some g] run).
Proof.
  intros H P. induction P as [p|p p1 p2 S P IH]; auto.
  apply IH. eapply hy_step; [exact H|].
  apply (w_io k256 k512 pp fuel d top (mkW (mkState f [(j, Some p)]) [0%nat] [Some g] run) 0%nat j p f p1 0%nat g); auto.
  intros t u j0 j' q q' n A B _ _. cbn in A, B.
  destruct t as [|[|]], u as [|[|]]; cbn in A, B; congruence.
Qed.

Lemma reach_read e j : e < top -> e < 2 ^ 64 - 1 -> job_of k256 k512 pp fuel d e = Done j ->
  exists w g id, hist w /\ nth_error (w_progs w) 0 = Some (Some g) /\ about_to_read g 0 id /\
    nth_error (map th_req (sy_threads (gc_sys g))) 0 = Some (Some e).
Proof.
  intros HT HE J.
  destruct (get_locked_spec d (fun m => m) 0%Z e empty_registry CC (fun m => Permutation_refl m) HE) as (r & c & sp & G & _ & EC & _).
  { apply wf_empty. lia. }
  set (sp' := match sp with Some x => [mkT None (Call x)] | None => [] end).
  assert (SP : forall t th, nth_error sp' t = Some th -> th_req th = None).
  { intros t th. subst sp'. destruct sp; destruct t as [|[|]]; cbn; intros X; inversion X; reflexivity. }
  (* a step of the only goroutine that is not inside generate *)
  assert (CODE : forall fs own run s sh sh' q pc' new old use un, 
    s = mkSys sh (mkT (Some e) q :: old) -> (forall t th, nth_error (old ++ new) t = Some th -> th_req th = None) ->
    hist (mkW fs own [Some (mkGc s use un)] run) -> lstep d epoch_of 0 sh q sh' pc' new ->
    (forall id, go_content (sh_obj sh' id) = go_content (sh_obj sh id)) ->
    hist (mkW fs own [Some (mkGc (mkSys sh' (mkT (Some e) pc' :: old ++ new)) use un)] run)).
  { intros fs own run s sh sh' q pc' new old use un -> OLD H L CO. eapply hy_step; [exact H|].
    eapply (w_code k256 k512 pp fuel d top (mkW fs own [Some (mkGc (mkSys sh (mkT (Some e) q :: old)) use un)] run) 0%nat); [reflexivity| | |].
    - apply gc_code. apply (g_step d epoch_of (mkSys sh (mkT (Some e) q :: old)) 0%nat (mkT (Some e) q) sh' pc' new eq_refl L).
    - exact CO.
    - intros t th e'. cbn. destruct t as [|t]; cbn.
      + intros X Y. inversion X; subst th. cbn in Y. inversion Y; subst; auto.
      + intros X Y. rewrite (OLD _ _ X) in Y. discriminate. }
  assert (H1 : hist (mkW (mkState f []) [] [Some gc_init] (fun _ _ => None))).
  { eapply hy_step; [apply hy_init|]. apply w_start. }
  set (sh0 := mkSh empty_registry None (fun _ : N => @fresh_gobj N)).
  assert (H2 : hist (mkW (mkState f []) [] [Some (mkGc (mkSys sh0 [mkT (Some e) (Lock e)]) (fun _ => NotYet) (fun _ => 0%nat))] (fun _ _ => None))).
  { eapply hy_step; [exact H1|].
    eapply (w_code k256 k512 pp fuel d top (mkW (mkState f []) [] [Some gc_init] (fun _ _ => None)) 0%nat); [reflexivity| | |].
    - apply (gc_request d epoch_of 0 gc_init e HE).
    - reflexivity.
    - intros [|[|t]] th e'; cbn; intros X Y; try discriminate. inversion X; subst th. cbn in Y. inversion Y; subst; auto. }
  assert (NIL : forall t th, nth_error (@nil thread ++ []) t = Some th -> th_req th = None) by (intros [|t] th X; discriminate X).
  assert (H3 := CODE _ _ _ _ _ _ _ _ _ [] _ _ eq_refl NIL H2 (s_lock d epoch_of 0 sh0 e eq_refl) (fun _ => eq_refl)).
  assert (H4 := CODE _ _ _ _ _ _ _ _ _ [] _ _ eq_refl NIL H3 (s_read d epoch_of 0 _ e) (fun _ => eq_refl)).
  assert (H5 := CODE _ _ _ _ _ _ _ _ _ [] _ _ eq_refl SP H4 (s_write d epoch_of 0 _ e _ _ _ _ _ _ (fun m => Permutation_refl m) G) (fun _ => eq_refl)).
  fold sp' in H5. cbn [app] in H5.
  assert (SP' : forall t th, nth_error (sp' ++ []) t = Some th -> th_req th = None) by (rewrite app_nil_r; exact SP).
  assert (H6 := CODE _ _ _ _ _ _ _ _ _ _ _ _ eq_refl SP' H5 (s_unlock d epoch_of 0 _ c) (fun _ => eq_refl)). rewrite app_nil_r in H6.
  assert (H7 := fun A => CODE _ _ _ _ _ _ _ _ _ _ _ _ eq_refl SP' H6 (s_call_slow d epoch_of 0 _ c A)). specialize (H7 eq_refl (fun _ => eq_refl)). rewrite app_nil_r in H7.
  assert (H8 := fun A => CODE _ _ _ _ _ _ _ _ _ _ _ _ eq_refl SP' H7 (s_slow d epoch_of 0 _ c A)). specialize (H8 eq_refl).
  cbn [set_obj sh_obj sh_reg sh_mutex go_content fresh_gobj go_done go_lock go_runs] in H8.
  specialize (H8 ltac:(intros id; destruct (N.eqb_spec id (co_id c)); reflexivity)). rewrite app_nil_r in H8.
  assert (H9 := fun A => CODE _ _ _ _ _ _ _ _ _ _ _ _ eq_refl SP' H8 (s_check_gen d epoch_of 0 _ c A)).
  cbn [sh_obj] in H9. specialize (H9 ltac:(cbn [set_obj sh_obj]; rewrite N.eqb_refl; reflexivity) (fun _ => eq_refl)). rewrite app_nil_r in H9.
  rewrite <- EC in J.
  match type of H9 with hist ?W =>
    assert (EN := w_enter k256 k512 pp fuel d top W 0%nat _ 0%nat _ c j _ _ _ eq_refl eq_refl eq_refl J (s_gen d epoch_of 0 _ c)) end.
  assert (H10 := hy_step _ _ _ _ _ _ _ _ _ H9 EN). clear EN.
  unfold stepped in H10. cbn [w_files w_owner w_progs w_run st_fs st_procs app length set_nth gc_sys sy_threads th_req gc_use gc_unmapped] in H10.
  rewrite app_nil_r in H10.
  destruct (path_start j f) as (p' & P & FIN).
  assert (H11 := hist_path _ _ _ _ _ H10 P).
  assert (H12 : exists sh, hist (mkW (mkState f [(j, Some p')]) [0%nat] [Some (mkGc (mkSys sh (mkT (Some e) (SetDone c) :: sp')) (fun _ => NotYet) (fun _ => 0%nat))]
     (fun i' id => if (Nat.eqb i' 0 && (id =? co_id c))%bool then Some 0%nat else None))).
  { match type of H11 with hist (mkW _ _ [Some (mkGc (mkSys ?sh _) _ _)] _) => set (sg := sh) in H11; clearbody sg end.
    match type of H11 with hist ?W =>
      assert (A : w_run W 0%nat (co_id c) = Some 0%nat) by (cbn [w_run]; rewrite N.eqb_refl; reflexivity);
      assert (LV := w_leave k256 k512 pp fuel d top W 0%nat _ 0%nat _ c 0%nat j p' _ _ _ eq_refl eq_refl eq_refl A eq_refl FIN
        (s_gen2 d epoch_of 0 sg c)) end.
    eexists.
    assert (X := hy_step _ _ _ _ _ _ _ _ _ H11 LV).
    unfold stepped in X. cbn [w_files w_owner w_progs w_run st_fs st_procs app length set_nth gc_sys sy_threads th_req gc_use gc_unmapped] in X.
    rewrite app_nil_r in X. exact X. }
  destruct H12 as (sh & H12).
  assert (H13 := CODE _ _ _ _ _ _ _ _ _ _ _ _ eq_refl SP' H12 (s_done d epoch_of 0 _ c)).
  specialize (H13 ltac:(intros id; cbn [set_obj sh_obj]; destruct (N.eqb_spec id (co_id c)) as [->|]; reflexivity)). rewrite app_nil_r in H13.
  assert (H14 := CODE _ _ _ _ _ _ _ _ _ _ _ _ eq_refl SP' H13 (s_release d epoch_of 0 _ c)).
  specialize (H14 ltac:(intros id; cbn [set_obj sh_obj]; destruct (N.eqb_spec id (co_id c)) as [->|]; [rewrite N.eqb_refl|]; reflexivity)). rewrite app_nil_r in H14.
  match type of H14 with hist (mkW ?A ?B [Some ?g] ?R) =>
    assert (BG := gc_begin d epoch_of 0 g 0%nat e c 1%nat eq_refl eq_refl);
    assert (H15 := hy_step _ _ _ _ _ _ _ _ _ H14 (w_code k256 k512 pp fuel d top (mkW A B [Some g] R) 0%nat g _ eq_refl BG (fun _ => eq_refl)
       ltac:(intros [|t] th e' X Y; [inversion X; subst th; cbn in Y; inversion Y; subst; auto|cbn in X; rewrite (SP _ _ X) in Y; discriminate])))
  end.
  eexists _, _, (co_id c). split; [exact H15|]. split; [reflexivity|]. split.
  - exists e, c, 0%nat, true. auto.
  - reflexivity.
Qed.
End Reach.

(** For every shipped coin and every served height, on an empty directory. *)
Example C66_instance k256 k512 pp fuel dir d height :
  hash_ok 32 k256 -> primality_test pp -> 2 ^ 31 <= N.of_nat fuel -> dir <> [] -> In d (shipped dir) ->
  height / cf_epoch_length d < 2044 ->
  exists w g id, history k256 k512 pp fuel d 2044 empty_fs w /\ in_call d w 0 0 id height g.
Proof.
  intros H256 PP F ND HD HE. destruct (shipped_facts fuel dir F d HD) as (F1 & F2 & F3 & F4 & F5 & F6 & F7).
  assert (NS : ~ In 47 (cf_name d) /\ cf_storage_dir d = dir).
  { clear - HD. unfold shipped in HD. cbn [In] in HD. destruct HD as [<-|[<-|[<-|[<-|[<-|[]]]]]]; cbn; intuition discriminate. }
  destruct (epoch_ok_served pp fuel dir d (height / cf_epoch_length d) PP F HD) as (s & OK & _); [left; lia|].
  destruct (job_total k256 k512 pp fuel d (height / cf_epoch_length d) s H256) as (j & J); auto.
  { unfold config_ok. destruct NS as (NS & ->). repeat (split; [assumption || lia|]). assumption. }
  destruct (reach_read k256 k512 pp fuel d 2044 empty_fs F2 (height / cf_epoch_length d) j HE) as (w & g & id & H & A & B & C); auto.
  { eapply N.lt_trans; [exact HE|reflexivity]. }
  exists w, g, id. unfold in_call. auto.
Qed.
