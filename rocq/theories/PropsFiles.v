(** C19-C21: cache files. *)
From Coq Require Import NArith ZArith Arith List Bool Lia ZifyBool ZifyN ZifyNat.
From Verif Require Import Base BaseFacts DagModel DagSpec DagSize Chunks DagContent
  FileModel FileProofs NameModel NameProofs FileJob FileJobProofs PropsDagContent.
Import ListNotations.
Open Scope N_scope.
Ltac Zify.zify_post_hook ::= Z.div_mod_to_equations.

(** ** C21: names *)

(** In one storage directory, equal paths mean equal kind, coin, revision and seed prefix. *)
Theorem C21_names_do_not_collide k1 d1 s1 k2 d2 s2 :
  cf_storage_dir d1 = cf_storage_dir d2 ->
  ~ In 47 (cf_name d1) -> ~ In 47 (cf_name d2) ->
  length s1 = 8%nat -> length s2 = 8%nat -> bytes s1 -> bytes s2 ->
  storageLocation k1 d1 s1 = storageLocation k2 d2 s2 ->
  k1 = k2 /\ cf_name d1 = cf_name d2 /\ cf_revision d1 = cf_revision d2 /\ s1 = s2.
Proof. apply location_inj. Qed.
Print Assumptions C21_names_do_not_collide.

(** A temporary file never has the name of a cache file. *)
Theorem C21_temporary_names k1 d1 s1 n k2 d2 s2 :
  cf_storage_dir d1 = cf_storage_dir d2 ->
  ~ In 47 (cf_name d1) -> ~ In 47 (cf_name d2) ->
  length s1 = 8%nat -> length s2 = 8%nat -> bytes s1 -> bytes s2 ->
  temp_name (storageLocation k1 d1 s1) (dec_N n) <> storageLocation k2 d2 s2.
Proof. intros. apply location_temp; auto. apply dec_N_numeral. Qed.
Print Assumptions C21_temporary_names.

(** The shipped clients, all in one directory, never share a file. *)
Theorem C21_shipped_clients dir c1 c2 k1 k2 s1 s2 :
  let all := [cfg_ethereum dir; cfg_ethereum_classic dir; cfg_ravencoin dir; cfg_firo dir; cfg_conflux dir] in
  (c1 < 5)%nat -> (c2 < 5)%nat ->
  length s1 = 8%nat -> length s2 = 8%nat -> bytes s1 -> bytes s2 ->
  storageLocation k1 (nth c1 all (cfg_ethereum dir)) s1 = storageLocation k2 (nth c2 all (cfg_ethereum dir)) s2 ->
  c1 = c2 /\ k1 = k2 /\ s1 = s2.
Proof.
  intros all H1 H2 L1 L2 B1 B2 E. unfold all in *.
  assert (NOSL : forall c, (c < 5)%nat -> ~ In 47 (cf_name (nth c all (cfg_ethereum dir))) /\
     cf_storage_dir (nth c all (cfg_ethereum dir)) = dir).
  { intros c Hc. unfold all. destruct c as [|[|[|[|[|c]]]]]; try lia; cbn [nth]; (split; [cbn; lia|reflexivity]). }
  destruct (NOSL c1 H1) as (N1 & D1). destruct (NOSL c2 H2) as (N2 & D2).
  apply location_inj in E; auto; [|unfold all in *; congruence].
  destruct E as (Ek & En & _ & Es). split; auto.
  destruct c1 as [|[|[|[|[|c1]]]]], c2 as [|[|[|[|[|c2]]]]]; try lia; auto;
    cbn [nth] in En; discriminate En.
Qed.
Print Assumptions C21_shipped_clients.
(** "/home/u/.powcache" + ETH, revision 23: the path the code builds *)
Example C21_instance :
  storageLocation KCache (cfg_ethereum [47; 104; 47; 46; 112]) [0; 1; 171; 255; 16; 2; 3; 4] =
  [47; 104; 47; 46; 112; 47; 99; 97; 99; 104; 101; 45; 69; 84; 72; 45; 82; 50; 51; 45;
   48; 48; 48; 49; 97; 98; 102; 102; 49; 48; 48; 50; 48; 51; 48; 52].
Proof. vm_compute. reflexivity. Qed.

(** With a slash in the coin name two coins can share a file: "A/../cache-B" and "B". *)
Theorem C21_slash_refuted : exists d1 d2 s,
  cf_storage_dir d1 = cf_storage_dir d2 /\ length s = 8%nat /\ bytes s /\
  cf_name d1 <> cf_name d2 /\ storageLocation KCache d1 s = storageLocation KCache d2 s.
Proof.
  set (mk := fun nm => mkConfig nm 23 [100] 0 0 0 0 None None 0 0 0 0 0 0 false false 0 0).
  exists (mk [65; 47; 46; 46; 47; 99; 97; 99; 104; 101; 45; 66]), (mk [66]), (repeat 7 8).
  split; [reflexivity|]. split; [reflexivity|].
  split; [repeat (constructor; [reflexivity|]); constructor|]. split; [discriminate|]. vm_compute. reflexivity.
Qed.
Print Assumptions C21_slash_refuted.

(** ** C19: crashes and partial files *)

(** A file system without hard links. *)
Definition no_links (f : fs) : Prop :=
  (forall n i, fs_dir f n = Some i -> i < fs_next f) /\
  (forall n m i, fs_dir f n = Some i -> fs_dir f m = Some i -> n = m).

(** A complete file for path [n]: the magic and the whole output of the generator of a run of
    generate that stores under [n]. *)
Definition complete_for (js : list job) (n : name) (x : list N) : Prop :=
  exists j k cache, In j js /\ jb_path j k = n /\
    x = magic_bytes ++ jb_gen j k cache (jb_size j k).

(** The names of cache files in play. *)
Definition cache_name (js : list job) (n : name) : Prop :=
  exists j, In j js /\ ((exists k, n = jb_path j k) \/ In n (jb_old j)).

Lemma C19_inv f js s :
  no_links f ->
  (forall j k, In j js -> jb_size j k mod 4 = 0) ->
  (forall j k r, In j js -> is_numeral r -> ~ cache_name js (temp_name (jb_path j k) r)) ->
  run (initial f js) s ->
  inv (cache_name js) (fun n x => complete_for js n x \/ exists i, fs_dir f n = Some i /\ x = fs_data f i)
    (fun _ _ _ => True) s.
Proof.
  intros (F1 & F2) Z T R. apply (run_inv _ _ _ (initial f js)); auto. apply initial_inv.
  - split; auto. split; auto. intros n i _ D. right. eauto.
  - apply Forall_forall. intros j IN. constructor.
    + intros k. exists j. split; auto. left; eauto.
    + intros k r N. apply T; auto.
    + intros n I. exists j. auto.
    + intros k. apply Z; auto.
    + split; auto. left. exists j, KCache, []. auto.
    + intros b _. split; auto. left. exists j, KL1, b. auto.
Qed.

(** Whatever any number of processes do, whichever calls fail and wherever processes are
    killed, the file under a cache name holds what it held at the start or is complete. *)
Theorem C19_never_partial f js s n i :
  no_links f ->
  (forall j k, In j js -> jb_size j k mod 4 = 0) ->
  (forall j k r, In j js -> is_numeral r -> ~ cache_name js (temp_name (jb_path j k) r)) ->
  run (initial f js) s ->
  cache_name js n -> fs_dir (st_fs s) n = Some i ->
  complete_for js n (fs_data (st_fs s) i) \/
  exists i0, fs_dir f n = Some i0 /\ fs_data (st_fs s) i = fs_data f i0.
Proof. intros F Z T R C D. apply (in_final _ _ _ _ (C19_inv f js s F Z T R)); auto. Qed.
Print Assumptions C19_never_partial.

(** The same for what a process has mapped, at every moment after it mapped it. *)
Theorem C19_readers f js s t j p k i :
  no_links f ->
  (forall j k, In j js -> jb_size j k mod 4 = 0) ->
  (forall j k r, In j js -> is_numeral r -> ~ cache_name js (temp_name (jb_path j k) r)) ->
  run (initial f js) s ->
  nth_error (st_procs s) t = Some (j, Some p) -> slot p k = Some (Mapped i) ->
  complete_for js (jb_path j k) (fs_data (st_fs s) i) \/
  exists i0, fs_dir f (jb_path j k) = Some i0 /\ fs_data (st_fs s) i = fs_data f i0.
Proof.
  intros F Z T R H S. assert (I := C19_inv f js s F Z T R).
  destruct (po_reads _ _ _ _ _ _ (in_procs _ _ _ _ I _ _ _ H) k i (or_introl S)) as (_ & A & _). exact A.
Qed.
Print Assumptions C19_readers.

(** The side conditions hold for the jobs of the library: any mix of configurations sharing a
    storage directory, coin names without slashes. *)
Theorem C19_temp_condition k256 k512 pp fuel dir js :
  hash_ok 32 k256 -> hash_ok 64 k512 ->
  Forall (fun j => exists d e size, job_of k256 k512 pp fuel d e = Done j /\
     epoch_ok pp fuel d e size /\ cf_storage_dir d = dir /\ ~ In 47 (cf_name d) /\
     0 < cf_seed_epoch_length d /\ (0 <= cf_caches_count d)%Z /\
     cf_l1_cache_size d = 4 * cf_l1_cache_num_items d /\ cf_l1_cache_size d mod 64 = 0 /\
     cf_l1_cache_size d < 2 ^ 38) js ->
  forall j k r, In j js -> is_numeral r -> ~ cache_name js (temp_name (jb_path j k) r).
Proof.
  intros H256 H512 F j k r IN NUM (j' & IN' & C).
  assert (A : forall j, In j js -> exists d, cf_storage_dir d = dir /\ ~ In 47 (cf_name d) /\
     (forall k, exists e, jb_path j k = spec_path k256 d e k) /\
     (forall n, In n (jb_old j) -> exists k m, n = spec_path k256 d m k)).
  { intros x Hx. destruct (proj1 (Forall_forall _ _) F _ Hx) as (d & e & size & J & EO & SD & NS & S & CC & L1 & L2 & L3).
    destruct (job_of_spec k256 k512 pp fuel H256 H512 d S CC L1 L2 L3 e size x EO J) as (P1 & _ & _ & _ & _ & _ & P2 & _).
    exists d. split; auto. split; auto. split; [intros k'; exists e; apply P1|exact P2]. }
  destruct (A j IN) as (d & SD & NS & P & _). destruct (P k) as (e & E).
  destruct (A j' IN') as (d' & SD' & NS' & P' & O').
  destruct (seed8_ok k256 H256 d e) as (L1 & B1).
  assert (X : exists k' e', temp_name (jb_path j k) r = spec_path k256 d' e' k').
  { destruct C as [(k' & C)|C].
    - destruct (P' k') as (e' & E'). exists k', e'. congruence.
    - destruct (O' _ C) as (k' & m & E'). eauto. }
  destruct X as (k' & e' & X). rewrite E in X. unfold spec_path in X.
  destruct (seed8_ok k256 H256 d' e') as (L2 & B2).
  revert X. apply location_temp; auto. congruence.
Qed.
Print Assumptions C19_temp_condition.
Theorem C19_size_condition k256 k512 pp fuel d e size j :
  hash_ok 32 k256 -> hash_ok 64 k512 -> epoch_ok pp fuel d e size -> 0 < cf_seed_epoch_length d ->
  cf_l1_cache_size d = 4 * cf_l1_cache_num_items d -> cf_l1_cache_size d mod 64 = 0 -> cf_l1_cache_size d < 2 ^ 38 ->
  job_of k256 k512 pp fuel d e = Done j -> forall k, jb_size j k mod 4 = 0.
Proof. intros. eapply job_of_sizes; eauto. Qed.
Print Assumptions C19_size_condition.

(** Without different random suffixes the claim is false: two writers that use the same
    temporary name can leave an empty file under the cache name (math/rand is not seeded, so
    two processes of the same program draw the same suffixes). *)
Definition toy_job (n : N) : job :=
  mkJob true (fun k => match k with KCache => [n] | KL1 => [n; n] end) (fun _ => 4) (fun _ => 4) false false
    (fun _ _ len => repeat 7 (N.to_nat len)) [].
Definition empty_fs : fs := mkFs (fun _ => None) (fun _ => []) 0.
Lemma advance s0 t j p p' f f' ps :
  run_any s0 (mkState f ps) -> nth_error ps t = Some (j, Some p) -> pstep j f p f' p' ->
  run_any s0 (mkState f' (set_nth ps t (j, Some p'))).
Proof. intros R H P. eapply any_step; [exact R|]. econstructor; eauto. Qed.

Theorem C19_same_suffix_refuted : exists s i,
  run_any (initial empty_fs [toy_job 5; toy_job 5]) s /\
  fs_dir (st_fs s) [5] = Some i /\ fs_data (st_fs s) i = [] /\
  ~ complete_for [toy_job 5; toy_job 5] [5] (fs_data (st_fs s) i).
Proof.
  assert (NUM : is_numeral [49]) by (split; [discriminate|repeat constructor; lia]).
  set (j := toy_job 5). set (tmp := temp_name [5] [49]).
  assert (R : exists s, run_any (initial empty_fs [j; j]) s /\
     fs_dir (st_fs s) [5] = Some 0 /\ fs_data (st_fs s) 0 = []).
  { pose proof (any_refl (initial empty_fs [j; j])) as R.
    unfold initial at 2 in R. cbn [map] in R.
    (* 0 finds no file, creates a temporary one and fills it *)
    eapply (advance _ 0) in R; [|reflexivity|eapply p_open_fail; reflexivity].
    eapply (advance _ 0) in R; [|reflexivity|eapply p_mkdir; reflexivity].
    eapply (advance _ 0) in R; [|reflexivity|eapply (p_create _ _ _ KCache [49]); [reflexivity|exact NUM|reflexivity]].
    eapply (advance _ 0) in R; [|reflexivity|eapply p_trunc; reflexivity].
    eapply (advance _ 0) in R; [|reflexivity|eapply p_mapw; reflexivity].
    eapply (advance _ 0) in R; [|reflexivity|eapply p_fill; [reflexivity|vm_compute; discriminate]].
    eapply (advance _ 0) in R; [|reflexivity|eapply p_unmap; reflexivity].
    eapply (advance _ 0) in R; [|reflexivity|eapply p_close; reflexivity].
    (* 1 finds no file and creates the same temporary file, which empties it *)
    eapply (advance _ 1) in R; [|reflexivity|eapply p_open_fail; reflexivity].
    eapply (advance _ 1) in R; [|reflexivity|eapply p_mkdir; reflexivity].
    eapply (advance _ 1) in R; [|reflexivity|eapply (p_create _ _ _ KCache [49]); [reflexivity|exact NUM|reflexivity]].
    (* 0 renames it *)
    eapply (advance _ 0) in R; [|reflexivity|eapply p_rename; reflexivity].
    eexists. split; [exact R|]. split; reflexivity. }
  destruct R as (s & R & D & E). exists s, 0. split; auto. split; auto. split; auto.
  rewrite E. intros (j' & k & c & _ & _ & X). discriminate X.
Qed.
Print Assumptions C19_same_suffix_refuted.

(** A crash-free run of one process: the file is stored, complete, and mapped. *)
Lemma advance1 s0 j p p' f f' :
  run s0 (mkState f [(j, Some p)]) -> pstep j f p f' p' -> run s0 (mkState f' [(j, Some p')]).
Proof.
  intros R P. eapply run_step; [exact R| |].
  - apply (f_step f f' [(j, Some p)] 0 j p p' eq_refl P).
  - intros t u a b q q' n E1 E2 _ _. cbn in E1, E2. destruct t as [|[|t]], u as [|[|u]]; auto; discriminate.
Qed.
Example C19_instance : exists s p,
  run (initial empty_fs [toy_job 5]) s /\ st_procs s = [(toy_job 5, Some p)] /\
  pr_pc p = Finished /\ slot p KCache = Some (Mapped 0) /\ fs_dir (st_fs s) [5] = Some 0 /\
  fs_data (st_fs s) 0 = [254; 202; 221; 186; 173; 222; 225; 254; 7; 7; 7; 7] /\
  (forall j k, In j [toy_job 5] -> jb_size j k mod 4 = 0) /\
  (forall j k r, In j [toy_job 5] -> is_numeral r -> ~ cache_name [toy_job 5] (temp_name (jb_path j k) r)).
Proof.
  assert (NUM : is_numeral [49]) by (split; [discriminate|repeat constructor; lia]).
  pose proof (run_refl (initial empty_fs [toy_job 5])) as R.
  unfold initial at 2 in R. cbn [map] in R.
  eapply advance1 in R; [|eapply p_open_fail; reflexivity].
  eapply advance1 in R; [|eapply p_mkdir; reflexivity].
  eapply advance1 in R; [|eapply (p_create _ _ _ KCache [49]); [reflexivity|exact NUM|reflexivity]].
  eapply advance1 in R; [|eapply p_trunc; reflexivity].
  eapply advance1 in R; [|eapply p_mapw; reflexivity].
  eapply advance1 in R; [|eapply (p_fill_some _ _ _ _ _ _ (repeat 1 12)); reflexivity].
  eapply advance1 in R; [|eapply p_fill; [reflexivity|vm_compute; discriminate]].
  eapply advance1 in R; [|eapply p_unmap; reflexivity].
  eapply advance1 in R; [|eapply p_close; reflexivity].
  eapply advance1 in R; [|eapply p_rename; reflexivity].
  eapply advance1 in R; [|eapply p_open; reflexivity].
  eapply advance1 in R; [|eapply p_map; [reflexivity|discriminate]].
  eapply advance1 in R; [|eapply p_check; reflexivity].
  eapply advance1 in R; [|eapply p_clean_end; reflexivity].
  eexists. eexists. split; [exact R|]. repeat (split; [reflexivity|]).
  split; [intros j k [<-|[]]; reflexivity|].
  intros j k r [<-|[]] _ (j' & [<-|[]] & [(k' & X)|[]]). destruct k, k'; discriminate X.
Qed.

(** ** C20: the state of the disk does not matter *)

Section C20.
Variables k256 k512 : list N -> list N.
Variable pp : N -> bool.
Variable fuel : nat.

(** A file which is not one of this library: at least as long as the magic, but without it. *)
Definition rejected (x : list N) : Prop := bytes x /\ (8 <= length x)%nat /\ firstn 8 x <> magic_bytes.

(** One configuration, runs of generate for the epochs [es] (possibly several for one epoch,
    in one process or many), and a directory whose files for these epochs were completely
    written or do not have the magic.  Then after any interleaving, failures and crashes: no run panics, a run that has
    finished holds exactly the specified cache and L1 cache, and the directory still is as
    assumed. *)
Theorem C20_disk_state_irrelevant d es js size f s :
  hash_ok 32 k256 -> hash_ok 64 k512 ->
  (* the configuration *)
  ~ In 47 (cf_name d) -> 0 < cf_seed_epoch_length d -> (0 <= cf_caches_count d)%Z ->
  cf_l1_cache_size d = 4 * cf_l1_cache_num_items d -> cf_l1_cache_size d mod 64 = 0 ->
  cf_l1_cache_size d < 2 ^ 38 ->
  (* the epochs *)
  (forall e, In e es -> epoch_ok pp fuel d e (size e)) ->
  (forall e e', In e es -> In e' es ->
     firstn 8 (epoch_seed k256 d e) = firstn 8 (epoch_seed k256 d e') -> e = e') ->
  Forall2 (fun e j => job_of k256 k512 pp fuel d e = Done j) es js ->
  (* the directory *)
  no_links f ->
  (forall e k i, In e es -> fs_dir f (spec_path k256 d e k) = Some i ->
     fs_data f i = magic_bytes ++ spec_content k256 k512 d e (size e) k \/ rejected (fs_data f i)) ->
  run (initial f js) s ->
  (forall t e j p, nth_error es t = Some e -> nth_error (st_procs s) t = Some (j, Some p) ->
     pr_pc p <> Panicked /\
     (pr_pc p = Finished ->
        (exists x, pr_cache p = Some x /\
           content (st_fs s) x = spec_content k256 k512 d e (size e) KCache) /\
        (cf_l1_enabled d = true -> exists x, pr_l1 p = Some x /\
           content (st_fs s) x = spec_content k256 k512 d e (size e) KL1))) /\
  (forall e k i, In e es -> fs_dir (st_fs s) (spec_path k256 d e k) = Some i ->
     fs_data (st_fs s) i = magic_bytes ++ spec_content k256 k512 d e (size e) k \/ rejected (fs_data (st_fs s) i)).
Proof.
  intros H256 H512 NS SEL CC L1a L1b L1c EO INJ J2 (F1 & F2) FC R.
  set (path := spec_path k256 d). set (spec := fun e => spec_content k256 k512 d e (size e)).
  set (final := fun n : name => exists k e, n = path e k).
  set (okc := fun (n : name) x => forall e k, In e es -> n = path e k -> x = magic_bytes ++ spec e k \/ rejected x).
  assert (NM : forall x, rejected x -> check_magic x = Done false).
  { intros x (B & L & N). apply check_magic_other; auto. }
  set (okm := fun (j : job) k b => forall e, In e es -> (forall k, jb_path j k = path e k) -> b = spec e k).
  assert (PI : forall e e' k k', In e es -> In e' es -> path e k = path e' k' -> e = e' /\ k = k').
  { intros e e' k k' I I' E. unfold path, spec_path in E.
    destruct (seed8_ok k256 H256 d e). destruct (seed8_ok k256 H256 d e').
    apply location_inj in E; auto. destruct E as (-> & _ & _ & E). auto. }
  assert (JS : forall t j, nth_error js t = Some j -> exists e, nth_error es t = Some e /\
     In e es /\ job_of k256 k512 pp fuel d e = Done j).
  { intros t j. clear - J2. revert t. induction J2 as [|e j0 es js E _ IH]; intros [|t] H; cbn in H; try discriminate.
    - inversion H; subst. exists e. split; [reflexivity|]. split; [left|]; auto.
    - destruct (IH t H) as (e' & A & B & C). exists e'. split; auto. split; [right; auto|auto]. }
  assert (I0 : inv final okc okm (initial f js)).
  { apply initial_inv.
    - split; auto. split; auto. intros n i (k & e & ->) D e' k' I E.
      rewrite E in D. apply FC; auto.
    - apply Forall_forall. intros j IN. apply In_nth_error in IN. destruct IN as (t & IN).
      destruct (JS t j IN) as (e & _ & IE & J).
      destruct (job_of_spec k256 k512 pp fuel H256 H512 d SEL CC L1a L1b L1c e (size e) j (EO e IE) J)
        as (P1 & P2 & P3 & P4 & P5 & P6 & P7 & P8).
      constructor.
      + intros k. exists k, e. apply P1.
      + intros k r NUM (k' & e' & E). rewrite P1 in E. unfold path, spec_path in E.
        destruct (seed8_ok k256 H256 d e). destruct (seed8_ok k256 H256 d e').
        revert E. apply location_temp; auto.
      + intros n I. destruct (P7 n I) as (k & m & ->). exists k, m. auto.
      + eapply (job_of_sizes k256 k512 pp fuel); eauto.
      + rewrite P3, P4. split.
        * intros e' k' I' E. rewrite P1 in E. destruct (PI e e' KCache k' IE I' E). subst. auto.
        * intros e' I' A. specialize (A KCache). rewrite P1 in A. destruct (PI _ _ _ _ IE I' A). subst; auto.
      + intros b OK.
        assert (Eb : b = spec e KCache).
        { destruct OK as [(x & O & C & ->)|O].
          - destruct (O e KCache IE (P1 KCache)) as [->|RJ]; [reflexivity|]. rewrite NM in C by auto. discriminate.
          - apply O; auto. }
        subst b. assert (X : spec e KCache = spec_content k256 k512 d e (size e) KCache) by reflexivity.
        rewrite X, P5, P6. split.
        * intros e' k' I' E. rewrite P1 in E. destruct (PI e e' KL1 k' IE I' E). subst. auto.
        * intros e' I' A. specialize (A KL1). rewrite P1 in A. destruct (PI _ _ _ _ IE I' A). subst; auto. }
  assert (I := run_inv _ _ _ _ _ I0 R).
  assert (PROCS : forall t j p, nth_error (st_procs s) t = Some (j, p) -> nth_error js t = Some j).
  { clear - R. induction R as [|s s' R IH ST _]; intros t j p H.
    - cbn in H. rewrite nth_error_map in H. destruct (nth_error js t); inversion H; auto.
    - destruct ST as [f0 f' ps u j0 p0 p' H0 ST|f0 ps u j0 p0 H0]; cbn in *;
        destruct (set_nth_cases _ _ _ _ _ H) as [(-> & E)|(NE & E)]; eauto;
        inversion E; subst; eauto. }
  split.
  - intros t e j p He Hp.
    assert (Hj := PROCS _ _ _ Hp). destruct (JS t j Hj) as (e0 & A & IE & J).
    assert (e0 = e) by congruence. subst e0.
    destruct (job_of_spec k256 k512 pp fuel H256 H512 d SEL CC L1a L1b L1c e (size e) j (EO e IE) J)
        as (P1 & P2 & _).
    assert (PO := in_procs _ _ _ _ I _ _ _ Hp).
    assert (CONT : forall k x, slot p k = Some x -> content (st_fs s) x = spec e k).
    { intros k [i|b] E.
      - destruct (po_reads _ _ _ _ _ _ PO k i (or_introl E)) as (_ & O & _).
        assert (C := po_magic _ _ _ _ _ _ PO k i E).
        cbn. destruct (O e k IE (P1 k)) as [->|RJ]; [reflexivity|]. rewrite NM in C by auto. discriminate.
      - cbn. apply (po_mem _ _ _ _ _ _ PO k b E e IE P1). }
    split.
    + intros PN. destruct (po_panic _ _ _ _ _ _ PO PN) as (k & x & O & C).
      destruct (O e k IE (P1 k)) as [->|RJ]; [rewrite check_magic_complete in C; discriminate|].
      rewrite NM in C by auto. discriminate.
    + intros FIN. destruct (po_ended _ _ _ _ _ _ PO) as (C1 & C2); [rewrite FIN; auto|].
      split.
      * destruct (pr_cache p) as [x|] eqn:E; [|congruence]. exists x. split; auto. apply (CONT KCache); auto.
      * intros L. rewrite <- P2 in L. specialize (C2 L).
        destruct (pr_l1 p) as [x|] eqn:E; [|congruence]. exists x. split; auto. apply (CONT KL1); auto.
  - intros e k i IE D. assert (FN : final (path e k)) by (exists k, e; auto).
    apply (in_final _ _ _ _ I _ _ FN D e k IE eq_refl).
Qed.
End C20.
Print Assumptions C20_disk_state_irrelevant.

(** generate always comes to an end: it never is stuck, and the number of its steps (apart
    from intermediate writes into its buffer) is bounded. *)
Theorem C20_always_ends j : exists m : proc -> nat,
  (forall f p f' p', pstep j f p f' p' -> p' = p \/ (m p' < m p)%nat) /\
  (forall f p, pr_pc p <> Finished -> pr_pc p <> Panicked -> exists f' p', pstep j f p f' p' /\ p' <> p).
Proof.
  exists (rank j). split; [intros; eapply pstep_rank; eauto|intros; apply pstep_exists; auto].
Qed.
Print Assumptions C20_always_ends.

Lemma finish_alone s0 j f p : run s0 (mkState f [(j, Some p)]) ->
  exists f' p', run s0 (mkState f' [(j, Some p')]) /\ (pr_pc p' = Finished \/ pr_pc p' = Panicked).
Proof.
  remember (rank j p) as n eqn:E. revert f p E.
  induction n as [n IH] using (well_founded_induction lt_wf). intros f p E R.
  assert (D : pr_pc p = Finished \/ pr_pc p = Panicked \/ (pr_pc p <> Finished /\ pr_pc p <> Panicked)).
  { destruct (pr_pc p); auto; right; right; split; discriminate. }
  destruct D as [D|[D|(D1 & D2)]]; [exists f, p; auto..|].
  destruct (pstep_exists j f p D1 D2) as (f' & p' & S & NE).
  destruct (pstep_rank _ _ _ _ _ S) as [X|X]; [contradiction|].
  apply (IH (rank j p') ltac:(lia) f' p' eq_refl). eapply advance1; eauto.
Qed.

(** A small configuration: tables of sizes 320 and 448, an L1 cache of two items. *)
Definition small_config : config :=
  mkConfig [88] 1 [100] 0 0 0 0 (Some (mkTable 2 [320; 448])) None 128 4 10 10 3 3 false true 128 32.
Definition toy256 (b : list N) : list N := firstn 32 (toy_hash b).
Lemma toy256_ok : hash_ok 32 toy256.
Proof.
  intros b. destruct (toy_hash_ok b) as (A & B). unfold toy256.
  split; [rewrite firstn_length, A; reflexivity|apply Forall_firstn; auto].
Qed.
Example C20_instance : exists j s p x y,
  job_of toy256 toy_hash (fun _ => true) 1 small_config 1 = Done j /\
  run (initial empty_fs [j]) s /\ nth_error (st_procs s) 0 = Some (j, Some p) /\
  pr_pc p = Finished /\ pr_cache p = Some x /\ pr_l1 p = Some y /\
  content (st_fs s) x = spec_content toy256 toy_hash small_config 1 448 KCache /\
  content (st_fs s) y = spec_content toy256 toy_hash small_config 1 448 KL1 /\
  length (spec_content toy256 toy_hash small_config 1 448 KCache) = 448%nat.
Proof.
  assert (J : exists j, job_of toy256 toy_hash (fun _ => true) 1 small_config 1 = Done j).
  { eexists. reflexivity. }
  destruct J as (j & J).
  destruct (finish_alone (initial empty_fs [j]) j empty_fs (start j) (run_refl _)) as (f & p & R & FIN).
  destruct (C20_disk_state_irrelevant toy256 toy_hash (fun _ => true) 1 small_config [1] [j] (fun _ => 448) empty_fs
    (mkState f [(j, Some p)])) as (A & _); try exact toy256_ok; try exact toy_hash_ok; try lia;
    try reflexivity; auto.
  - cbn. intuition lia.
  - discriminate.
  - intros e [<-|[]]. unfold epoch_ok. cbn [small_config cf_epoch_length]. repeat split; try lia; reflexivity.
  - intros e e' [<-|[]] [<-|[]]; auto.
  - split; intros; discriminate.
  - intros; discriminate.
  - destruct (A 0%nat 1 j p eq_refl eq_refl) as (NP & FN).
    destruct FIN as [FIN|FIN]; [|contradiction].
    destruct (FN FIN) as ((x & E1 & E2) & L1). destruct (L1 eq_refl) as (y & E3 & E4).
    exists j, (mkState f [(j, Some p)]), p, x, y.
    split; [exact J|]. split; [exact R|]. split; [reflexivity|]. split; [exact FIN|]. split; [exact E1|].
    split; [exact E3|]. split; [exact E2|]. split; [exact E4|].
    destruct (cache_rows_ok toy_hash (epoch_seed toy256 small_config 1) (N.to_nat (448 / 64)) 3 toy_hash_ok) as (B & L).
    unfold spec_content, spec_rows. change (N.to_nat (cf_cache_rounds small_config)) with 3%nat.
    rewrite (concat_blocks_length 64) by exact B. rewrite L. reflexivity.
Qed.
(** A directory with a file of something else under the name for epoch 1 also meets the hypotheses. *)
Example C20_rejected_instance : let f := mkFs (fun n => if name_dec n (spec_path toy256 small_config 1 KCache) then Some 0 else None)
    (fun _ => repeat 9 100) 1 in
  no_links f /\ fs_dir f (spec_path toy256 small_config 1 KCache) = Some 0 /\ rejected (fs_data f 0).
Proof.
  cbv zeta. split; [|split].
  - split; cbn [fs_dir fs_next]; intros n.
    + intros i. destruct (name_dec _ _); [|discriminate]. intros E; inversion E. lia.
    + intros m i. destruct (name_dec n _), (name_dec m _); congruence.
  - cbn [fs_dir]. destruct (name_dec _ _); congruence.
  - split; [|split; [cbn; lia|discriminate]]. cbn [fs_data]. apply Forall_forall. intros x IN. apply repeat_spec in IN. subst. reflexivity.
Qed.


(** What the check of a file does not cover.  A file of one byte makes generate panic... *)
Theorem C20_short_file_refuted : exists f s p,
  no_links f /\ fs_dir f [5] = Some 0 /\ fs_data f 0 = [1] /\
  run (initial f [toy_job 5]) s /\ st_procs s = [(toy_job 5, Some p)] /\ pr_pc p = Panicked.
Proof.
  set (f := mkFs (fun n => if name_dec n [5] then Some 0 else None) (fun _ => [1]) 1).
  assert (NL : no_links f).
  { split.
    - intros n i. unfold f. cbn [fs_dir fs_next]. destruct (name_dec n [5]); intros E; inversion E; lia.
    - intros n m i. unfold f. cbn [fs_dir]. destruct (name_dec n [5]), (name_dec m [5]); congruence. }
  pose proof (run_refl (initial f [toy_job 5])) as R. unfold initial at 2 in R. cbn [map] in R.
  eapply advance1 in R; [|eapply p_open; reflexivity].
  eapply advance1 in R; [|eapply p_map; [reflexivity|discriminate]].
  eapply advance1 in R; [|eapply p_check_panic; reflexivity].
  exists f. eexists. eexists. split; [exact NL|]. split; [reflexivity|]. split; [reflexivity|].
  split; [exact R|]. split; reflexivity.
Qed.
Print Assumptions C20_short_file_refuted.

(** ...and a file that starts with the magic is trusted, whatever follows and however long. *)
Theorem C20_foreign_file_refuted : forall y, exists f s p x,
  no_links f /\ fs_dir f [5] = Some 0 /\ fs_data f 0 = magic_bytes ++ y /\
  run (initial f [toy_job 5]) s /\ st_procs s = [(toy_job 5, Some p)] /\ pr_pc p = Finished /\
  pr_cache p = Some x /\ content (st_fs s) x = y.
Proof.
  intros y.
  set (f := mkFs (fun n => if name_dec n [5] then Some 0 else None) (fun _ => magic_bytes ++ y) 1).
  assert (NL : no_links f).
  { split.
    - intros n i. unfold f. cbn [fs_dir fs_next]. destruct (name_dec n [5]); intros E; inversion E; lia.
    - intros n m i. unfold f. cbn [fs_dir]. destruct (name_dec n [5]), (name_dec m [5]); congruence. }
  pose proof (run_refl (initial f [toy_job 5])) as R. unfold initial at 2 in R. cbn [map] in R.
  eapply advance1 in R; [|eapply p_open; reflexivity].
  eapply advance1 in R; [|eapply p_map; [reflexivity|discriminate]].
  eapply advance1 in R; [|eapply p_check; [reflexivity|apply check_magic_complete]].
  exists f. do 3 eexists. split; [exact NL|]. split; [reflexivity|]. split; [reflexivity|].
  split; [exact R|]. split; [reflexivity|]. split; [reflexivity|]. split; [reflexivity|]. reflexivity.
Qed.
Print Assumptions C20_foreign_file_refuted.

(** Epochs that share a seed share their files, although their caches may differ in size: a
    configuration needs EpochLength to be a multiple of SeedEpochLength. *)
Theorem C20_shared_seed_refuted k256 : exists d e e' size size',
  e <> e' /\ CacheSize (fun _ => true) 1 d e = Done size /\ CacheSize (fun _ => true) 1 d e' = Done size' /\
  size <> size' /\ forall k, spec_path k256 d e k = spec_path k256 d e' k.
Proof.
  exists (mkConfig [88] 1 [100] 0 0 0 0 (Some (mkTable 2 [320; 448])) None 128 4 10 100 3 3 false true 128 32),
    0, 1, 320, 448.
  split; [lia|]. split; [reflexivity|]. split; [reflexivity|]. split; [lia|]. reflexivity.
Qed.
Print Assumptions C20_shared_seed_refuted.
