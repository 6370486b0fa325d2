(** C63-C65: what runs leave on the disk. *)
From Coq Require Import NArith ZArith Arith List FinFun Bool Lia ZifyBool ZifyN ZifyNat.
From Coq Require Import Sorted.
From Verif Require Import Base BaseFacts DagModel DagSpec FileModel FileProofs NameModel NameProofs
  FileJob FileJobProofs PropsDagContent PropsFiles FileOk.
Import ListNotations.
Open Scope N_scope.

(** ** C63: leftover temporary files *)

(** Executions in which no process uses the temporary name [n]. *)
Inductive avoiding (n : name) (s0 : state) : state -> Prop :=
| av_refl : avoiding n s0 s0
| av_step s s' : avoiding n s0 s -> fstep s s' ->
    (forall t j p, nth_error (st_procs s') t = Some (j, Some p) -> temp_of p <> Some n) ->
    avoiding n s0 s'.

Definition writes_to (c : pc) : option N :=
  match c with
  | Trunc _ _ i | MapW _ _ i | Fill _ _ i => Some i
  | _ => None
  end.
Definition cleaning (c : pc) : list name := match c with FileModel.Clean l => l | _ => [] end.

Record orphan (n : name) (i0 : N) (x : list N) (js : list job) (s : state) : Prop := mkOrphan {
  or_dir : fs_dir (st_fs s) n = Some i0;
  or_only : forall m, fs_dir (st_fs s) m = Some i0 -> m = n;
  or_old : i0 < fs_next (st_fs s);
  or_data : fs_data (st_fs s) i0 = x;
  or_procs : forall t j p, nth_error (st_procs s) t = Some (j, Some p) ->
     In j js /\ temp_of p <> Some n /\ writes_to (pr_pc p) <> Some i0 /\ incl (cleaning (pr_pc p)) (jb_old j)
}.

Lemma decide_shape j p : temp_of (decide j p) = None /\ writes_to (pr_pc (decide j p)) = None /\
  incl (cleaning (pr_pc (decide j p))) (jb_old j).
Proof.
  unfold decide, temp_of. cbn. destruct (missing (pr_cache p)); [|destruct (jb_l1 j && missing (pr_l1 p))];
    repeat split; cbn; auto; intros ? [].
Qed.
Lemma after_shape j p k : temp_of (after j p k) = None /\ writes_to (pr_pc (after j p k)) = None /\
  incl (cleaning (pr_pc (after j p k))) (jb_old j).
Proof.
  unfold after, temp_of. cbn. destruct k; [destruct (jb_l1 j && missing (pr_l1 p)); [destruct (jb_disk j)|]|];
    (split; [auto|split; [auto|]]); cbn; try apply incl_refl; intros ? [].
Qed.
Lemma loaded_shape j p k b d : temp_of (loaded j p k b d) = None /\ writes_to (pr_pc (loaded j p k b d)) = None /\
  incl (cleaning (pr_pc (loaded j p k b d))) (jb_old j).
Proof.
  unfold loaded. destruct b; [destruct k; [destruct (jb_l1 j)|]|destruct d]; try apply decide_shape; try apply after_shape;
    cbn; (split; [auto|split; [auto|]]); intros ? [].
Qed.

Lemma orphan_step n i0 x js s s' :
  ~ cache_name js n -> orphan n i0 x js s -> fstep s s' ->
  (forall t j p, nth_error (st_procs s') t = Some (j, Some p) -> temp_of p <> Some n) ->
  orphan n i0 x js s'.
Proof.
  intros NC [O1 O2 O3 O4 O5] ST AV.
  destruct ST as [f f' ps t j p p' H ST|f ps t j p H]; cbn [st_fs st_procs] in *.
  2:{ constructor; auto. cbn [st_procs]. intros u j' q E.
      destruct (set_nth_cases _ _ _ _ _ E) as [(_ & X)|(_ & X)]; [discriminate|eauto]. }
  destruct (O5 _ _ _ H) as (IJ & T1 & W1 & C1).
  assert (T2 : temp_of p' <> Some n) by (apply (AV t j), (set_nth_hit _ _ _ _ H)).
  assert (NP : forall k, jb_path j k <> n) by (intros k E; apply NC; exists j; split; auto; left; exists k; auto).
  assert (NO : ~ In n (jb_old j)) by (intros E; apply NC; exists j; auto).
  assert (K : fs_dir f' n = Some i0 /\ (forall m, fs_dir f' m = Some i0 -> m = n) /\ i0 < fs_next f' /\
    fs_data f' i0 = x /\ writes_to (pr_pc p') <> Some i0 /\ incl (cleaning (pr_pc p')) (jb_old j)).
  { assert (NIL : incl [] (jb_old j)) by (intros ? []).
    destruct ST;
      try (split; [exact O1|split; [exact O2|split; [exact O3|split; [exact O4|]]]]; cbn;
           try (match goal with |- context [loaded ?j ?p ?k ?b ?d] => destruct (loaded_shape j p k b d) as (_ & -> & ?) end);
           try (match goal with |- context [after ?j ?p ?k] => destruct (after_shape j p k) as (_ & -> & ?) end);
           split; auto; try discriminate; fail).
    all: try rewrite H0 in *.
    all: cbn [writes_to cleaning temp_of go pr_pc] in *.
    all: try (split; [exact O1|split; [exact O2|split; [exact O3|split; [exact O4|]]]]; split; auto; discriminate).
    - (* create *)
      unfold temp_of in T2. cbn in T2. unfold create in H2.
      set (tmp := temp_name (jb_path j k) r) in *. assert (TN : tmp <> n) by congruence.
      destruct (fs_dir f tmp) as [m|] eqn:D; inversion H2; subst f' i; clear H2; cbn.
      + assert (m <> i0) by (intros ->; apply TN; auto).
        split; auto. split; auto. split; auto. split; [destruct (N.eqb_spec i0 m); congruence|]. split; [congruence|auto].
      + destruct (name_dec n tmp); [congruence|]. split; auto. split.
        * intros q. destruct (name_dec q tmp); [intros E; inversion E; lia|auto].
        * split; [lia|]. split; [destruct (N.eqb_spec i0 (fs_next f)); [lia|auto]|].
          split; [intros E; inversion E; lia|auto].
    - (* trunc *) cbn. split; auto. split; auto. split; auto.
      split; [destruct (N.eqb_spec i0 i); [congruence|auto]|]. split; [congruence|auto].
    - (* fill_some *) cbn. split; auto. split; auto. split; auto.
      split; [destruct (N.eqb_spec i0 i); [congruence|auto]|]. split; [congruence|auto].
    - (* fill *) cbn. split; auto. split; auto. split; auto.
      split; [destruct (N.eqb_spec i0 i); [congruence|auto]|]. split; [discriminate|auto].
    - (* rename *) unfold temp_of in T1. rewrite H0 in T1. cbn.
      assert (TN : tmp <> n) by congruence. assert (m <> i0) by (intros ->; apply TN; auto).
      destruct (name_dec n (jb_path j k)) as [E|_]; [destruct (NP k); auto|].
      destruct (name_dec n tmp); [congruence|]. split; auto. split.
      + intros q. destruct (name_dec q (jb_path j k)); [congruence|]. destruct (name_dec q tmp); [discriminate|auto].
      + auto.
    - (* removetmp *) unfold temp_of in T1. rewrite H0 in T1. cbn.
      destruct (name_dec n tmp); [congruence|]. split; auto. split.
      + intros q. destruct (name_dec q tmp); [discriminate|auto].
      + auto.
    - (* inmem *)
      match goal with |- context [after ?j ?p ?k] => destruct (after_shape j p k) as (_ & -> & ?) end.
      split; auto.
    - (* clean *) cbn. destruct (name_dec n n0) as [->|NE]; [destruct NO; apply C1; left; auto|].
      split; auto. split.
      + intros q. destruct (name_dec q n0); [discriminate|auto].
      + split; auto. split; auto. split; [discriminate|]. intros y Y. apply C1. right. exact Y.
    - (* clean_fail *) split; auto. split; auto. split; auto. split; auto. split; [discriminate|].
      intros y Y. apply C1. right; auto. }
  destruct K as (K1 & K2 & K3 & K4 & K5 & K6).
  constructor; auto. cbn [st_procs]. intros u j' q E.
  destruct (set_nth_cases _ _ _ _ _ E) as [(-> & X)|(_ & X)]; [|eauto].
  inversion X; subst. split; auto.
Qed.

(** A file under a temporary name that no running process has chosen stays for ever, with its
    content: no run of any epoch of any configuration ever removes it. *)
Theorem C63_leftovers_stay f js s n i :
  no_links f -> fs_dir f n = Some i -> ~ cache_name js n ->
  avoiding n (initial f js) s ->
  fs_dir (st_fs s) n = Some i /\ fs_data (st_fs s) i = fs_data f i.
Proof.
  intros (F1 & F2) D NC AV.
  assert (O : orphan n i (fs_data f i) js s).
  { induction AV as [|s s' AV IH ST T]; [|eapply orphan_step; eauto].
    constructor; cbn; auto.
    - intros m E. eapply F2; eauto.
    - eapply F1; eauto.
    - intros t j p E. rewrite nth_error_map in E. destruct (nth_error js t) as [j0|] eqn:J; [|discriminate].
      inversion E; subst. split; [eapply nth_error_In; eauto|].
      unfold start, temp_of. cbn. destruct (jb_disk j); cbn; (split; [discriminate|split; [discriminate|intros ? []]]). }
  split; apply O.
Qed.
Print Assumptions C63_leftovers_stay.

(** Only goroutine [t] may be using a temporary file. *)
Definition quiet (t : nat) (ps : list (job * option proc)) : Prop :=
  forall u j p, u <> t -> nth_error ps u = Some (j, Some p) -> temp_of p = None.

Lemma quiet_distinct t f ps : quiet t ps -> distinct_temps (mkState f ps).
Proof.
  intros Q u v j j' p p' n Hu Hv Tu Tv. cbn in *.
  destruct (Nat.eq_dec u t) as [->|Nu]; [|rewrite (Q _ _ _ Nu Hu) in Tu; discriminate].
  destruct (Nat.eq_dec v t) as [->|Nv]; [auto|rewrite (Q _ _ _ Nv Hv) in Tv; discriminate].
Qed.

Lemma quiet_step s0 t j p p' f f' ps :
  run s0 (mkState f ps) -> quiet t ps -> nth_error ps t = Some (j, Some p) -> pstep j f p f' p' ->
  exists ps', run s0 (mkState f' ps') /\ quiet t ps' /\ nth_error ps' t = Some (j, Some p') /\
    (forall u, u <> t -> nth_error ps' u = nth_error ps u) /\ length ps' = length ps.
Proof.
  intros R Q H P. exists (set_nth ps t (j, Some p')).
  assert (O : forall u, u <> t -> nth_error (set_nth ps t (j, Some p')) u = nth_error ps u).
  { intros u NE. rewrite nth_error_set_nth. destruct (Nat.eqb_spec t u); congruence. }
  assert (Q' : quiet t (set_nth ps t (j, Some p'))).
  { intros u j' q NE E. rewrite O in E by auto. eapply Q; eauto. }
  split; [|split; [auto|split; [|split; [auto|apply set_nth_length]]]].
  - eapply run_step; [exact R|econstructor; eauto|apply (quiet_distinct t); auto].
  - eapply set_nth_hit; eauto.
Qed.

Lemma resize_length x n : length (resize x n) = N.to_nat n.
Proof. unfold resize. rewrite app_length, firstn_length, repeat_length. lia. Qed.

(** One process gets as far as the truncated temporary file and is killed. *)
Lemma killed_midway s0 t j f ps r :
  jb_disk j = true -> is_numeral r ->
  run s0 (mkState f ps) -> quiet t ps -> nth_error ps t = Some (j, Some (start j)) ->
  fs_dir f (temp_name (jb_path j KCache) r) = None ->
  exists f' ps', run s0 (mkState f' ps') /\ nth_error ps' t = Some (j, None) /\
    (forall u, u <> t -> nth_error ps' u = nth_error ps u) /\ length ps' = length ps /\
    fs_next f' = fs_next f + 1 /\
    (forall n, fs_dir f' n = if name_dec n (temp_name (jb_path j KCache) r) then Some (fs_next f) else fs_dir f n) /\
    length (fs_data f' (fs_next f)) = N.to_nat (8 + jb_size j KCache) /\
    (forall i, i <> fs_next f -> fs_data f' i = fs_data f i).
Proof.
  intros DK NUM R Q H D. set (tmp := temp_name (jb_path j KCache) r) in *.
  assert (PRE : exists ps1 p1, run s0 (mkState f ps1) /\ quiet t ps1 /\ nth_error ps1 t = Some (j, Some p1) /\
    pr_pc p1 = Mkdir KCache /\ (forall u, u <> t -> nth_error ps1 u = nth_error ps u) /\ length ps1 = length ps).
  { assert (S0 : pr_pc (start j) = Open KCache true) by (unfold start; rewrite DK; auto).
    destruct (quiet_step _ _ _ _ _ _ _ _ R Q H (p_open_fail j f (start j) KCache true S0)) as (ps1 & R1 & Q1 & H1 & O1 & L1).
    unfold loaded in H1. cbn [fill_slot] in H1. destruct (jb_l1 j) eqn:EL.
    - assert (S1 : pr_pc (go (mkProc (pr_pc (start j)) None (pr_l1 (start j))) (Open KL1 true)) = Open KL1 true) by reflexivity.
      destruct (quiet_step _ _ _ _ _ _ _ _ R1 Q1 H1 (p_open_fail j f _ KL1 true S1)) as (ps2 & R2 & Q2 & H2 & O2 & L2).
      exists ps2. eexists. split; [exact R2|]. split; auto. split; [exact H2|]. split; [reflexivity|].
      split; [intros u NE; rewrite O2, O1; auto|congruence].
    - exists ps1. eexists. split; [exact R1|]. split; auto. split; [exact H1|]. split; [reflexivity|]. auto. }
  destruct PRE as (ps1 & p1 & R1 & Q1 & H1 & P1 & O1 & L1).
  destruct (quiet_step _ _ _ _ _ _ _ _ R1 Q1 H1 (p_mkdir j f p1 KCache P1)) as (ps2 & R2 & Q2 & H2 & O2 & L2).
  set (f3 := set_data (mkFs (fun m => if name_dec m tmp then Some (fs_next f) else fs_dir f m)
                        (fs_data f) (fs_next f + 1)) (fs_next f) []).
  assert (CR : create f tmp = (f3, fs_next f)) by (unfold create; rewrite D; reflexivity).
  destruct (quiet_step _ _ _ _ _ _ _ _ R2 Q2 H2 (p_create j f (go p1 (Create KCache)) KCache r f3 (fs_next f) eq_refl NUM CR))
    as (ps3 & R3 & Q3 & H3 & O3 & L3).
  fold tmp in H3.
  destruct (quiet_step _ _ _ _ _ _ _ _ R3 Q3 H3 (p_trunc j f3 (go (go p1 (Create KCache)) (Trunc KCache tmp (fs_next f))) KCache tmp (fs_next f) eq_refl))
    as (ps4 & R4 & Q4 & H4 & O4 & L4).
  set (f4 := set_data f3 (fs_next f) (resize (fs_data f3 (fs_next f)) (8 + jb_size j KCache))) in *.
  exists f4, (set_nth ps4 t (j, None)). split; [|split; [|split; [|split; [|split; [|split; [|split]]]]]].
  - eapply run_step; [exact R4|eapply f_kill; eauto|].
    apply (quiet_distinct t). intros u j' q NE E. rewrite nth_error_set_nth in E.
    destruct (Nat.eqb_spec t u); [congruence|]. eapply Q4; eauto.
  - eapply set_nth_hit; eauto.
  - intros u NE. rewrite nth_error_set_nth. destruct (Nat.eqb_spec t u); [congruence|].
    rewrite O4, O3, O2, O1; auto.
  - rewrite set_nth_length. congruence.
  - reflexivity.
  - reflexivity.
  - unfold f4. cbn [set_data fs_data]. rewrite N.eqb_refl. apply resize_length.
  - intros i NE. unfold f4, f3. cbn [set_data fs_data]. destruct (N.eqb_spec i (fs_next f)); [congruence|auto].
Qed.

Lemma temp_name_inj p p' r r' : is_numeral r -> is_numeral r' -> temp_name p r = temp_name p' r' -> p = p' /\ r = r'.
Proof.
  intros (_ & A) (_ & B) E. unfold temp_name in E. cbn in E.
  apply last_marker in E; auto; intros I.
  - rewrite Forall_forall in A. apply A in I. lia.
  - rewrite Forall_forall in B. apply B in I. lia.
Qed.

(** Disk use is not bounded: after [n] starts that were killed, [n] temporary files of full
    size are in the directory. *)
Theorem C63_disk_use_bounded_refuted (j : job) (f : fs) (n : nat) :
  jb_disk j = true -> (forall m i, fs_dir f m = Some i -> i < fs_next f) ->
  (forall r, is_numeral r -> fs_dir f (temp_name (jb_path j KCache) r) = None) ->
  exists s names, run (initial f (repeat j n)) s /\
    (forall t x, nth_error (st_procs s) t = Some x -> x = (j, None)) /\
    NoDup names /\ length names = n /\
    forall m, In m names -> (exists r, is_numeral r /\ m = temp_name (jb_path j KCache) r) /\
      exists i, fs_dir (st_fs s) m = Some i /\ length (fs_data (st_fs s) i) = N.to_nat (8 + jb_size j KCache).
Proof.
  intros DK FR FREE.
  set (tmp := fun m : nat => temp_name (jb_path j KCache) (dec_N (N.of_nat m))).
  assert (TI : forall a b, tmp a = tmp b -> a = b).
  { intros a b E. apply temp_name_inj in E; try apply dec_N_numeral. destruct E as (_ & E).
    apply (f_equal num_value) in E. rewrite !dec_N_value in E. lia. }
  assert (IND : forall k, (k <= n)%nat -> exists fk ps, run (initial f (repeat j n)) (mkState fk ps) /\
    length ps = n /\ (forall u, (u < k)%nat -> nth_error ps u = Some (j, None)) /\
    (forall u, (k <= u < n)%nat -> nth_error ps u = Some (j, Some (start j))) /\
    (forall m, (m < k)%nat -> exists i, i < fs_next fk /\ fs_dir fk (tmp m) = Some i /\
       length (fs_data fk i) = N.to_nat (8 + jb_size j KCache)) /\
    (forall m, (k <= m)%nat -> fs_dir fk (tmp m) = None)).
  { induction k as [|k IH]; intros LE.
    - exists f, (map (fun j => (j, Some (start j))) (repeat j n)).
      split; [apply run_refl|]. split; [rewrite map_length, repeat_length; auto|].
      split; [lia|]. split; [|split; [lia|intros; apply FREE, dec_N_numeral]].
      intros u Hu. rewrite nth_error_map.
      assert (E : nth_error (repeat j n) u = Some j).
      { rewrite (nth_error_nth' _ j) by (rewrite repeat_length; lia). f_equal. apply nth_repeat. }
      rewrite E. auto.
    - destruct IH as (fk & ps & R & L & A & B & C & E); [lia|].
      destruct (killed_midway (initial f (repeat j n)) k j fk ps (dec_N (N.of_nat k))) as
        (f' & ps' & R' & H' & O' & L' & NX & DR & LN & DT); auto.
      + apply dec_N_numeral.
      + intros u j' p NE Hu. destruct (Nat.lt_ge_cases u k) as [LT|GE]; [rewrite A in Hu by auto; discriminate|].
        assert (u < n)%nat by (rewrite <- L; apply nth_error_Some; congruence).
        rewrite B in Hu by lia. inversion Hu; subst. unfold start, temp_of. cbn. rewrite DK. auto.
      + apply (E k). lia.
      + exists f', ps'. split; auto. split; [congruence|]. split; [|split; [|split]].
        * intros u Hu. destruct (Nat.eq_dec u k) as [->|NE]; auto. rewrite O' by auto. apply A. lia.
        * intros u Hu. rewrite O' by lia. apply B. lia.
        * intros m Hm. fold (tmp k) in DR. destruct (Nat.eq_dec m k) as [->|NE].
          -- exists (fs_next fk). rewrite DR. destruct (name_dec (tmp k) (tmp k)); [|congruence].
             split; [lia|]. auto.
          -- destruct (C m) as (i & I1 & I2 & I3); [lia|]. exists i. split; [lia|]. rewrite DR.
             destruct (name_dec (tmp m) (tmp k)) as [X|_]; [apply TI in X; congruence|].
             split; auto. rewrite DT; auto. lia.
        * intros m Hm. fold (tmp k) in DR. rewrite DR.
          destruct (name_dec (tmp m) (tmp k)) as [X|_]; [apply TI in X; lia|]. apply E. lia. }
  destruct (IND n (le_n n)) as (fk & ps & R & L & A & B & C & E).
  exists (mkState fk ps), (map tmp (seq 0 n)). split; auto. split; [|split; [|split]].
  - cbn. intros t x H. assert (t < n)%nat by (rewrite <- L; apply nth_error_Some; congruence).
    rewrite A in H by auto. congruence.
  - apply FinFun.Injective_map_NoDup; [exact TI|apply seq_NoDup].
  - rewrite map_length, seq_length. auto.
  - cbn. intros m I. apply in_map_iff in I. destruct I as (x & <- & I). apply in_seq in I.
    split; [exists (dec_N (N.of_nat x)); split; [apply dec_N_numeral|auto]|].
    destruct (C x) as (i & _ & I2 & I3); [lia|]. eauto.
Qed.
Print Assumptions C63_disk_use_bounded_refuted.

(** The leftover of a killed process, and a run of another epoch next to it. *)
Example C63_instance : exists f s,
  no_links f /\ fs_dir f (temp_name [5] [49]) = Some 0 /\ ~ cache_name [toy_job 6] (temp_name [5] [49]) /\
  avoiding (temp_name [5] [49]) (initial f [toy_job 6]) s /\
  (exists p, st_procs s = [(toy_job 6, Some p)] /\ pr_pc p = Mkdir KCache).
Proof.
  set (f := mkFs (fun n => if name_dec n (temp_name [5] [49]) then Some 0 else None) (fun _ => [1]) 1).
  exists f. eexists. split; [|split; [|split; [|split]]].
  - split.
    + intros n i. unfold f. cbn [fs_dir fs_next]. destruct (name_dec n _); intros E; inversion E; lia.
    + intros n m i. unfold f. cbn [fs_dir]. destruct (name_dec n _), (name_dec m _); congruence.
  - reflexivity.
  - intros (j & [<-|[]] & [(k & E)|[]]). destruct k; discriminate E.
  - eapply av_step; [apply av_refl| |].
    + eapply (f_step _ _ _ 0); [reflexivity|]. eapply p_open_fail. reflexivity.
    + intros [|[|t]] j p E; inversion E; subst; discriminate.
  - eexists. split; reflexivity.
Qed.

(** ** C64, C65: runs without failures *)

Lemma old_names_complete k256 (pp : N -> bool) d n l :
  hash_ok 32 k256 -> 0 < cf_seed_epoch_length d ->
  cf_l1_cache_size d = 4 * cf_l1_cache_num_items d -> cf_l1_cache_size d mod 64 = 0 ->
  cf_l1_cache_size d < 2 ^ 38 ->
  (forall m, (m < n)%nat -> N.of_nat m * cf_epoch_length d + 1 < 2 ^ 63) ->
  old_names k256 d n = Done l ->
  forall m k, (m < n)%nat -> In (spec_path k256 d (N.of_nat m) k) l.
Proof.
  intros H256 SEL L1a L1b L1c. revert l; induction n as [|n IH]; intros l HM E m k Hm; [lia|]. cbn [old_names] in E.
  rewrite (job_seed_spec k256 pp H256 d SEL L1a L1b L1c) in E by (apply HM; lia). cbn [bind] in E.
  rewrite (seed_slice k256 pp H256 d SEL L1a L1b L1c) in E. cbn [bind] in E.
  apply bind_Done in E. destruct E as (rest & E1 & E2). inversion E2; subst.
  destruct (Nat.eq_dec m n) as [->|NE].
  - destruct k; [left|right; left]; reflexivity.
  - right. right. apply IH; auto. lia.
Qed.

(** The files a run for epoch [e] removes: exactly those of the epochs up to e - CachesCount. *)
Lemma job_old k256 k512 pp fuel d e size j :
  hash_ok 32 k256 -> 0 < cf_seed_epoch_length d -> (0 <= cf_caches_count d)%Z ->
  cf_l1_cache_size d = 4 * cf_l1_cache_num_items d -> cf_l1_cache_size d mod 64 = 0 ->
  cf_l1_cache_size d < 2 ^ 38 ->
  epoch_ok pp fuel d e size -> job_of k256 k512 pp fuel d e = Done j -> cf_storage_dir d <> [] ->
  forall n, In n (jb_old j) <-> exists k m, (Z.of_N m + cf_caches_count d <= Z.of_N e)%Z /\ n = spec_path k256 d m k.
Proof.
  intros H256 SEL CC L1a L1b L1c (E1 & E2 & _) E SD n. unfold job_of in E.
  rewrite E2 in E. cbn [bind] in E. rewrite (job_seed_spec k256 pp H256 d SEL L1a L1b L1c) in E by auto. cbn [bind] in E.
  rewrite (seed_slice k256 pp H256 d SEL L1a L1b L1c) in E. cbn [bind] in E.
  apply bind_Done in E. destruct E as (old & EO & E). inversion E; subst j; clear E. cbn [jb_old].
  destruct (cf_storage_dir d); [congruence|].
  assert (HM : forall m, (m < Z.to_nat (Z.of_N e - cf_caches_count d + 1))%nat ->
     N.of_nat m * cf_epoch_length d + 1 < 2 ^ 63).
  { intros m Hm. assert (N.of_nat m <= e) by lia.
    apply N.le_lt_trans with (e * cf_epoch_length d + 1); [|auto].
    apply N.add_le_mono_r. apply N.mul_le_mono_r. auto. }
  split.
  - intros IN. destruct (old_names_spec k256 pp H256 d SEL L1a L1b L1c _ _ HM EO n IN) as (k & m & Hm & ->).
    exists k, (N.of_nat m). split; [lia|auto].
  - intros (k & m & Hm & ->).
    replace m with (N.of_nat (N.to_nat m)) by lia.
    apply (old_names_complete k256 pp d _ _ H256 SEL L1a L1b L1c HM EO). lia.
Qed.

Lemma success_run n r j f p s0 f' p' :
  (forall k, is_numeral (r k)) -> run s0 (mkState f [(j, Some p)]) ->
  success n r j f p = (f', p') -> run s0 (mkState f' [(j, Some p')]).
Proof.
  intros NUM. revert f p. induction n as [|n IH]; intros f p R E; cbn [success] in E; [inversion E; subst; auto|].
  destruct (psucc r j f p) as [[f1 p1]|] eqn:P; [|inversion E; subst; auto].
  apply (IH f1 p1); auto. eapply advance1; [exact R|]. eapply psucc_sound; eauto.
Qed.

Section Library.
Variables k256 k512 : list N -> list N.
Variable pp : N -> bool.
Variable fuel : nat.

(** What a configuration must satisfy. *)
Definition config_ok (d : config) : Prop :=
  cf_storage_dir d <> [] /\ ~ In 47 (cf_name d) /\ 0 < cf_seed_epoch_length d /\ (0 <= cf_caches_count d)%Z /\
  cf_l1_cache_size d = 4 * cf_l1_cache_num_items d /\ cf_l1_cache_size d mod 64 = 0 /\
  cf_l1_cache_size d < 2 ^ 38.

(** The kinds of file a configuration uses. *)
Definition uses (d : config) (k : kind) : Prop := k = KCache \/ cf_l1_enabled d = true.

(** A run of generate for epoch [e] in which no call fails, whatever temporary suffixes are
    drawn, from any directory in which the files of [e] are complete or missing. *)
Theorem C64_successful_run d e size j f r :
  hash_ok 32 k256 -> hash_ok 64 k512 -> config_ok d ->
  epoch_ok pp fuel d e size -> job_of k256 k512 pp fuel d e = Done j ->
  (forall m, (Z.of_N m + cf_caches_count d <= Z.of_N e)%Z ->
     firstn 8 (epoch_seed k256 d m) <> firstn 8 (epoch_seed k256 d e)) ->
  no_links f ->
  (forall k i, fs_dir f (spec_path k256 d e k) = Some i ->
     fs_data f i = magic_bytes ++ spec_content k256 k512 d e size k) ->
  (forall k, is_numeral (r k)) ->
  exists n f' p', success n r j f (start j) = (f', p') /\
    run (initial f [j]) (mkState f' [(j, Some p')]) /\ no_links f' /\
    (* it ends with both parts mapped from complete files *)
    pr_pc p' = Finished /\
    (forall k, uses d k -> exists i, slot p' k = Some (Mapped i) /\
       fs_dir f' (spec_path k256 d e k) = Some i /\
       fs_data f' i = magic_bytes ++ spec_content k256 k512 d e size k) /\
    (* if the files were there, nothing was written *)
    ((forall k, uses d k -> fs_dir f (spec_path k256 d e k) <> None) -> f' = f) /\
    (* if one was missing, the files of all epochs up to e - CachesCount are gone *)
    ((exists k, uses d k /\ fs_dir f (spec_path k256 d e k) = None) ->
       forall m k, (Z.of_N m + cf_caches_count d <= Z.of_N e)%Z -> fs_dir f' (spec_path k256 d m k) = None) /\
    (* nothing else changed, and the temporary files are gone *)
    (forall x, (forall k, x <> spec_path k256 d e k) ->
       (forall m k, (Z.of_N m + cf_caches_count d <= Z.of_N e)%Z -> x <> spec_path k256 d m k) ->
       (forall k, x <> temp_name (spec_path k256 d e k) (r k)) ->
       fs_dir f' x = fs_dir f x /\ forall i, fs_dir f x = Some i -> fs_data f' i = fs_data f i) /\
    (forall k, ~ uses d k -> fs_dir f' (spec_path k256 d e k) = fs_dir f (spec_path k256 d e k)) /\
    (forall k, fs_dir f (temp_name (spec_path k256 d e k) (r k)) = None ->
       fs_dir f' (temp_name (spec_path k256 d e k) (r k)) = None).
Proof.
  intros H256 H512 (SD & NS & SEL & CC & L1a & L1b & L1c) EO J DIST NL FC NUM.
  destruct (job_of_spec k256 k512 pp fuel H256 H512 d SEL CC L1a L1b L1c e size j EO J)
    as (P1 & P2 & P3 & P4 & P5 & P6 & P7 & P8).
  assert (OLD := job_old k256 k512 pp fuel d e size j H256 SEL CC L1a L1b L1c EO J SD).
  assert (PI : forall a b k k', spec_path k256 d a k = spec_path k256 d b k' ->
     k = k' /\ firstn 8 (epoch_seed k256 d a) = firstn 8 (epoch_seed k256 d b)).
  { intros a b k k' E. unfold spec_path in E. destruct (seed8_ok k256 H256 d a). destruct (seed8_ok k256 H256 d b).
    apply location_inj in E; auto. destruct E as (-> & _ & _ & E). auto. }
  assert (PT : forall a b k k' q, is_numeral q -> spec_path k256 d a k <> temp_name (spec_path k256 d b k') q).
  { intros a b k k' q Q E. unfold spec_path in E. destruct (seed8_ok k256 H256 d a). destruct (seed8_ok k256 H256 d b).
    symmetry in E. revert E. apply location_temp; auto. }
  assert (PATHS : jb_path j KCache <> jb_path j KL1).
  { rewrite !P1. intros E. apply PI in E. destruct E. discriminate. }
  destruct (run_success r j f) as (n & f' & p' & S & [G1 G2 G3 G4 G5 G6 G7 G8 G9]); auto.
  - apply P8; auto.
  - eapply (job_of_sizes k256 k512 pp fuel); eauto.
  - intros k k'. rewrite !P1. apply PT. auto.
  - intros E. apply temp_name_inj in E; auto. tauto.
  - intros k I. apply OLD in I. destruct I as (k' & m & Hm & E). rewrite P1 in E. apply PI in E.
    destruct E as (_ & E). symmetry in E. apply (DIST m Hm E).
  - intros k i D. rewrite P1 in D. exists (spec_content k256 k512 d e size k). auto.
  - assert (NEED : forall k, uses d k <-> needed j k = true).
    { intros k. unfold uses, needed. rewrite P2. destruct k; split; auto. intros [X|X]; [discriminate|auto]. }
    assert (THERE : forall k, there j f k = true <-> fs_dir f (spec_path k256 d e k) <> None).
    { intros k. unfold there. rewrite P1. destruct (fs_dir _ _); split; congruence. }
    assert (FO : forall k c, jb_gen j k c (jb_size j k) = spec_content k256 k512 d e size k ->
       file_of j f k c = magic_bytes ++ spec_content k256 k512 d e size k).
    { intros k c E. unfold file_of. rewrite P1. destruct (fs_dir f _) eqn:D; [apply FC; auto|]. rewrite E. auto. }
    assert (CF : cache_file j f = magic_bytes ++ spec_content k256 k512 d e size KCache) by (apply FO; auto).
    exists n, f', p'. split; auto. split.
    { eapply success_run; [exact NUM| |exact S]. apply run_refl. }
    split; auto. split; auto. split; [|split; [|split; [|split; [|split]]]].
    + intros k U. apply NEED in U. destruct (G2 k U) as (i & I1 & I2 & I3). rewrite P1 in I2.
      exists i. split; auto. split; auto. rewrite I3. destruct k; cbn [expected]; auto.
      rewrite CF. apply FO. rewrite <- P5. reflexivity.
    + intros A. apply G3.
      * apply THERE, A. left; auto.
      * intros L. apply THERE, A. right. congruence.
    + intros (k & U & D) m k' Hm. apply G4; [|apply OLD; eauto].
      destruct k; [left|right]; unfold there; rewrite P1, D; auto.
      split; auto. destruct U as [U|U]; [discriminate|congruence].
    + intros x NP NO NT.
      assert (D : fs_dir f' x = fs_dir f x).
      { apply G5.
        - intros I. apply OLD in I. destruct I as (k & m & Hm & E). apply (NO m k Hm E).
        - intros k. rewrite P1. auto.
        - intros k. rewrite P1. auto. }
      split; auto. intros i X. apply (G8 x); congruence.
    + intros k U. rewrite <- P1. apply G6. rewrite NEED in U. destruct (needed j k); congruence.
    + intros k D. destruct (G7 k) as [X|X]; rewrite P1 in X; congruence.
Qed.

(** Epochs visited one after the other, each by a run without failures (of the same process
    or of different ones), with any temporary suffixes. *)
Inductive visits (d : config) : list N -> fs -> fs -> Prop :=
| vs_nil f : visits d [] f f
| vs_cons e es j r n f f1 p1 f2 :
    job_of k256 k512 pp fuel d e = Done j -> (forall k, is_numeral (r k)) ->
    success n r j f (start j) = (f1, p1) -> pr_pc p1 = Finished ->
    visits d es f1 f2 -> visits d (e :: es) f f2.

(** The epochs whose files are on disk after visiting [es] with CachesCount [cc]: a visit of an
    epoch that is there changes nothing; a visit of another one adds it and drops those older
    than [cc] epochs. *)
Definition visit (cc : Z) (l : list N) (e : N) : list N :=
  if existsb (N.eqb e) l then l else e :: filter (fun m => Z.of_N e <? Z.of_N m + cc)%Z l.
Definition on_disk (cc : Z) (es : list N) : list N := fold_left (visit cc) es [].

Lemma job_total d e size :
  hash_ok 32 k256 -> config_ok d -> epoch_ok pp fuel d e size -> exists j, job_of k256 k512 pp fuel d e = Done j.
Proof.
  intros H256 (SD & NS & SEL & CC & L1a & L1b & L1c) (E1 & E2 & _). unfold job_of. rewrite E2. cbn [bind].
  rewrite (job_seed_spec k256 pp H256 d SEL L1a L1b L1c) by auto. cbn [bind].
  rewrite (seed_slice k256 pp H256 d SEL L1a L1b L1c). cbn [bind].
  assert (T : forall n, (Z.of_nat n <= Z.of_N e + 1)%Z -> exists l, old_names k256 d n = Done l).
  { induction n as [|n IH]; intros Hn; cbn [old_names]; [eauto|].
    rewrite (job_seed_spec k256 pp H256 d SEL L1a L1b L1c).
    - cbn [bind]. rewrite (seed_slice k256 pp H256 d SEL L1a L1b L1c). cbn [bind].
      destruct IH as (l & ->); [lia|]. cbn [bind]. eauto.
    - apply N.le_lt_trans with (e * cf_epoch_length d + 1); [|auto].
      apply N.add_le_mono_r. apply N.mul_le_mono_r. lia. }
  destruct (cf_storage_dir d); [cbn [bind]; eauto|].
  destruct (T (Z.to_nat (Z.of_N e - cf_caches_count d + 1))) as (old & ->); [lia|]. cbn [bind]. eauto.
Qed.

Lemma success_end n m r j f p f1 p1 f2 p2 :
  success n r j f p = (f1, p1) -> pr_pc p1 = Finished ->
  success m r j f p = (f2, p2) -> pr_pc p2 = Finished -> f1 = f2 /\ p1 = p2.
Proof.
  revert m f p. induction n as [|n IH]; intros m f p E1 F1 E2 F2; cbn [success] in E1.
  - inversion E1; subst. destruct m; cbn [success] in E2; [inversion E2; auto|].
    unfold psucc in E2. rewrite F1 in E2. inversion E2; auto.
  - destruct m as [|m]; cbn [success] in E2.
    + inversion E2; subst. unfold psucc in E1. rewrite F2 in E1. inversion E1; auto.
    + destruct (psucc r j f p) as [[f' p']|]; [|inversion E1; inversion E2; subst; auto].
      eapply IH; eauto.
Qed.

Section Visits.
Variable d : config.
Variable M : N.
Variable size : N -> N.
Hypothesis H256 : hash_ok 32 k256.
Hypothesis H512 : hash_ok 64 k512.
Hypothesis OK : config_ok d.
Hypothesis CC : (0 < cf_caches_count d)%Z.
Hypothesis EOK : forall e, e <= M -> epoch_ok pp fuel d e (size e).
Hypothesis DIST : forall a b, a <= M -> b <= M -> a <> b ->
  firstn 8 (epoch_seed k256 d a) <> firstn 8 (epoch_seed k256 d b).

(** Exactly the files of the epochs in [l] are there, and they are whole. *)
Definition holds (l : list N) (f : fs) : Prop :=
  no_links f /\
  forall m k, m <= M ->
    match fs_dir f (spec_path k256 d m k) with
    | Some i => In m l /\ uses d k /\ fs_data f i = magic_bytes ++ spec_content k256 k512 d m (size m) k
    | None => ~ (In m l /\ uses d k)
    end.

Lemma uses_dec k : uses d k \/ ~ uses d k.
Proof. unfold uses. destruct k; auto. destruct (cf_l1_enabled d); auto. right. intros [X|X]; discriminate. Qed.

Lemma visit_holds e l j r n f f1 p1 :
  e <= M -> holds l f -> job_of k256 k512 pp fuel d e = Done j -> (forall k, is_numeral (r k)) ->
  success n r j f (start j) = (f1, p1) -> pr_pc p1 = Finished -> holds (visit (cf_caches_count d) l e) f1.
Proof.
  intros He (NL & HL) J NUM S FIN.
  destruct (C64_successful_run d e (size e) j f r) as (n' & f' & p' & S' & _ & NL' & FIN' & G1 & G2 & G3 & G4 & G5 & _); auto.
  { intros m Hm. apply DIST; lia. }
  { intros k i D. assert (X := HL e k He). rewrite D in X. tauto. }
  destruct (success_end _ _ _ _ _ _ _ _ _ _ S FIN S' FIN') as (-> & ->). clear S' FIN'.
  destruct OK as (_ & NS & SEL & _).
  assert (PI : forall a b k k', spec_path k256 d a k = spec_path k256 d b k' ->
     k = k' /\ firstn 8 (epoch_seed k256 d a) = firstn 8 (epoch_seed k256 d b)).
  { intros a b k k' E. unfold spec_path in E. destruct (seed8_ok k256 H256 d a). destruct (seed8_ok k256 H256 d b).
    apply location_inj in E; auto. destruct E as (-> & _ & _ & E). auto. }
  assert (PT : forall a b k k' q, is_numeral q -> spec_path k256 d a k <> temp_name (spec_path k256 d b k') q).
  { intros a b k k' q Q E. unfold spec_path in E. destruct (seed8_ok k256 H256 d a). destruct (seed8_ok k256 H256 d b).
    symmetry in E. revert E. apply location_temp; auto. }
  unfold visit. destruct (existsb (N.eqb e) l) eqn:EX.
  - assert (IN : In e l).
    { apply existsb_exists in EX. destruct EX as (x & X & E). apply N.eqb_eq in E. subst; auto. }
    rewrite G2; [split; auto|].
    intros k U D. assert (X := HL e k He). rewrite D in X. tauto.
  - assert (NIN : ~ In e l).
    { intros IN. assert (existsb (N.eqb e) l = true); [|congruence]. apply existsb_exists. exists e.
      split; auto. apply N.eqb_refl. }
    assert (COLD : exists k, uses d k /\ fs_dir f (spec_path k256 d e k) = None).
    { exists KCache. split; [left; auto|]. assert (X := HL e KCache He).
      destruct (fs_dir f _); [tauto|auto]. }
    specialize (G3 COLD). split; auto. intros m k Hm.
    destruct (N.eq_dec m e) as [->|NE].
    + destruct (uses_dec k) as [U|U].
      * destruct (G1 k U) as (i & _ & D & X). rewrite D. split; [left; auto|auto].
      * rewrite (G5 k U). assert (X := HL e k He). destruct (fs_dir f _); tauto.
    + destruct (Z.leb_spec (Z.of_N m + cf_caches_count d) (Z.of_N e)) as [LE|GT].
      * rewrite (G3 m k LE). intros ([<-|IN] & _); [auto|]. apply filter_In in IN. destruct IN as (_ & IN). lia.
      * assert (FIL : In m (e :: filter (fun m => (Z.of_N e <? Z.of_N m + cf_caches_count d)%Z) l) <-> In m l).
        { cbn [In]. rewrite filter_In. split; [intros [<-|(I & _)]; tauto|]. intros I. right. split; auto. lia. }
        destruct (G4 (spec_path k256 d m k)) as (D & DD).
        -- intros k' E. apply PI in E. destruct E as (_ & E). apply (DIST m e); auto.
        -- intros m' k' Hm' E. apply PI in E. destruct E as (_ & E). apply (DIST m m'); auto; try lia.
        -- intros k'. apply PT. auto.
        -- assert (X := HL m k Hm). rewrite D. destruct (fs_dir f (spec_path k256 d m k)) as [i|].
           ++ rewrite FIL. rewrite (DD i) by auto. auto.
           ++ rewrite FIL. auto.
Qed.

Lemma visits_hold es l f f' :
  Forall (fun e => e <= M) es -> holds l f -> visits d es f f' -> holds (fold_left (visit (cf_caches_count d)) es l) f'.
Proof.
  intros A H V. revert l A H. induction V; intros l A HL; cbn [fold_left]; auto.
  inversion A; subst. apply IHV; auto. eapply visit_holds; eauto.
Qed.

(** After any sequence of visits from a directory without files of these epochs. *)
Theorem C65_files_on_disk es f f' :
  Forall (fun e => e <= M) es -> no_links f ->
  (forall m k, m <= M -> fs_dir f (spec_path k256 d m k) = None) ->
  visits d es f f' ->
  forall m k, m <= M ->
    (fs_dir f' (spec_path k256 d m k) <> None <-> uses d k /\ In m (on_disk (cf_caches_count d) es)) /\
    forall i, fs_dir f' (spec_path k256 d m k) = Some i ->
      fs_data f' i = magic_bytes ++ spec_content k256 k512 d m (size m) k.
Proof.
  intros A NL E V m k Hm.
  assert (H0 : holds [] f) by (split; auto; intros m' k' Hm'; rewrite E by auto; intros ([] & _)).
  destruct (visits_hold es [] f f' A H0 V) as (_ & X). specialize (X m k Hm). unfold on_disk.
  destruct (fs_dir f' _) as [i|].
  - split; [split; [tauto|discriminate]|]. intros i' EI. inversion EI; subst; tauto.
  - split; [split; [congruence|tauto]|discriminate].
Qed.

(** Every sequence of visits is possible. *)
Theorem C65_every_sequence es f (r : kind -> list N) :
  Forall (fun e => e <= M) es -> no_links f ->
  (forall m k, m <= M -> fs_dir f (spec_path k256 d m k) = None) ->
  (forall k, is_numeral (r k)) ->
  exists f', visits d es f f'.
Proof.
  intros A NL E NUM.
  assert (H0 : holds [] f) by (split; auto; intros m' k' Hm'; rewrite E by auto; intros ([] & _)).
  clear NL E. revert f H0. generalize (@nil N). induction A as [|e es He A IH]; intros l f H0.
  - exists f. constructor.
  - destruct (job_total d e (size e)) as (j & J); auto.
    destruct H0 as (NL & HL).
    destruct (C64_successful_run d e (size e) j f r) as (n & f1 & p1 & S & _ & NL' & FIN & _); auto.
    { intros m Hm. apply DIST; lia. }
    { intros k i D. assert (X := HL e k He). rewrite D in X. tauto. }
    destruct (IH (visit (cf_caches_count d) l e) f1) as (f' & V).
    { eapply visit_holds; eauto. split; auto. }
    exists f'. econstructor; eauto.
Qed.

End Visits.
End Library.

(** Epochs visited in ascending order: at most CachesCount of them are on disk. *)
Lemma on_disk_ascending cc es l b :
  (0 < cc)%Z -> StronglySorted N.lt es -> Forall (fun e => b < e) es -> NoDup l ->
  Forall (fun m => m <= b /\ (Z.of_N b < Z.of_N m + cc)%Z) l ->
  exists b', NoDup (fold_left (visit cc) es l) /\
    Forall (fun m => m <= b' /\ (Z.of_N b' < Z.of_N m + cc)%Z) (fold_left (visit cc) es l).
Proof.
  intros C S. revert l b. induction S as [|e es S IH F]; intros l b B ND FL; cbn [fold_left]; [exists b; auto|].
  inversion B as [|? ? Hb B']; subst.
  assert (X : existsb (N.eqb e) l = false).
  { apply not_true_iff_false. intros X. apply existsb_exists in X. destruct X as (x & IN & E). apply N.eqb_eq in E.
    subst x. rewrite Forall_forall in FL. destruct (FL e IN). lia. }
  apply (IH (visit cc l e) e); auto; unfold visit; rewrite X.
  - constructor; [|apply NoDup_filter; auto]. rewrite filter_In. intros (IN & _).
    rewrite Forall_forall in FL. destruct (FL e IN). lia.
  - constructor; [lia|]. apply Forall_forall. intros m IN. apply filter_In in IN. destruct IN as (IN & E).
    rewrite Forall_forall in FL. destruct (FL m IN). lia.
Qed.

Theorem C65_ascending_bounded cc es :
  (0 < cc)%Z -> StronglySorted N.lt es -> (Z.of_nat (length (on_disk cc es)) <= cc)%Z.
Proof.
  intros C S. unfold on_disk.
  assert (X : exists b', NoDup (fold_left (visit cc) es []) /\
    Forall (fun m => m <= b' /\ (Z.of_N b' < Z.of_N m + cc)%Z) (fold_left (visit cc) es [])).
  { destruct S as [|e es S F]; [exists 0; split; constructor|]. cbn [fold_left].
    apply (on_disk_ascending cc es _ e); auto; unfold visit; cbn [existsb filter].
    - repeat constructor; auto.
    - repeat constructor; lia. }
  destruct X as (b & ND & F). set (l := fold_left _ _ _) in *.
  assert (I : incl l (map (fun n => b - N.of_nat n) (seq 0 (Z.to_nat cc)))).
  { intros m IN. rewrite Forall_forall in F. destruct (F m IN). apply in_map_iff.
    exists (N.to_nat (b - m)). split; [lia|]. apply in_seq. lia. }
  assert (L := NoDup_incl_length ND I). rewrite map_length, seq_length in L. lia.
Qed.

(** Visited in descending order, every one of them stays. *)
Theorem C65_descending_keeps_all cc es :
  (0 < cc)%Z -> StronglySorted N.gt es -> forall m, In m (on_disk cc es) <-> In m es.
Proof.
  intros C S. unfold on_disk.
  assert (X : forall l, Forall (fun e => Forall (fun m => e < m) l) es ->
    forall m, In m (fold_left (visit cc) es l) <-> In m l \/ In m es).
  { induction S as [|e es S IH F]; intros l FL m; cbn [fold_left In]; [tauto|].
    inversion FL as [|? ? A B]; subst. rewrite Forall_forall in A.
    assert (X : existsb (N.eqb e) l = false).
    { apply not_true_iff_false. intros X. apply existsb_exists in X. destruct X as (x & IN & E).
      apply N.eqb_eq in E. subst x. specialize (A e IN). lia. }
    assert (V : visit cc l e = e :: l).
    { unfold visit. rewrite X. f_equal. clear - A C. induction l as [|x l IH]; [reflexivity|]. cbn [filter].
      assert (e < x) by (apply A; left; auto).
      destruct (Z.ltb_spec (Z.of_N e) (Z.of_N x + cc)); [|lia]. f_equal. apply IH. intros y Y. apply A. right; auto. }
    rewrite V. rewrite IH; [cbn [In]; tauto|].
    rewrite Forall_forall in *. intros y Y. constructor; [specialize (F y Y); lia|]. apply B; auto. }
  intros m. rewrite X; [cbn [In]; tauto|]. apply Forall_forall. constructor.
Qed.

(** So no bound on the number of cache files holds for all histories, although no call ever
    fails: visiting M, M-1, ..., 0 leaves the files of all M+1 epochs, whatever CachesCount is. *)
Theorem C65_disk_use_bounded_refuted k256 k512 pp fuel d M size f :
  hash_ok 32 k256 -> hash_ok 64 k512 -> config_ok d -> (0 < cf_caches_count d)%Z ->
  (forall e, e <= M -> epoch_ok pp fuel d e (size e)) ->
  (forall a b, a <= M -> b <= M -> a <> b -> firstn 8 (epoch_seed k256 d a) <> firstn 8 (epoch_seed k256 d b)) ->
  no_links f -> (forall m k, m <= M -> fs_dir f (spec_path k256 d m k) = None) ->
  exists f', visits k256 k512 pp fuel d (map N.of_nat (rev (seq 0 (N.to_nat M + 1)))) f f' /\
    forall m, m <= M -> exists i, fs_dir f' (spec_path k256 d m KCache) = Some i /\
      fs_data f' i = magic_bytes ++ spec_content k256 k512 d m (size m) KCache.
Proof.
  intros H256 H512 OK CC EOK DIST NL E.
  set (es := map N.of_nat (rev (seq 0 (N.to_nat M + 1)))).
  assert (A : Forall (fun e => e <= M) es).
  { apply Forall_forall. intros e IN. apply in_map_iff in IN. destruct IN as (n & <- & IN).
    apply in_rev, in_seq in IN. lia. }
  destruct (C65_every_sequence k256 k512 pp fuel d M size H256 H512 OK CC EOK DIST es f (fun _ => [49])) as (f' & V); auto.
  { intros _. split; [discriminate|]. repeat constructor; lia. }
  exists f'. split; auto. intros m Hm.
  destruct (C65_files_on_disk k256 k512 pp fuel d M size H256 H512 OK CC EOK DIST es f f' A NL E V m KCache Hm) as (P & Q).
  assert (IN : In m (on_disk (cf_caches_count d) es)).
  { apply C65_descending_keeps_all; auto.
    - unfold es. clear. induction (N.to_nat M + 1)%nat as [|n IH]; [constructor|].
      rewrite seq_S, rev_app_distr. cbn [rev app map]. constructor; auto.
      apply Forall_forall. intros x IN. apply in_map_iff in IN. destruct IN as (y & <- & IN).
      apply in_rev, in_seq in IN. lia.
    - unfold es. apply in_map_iff. exists (N.to_nat m). split; [lia|]. rewrite <- in_rev. apply in_seq. lia. }
  destruct (fs_dir f' (spec_path k256 d m KCache)) as [i|] eqn:D; [eauto|].
  exfalso. apply P; auto. split; auto. left; auto.
Qed.

(** Beyond the files of the library, temporary files: none remain, by C64; a failed run is C63. *)
Print Assumptions C64_successful_run.
Print Assumptions C65_files_on_disk.
Print Assumptions C65_every_sequence.
Print Assumptions C65_ascending_bounded.
Print Assumptions C65_descending_keeps_all.
Print Assumptions C65_disk_use_bounded_refuted.

Example C64_C65_instance :
  config_ok small_config /\ (0 < cf_caches_count small_config)%Z /\ uses small_config KL1 /\
  (forall e, e <= 1 -> epoch_ok (fun _ => true) 1 small_config e (nth (N.to_nat e) [320; 448] 0)) /\
  (forall a b, a <= 1 -> b <= 1 -> a <> b ->
     firstn 8 (epoch_seed toy256 small_config a) <> firstn 8 (epoch_seed toy256 small_config b)) /\
  (exists f', visits toy256 toy_hash (fun _ => true) 1 small_config [1; 0; 1] empty_fs f').
Proof.
  assert (A : config_ok small_config).
  { unfold config_ok. cbn [small_config cf_storage_dir cf_name cf_seed_epoch_length cf_caches_count cf_l1_cache_size
      cf_l1_cache_num_items]. split; [discriminate|]. split; [cbn; intuition discriminate|]. repeat split; lia. }
  assert (B : forall e, e <= 1 -> epoch_ok (fun _ => true) 1 small_config e (nth (N.to_nat e) [320; 448] 0)).
  { intros e He. assert (e = 0 \/ e = 1) as [-> | ->] by lia; unfold epoch_ok; cbn [small_config cf_epoch_length];
      repeat split; first [reflexivity | vm_compute; discriminate]. }
  assert (C : forall a b, a <= 1 -> b <= 1 -> a <> b ->
     firstn 8 (epoch_seed toy256 small_config a) <> firstn 8 (epoch_seed toy256 small_config b)).
  { intros a b Ha Hb NE. assert (a = 0 /\ b = 1 \/ a = 1 /\ b = 0) as [(-> & ->)|(-> & ->)] by lia; vm_compute; discriminate. }
  split; [exact A|]. split; [reflexivity|]. split; [right; reflexivity|]. split; [exact B|]. split; [exact C|].
  apply (C65_every_sequence toy256 toy_hash (fun _ => true) 1 small_config 1 (fun e => nth (N.to_nat e) [320; 448] 0)
    toy256_ok toy_hash_ok A eq_refl B C [1; 0; 1] empty_fs (fun _ => [49])).
  - repeat constructor; lia.
  - split; intros; discriminate.
  - intros; reflexivity.
  - intros _. split; [discriminate|]. repeat constructor; lia.
Qed.

Example C65_history_instance :
  on_disk 3 [10; 11; 12; 13; 14] = [14; 13; 12] /\ on_disk 3 [14; 13; 12; 11; 10] = [10; 11; 12; 13; 14] /\
  on_disk 3 [5; 9; 5] = [5; 9].
Proof. repeat split. Qed.
