(** Proofs about cache files. *)
From Coq Require Import NArith Arith List Bool Lia ZifyBool ZifyN ZifyNat.
From Verif Require Import Base BaseFacts FileModel.
Import ListNotations.
Open Scope N_scope.

(** ** Directory facts *)

Lemma set_dir_same f n v : fs_dir (set_dir f n v) n = v.
Proof. cbn. destruct (name_dec n n); congruence. Qed.
Lemma set_dir_other f n m v : m <> n -> fs_dir (set_dir f n v) m = fs_dir f m.
Proof. cbn. destruct (name_dec m n); congruence. Qed.

Lemma fill_file_whole j k c x size : lenN x = 8 + size -> size mod 4 = 0 ->
  fill_file j k c x = magic_bytes ++ jb_gen j k c size.
Proof.
  intros L D. unfold fill_file. rewrite L.
  assert (E : 4 * ((8 + size) / 4) = 8 + size).
  { pose proof (N.div_mod size 4 ltac:(discriminate)). change 8 with (2 * 4). rewrite N.div_add_l by discriminate. lia. }
  rewrite E. replace (8 + size - 8) with size by lia. rewrite skipn_all2 by (unfold lenN in L; lia). rewrite app_nil_r. reflexivity.
Qed.

Section Inv.
(** Which names are final names, which contents are acceptable under them and in memory. *)
Variable final : name -> Prop.
Variable okc : name -> list N -> Prop.
Variable okm : job -> kind -> list N -> Prop.

Definition okd (j : job) (b : list N) : Prop :=
  (exists x, okc (jb_path j KCache) x /\ check_magic x = Done true /\ b = skipn 8 x) \/ okm j KCache b.

Record job_ok (j : job) : Prop := mkJobOk {
  jo_final : forall k, final (jb_path j k);
  jo_temp : forall k r, is_numeral r -> ~ final (temp_name (jb_path j k) r);
  jo_old : forall n, In n (jb_old j) -> final n;
  jo_size : forall k, jb_size j k mod 4 = 0;
  jo_cache : okc (jb_path j KCache) (magic_bytes ++ jb_gen j KCache [] (jb_size j KCache)) /\
             okm j KCache (jb_gen j KCache [] (jb_mem j KCache));
  jo_l1 : forall b, okd j b ->
             okc (jb_path j KL1) (magic_bytes ++ jb_gen j KL1 b (jb_size j KL1)) /\
             okm j KL1 (jb_gen j KL1 b (jb_mem j KL1))
}.

(** Inodes a process reads, for which kind. *)
Definition reads (p : proc) (k : kind) (i : N) : Prop :=
  slot p k = Some (Mapped i) \/ (exists b, pr_pc p = Map k b i \/ pr_pc p = Check k b i).
(** The file a process writes. *)
Definition writing (c : pc) : option (kind * name * N) :=
  match c with
  | Trunc k tmp i | MapW k tmp i | Fill k tmp i | Unmap k tmp i | Close k tmp i
  | Rename k tmp i => Some (k, tmp, i)
  | _ => None
  end.
Definition sized (c : pc) : bool := match c with MapW _ _ _ | Fill _ _ _ => true | _ => false end.
Definition filled (c : pc) : bool :=
  match c with Unmap _ _ _ | Close _ _ _ | Rename _ _ _ => true | _ => false end.

(** What must be there at each point. *)
Definition stage (c : pc) : option kind :=
  match c with
  | Mkdir k | Create k | Trunc k _ _ | MapW k _ _ | Fill k _ _ | Unmap k _ _ | Close k _ _
  | Rename k _ _ | RemoveTmp k _ | InMem k => Some k
  | Open k false | Map k false _ | Check k false _ => Some k
  | _ => None
  end.
Definition ended (c : pc) : bool := match c with Clean _ | Finished => true | _ => false end.

Record proc_ok (f : fs) (j : job) (p : proc) : Prop := mkProcOk {
  po_reads : forall k i, reads p k i -> i < fs_next f /\ okc (jb_path j k) (fs_data f i) /\
               forall n, fs_dir f n = Some i -> final n;
  po_writes : forall k tmp i, writing (pr_pc p) = Some (k, tmp, i) ->
               fs_dir f tmp = Some i /\
               (sized (pr_pc p) = true -> lenN (fs_data f i) = 8 + jb_size j k) /\
               (filled (pr_pc p) = true -> okc (jb_path j k) (fs_data f i));
  po_temp : forall tmp, temp_of p = Some tmp -> ~ final tmp;
  po_mem : forall k b, slot p k = Some (Memory b) -> okm j k b;
  po_stage : stage (pr_pc p) = Some KL1 -> pr_cache p <> None;
  po_ended : ended (pr_pc p) = true -> pr_cache p <> None /\ (jb_l1 j = true -> pr_l1 p <> None);
  po_clean : forall l, pr_pc p = Clean l -> forall n, In n l -> final n;
  po_panic : pr_pc p = Panicked -> exists k x, okc (jb_path j k) x /\ check_magic x = Panic;
  po_magic : forall k i, slot p k = Some (Mapped i) -> check_magic (fs_data f i) = Done true
}.

Record inv (s : state) : Prop := mkInv {
  in_next : forall n i, fs_dir (st_fs s) n = Some i -> i < fs_next (st_fs s);
  in_inj : forall n m i, fs_dir (st_fs s) n = Some i -> fs_dir (st_fs s) m = Some i -> n = m;
  in_final : forall n i, final n -> fs_dir (st_fs s) n = Some i -> okc n (fs_data (st_fs s) i);
  in_procs : forall t j p, nth_error (st_procs s) t = Some (j, Some p) -> proc_ok (st_fs s) j p;
  in_jobs : forall t j p, nth_error (st_procs s) t = Some (j, p) -> job_ok j;
  in_temps : distinct_temps s
}.

(** How a file-system step may treat what another process relies on. *)
Definition keeps (f f' : fs) (tmp : option name) : Prop :=
  fs_next f <= fs_next f' /\
  (forall n i, fs_dir f' n = Some i -> fs_dir f n <> Some i ->
     final n \/ (Some n = tmp /\ fs_next f <= i)) /\
  (forall n, ~ final n -> Some n <> tmp -> fs_dir f' n = fs_dir f n) /\
  (forall i, fs_data f' i = fs_data f i \/
     (exists n, Some n = tmp /\ fs_dir f n = Some i /\ ~ final n) \/ fs_next f <= i).

Lemma writing_temp p k n i : writing (pr_pc p) = Some (k, n, i) -> temp_of p = Some n.
Proof. intros E. unfold temp_of. destruct (pr_pc p); cbn in E; try discriminate; congruence. Qed.

Definition fs_ok (f : fs) : Prop :=
  (forall n i, fs_dir f n = Some i -> i < fs_next f) /\
  (forall n m i, fs_dir f n = Some i -> fs_dir f m = Some i -> n = m) /\
  (forall n i, final n -> fs_dir f n = Some i -> okc n (fs_data f i)).

Lemma other_ok f f' tmp j p :
  fs_ok f -> proc_ok f j p -> keeps f f' tmp ->
  (forall n, tmp = Some n -> temp_of p <> Some n) ->
  proc_ok f' j p.
Proof.
  intros (F1 & F2 & F3) P (K1 & K2 & K3 & K4) KT.
  destruct P as [P1 P2 P3 P4 P5 P6 P7 P8 P9].
  constructor; auto.
  - intros k i R. destruct (P1 k i R) as (A & B & C). split; [lia|]. split.
    + destruct (K4 i) as [->|[(n & En & Dn & Fn)|L]]; auto; [|lia].
      destruct (Fn (C n Dn)).
    + intros n Dn. destruct (fs_dir f n) as [i0|] eqn:D0.
      * destruct (N.eq_dec i0 i) as [->|NE]; auto.
        destruct (K2 n i Dn) as [F|(E & L)]; auto; [congruence|lia].
      * destruct (K2 n i Dn) as [F|(E & L)]; auto; [congruence|lia].
  - intros k n i W. assert (TN := writing_temp _ _ _ _ W).
    destruct (P2 k n i W) as (A & B). assert (NF := P3 n TN).
    assert (NT : Some n <> tmp). { intros E. apply (KT n); auto. }
    split; [rewrite K3; auto|].
    destruct (K4 i) as [->|[(m & Em & Dm & Fm)|L]]; auto.
    + exfalso. assert (n = m) by (eapply F2; eauto). congruence.
    + apply F1 in A. lia.
  - intros k i R. destruct (P1 k i (or_introl R)) as (A & B & C).
    destruct (K4 i) as [->|[(n & En & Dn & Fn)|L]]; [apply (P9 k); auto|destruct (Fn (C n Dn))|lia].
Qed.

(** The file-system actions. *)
Lemma keeps_refl f : keeps f f None.
Proof. split; [lia|]. split; [intros; contradiction|]. split; auto. Qed.

Lemma data_ok f tmp i x :
  fs_ok f -> fs_dir f tmp = Some i -> ~ final tmp ->
  fs_ok (set_data f i x) /\ keeps f (set_data f i x) (Some tmp).
Proof.
  intros (F1 & F2 & F3) D NF. split.
  - split; [exact F1|]. split; [exact F2|]. cbn. intros n m Fn Dn.
    destruct (N.eqb_spec m i) as [->|NE]; auto. assert (n = tmp) by (eapply F2; eauto). congruence.
  - split; [cbn; lia|]. cbn. split; [intros; contradiction|]. split; auto.
    intros m. destruct (N.eqb_spec m i) as [->|NE]; auto. right. left. exists tmp. auto.
Qed.

Lemma create_ok f tmp f' i :
  fs_ok f -> ~ final tmp -> create f tmp = (f', i) ->
  fs_ok f' /\ keeps f f' (Some tmp) /\ fs_dir f' tmp = Some i.
Proof.
  intros F NF E. unfold create in E. destruct (fs_dir f tmp) as [m|] eqn:D; inversion E; subst; clear E.
  - destruct (data_ok f tmp i [] F D NF) as (A & B). split; auto.
  - destruct F as (F1 & F2 & F3).
    split; [|split].
    + split; [|split].
      * intros n m. cbn. destruct (name_dec n tmp) as [->|NE]; intros X.
        { inversion X; subst. lia. } apply F1 in X. lia.
      * intros n m k. cbn. destruct (name_dec n tmp) as [->|NE], (name_dec m tmp) as [->|NE']; intros X Y; auto.
        { inversion X; subst. apply F1 in Y. lia. } { inversion Y; subst. apply F1 in X. lia. }
        eapply F2; eauto.
      * intros n k Fn. cbn. destruct (name_dec n tmp) as [->|NE]; [contradiction|].
        intros X. destruct (N.eqb_spec k (fs_next f)) as [->|]; auto. apply F1 in X. lia.
    + split; [cbn; lia|]. cbn. split; [|split].
      * intros n m. destruct (name_dec n tmp) as [->|NE]; intros X Y; [|contradiction].
        inversion X; subst. right. split; auto. lia.
      * intros n _ NE. destruct (name_dec n tmp); congruence.
      * intros m. destruct (N.eqb_spec m (fs_next f)); auto. right. right. lia.
    + cbn. destruct (name_dec tmp tmp); congruence.
Qed.

Lemma remove_ok f n :
  fs_ok f -> fs_ok (set_dir f n None) /\
  (final n -> keeps f (set_dir f n None) None) /\
  keeps f (set_dir f n None) (Some n).
Proof.
  intros (F1 & F2 & F3). split; [|split].
  - split; [|split]; cbn.
    + intros m i. destruct (name_dec m n); [discriminate|apply F1].
    + intros m m' i. destruct (name_dec m n), (name_dec m' n); try discriminate. apply F2.
    + intros m i Fm. destruct (name_dec m n); [discriminate|auto].
  - intros Fn. split; [cbn; lia|]. cbn. split; [|split]; auto.
    + intros m i X Y. destruct (name_dec m n); [discriminate|contradiction].
    + intros m Fm _. destruct (name_dec m n); congruence.
  - split; [cbn; lia|]. cbn. split; [|split]; auto.
    + intros m i X Y. destruct (name_dec m n); [discriminate|contradiction].
    + intros m Fm NE. destruct (name_dec m n); congruence.
Qed.

Lemma rename_ok f tmp path i :
  fs_ok f -> fs_dir f tmp = Some i -> ~ final tmp -> final path -> okc path (fs_data f i) ->
  let f' := set_dir (set_dir f tmp None) path (Some i) in
  fs_ok f' /\ keeps f f' (Some tmp).
Proof.
  intros (F1 & F2 & F3) D NF Fp OK f'. split.
  - split; [|split]; cbn.
    + intros m k. destruct (name_dec m path); [intros E; inversion E; subst; eauto|].
      destruct (name_dec m tmp); [discriminate|apply F1].
    + intros m m' k. destruct (name_dec m path) as [->|N1], (name_dec m' path) as [->|N2]; auto;
        [destruct (name_dec m' tmp)|destruct (name_dec m tmp)|destruct (name_dec m tmp), (name_dec m' tmp)];
        try discriminate; intros X Y.
      * inversion X; subst. assert (m' = tmp) by (eapply F2; eauto). congruence.
      * inversion Y; subst. assert (m = tmp) by (eapply F2; eauto). congruence.
      * eapply F2; eauto.
    + intros m k Fm. destruct (name_dec m path) as [->|N1]; [intros E; inversion E; subst; auto|].
      destruct (name_dec m tmp); [discriminate|auto].
  - split; [cbn; lia|]. cbn. split; [|split]; auto.
    + intros m k X Y. destruct (name_dec m path) as [->|N1]; auto.
      destruct (name_dec m tmp); [discriminate|contradiction].
    + intros m Fm NE. destruct (name_dec m path) as [->|N1]; [contradiction|].
      destruct (name_dec m tmp); congruence.
Qed.

(** ** Local transitions *)

(** Going to a point that reads nothing new and writes nothing. *)
Definition calm (c : pc) : Prop :=
  match c with
  | Open _ _ | Mkdir _ | Create _ | InMem _ | Clean _ | Finished => True
  | _ => False
  end.

Lemma go_calm f j p c :
  proc_ok f j p -> calm c ->
  (stage c = Some KL1 -> pr_cache p <> None) ->
  (ended c = true -> pr_cache p <> None /\ (jb_l1 j = true -> pr_l1 p <> None)) ->
  (forall l, c = Clean l -> forall n, In n l -> final n) ->
  proc_ok f j (go p c).
Proof.
  intros [P1 P2 P3 P4 P5 P6 P7 P8 P9] C S E CL. constructor; cbn [go pr_pc pr_cache pr_l1]; auto.
  - intros k i [R|(b & [R|R])]; [|cbn [go pr_pc] in R; subst c; destruct C..]. apply P1. left. destruct k; auto.
  - intros k tmp i W. destruct c; cbn in *; try discriminate; destruct C.
  - intros tmp. unfold temp_of. cbn [go pr_pc]. destruct c; cbn in *; try discriminate; destruct C.
  - intros ->. destruct C.
Qed.

(** Filling a slot. *)
Lemma fill_ok f j p k d :
  proc_ok f j p ->
  (forall i, d = Some (Mapped i) -> i < fs_next f /\ okc (jb_path j k) (fs_data f i) /\
               forall n, fs_dir f n = Some i -> final n) ->
  (forall i, d = Some (Mapped i) -> check_magic (fs_data f i) = Done true) ->
  (forall b, d = Some (Memory b) -> okm j k b) ->
  (k = KCache -> d = None -> stage (pr_pc p) <> Some KL1) ->
  (d = None -> ended (pr_pc p) = false) ->
  proc_ok f j (fill_slot p k d).
Proof.
  intros [P1 P2 P3 P4 P5 P6 P7 P8 P9] D1 DM D2 D3 D4.
  assert (EP : pr_pc (fill_slot p k d) = pr_pc p) by (destruct k; auto).
  constructor; rewrite ?EP; auto.
  - intros k' i [R|R]; [|rewrite EP in R; apply P1; right; auto].
    destruct k, k'; cbn in R; auto; apply P1; left; auto.
  - intros tmp. unfold temp_of. rewrite EP. apply P3.
  - intros k' b R. destruct k, k'; cbn in R; auto; apply P4; auto.
  - intros S. destruct k; cbn; auto. destruct d; [discriminate|]. exfalso. apply D3; auto.
  - intros E. destruct (P6 E). destruct d; [|specialize (D4 eq_refl); congruence].
    destruct k; cbn; split; auto; discriminate.
  - intros k' i R. destruct k, k'; cbn in R; auto; [apply (P9 KL1)|apply (P9 KCache)]; auto.
Qed.

Lemma decide_ok f j p : proc_ok f j p -> proc_ok f j (decide j p).
Proof.
  intros P. unfold decide. apply go_calm; auto.
  - destruct (missing (pr_cache p)), (jb_l1 j && missing (pr_l1 p)); cbn; auto.
  - destruct (pr_cache p); cbn; [discriminate|].  cbn. discriminate.
  - destruct (pr_cache p); cbn; [|discriminate]. destruct (jb_l1 j); cbn; [|split; [discriminate|discriminate]].
    destruct (pr_l1 p); cbn; [|discriminate]. split; discriminate.
  - intros l. destruct (missing (pr_cache p)), (jb_l1 j && missing (pr_l1 p)); discriminate.
Qed.

Lemma after_ok f j p k :
  job_ok j -> proc_ok f j p -> pr_cache p <> None -> (k = KL1 -> pr_l1 p <> None) ->
  proc_ok f j (after j p k).
Proof.
  intros J P C L. unfold after. apply go_calm; auto.
  - destruct k; [|exact Coq.Init.Logic.I]. destruct (jb_l1 j && missing (pr_l1 p)), (jb_disk j); exact Coq.Init.Logic.I.
  - intros E. split; auto. intros L1. destruct k; [|auto]. rewrite L1 in E.
    destruct (pr_l1 p); [discriminate|]. cbn in E. destruct (jb_disk j); discriminate.
  - intros l E n IN. apply (jo_old j J). destruct k.
    + destruct (jb_l1 j && missing (pr_l1 p)); [destruct (jb_disk j); discriminate|]. congruence.
    + congruence.
Qed.

Lemma loaded_ok f j p k (b : bool) d :
  job_ok j -> proc_ok f j p -> ended (pr_pc p) = false ->
  stage (pr_pc p) = (if b then None else Some k) ->
  (forall i, d = Some (Mapped i) -> i < fs_next f /\ okc (jb_path j k) (fs_data f i) /\
               forall n, fs_dir f n = Some i -> final n) ->
  (forall i, d = Some (Mapped i) -> check_magic (fs_data f i) = Done true) ->
  (forall x, d <> Some (Memory x)) ->
  proc_ok f j (loaded j p k b d).
Proof.
  intros J P E S D DM M.
  assert (FP : proc_ok f j (fill_slot p k d)).
  { apply fill_ok; auto.
    - intros x0 X. destruct (M x0 X).
    - intros -> _. rewrite S. destruct b; discriminate. }
  unfold loaded. destruct b.
  - destruct k.
    + destruct (jb_l1 j); [|apply decide_ok; auto].
      apply go_calm; auto; cbn; try discriminate; auto.
    + apply decide_ok; auto.
  - destruct d as [d|].
    + apply after_ok; auto.
      * destruct k; cbn; [discriminate|]. apply (po_stage _ _ _ P). auto.
      * intros ->. cbn. discriminate.
    + apply go_calm; auto; try discriminate; cbn; auto.
      intros X. inversion X; subst k. cbn. apply (po_stage _ _ _ P). auto.
Qed.

Lemma inmem_ok f j p k :
  proc_ok f j p -> ended (pr_pc p) = false -> stage (pr_pc p) = Some k ->
  proc_ok f j (go (fill_slot p k None) (InMem k)).
Proof.
  intros P E S. apply go_calm; try discriminate; cbn; auto.
  - apply fill_ok; auto; try discriminate. intros -> _. congruence.
  - intros X. inversion X; subst k. cbn. apply (po_stage _ _ _ P). auto.
Qed.

(** Moving on while writing. *)
Lemma go_write f j p k tmp i c :
  proc_ok f j p -> stage (pr_pc p) = Some k -> stage c = Some k ->
  writing c = Some (k, tmp, i) -> fs_dir f tmp = Some i -> ~ final tmp ->
  (sized c = true -> lenN (fs_data f i) = 8 + jb_size j k) ->
  (filled c = true -> okc (jb_path j k) (fs_data f i)) ->
  proc_ok f j (go p c).
Proof.
  intros [P1 P2 P3 P4 P5 P6 P7 P8 P9] S1 S2 W D NF SZ FL.
  constructor; cbn [go pr_pc pr_cache pr_l1]; auto.
  - intros k' i' [R|(b & [R|R])]; [|cbn [go pr_pc] in R; subst c; discriminate..]. apply P1. left. destruct k'; auto.
  - intros k' tmp' i' W'. rewrite W in W'. inversion W'; subst. auto.
  - intros tmp' T. assert (X := writing_temp (go p c) _ _ _ W). congruence.
  - intros X. apply P5. congruence.
  - intros X. destruct c; discriminate.
  - intros l ->. discriminate.
  - intros ->. discriminate.
Qed.

Lemma cache_okd f j p :
  proc_ok f j p -> pr_cache p <> None -> okd j (cache_bytes f p KL1).
Proof.
  intros P C. unfold cache_bytes. destruct (pr_cache p) as [[i|b]|] eqn:E; [| |congruence].
  - left. destruct (po_reads _ _ _ P KCache i) as (_ & A & _); [left; auto|]. exists (fs_data f i).
    split; auto. split; auto. apply (po_magic _ _ _ P KCache). auto.
  - right. apply (po_mem _ _ _ P KCache). auto.
Qed.

Lemma gen_ok f j p k :
  job_ok j -> proc_ok f j p -> stage (pr_pc p) = Some k ->
  okc (jb_path j k) (magic_bytes ++ jb_gen j k (cache_bytes f p k) (jb_size j k)) /\
  okm j k (jb_gen j k (cache_bytes f p k) (jb_mem j k)).
Proof.
  intros J P S. destruct k.
  - apply (jo_cache _ J).
  - apply (jo_l1 _ J). apply cache_okd; auto. apply (po_stage _ _ _ P); auto.
Qed.

(** ** One step of a process *)

Lemma restage f j p k : proc_ok f j p -> stage (pr_pc p) = Some k -> proc_ok f j (go p (Create k)).
Proof.
  intros P S. apply go_calm; auto; try discriminate; cbn; auto.
  intros E. apply (po_stage _ _ _ P). congruence.
Qed.

Lemma temp_final f j p k tmp i :
  proc_ok f j p -> writing (pr_pc p) = Some (k, tmp, i) -> ~ final tmp /\ fs_dir f tmp = Some i.
Proof.
  intros P W. split; [|apply (po_writes _ _ _ P _ _ _ W)].
  apply (po_temp _ _ _ P). eapply writing_temp; eauto.
Qed.

(** A write into the own temporary file. *)
Lemma own_write f j p k tmp i x c :
  fs_ok f -> proc_ok f j p -> writing (pr_pc p) = Some (k, tmp, i) -> stage (pr_pc p) = Some k ->
  writing c = Some (k, tmp, i) -> stage c = Some k ->
  (sized c = true -> lenN x = 8 + jb_size j k) ->
  (filled c = true -> okc (jb_path j k) x) ->
  fs_ok (set_data f i x) /\ keeps f (set_data f i x) (Some tmp) /\ proc_ok (set_data f i x) j (go p c) /\
  forall n, Some tmp = Some n -> temp_of p = Some n \/ temp_of (go p c) = Some n.
Proof.
  intros F P W S W' S' SZ FL. destruct (temp_final _ _ _ _ _ _ P W) as (NF & D).
  destruct (data_ok f tmp i x F D NF) as (F' & K). split; auto. split; auto.
  split; [|intros n E; inversion E; subst; left; eapply writing_temp; eauto].
  assert (Q : proc_ok (set_data f i x) j (go p (Create k))).
  { apply (other_ok f _ (Some tmp)); auto; [|discriminate]. apply restage; auto. }
  change (go p c) with (go (go p (Create k)) c). apply (go_write _ _ _ k tmp i); auto;
    intros X; cbn; rewrite N.eqb_refl; auto.
Qed.

Lemma pstep_ok f j p f' p' :
  fs_ok f -> job_ok j -> proc_ok f j p -> pstep j f p f' p' ->
  exists tmp, fs_ok f' /\ keeps f f' tmp /\ proc_ok f' j p' /\
    forall n, tmp = Some n -> temp_of p = Some n \/ temp_of p' = Some n.
Proof.
  intros F J P ST.
  assert (QUIET : forall q, proc_ok f j q -> exists tmp, fs_ok f /\ keeps f f tmp /\ proc_ok f j q /\
    forall n, tmp = Some n -> temp_of p = Some n \/ temp_of q = Some n).
  { intros q Q. exists None. split; auto. split; [apply keeps_refl|]. split; [auto|discriminate]. }
  destruct ST as
    [f p k b i E D|f p k b E|f p k b i E D|f p k b i E|f p k b i E M|f p k b i E M|f p k b i E M
    |f p k b i E L M|f p k E|f p k E|f p k r f' i E R C|f p k E|f p k tmp i E|f p k tmp i E
    |f p k tmp i E|f p k tmp i E|f p k tmp i x E L|f p k tmp i E L|f p k tmp i E L|f p k tmp i E|f p k tmp i E
    |f p k tmp i E|f p k tmp i E|f p k tmp i m E D|f p k tmp i E|f p k tmp E|f p k tmp E|f p k E
    |f p n l E|f p n l E|f p E].
  - (* open *)
    apply QUIET. destruct P as [P1 P2 P3 P4 P5 P6 P7 P8 P9].
    destruct F as (F1 & F2 & F3).
    constructor; cbn [go pr_pc pr_cache pr_l1]; try discriminate; auto.
    + intros k' i' [R|(b' & [R|R])]; [apply P1; left; destruct k'; auto| |discriminate].
      cbn in R. inversion R; subst. split; [eauto|]. split.
      * apply F3; auto. apply (jo_final _ J).
      * intros n Dn. rewrite (F2 _ _ _ Dn D). apply (jo_final _ J).
    + intros S. apply P5. rewrite E. auto.
  - apply QUIET. apply loaded_ok; auto; try discriminate; rewrite E; destruct b; auto.
  - (* map *)
    apply QUIET. destruct P as [P1 P2 P3 P4 P5 P6 P7 P8 P9].
    constructor; cbn [go pr_pc pr_cache pr_l1]; try discriminate; auto.
    + intros k' i' [R|(b' & [R|R])]; [apply P1; left; destruct k'; auto|discriminate|].
      cbn in R. inversion R; subst. apply P1. right. exists b'. auto.
    + intros S. apply P5. rewrite E. auto.
  - apply QUIET. apply loaded_ok; auto; try discriminate; rewrite E; destruct b; auto.
  - apply QUIET. apply loaded_ok; auto; try discriminate; [rewrite E; destruct b; auto..| |congruence].
    intros i' X. inversion X; subst. apply (po_reads _ _ _ P). right. exists b. auto.
  - apply QUIET. apply loaded_ok; auto; try discriminate; rewrite E; destruct b; auto.
  - (* panic *)
    apply QUIET. destruct (po_reads _ _ _ P k i) as (_ & O & _); [right; exists b; auto|].
    destruct P as [P1 P2 P3 P4 P5 P6 P7 P8 P9].
    constructor; cbn [go pr_pc pr_cache pr_l1]; try discriminate; auto.
    + intros k' i' [R|(b' & [R|R])]; [apply P1; left; destruct k'; auto|discriminate|discriminate].
    + intros _. exists k, (fs_data f i). auto.
  - apply QUIET. apply loaded_ok; auto; try discriminate; rewrite E; destruct b; auto.
  - apply QUIET. apply restage; auto. rewrite E. auto.
  - apply QUIET. apply inmem_ok; auto; rewrite E; auto.
  - (* create *)
    assert (NF := jo_temp _ J k r R).
    destruct (create_ok _ _ _ _ F NF C) as (F' & K & D). eexists. split; [exact F'|]. split; [exact K|].
    split; [|intros n X; inversion X; subst; right; reflexivity].
    assert (Q : proc_ok f' j (go p (Create k))).
    { apply (other_ok f _ (Some (temp_name (jb_path j k) r)) _ _ F); [apply restage; auto; rewrite E; auto|exact K|discriminate]. }
    change (go p (Trunc k (temp_name (jb_path j k) r) i)) with
      (go (go p (Create k)) (Trunc k (temp_name (jb_path j k) r) i)).
    apply (go_write _ _ _ k (temp_name (jb_path j k) r) i); auto; discriminate.
  - apply QUIET. apply inmem_ok; auto; rewrite E; auto.
  - (* trunc *)
    exists (Some tmp). apply (own_write f j p k); auto; rewrite ?E; auto; [|discriminate].
    intros _. unfold resize, lenN. rewrite app_length, firstn_length, repeat_length. lia.
  - apply QUIET. destruct (temp_final f j p k tmp i P) as (NF & D); [rewrite E; auto|].
    destruct P as [P1 P2 P3 P4 P5 P6 P7 P8 P9].
    constructor; cbn [go pr_pc pr_cache pr_l1]; try discriminate; auto.
    + intros k' i' [R|(b' & [R|R])]; [apply P1; left; destruct k'; auto|discriminate|discriminate].
    + intros t X. inversion X; subst. auto.
    + intros S. apply P5. rewrite E. auto.
  - apply QUIET. destruct (temp_final f j p k tmp i P) as (NF & D); [rewrite E; auto|].
    destruct (po_writes _ _ _ P k tmp i) as (_ & SZ & _); [rewrite E; auto|]. rewrite E in SZ.
    apply (go_write _ _ _ k tmp i); auto; rewrite ?E; auto. discriminate.
  - apply QUIET. destruct (temp_final f j p k tmp i P) as (NF & D); [rewrite E; auto|].
    destruct P as [P1 P2 P3 P4 P5 P6 P7 P8 P9].
    constructor; cbn [go pr_pc pr_cache pr_l1]; try discriminate; auto.
    + intros k' i' [R|(b' & [R|R])]; [apply P1; left; destruct k'; auto|discriminate|discriminate].
    + intros t X. inversion X; subst. auto.
    + intros S. apply P5. rewrite E. auto.
  - (* fill, intermediate *)
    exists (Some tmp).
    assert (EP : go p (Fill k tmp i) = p) by (destruct p; cbn in *; unfold go; cbn; congruence).
    pose proof (own_write f j p k tmp i x (Fill k tmp i)) as Q. rewrite EP in Q.
    destruct (po_writes _ _ _ P k tmp i) as (_ & SZ & _); [rewrite E; auto|]. rewrite E in SZ. specialize (SZ eq_refl).
    apply Q; auto; rewrite ?E; auto; [|discriminate]. intros _. unfold lenN in *. rewrite L. auto.
  - (* fill *)
    destruct (po_writes _ _ _ P k tmp i) as (_ & SZ & _); [rewrite E; auto|]. rewrite E in SZ. specialize (SZ eq_refl).
    exists (Some tmp). apply (own_write f j p k); auto; rewrite ?E; auto; [discriminate|]. intros _.
    rewrite (fill_file_whole _ _ _ _ _ SZ (jo_size _ J k)).
    apply gen_ok; auto. rewrite E. auto.
  - destruct (po_writes _ _ _ P k tmp i) as (_ & SZ & _); [rewrite E; auto|]. rewrite E in SZ. specialize (SZ eq_refl). lia.
  - apply QUIET. destruct (po_writes _ _ _ P k tmp i) as (D & _ & FL); [rewrite E; auto|].
    apply (go_write _ _ _ k tmp i); auto; rewrite ?E; auto.
    + apply (po_temp _ _ _ P). unfold temp_of. rewrite E. auto.
    + discriminate.
    + intros _. apply FL. rewrite E. auto.
  - apply QUIET. apply inmem_ok; auto; rewrite E; auto.
  - apply QUIET. destruct (po_writes _ _ _ P k tmp i) as (D & _ & FL); [rewrite E; auto|].
    apply (go_write _ _ _ k tmp i); auto; rewrite ?E; auto.
    + apply (po_temp _ _ _ P). unfold temp_of. rewrite E. auto.
    + discriminate.
    + intros _. apply FL. rewrite E. auto.
  - apply QUIET. apply inmem_ok; auto; rewrite E; auto.
  - (* rename *)
    destruct (po_writes _ _ _ P k tmp i) as (D' & _ & FL); [rewrite E; auto|].
    assert (m = i) by congruence. subst m.
    assert (NF : ~ final tmp). { apply (po_temp _ _ _ P). unfold temp_of. rewrite E. auto. }
    destruct (rename_ok f tmp (jb_path j k) i F D NF (jo_final _ J k)) as (F' & K).
    { apply FL. rewrite E. auto. }
    exists (Some tmp). split; auto. split; auto.
    split; [|intros n X; left; unfold temp_of; rewrite E; auto].
    apply (other_ok f _ (Some tmp) _ _ F); [|exact K|discriminate].
    apply go_calm; auto; try discriminate; cbn; auto.
    intros X. apply (po_stage _ _ _ P). rewrite E. auto.
  - apply QUIET. apply inmem_ok; auto; rewrite E; auto.
  - (* remove temp *)
    destruct (remove_ok f tmp F) as (F' & _ & K).
    exists (Some tmp). split; auto. split; auto.
    split; [|intros n X; left; unfold temp_of; rewrite E; auto].
    apply (other_ok f _ (Some tmp) _ _ F); [|exact K|discriminate].
    apply inmem_ok; auto; rewrite E; auto.
  - apply QUIET. apply inmem_ok; auto; rewrite E; auto.
  - (* in memory *)
    apply QUIET. destruct (gen_ok f j p k J P) as (_ & M); [rewrite E; auto|].
    apply after_ok; auto.
    + apply fill_ok; auto; try discriminate. intros b X. inversion X; subst. auto.
    + destruct k; cbn; [discriminate|]. apply (po_stage _ _ _ P). rewrite E. auto.
    + intros ->. discriminate.
  - (* clean *)
    assert (Fn : final n) by (apply (po_clean _ _ _ P _ E); left; auto).
    destruct (remove_ok f n F) as (F' & K & _). specialize (K Fn).
    exists None. split; auto. split; auto. split; [|discriminate].
    apply (other_ok f _ None _ _ F); [|exact K|discriminate].
    apply go_calm; auto; try discriminate; [exact Coq.Init.Logic.I| |].
    + intros _. apply (po_ended _ _ _ P). rewrite E. auto.
    + intros l' X m IN. inversion X; subst. apply (po_clean _ _ _ P _ E). right; auto.
  - apply QUIET. apply go_calm; auto; try discriminate; [exact Coq.Init.Logic.I| |].
    + intros _. apply (po_ended _ _ _ P). rewrite E. auto.
    + intros l' X m IN. inversion X; subst. apply (po_clean _ _ _ P _ E). right; auto.
  - apply QUIET. apply go_calm; auto; try discriminate; [exact Coq.Init.Logic.I|].
    intros _. apply (po_ended _ _ _ P). rewrite E. auto.
Qed.

(** ** Steps of the system *)

Lemma inv_fs s : inv s -> fs_ok (st_fs s).
Proof. intros [A B C _ _ _]. split; auto. Qed.

Lemma set_nth_cases {A} (l : list A) t x u y :
  nth_error (set_nth l t x) u = Some y ->
  (u = t /\ y = x) \/ (u <> t /\ nth_error l u = Some y).
Proof.
  rewrite nth_error_set_nth. destruct (Nat.eqb_spec t u) as [->|NE].
  - destruct (_ <? _)%nat; [|discriminate]. intros E; inversion E; auto.
  - auto.
Qed.
Lemma set_nth_hit {A} (l : list A) t x y :
  nth_error l t = Some y -> nth_error (set_nth l t x) t = Some x.
Proof.
  intros H. rewrite nth_error_set_nth, Nat.eqb_refl.
  assert (t < length l)%nat by (apply nth_error_Some; congruence).
  destruct (Nat.ltb_spec t (length l)); auto. lia.
Qed.

Lemma fstep_inv s s' : inv s -> fstep s s' -> distinct_temps s' -> inv s'.
Proof.
  intros I ST DT. destruct ST as [f f' ps t j p p' H ST|f ps t j p H].
  - assert (F := inv_fs _ I). cbn in F.
    assert (J := in_jobs _ I _ _ _ H). assert (P := in_procs _ I _ _ _ H). cbn in P.
    destruct (pstep_ok _ _ _ _ _ F J P ST) as (tmp & F' & K & P' & T).
    destruct F' as (F1 & F2 & F3).
    constructor; cbn [st_fs st_procs]; auto.
    + intros u j' q E. destruct (set_nth_cases _ _ _ _ _ E) as [(-> & X)|(NE & E')].
      * inversion X; subst. auto.
      * apply (other_ok f f' tmp _ _ F); [apply (in_procs _ I _ _ _ E')|auto|].
        intros n X Y. apply NE. destruct (T n X) as [Z|Z].
        -- apply (in_temps _ I u t j' j q p n); auto.
        -- apply (DT u t j' j q p' n); auto. cbn. eapply set_nth_hit; eauto.
    + intros u j' q E. destruct (set_nth_cases _ _ _ _ _ E) as [(-> & X)|(NE & E')].
      * inversion X; subst. auto.
      * apply (in_jobs _ I _ _ _ E').
  - constructor; cbn [st_fs st_procs]; try apply I; auto.
    + intros u j' q E. destruct (set_nth_cases _ _ _ _ _ E) as [(-> & X)|(NE & E')]; [discriminate|].
      apply (in_procs _ I _ _ _ E').
    + intros u j' q E. destruct (set_nth_cases _ _ _ _ _ E) as [(-> & X)|(NE & E')].
      * inversion X; subst. apply (in_jobs _ I _ _ _ H).
      * apply (in_jobs _ I _ _ _ E').
Qed.

Lemma run_inv s0 s : inv s0 -> run s0 s -> inv s.
Proof. intros I R. induction R; auto. eapply fstep_inv; eauto. Qed.

Lemma start_ok f j : proc_ok f j (start j).
Proof.
  constructor; unfold start; cbn [pr_pc pr_cache pr_l1].
  - intros k i [R|(b & R)]; [destruct k; discriminate|]. cbn in R. destruct (jb_disk j); destruct R; discriminate.
  - intros k t i E. destruct (jb_disk j); discriminate.
  - intros t. unfold temp_of. cbn. destruct (jb_disk j); discriminate.
  - intros k b R. destruct k; discriminate.
  - destruct (jb_disk j); discriminate.
  - destruct (jb_disk j); discriminate.
  - intros l. destruct (jb_disk j); discriminate.
  - destruct (jb_disk j); discriminate.
  - intros k i R. destruct k; discriminate.
Qed.

Lemma initial_inv f js : fs_ok f -> Forall job_ok js -> inv (initial f js).
Proof.
  intros (F1 & F2 & F3) J. unfold initial.
  assert (N : forall t j p, nth_error (map (fun j => (j, Some (start j))) js) t = Some (j, p) ->
     In j js /\ p = Some (start j)).
  { intros t j p E. rewrite nth_error_map in E. destruct (nth_error js t) eqn:E'; [|discriminate].
    cbn in E. inversion E; subst. split; auto. eapply nth_error_In; eauto. }
  constructor; cbn [st_fs st_procs]; auto.
  - intros t j p E. apply N in E. destruct E as (_ & E). inversion E; subst. apply start_ok.
  - intros t j p E. apply N in E. destruct E as (E & _).
    apply (proj1 (Forall_forall _ _) J _ E).
  - intros t u j j' p p' n E _ X. apply N in E. destruct E as (_ & E). inversion E; subst.
    unfold temp_of, start in X. cbn in X. destruct (jb_disk j); discriminate.
Qed.
End Inv.

Lemma check_magic_complete y : check_magic (magic_bytes ++ y) = Done true.
Proof.
  unfold check_magic.
  assert (L : exists m, Nat.div (length (magic_bytes ++ y)) 4 = S (S m)).
  { exists (Nat.div (length y) 4). rewrite app_length. change (length magic_bytes) with (2 * 4)%nat.
    rewrite Nat.div_add_l by lia. lia. }
  destruct L as (m & ->). cbn [seq map]. reflexivity.
Qed.

(** A file of at least eight bytes that does not begin with the magic is rejected. *)
Lemma le_value4 a b c e : le_value [a; b; c; e] = a + 256 * (b + 256 * (c + 256 * e)).
Proof. cbn. lia. Qed.
Lemma check_magic_other x : Forall (fun b => b < 256) x -> (8 <= length x)%nat -> firstn 8 x <> magic_bytes ->
  check_magic x = Done false.
Proof.
  intros B L NE. do 8 (destruct x as [|? x]; [cbn in L; lia|]). clear L.
  repeat match goal with H : Forall _ (_ :: _) |- _ => inversion H; subst; clear H end.
  unfold check_magic.
  assert (LL : exists m, Nat.div (length (n :: n0 :: n1 :: n2 :: n3 :: n4 :: n5 :: n6 :: x)) 4 = S (S m)).
  { exists (Nat.div (length x) 4). cbn [length]. replace (S (S (S (S (S (S (S (S (length x))))))))) with (2 * 4 + length x)%nat by lia.
    rewrite Nat.div_add_l by lia. lia. }
  destruct LL as (m & ->). cbn [seq map]. unfold idx. cbn [nth_error N.to_nat bind].
  change (N.to_nat 1) with 1%nat. change (N.to_nat 0) with 0%nat. cbn [nth_error bind].
  change (4 * 0)%nat with 0%nat. change (4 * 1)%nat with 4%nat. cbn [skipn firstn].
  rewrite !le_value4. change (nth 0 dumpMagic 0) with (254 + 256 * (202 + 256 * (221 + 256 * 186))).
  change (nth 1 dumpMagic 0) with (173 + 256 * (222 + 256 * (225 + 256 * 254))).
  destruct (N.eqb_spec (n + 256 * (n0 + 256 * (n1 + 256 * n2))) (254 + 256 * (202 + 256 * (221 + 256 * 186)))) as [E1|]; [|reflexivity].
  cbn [negb]. f_equal. apply N.eqb_neq. intros E2. apply NE.
  assert (n = 254 /\ n0 = 202 /\ n1 = 221 /\ n2 = 186) by lia. assert (n3 = 173 /\ n4 = 222 /\ n5 = 225 /\ n6 = 254) by lia.
  cbn [firstn]. replace magic_bytes with [254; 202; 221; 186; 173; 222; 225; 254] by reflexivity.
  repeat f_equal; tauto.
Qed.

(** ** Every run of generate comes to an end *)

Definition base_rank (c : pc) : nat :=
  match c with
  | Open KCache true => 40 | Map KCache true _ => 39 | Check KCache true _ => 38
  | Open KL1 true => 37 | Map KL1 true _ => 36 | Check KL1 true _ => 35
  | Mkdir KCache => 34 | Create KCache => 33 | Trunc KCache _ _ => 32 | MapW KCache _ _ => 31
  | Fill KCache _ _ => 30 | Unmap KCache _ _ => 29 | Close KCache _ _ => 28 | Rename KCache _ _ => 27
  | Open KCache false => 26 | Map KCache false _ => 25 | Check KCache false _ => 24
  | RemoveTmp KCache _ => 23 | InMem KCache => 22
  | Mkdir KL1 => 21 | Create KL1 => 20 | Trunc KL1 _ _ => 19 | MapW KL1 _ _ => 18
  | Fill KL1 _ _ => 17 | Unmap KL1 _ _ => 16 | Close KL1 _ _ => 15 | Rename KL1 _ _ => 14
  | Open KL1 false => 13 | Map KL1 false _ => 12 | Check KL1 false _ => 11
  | RemoveTmp KL1 _ => 10 | InMem KL1 => 9
  | _ => 0
  end.
Definition rank (j : job) (p : proc) : nat :=
  match pr_pc p with
  | Finished | Panicked => 0
  | Clean l => S (length l)
  | c => base_rank c + S (length (jb_old j))
  end.

Lemma decide_rank j p : (rank j (decide j p) <= 34 + S (length (jb_old j)))%nat.
Proof.
  unfold decide, rank, go. cbn [pr_pc].
  destruct (missing (pr_cache p)); cbn; [lia|]. destruct (jb_l1 j && missing (pr_l1 p)); cbn; lia.
Qed.
Lemma after_rank j p k :
  (rank j (after j p k) <= match k with KCache => 21 | KL1 => 0 end + S (length (jb_old j)))%nat.
Proof.
  unfold after, rank, go. cbn [pr_pc]. destruct k; [|cbn; lia].
  destruct (jb_l1 j && missing (pr_l1 p)); [|cbn; lia]. destruct (jb_disk j); cbn; lia.
Qed.
Lemma loaded_rank j p k b d :
  (rank j (loaded j p k b d) <=
   match b, k with true, KCache => 37 | true, KL1 => 34 | false, KCache => 22 | false, KL1 => 9 end
   + S (length (jb_old j)))%nat.
Proof.
  unfold loaded. destruct b.
  - destruct k.
    + destruct (jb_l1 j) eqn:E.
      * unfold rank, go. cbn. lia.
      * pose proof (decide_rank j (fill_slot p KCache d)). lia.
    + apply (decide_rank j (fill_slot p KL1 d)).
  - destruct d.
    + pose proof (after_rank j (fill_slot p k (Some d)) k). destruct k; lia.
    + unfold rank, go. cbn [pr_pc]. destruct k; cbn; lia.
Qed.

Lemma pstep_rank j f p f' p' : pstep j f p f' p' ->
  p' = p \/ (rank j p' < rank j p)%nat.
Proof.
  intros ST.
  destruct ST; try (left; reflexivity); right;
    match goal with E : pr_pc p = _ |- _ => unfold rank at 2; rewrite E end;
    try (match goal with |- context [loaded j ?q ?k ?b ?d] =>
           pose proof (loaded_rank j q k b d); destruct k, b; cbn [base_rank]; lia end);
    try (match goal with |- context [after j ?q ?k] =>
           pose proof (after_rank j q k); destruct k; cbn [base_rank]; lia end);
    unfold rank; cbn [go pr_pc];
    try (cbn [length]; lia);
    repeat match goal with k : kind |- _ => destruct k | b : bool |- _ => destruct b end;
    cbn [base_rank length]; lia.
Qed.

(** At every point before the end some step is possible, whatever the file system. *)
Lemma pstep_exists j f p :
  pr_pc p <> Finished -> pr_pc p <> Panicked ->
  exists f' p', pstep j f p f' p' /\ p' <> p.
Proof.
  intros NF NP.
  assert (K : forall f' p', pstep j f p f' p' -> (rank j p' < rank j p)%nat ->
     exists f' p', pstep j f p f' p' /\ p' <> p).
  { intros f' p' S R. exists f', p'. split; auto. intros ->. lia. }
  assert (Q : forall f' p', pstep j f p f' p' -> pr_pc p' <> pr_pc p ->
     exists f' p', pstep j f p f' p' /\ p' <> p).
  { intros f' p' S R. exists f', p'. split; auto. congruence. }
  destruct (pr_pc p) eqn:E; try congruence.
  - eapply K; [eapply p_open_fail; eauto|]. pose proof (loaded_rank j p k first None).
    unfold rank at 2. rewrite E. destruct k, first; cbn [base_rank]; lia.
  - eapply K; [eapply p_map_fail; eauto|]. pose proof (loaded_rank j p k first None).
    unfold rank at 2. rewrite E. destruct k, first; cbn [base_rank]; lia.
  - destruct (check_magic (fs_data f i)) as [[|]| |] eqn:C.
    + eapply K; [eapply p_check; eauto|]. pose proof (loaded_rank j p k first (Some (Mapped i))).
      unfold rank at 2. rewrite E. destruct k, first; cbn [base_rank]; lia.
    + eapply K; [eapply p_check_bad; eauto|]. pose proof (loaded_rank j p k first None).
      unfold rank at 2. rewrite E. destruct k, first; cbn [base_rank]; lia.
    + eapply Q; [eapply p_check_panic; eauto|]. cbn. congruence.
    + exfalso. unfold check_magic in C. revert C. unfold idx.
      destruct (nth_error _ _); cbn; [|discriminate]. destruct (negb _); [discriminate|].
      destruct (nth_error _ _); cbn; discriminate.
  - eapply Q; [eapply p_mkdir_fail; eauto|]. cbn. congruence.
  - eapply Q; [eapply p_create_fail; eauto|]. cbn. congruence.
  - eapply Q; [eapply p_trunc; eauto|]. cbn. congruence.
  - eapply Q; [eapply p_mapw; eauto|]. cbn. congruence.
  - destruct (N.le_gt_cases 8 (lenN (fs_data f i))).
    + eapply Q; [eapply p_fill; eauto|]. cbn. congruence.
    + eapply Q; [eapply p_fill_panic; eauto|]. cbn. congruence.
  - eapply Q; [eapply p_unmap; eauto|]. cbn. congruence.
  - eapply Q; [eapply p_close; eauto|]. cbn. congruence.
  - eapply Q; [eapply p_rename_fail; eauto|]. cbn. congruence.
  - eapply Q; [eapply p_removetmp; eauto|]. cbn. congruence.
  - eapply K; [eapply p_inmem; eauto|].
    match goal with |- (rank j (after j ?q k) < _)%nat => pose proof (after_rank j q k) end.
    unfold rank at 2. rewrite E. destruct k; cbn [base_rank]; lia.
  - destruct l as [|n l].
    + eapply Q; [eapply p_clean_end; eauto|]. cbn. congruence.
    + eapply Q; [eapply p_clean_fail; eauto|]. cbn. intros X. inversion X as [Y].
      apply (f_equal (@length _)) in Y. cbn in Y. lia.
Qed.
