(** Runs of cache.generate in which no file-system call fails, and what they leave behind. *)
From Coq Require Import NArith ZArith Arith List Bool Lia ZifyBool ZifyN ZifyNat.
From Verif Require Import Base BaseFacts DagModel DagSpec FileModel FileProofs NameModel NameProofs
  FileJob FileJobProofs PropsFiles.
Import ListNotations.
Open Scope N_scope.

(** The step of FileModel.v in which the call succeeds: an existing file is opened, a
    non-empty one is mapped, and so on.  [r k] is the random suffix chosen for kind [k]. *)
Definition psucc (r : kind -> list N) (j : job) (f : fs) (p : proc) : option (fs * proc) :=
  match pr_pc p with
  | Open k b => match fs_dir f (jb_path j k) with
                | Some i => Some (f, go p (Map k b i))
                | None => Some (f, loaded j p k b None) end
  | Map k b i => match fs_data f i with
                 | [] => Some (f, loaded j p k b None)
                 | _ => Some (f, go p (Check k b i)) end
  | Check k b i => match check_magic (fs_data f i) with
                   | Done true => Some (f, loaded j p k b (Some (Mapped i)))
                   | Done false => Some (f, loaded j p k b None)
                   | Panic => Some (f, go p Panicked)
                   | _ => None end
  | Mkdir k => Some (f, go p (Create k))
  | Create k => let tmp := temp_name (jb_path j k) (r k) in
                let (f', i) := create f tmp in Some (f', go p (Trunc k tmp i))
  | Trunc k tmp i => Some (set_data f i (resize (fs_data f i) (8 + jb_size j k)), go p (MapW k tmp i))
  | MapW k tmp i => Some (f, go p (Fill k tmp i))
  | Fill k tmp i =>
      if 8 <=? lenN (fs_data f i)
      then Some (set_data f i (fill_file j k (cache_bytes f p k) (fs_data f i)), go p (Unmap k tmp i))
      else Some (f, go p Panicked)
  | Unmap k tmp i => Some (f, go p (Close k tmp i))
  | Close k tmp i => Some (f, go p (Rename k tmp i))
  | Rename k tmp i => match fs_dir f tmp with
                      | Some m => Some (set_dir (set_dir f tmp None) (jb_path j k) (Some m), go p (Open k false))
                      | None => None end
  | RemoveTmp k tmp => Some (set_dir f tmp None, go (fill_slot p k None) (InMem k))
  | InMem k => Some (f, after j (fill_slot p k (Some (Memory (jb_gen j k (cache_bytes f p k) (jb_mem j k))))) k)
  | FileModel.Clean (n :: l) => Some (set_dir f n None, go p (FileModel.Clean l))
  | FileModel.Clean [] => Some (f, go p Finished)
  | Finished | Panicked => None
  end.

Fixpoint success (n : nat) (r : kind -> list N) (j : job) (f : fs) (p : proc) : fs * proc :=
  match n with
  | O => (f, p)
  | S m => match psucc r j f p with Some (f', p') => success m r j f' p' | None => (f, p) end
  end.

(** They are runs of the model. *)
Lemma psucc_sound r j f p f' p' :
  (forall k, is_numeral (r k)) -> psucc r j f p = Some (f', p') -> pstep j f p f' p'.
Proof.
  intros NUM. unfold psucc.
  destruct (pr_pc p) as [k b|k b i|k b i|k|k|k tmp i|k tmp i|k tmp i|k tmp i|k tmp i|k tmp i|k tmp|k|l| |] eqn:E.
  - destruct (fs_dir f (jb_path j k)) eqn:D; intros X; inversion X; subst.
    + eapply p_open; eauto. + eapply p_open_fail; eauto.
  - destruct (fs_data f i) eqn:D; intros X; inversion X; subst.
    + eapply p_map_fail; eauto. + eapply p_map; eauto. congruence.
  - destruct (check_magic (fs_data f i)) as [[]| |] eqn:D; intros X; inversion X; subst.
    + eapply p_check; eauto. + eapply p_check_bad; eauto. + eapply p_check_panic; eauto.
  - intros X; inversion X; subst. eapply p_mkdir; eauto.
  - destruct (create f (temp_name (jb_path j k) (r k))) as [f1 i] eqn:D. intros X; inversion X; subst.
    eapply p_create; eauto.
  - intros X; inversion X; subst. eapply p_trunc; eauto.
  - intros X; inversion X; subst. eapply p_mapw; eauto.
  - destruct (N.leb_spec 8 (lenN (fs_data f i))); intros X; inversion X; subst; [eapply p_fill|eapply p_fill_panic]; eauto.
  - intros X; inversion X; subst. eapply p_unmap; eauto.
  - intros X; inversion X; subst. eapply p_close; eauto.
  - destruct (fs_dir f tmp) eqn:D; intros X; inversion X; subst. eapply p_rename; eauto.
  - intros X; inversion X; subst. eapply p_removetmp; eauto.
  - intros X; inversion X; subst. eapply p_inmem; eauto.
  - destruct l; intros X; inversion X; subst. + eapply p_clean_end; eauto. + eapply p_clean; eauto.
  - discriminate.
  - discriminate.
Qed.

Lemma success_add a b r j f p :
  success (a + b) r j f p = let (f1, p1) := success a r j f p in success b r j f1 p1.
Proof.
  revert f p; induction a as [|a IH]; intros f p; cbn [success Nat.add]; auto.
  destruct (psucc r j f p) as [[f1 p1]|] eqn:E; [apply IH|].
  destruct b; auto. cbn [success]. rewrite E. auto.
Qed.

Lemma success_end n r j f p : pr_pc p = Finished -> success n r j f p = (f, p).
Proof. intros E. destruct n; auto. cbn. unfold psucc. rewrite E. auto. Qed.

(** A complete file is loaded in three steps. *)
Definition complete (x : list N) : Prop := exists y, x = magic_bytes ++ y.

Lemma complete_not_nil x : complete x -> x <> [].
Proof. intros (y & ->). vm_compute magic_bytes. discriminate. Qed.

Lemma complete_magic x : complete x -> check_magic x = Done true.
Proof. intros (y & ->). apply check_magic_complete. Qed.

Lemma run_load r j f p k b i :
  pr_pc p = Open k b -> fs_dir f (jb_path j k) = Some i -> complete (fs_data f i) ->
  success 3 r j f p = (f, loaded j p k b (Some (Mapped i))).
Proof.
  intros E D C. assert (M := complete_magic _ C). apply complete_not_nil in C.
  cbn [success]. unfold psucc at 1. rewrite E, D. unfold psucc at 1. cbn [go pr_pc].
  destruct (fs_data f i) eqn:X; [congruence|]. rewrite <- X in *. clear X.
  unfold psucc. cbn [go pr_pc]. rewrite M. f_equal. destruct p, k, b; unfold loaded, decide; cbn; destruct (jb_l1 j); reflexivity.
Qed.

Lemma run_missing r j f p k b :
  pr_pc p = Open k b -> fs_dir f (jb_path j k) = None ->
  success 1 r j f p = (f, loaded j p k b None).
Proof. intros E D. cbn [success]. unfold psucc. rewrite E, D. auto. Qed.

(** Generating one file. *)
Definition stored (f f' : fs) (path tmp : name) (i : N) (x : list N) : Prop :=
  fs_dir f' path = Some i /\ fs_data f' i = x /\ fs_dir f' tmp = None /\
  (forall n, n <> path -> n <> tmp -> fs_dir f' n = fs_dir f n) /\
  (fs_dir f tmp = Some i \/ fs_dir f tmp = None /\ i = fs_next f) /\
  (forall m, m <> i -> fs_data f' m = fs_data f m) /\
  fs_next f <= fs_next f'.

Lemma go_go p a b : go (go p a) b = go p b.
Proof. destruct p; reflexivity. Qed.
Lemma loaded_go j p c k x : loaded j (go p c) k false (Some x) = loaded j p k false (Some x).
Proof. destruct p, k; reflexivity. Qed.

Lemma run_store r j f p k :
  pr_pc p = Mkdir k -> jb_path j k <> temp_name (jb_path j k) (r k) -> jb_size j k mod 4 = 0 ->
  no_links f ->
  (forall i, pr_cache p = Some (Mapped i) -> i < fs_next f /\ fs_dir f (temp_name (jb_path j k) (r k)) <> Some i) ->
  exists f' i,
    stored f f' (jb_path j k) (temp_name (jb_path j k) (r k)) i
      (magic_bytes ++ jb_gen j k (cache_bytes f p k) (jb_size j k)) /\
    no_links f' /\ (forall m, pr_cache p = Some (Mapped m) -> m <> i) /\
    success 11 r j f p = (f', after j (fill_slot p k (Some (Mapped i))) k).
Proof.
  intros E NE SZ (F1 & F2) FC. set (path := jb_path j k) in *. set (tmp := temp_name path (r k)) in *.
  set (X := magic_bytes ++ jb_gen j k (cache_bytes f p k) (jb_size j k)).
  destruct (create f tmp) as [f1 i] eqn:CR.
  assert (K : fs_dir f1 tmp = Some i /\ (forall n, n <> tmp -> fs_dir f1 n = fs_dir f n) /\
    (fs_dir f tmp = Some i \/ fs_dir f tmp = None /\ i = fs_next f) /\
    (forall m, m <> i -> fs_data f1 m = fs_data f m) /\ fs_next f <= fs_next f1 /\ i < fs_next f1).
  { unfold create in CR. destruct (fs_dir f tmp) as [m|] eqn:D; inversion CR; subst; clear CR; cbn.
    - split; auto. split; auto. split; auto. split.
      + intros m NM. destruct (N.eqb_spec m i); congruence.
      + split; [lia|]. apply F1 in D. auto.
    - destruct (name_dec tmp tmp); [|congruence]. split; auto. split.
      + intros n Hn. destruct (name_dec n tmp); congruence.
      + split; auto. split.
        * intros m NM. destruct (N.eqb_spec m (fs_next f)); congruence.
        * split; lia. }
  destruct K as (K1 & K2 & K3 & K4 & K5 & K6).
  assert (CI : forall m, pr_cache p = Some (Mapped m) -> m <> i).
  { intros m Em ->. destruct (FC _ Em) as (A & B). destruct K3 as [K3|(_ & ->)]; [contradiction|lia]. }
  set (f2 := set_data f1 i (resize (fs_data f1 i) (8 + jb_size j k))).
  set (f3 := set_data f2 i X).
  set (f4 := set_dir (set_dir f3 tmp None) path (Some i)).
  assert (CB : cache_bytes f2 p k = cache_bytes f p k).
  { unfold cache_bytes. destruct k; auto. destruct (pr_cache p) as [[m|b]|] eqn:EC; auto.
    cbn [content]. unfold f2, set_data. cbn [fs_data].
    destruct (N.eqb_spec m i) as [->|NM]; [destruct (CI _ eq_refl); auto|]. rewrite K4; auto. }
  exists f4, i. split; [|split; [|split; [exact CI|]]].
  - unfold stored, f4, f3, f2, set_dir, set_data. cbn [fs_dir fs_data fs_next].
    destruct (name_dec path path); [|congruence]. split; auto.
    rewrite N.eqb_refl. split; auto.
    destruct (name_dec tmp path); [congruence|]. destruct (name_dec tmp tmp); [|congruence]. split; auto.
    split; [|split; [auto|split; [|auto]]].
    + intros nn Np Nt. destruct (name_dec nn path); [congruence|]. destruct (name_dec nn tmp); [congruence|]. auto.
    + intros m NM. destruct (N.eqb_spec m i); [congruence|]. auto.
  - unfold f4, f3, f2, set_dir, set_data. split; cbn [fs_dir fs_data fs_next].
    + intros n m. destruct (name_dec n path); [intros Y; inversion Y; subst; auto|].
      destruct (name_dec n tmp); [discriminate|]. intros Y. rewrite K2 in Y by auto. apply F1 in Y. lia.
    + assert (U : forall n m, n <> tmp -> fs_dir f1 n = Some m -> m <> i).
      { intros n m Nt Y ->. rewrite K2 in Y by auto. destruct K3 as [K3|(_ & ->)].
        - apply Nt. eapply F2; eauto. - apply F1 in Y. lia. }
      intros n m q. destruct (name_dec n path) as [->|N1], (name_dec m path) as [->|N2]; auto;
      [destruct (name_dec m tmp)|destruct (name_dec n tmp)|destruct (name_dec n tmp), (name_dec m tmp)];
      try discriminate; intros Y Z.
      * inversion Y; subst. exfalso. apply (U m q); auto.
      * inversion Z; subst. exfalso. apply (U n q); auto.
      * rewrite K2 in Y, Z by auto. eapply F2; eauto.
  - cbn [success]. unfold psucc at 1. rewrite E. unfold psucc at 1. cbn [go pr_pc pr_cache pr_l1].
    fold path. fold tmp. rewrite CR.
    unfold psucc at 1. cbn [go pr_pc pr_cache pr_l1].
    unfold psucc at 1. cbn [go pr_pc pr_cache pr_l1]. fold f2.
    unfold psucc at 1. cbn [go pr_pc pr_cache pr_l1].
    assert (L2 : lenN (fs_data f2 i) = 8 + jb_size j k).
    { unfold f2, set_data. cbn [fs_data]. rewrite N.eqb_refl. unfold resize, lenN. rewrite app_length, firstn_length, repeat_length. lia. }
    rewrite (fill_file_whole _ _ _ _ _ L2 SZ). rewrite L2. destruct (N.leb_spec 8 (8 + jb_size j k)) as [_|C8]; [|lia].
    rewrite !go_go. change (cache_bytes f2 (go p (Fill k tmp i)) k) with (cache_bytes f2 p k). rewrite CB. fold X. fold f3.
    unfold psucc at 1. cbn [go pr_pc pr_cache pr_l1].
    unfold psucc at 1. cbn [go pr_pc pr_cache pr_l1].
    unfold psucc at 1. cbn [go pr_pc pr_cache pr_l1].
    assert (D3 : fs_dir f3 tmp = Some i) by exact K1. rewrite D3. fold path. fold f4.
    unfold psucc at 1. cbn [go pr_pc pr_cache pr_l1]. fold path.
    assert (D4 : fs_dir f4 path = Some i) by (unfold f4; apply set_dir_same). rewrite D4.
    unfold psucc at 1. cbn [go pr_pc pr_cache pr_l1].
    assert (X4 : fs_data f4 i = X) by (unfold f4, f3, set_dir, set_data; cbn [fs_data]; rewrite N.eqb_refl; auto).
    rewrite X4. assert (CX : complete X) by (exists (jb_gen j k (cache_bytes f p k) (jb_size j k)); auto).
    assert (XN := complete_not_nil _ CX). assert (XM := complete_magic _ CX).
    destruct X eqn:EX; [congruence|]. rewrite <- EX in *.
    unfold psucc at 1. cbn [go pr_pc pr_cache pr_l1]. rewrite X4. rewrite XM.
    f_equal. destruct p, k; reflexivity.
Qed.

(** Removing old files. *)
Definition remove_all (f : fs) (l : list name) : fs := fold_left (fun f n => set_dir f n None) l f.

Lemma remove_all_dir l : forall f n,
  fs_dir (remove_all f l) n = if in_dec name_dec n l then None else fs_dir f n.
Proof.
  unfold remove_all. induction l as [|m l IH]; intros f n; cbn [fold_left]; auto.
  rewrite IH. destruct (in_dec name_dec n l) as [I|NI], (in_dec name_dec n (m :: l)) as [I'|NI']; auto.
  - destruct NI'. right; auto.
  - destruct I' as [->|I']; [apply set_dir_same|contradiction].
  - apply set_dir_other. intros ->. apply NI'. left; auto.
Qed.
Lemma remove_all_data l : forall f, fs_data (remove_all f l) = fs_data f.
Proof. unfold remove_all. induction l; intros f; cbn [fold_left]; auto. rewrite IHl. auto. Qed.

Lemma remove_all_next l : forall f, fs_next (remove_all f l) = fs_next f.
Proof. unfold remove_all. induction l; intros f; cbn [fold_left]; auto. rewrite IHl. auto. Qed.
Lemma remove_all_links f l : no_links f -> no_links (remove_all f l).
Proof.
  intros (A & B). split.
  - intros n i. rewrite remove_all_dir, remove_all_next. destruct (in_dec _ _ _); [discriminate|apply A].
  - intros n m i. rewrite !remove_all_dir. destruct (in_dec _ _ _), (in_dec _ _ _); try discriminate. apply B.
Qed.

Lemma run_clean r j l : forall f p, pr_pc p = FileModel.Clean l ->
  success (S (length l)) r j f p = (remove_all f l, go p Finished).
Proof.
  induction l as [|n l IH]; intros f p E; cbn [length]; cbn [success]; unfold psucc at 1; rewrite E; auto.
  change (success (S (length l)) r j (set_dir f n None) (go p (FileModel.Clean l)) =
    (remove_all f (n :: l), go p Finished)).
  rewrite IH by reflexivity. rewrite go_go. auto.
Qed.

(** ** A whole run *)

Section Run.
Variables (r : kind -> list N) (j : job) (f : fs).
Notation path := (jb_path j).
Notation tmp := (fun k => temp_name (jb_path j k) (r k)).
Hypothesis disk : jb_disk j = true.
Hypothesis sizes : forall k, jb_size j k mod 4 = 0.
Hypothesis nl : no_links f.
Hypothesis paths : path KCache <> path KL1.
Hypothesis temps : forall k k', path k <> tmp k'.
Hypothesis temps2 : tmp KCache <> tmp KL1.
Hypothesis old_path : forall k, ~ In (path k) (jb_old j).
Hypothesis whole : forall k i, fs_dir f (path k) = Some i -> complete (fs_data f i).

Definition needed (k : kind) : bool := match k with KCache => true | KL1 => jb_l1 j end.
Definition there (k : kind) : bool := match fs_dir f (path k) with Some _ => true | None => false end.

(** What the files should hold afterwards. *)
Definition file_of (k : kind) (cache : list N) : list N :=
  match fs_dir f (path k) with
  | Some i => fs_data f i
  | None => magic_bytes ++ jb_gen j k cache (jb_size j k)
  end.
Definition cache_file : list N := file_of KCache [].
Definition expected (k : kind) : list N :=
  match k with KCache => cache_file | KL1 => file_of KL1 (skipn 8 cache_file) end.

Record good_end (f' : fs) (p' : proc) : Prop := mkEnd {
  ge_pc : pr_pc p' = Finished;
  ge_slot : forall k, needed k = true -> exists i, slot p' k = Some (Mapped i) /\
     fs_dir f' (path k) = Some i /\ fs_data f' i = expected k;
  ge_warm : there KCache = true -> (jb_l1 j = true -> there KL1 = true) -> f' = f;
  ge_old : there KCache = false \/ (jb_l1 j = true /\ there KL1 = false) ->
     forall n, In n (jb_old j) -> fs_dir f' n = None;
  ge_rest : forall n, ~ In n (jb_old j) -> (forall k, n <> path k) -> (forall k, n <> tmp k) ->
     fs_dir f' n = fs_dir f n;
  ge_other_path : forall k, needed k = false -> fs_dir f' (path k) = fs_dir f (path k);
  ge_temp : forall k, fs_dir f' (tmp k) = None \/ fs_dir f' (tmp k) = fs_dir f (tmp k);
  ge_data : forall n i, fs_dir f n = Some i -> fs_dir f' n = Some i -> fs_data f' i = fs_data f i;
  ge_links : no_links f'
}.

Lemma run_success : exists n f' p', success n r j f (start j) = (f', p') /\ good_end f' p'.
Proof.
  assert (ST : pr_pc (start j) = Open KCache true) by (unfold start; rewrite disk; auto).
  destruct (fs_dir f (path KCache)) as [i0|] eqn:D0.
  - assert (S1 := run_load r j f (start j) KCache true i0 ST D0 (whole KCache i0 D0)).
    set (p1 := loaded j (start j) KCache true (Some (Mapped i0))) in *.
    destruct (jb_l1 j) eqn:L1.
    + assert (P1 : p1 = mkProc (Open KL1 true) (Some (Mapped i0)) None)
        by (unfold p1, loaded, start; rewrite L1, disk; reflexivity).
      destruct (fs_dir f (path KL1)) as [i1|] eqn:D1.
      * assert (S2 := run_load r j f p1 KL1 true i1 ltac:(rewrite P1; auto) D1 (whole KL1 i1 D1)).
        exists (3 + 3)%nat, f, (loaded j p1 KL1 true (Some (Mapped i1))).
        rewrite success_add, S1, S2. split; auto.
        assert (P2 : loaded j p1 KL1 true (Some (Mapped i1)) = mkProc Finished (Some (Mapped i0)) (Some (Mapped i1))).
        { rewrite P1. unfold loaded, decide. cbn. rewrite L1. reflexivity. }
        rewrite P2. constructor; auto.
        -- intros [|] _; cbn [slot pr_cache pr_l1 expected]; unfold cache_file, file_of.
           ++ exists i0. rewrite D0. auto. ++ exists i1. rewrite D1. auto.
        -- unfold there. rewrite D0, D1. intros [X|(_ & X)]; discriminate.
      * assert (S2 := run_missing r j f p1 KL1 true ltac:(rewrite P1; auto) D1).
        assert (P2 : loaded j p1 KL1 true None = mkProc (Mkdir KL1) (Some (Mapped i0)) None).
        { rewrite P1. unfold loaded, decide. cbn. rewrite L1. reflexivity. }
        rewrite P2 in S2. set (p2 := mkProc (Mkdir KL1) (Some (Mapped i0)) None) in *.
        destruct (run_store r j f p2 KL1) as (f3 & i & ST3 & NL3 & CI & S3); auto.
        
        { cbn. intros q Q. inversion Q; subst q. split; [apply (proj1 nl) in D0; auto|].
          intros X. apply (temps KCache KL1). eapply (proj2 nl); eauto. }
        destruct ST3 as (A1 & A2 & A3 & A4 & A5 & A6 & A7).
        set (p3 := after j (fill_slot p2 KL1 (Some (Mapped i))) KL1) in *.
        assert (S4 := run_clean r j (jb_old j) f3 p3 eq_refl).
        exists (3 + (1 + (11 + S (length (jb_old j)))))%nat, (remove_all f3 (jb_old j)), (go p3 Finished).
        rewrite success_add, S1, success_add, S2, success_add, S3, S4. split; auto.
        assert (CI0 : i0 <> i) by (apply CI; auto).
        assert (NLR := remove_all_links f3 (jb_old j) NL3).
        assert (R : forall n, fs_dir (remove_all f3 (jb_old j)) n = if in_dec name_dec n (jb_old j) then None else fs_dir f3 n)
          by (intros; apply remove_all_dir).
        constructor; auto.
        -- intros [|] _; cbn [slot pr_cache pr_l1 expected p3 go after p2 fill_slot]; unfold cache_file, file_of; rewrite R, remove_all_data.
           ++ exists i0. split; auto. rewrite D0. destruct (in_dec _ _ _) as [X|_]; [destruct (old_path _ X)|].
              rewrite A4, A6 by auto. auto.
           ++ exists i. split; auto. rewrite D1. destruct (in_dec _ _ _) as [X|_]; [destruct (old_path _ X)|].
              split; auto. rewrite A2. unfold cache_bytes. cbn [p2 pr_cache content]. rewrite D0. auto.
        -- unfold there. rewrite D1. intros _ X. specialize (X L1). discriminate.
        -- intros _ n IN. rewrite R. destruct (in_dec _ _ _); [auto|contradiction].
        -- intros n NO NP NT. rewrite R. destruct (in_dec _ _ _); [contradiction|]. apply A4; auto.
        -- intros [|] X; cbn in X; congruence.
        -- intros k. rewrite R. destruct (in_dec _ _ _) as [X|_]; auto. destruct k; auto; right; apply A4; auto;
             intros X; symmetry in X; apply (temps KL1 KCache); auto.
        -- intros n m X Y. rewrite remove_all_data. apply A6. intros ->.
           rewrite R in Y. destruct (in_dec _ _ _); [discriminate|].
           assert (n = path KL1) by (eapply (proj2 NL3); eauto). subst n. congruence.
    + assert (P1 : p1 = mkProc Finished (Some (Mapped i0)) None)
        by (unfold p1, loaded, decide, start; rewrite L1, disk; reflexivity).
      exists 3%nat, f, p1. split; auto. rewrite P1. constructor; auto.
      * intros [|] X; cbn [needed] in X; [|congruence]. exists i0. cbn. unfold cache_file, file_of. rewrite D0. auto.
      * unfold there. rewrite D0. intros [X|(X & _)]; congruence.
  - assert (S1 := run_missing r j f (start j) KCache true ST D0).
    set (p1 := loaded j (start j) KCache true None) in *.
    destruct (jb_l1 j) eqn:L1.
    + assert (P1 : p1 = mkProc (Open KL1 true) None None)
        by (unfold p1, loaded, start; rewrite L1, disk; reflexivity).
      destruct (fs_dir f (path KL1)) as [i1|] eqn:D1.
      * assert (S2 := run_load r j f p1 KL1 true i1 ltac:(rewrite P1; auto) D1 (whole KL1 i1 D1)).
        assert (P2 : loaded j p1 KL1 true (Some (Mapped i1)) = mkProc (Mkdir KCache) None (Some (Mapped i1)))
          by (rewrite P1; reflexivity).
        rewrite P2 in S2. set (p2 := mkProc (Mkdir KCache) None (Some (Mapped i1))) in *.
        destruct (run_store r j f p2 KCache) as (f3 & i & ST3 & NL3 & CI & S3); auto.
         { cbn. discriminate. }
        destruct ST3 as (A1 & A2 & A3 & A4 & A5 & A6 & A7).
        set (p3 := after j (fill_slot p2 KCache (Some (Mapped i))) KCache) in *.
        assert (PC3 : pr_pc p3 = FileModel.Clean (jb_old j)).
        { unfold p3, after, p2. cbn. rewrite Bool.andb_false_r. auto. }
        assert (S4 := run_clean r j (jb_old j) f3 p3 PC3).
        exists (1 + (3 + (11 + S (length (jb_old j)))))%nat, (remove_all f3 (jb_old j)), (go p3 Finished).
        rewrite success_add, S1, success_add, S2, success_add, S3, S4. split; auto.
        assert (NLR := remove_all_links f3 (jb_old j) NL3).
        assert (R : forall n, fs_dir (remove_all f3 (jb_old j)) n = if in_dec name_dec n (jb_old j) then None else fs_dir f3 n)
          by (intros; apply remove_all_dir).
        assert (NI1 : i1 <> i).
        { intros ->. apply paths. eapply (proj2 NL3); eauto. rewrite A4; auto. }
        constructor; auto.
        -- intros [|] _; cbn [slot pr_cache pr_l1 expected p3 go after p2 fill_slot]; unfold cache_file, file_of; rewrite R, remove_all_data.
           ++ exists i. split; auto. rewrite D0. destruct (in_dec _ _ _) as [X|_]; [destruct (old_path _ X)|]. auto.
           ++ exists i1. split; auto. rewrite D1. destruct (in_dec _ _ _) as [X|_]; [destruct (old_path _ X)|].
              rewrite A4, A6 by auto. auto.
        -- unfold there. rewrite D0. discriminate.
        -- intros _ n IN. rewrite R. destruct (in_dec _ _ _); [auto|contradiction].
        -- intros n NO NP NT. rewrite R. destruct (in_dec _ _ _); [contradiction|]. apply A4; auto.
        -- intros [|] X; cbn in X; congruence.
        -- intros k. rewrite R. destruct (in_dec _ _ _) as [X|_]; auto. destruct k; auto; right; apply A4; auto;
             intros X; symmetry in X; apply (temps KCache KL1); auto.
        -- intros n m X Y. rewrite remove_all_data. apply A6. intros ->.
           rewrite R in Y. destruct (in_dec _ _ _); [discriminate|].
           assert (n = path KCache) by (eapply (proj2 NL3); eauto). subst n. congruence.
      * assert (S2 := run_missing r j f p1 KL1 true ltac:(rewrite P1; auto) D1).
        assert (P2 : loaded j p1 KL1 true None = mkProc (Mkdir KCache) None None) by (rewrite P1; reflexivity).
        rewrite P2 in S2. set (p2 := mkProc (Mkdir KCache) None None) in *.
        destruct (run_store r j f p2 KCache) as (f3 & i & ST3 & NL3 & CI & S3); auto.
         { cbn. discriminate. }
        destruct ST3 as (A1 & A2 & A3 & A4 & A5 & A6 & A7).
        set (p3 := after j (fill_slot p2 KCache (Some (Mapped i))) KCache) in *.
        assert (P3 : p3 = mkProc (Mkdir KL1) (Some (Mapped i)) None).
        { unfold p3, after, p2. cbn. rewrite L1, disk. auto. }
        destruct (run_store r j f3 p3 KL1) as (f4 & i' & ST4 & NL4 & CI' & S4); auto.
        { rewrite P3; auto. } 
        { rewrite P3. cbn. intros q Q. inversion Q; subst q. split; [apply (proj1 NL3) in A1; auto|].
          intros X. apply (temps KCache KL1). eapply (proj2 NL3); eauto. }
        destruct ST4 as (B1 & B2 & B3 & B4 & B5 & B6 & B7).
        set (p4 := after j (fill_slot p3 KL1 (Some (Mapped i'))) KL1) in *.
        assert (S5 := run_clean r j (jb_old j) f4 p4 eq_refl).
        exists (1 + (1 + (11 + (11 + S (length (jb_old j))))))%nat, (remove_all f4 (jb_old j)), (go p4 Finished).
        rewrite success_add, S1, success_add, S2, success_add, S3, success_add, S4, S5. split; auto.
        assert (NI : i <> i') by (apply CI'; rewrite P3; auto).
        assert (NLR := remove_all_links f4 (jb_old j) NL4).
        assert (R : forall n, fs_dir (remove_all f4 (jb_old j)) n = if in_dec name_dec n (jb_old j) then None else fs_dir f4 n)
          by (intros; apply remove_all_dir).
        constructor; auto.
        -- intros [|] _; unfold p4; cbn [slot pr_cache pr_l1 expected go after]; unfold cache_file, file_of; rewrite R, remove_all_data.
           ++ exists i. split; [rewrite P3; auto|]. rewrite D0. destruct (in_dec _ _ _) as [X|_]; [destruct (old_path _ X)|].
              rewrite B4, B6 by auto. auto.
           ++ exists i'. split; [rewrite P3; auto|]. rewrite D1. destruct (in_dec _ _ _) as [X|_]; [destruct (old_path _ X)|].
              split; auto. rewrite B2. unfold cache_bytes. rewrite P3. cbn [pr_cache content]. rewrite D0, A2. auto.
        -- unfold there. rewrite D0. discriminate.
        -- intros _ n IN. rewrite R. destruct (in_dec _ _ _); [auto|contradiction].
        -- intros n NO NP NT. rewrite R. destruct (in_dec _ _ _); [contradiction|]. rewrite B4 by auto. apply A4; auto.
        -- intros [|] X; cbn in X; congruence.
        -- intros k. rewrite R. destruct (in_dec _ _ _) as [X|_]; auto. left. destruct k; auto; rewrite B4; auto;
             intros X; symmetry in X; apply (temps KL1 KCache); auto.
        -- intros n m X Y. rewrite remove_all_data.
           rewrite R in Y. destruct (in_dec _ _ _); [discriminate|].
           assert (m <> i'). { intros ->. assert (n = path KL1) by (eapply (proj2 NL4); eauto). subst n. congruence. }
           rewrite B6 by auto. apply A6. intros ->.
           assert (n = path KCache).
           { eapply (proj2 NL4); eauto. rewrite B4; auto. }
           subst n. congruence.
    + assert (P1 : p1 = mkProc (Mkdir KCache) None None)
        by (unfold p1, loaded, decide, start; rewrite L1, disk; reflexivity).
      destruct (run_store r j f p1 KCache) as (f3 & i & ST3 & NL3 & CI & S3); auto.
      { rewrite P1; auto. }  { rewrite P1. cbn. discriminate. }
      destruct ST3 as (A1 & A2 & A3 & A4 & A5 & A6 & A7).
      set (p3 := after j (fill_slot p1 KCache (Some (Mapped i))) KCache) in *.
      assert (PC3 : p3 = mkProc (FileModel.Clean (jb_old j)) (Some (Mapped i)) None).
      { unfold p3, after. rewrite P1. cbn. rewrite L1. auto. }
      assert (S4 := run_clean r j (jb_old j) f3 p3 ltac:(rewrite PC3; auto)).
      exists (1 + (11 + S (length (jb_old j))))%nat, (remove_all f3 (jb_old j)), (go p3 Finished).
      rewrite success_add, S1, success_add, S3, S4. split; auto.
      assert (NLR := remove_all_links f3 (jb_old j) NL3).
        assert (R : forall n, fs_dir (remove_all f3 (jb_old j)) n = if in_dec name_dec n (jb_old j) then None else fs_dir f3 n)
        by (intros; apply remove_all_dir).
      constructor; auto.
      -- intros [|] X; cbn [needed] in X; [|congruence]. rewrite PC3; cbn [slot pr_cache pr_l1 expected go]; unfold cache_file, file_of; rewrite R, remove_all_data.
         exists i. split; auto. rewrite D0. destruct (in_dec _ _ _) as [Y|_]; [destruct (old_path _ Y)|].
         auto.
      -- unfold there. rewrite D0. discriminate.
      -- intros _ n IN. rewrite R. destruct (in_dec _ _ _); [auto|contradiction].
      -- intros n NO NP NT. rewrite R. destruct (in_dec _ _ _); [contradiction|]. apply A4; auto.
      -- intros [|] X; cbn in X; [congruence|]. rewrite R. destruct (in_dec _ _ _) as [Y|_]; [destruct (old_path _ Y)|].
         apply A4; auto.
      -- intros k. rewrite R. destruct (in_dec _ _ _) as [X|_]; auto. destruct k; auto; right; apply A4; auto;
             intros X; symmetry in X; apply (temps KCache KL1); auto.
      -- intros n m X Y. rewrite remove_all_data. apply A6. intros ->.
         rewrite R in Y. destruct (in_dec _ _ _); [discriminate|].
         assert (n = path KCache) by (eapply (proj2 NL3); eauto). subst n. congruence.
Qed.
End Run.
