(** Proofs about PowerModel.v. *)
From Coq Require Import NArith ZArith List Bool Lia Arith ZifyBool ZifyN ZifyNat.
From Verif Require Import Base FileModel FileProofs PowerModel.
Import ListNotations.
Open Scope N_scope.

Lemma resize_same x : resize x (N.of_nat (length x)) = x.
Proof. unfold resize. rewrite Nat2N.id, firstn_all, Nat.sub_diag. apply app_nil_r. Qed.
Lemma skipn_sum {A} a b (x : list A) : skipn (a + b) x = skipn b (skipn a x).
Proof. revert x. induction a as [|a IH]; intros [|y x]; cbn; auto. destruct b; reflexivity. Qed.
Lemma overlay_same page p x : overlay page p x x = x.
Proof.
  unfold overlay. rewrite resize_same.
  rewrite <- (firstn_skipn (page * p) x) at 4. f_equal.
  rewrite <- (firstn_skipn page (skipn (page * p) x)) at 2. f_equal.
  apply skipn_sum.
Qed.

Section Inv.
Variable final : name -> Prop.
Variable okc : name -> list N -> Prop.
Variable okm : job -> kind -> list N -> Prop.
Variable page : nat.
Variable jobs : job -> Prop.
Hypothesis JOBS : forall j, jobs j -> job_ok final okc okm j.

Record minv (m : machine) : Prop := mkMinv {
  mi_now : FileProofs.inv final okc okm (mc_now m);
  mi_synced : forall n i, final n -> fs_dir (st_fs (mc_now m)) n = Some i ->
    fs_data (mc_disk m) i = fs_data (st_fs (mc_now m)) i;
  mi_disk : forall n i, final n -> fs_dir (mc_disk m) n = Some i ->
    i < fs_next (st_fs (mc_now m)) /\ okc n (fs_data (st_fs (mc_now m)) i) /\
    (forall n', fs_dir (st_fs (mc_now m)) n' = Some i -> final n') /\
    fs_data (mc_disk m) i = fs_data (st_fs (mc_now m)) i;
  mi_next : forall n i, fs_dir (mc_disk m) n = Some i -> i < fs_next (mc_disk m);
  mi_inj : forall n n' i, fs_dir (mc_disk m) n = Some i -> fs_dir (mc_disk m) n' = Some i -> n = n'
}.

Lemma initial_minv f js : fs_ok final okc f -> Forall jobs js -> minv (mkM (initial f js) f).
Proof.
  intros F J. assert (F0 := F). destruct F as (F1 & F2 & F3). constructor; cbn [mc_now mc_disk initial st_fs]; auto.
  - apply initial_inv; auto. eapply Forall_impl; [|exact J]. exact JOBS.
  - intros n i FN D. split; [eauto|]. split; [eauto|]. split; auto.
    intros n' D'. rewrite (F2 _ _ _ D' D). exact FN.
Qed.

Lemma disk_ok m : minv m -> fs_ok final okc (mc_disk m).
Proof.
  intros [I1 I2 I3 I4 I5]. split; auto. split; auto.
  intros n i FN D. destruct (I3 n i FN D) as (_ & A & _ & E). rewrite E. exact A.
Qed.

Lemma fstep_keeps s s' : FileProofs.inv final okc okm s -> fstep s s' -> exists tmp, keeps final (st_fs s) (st_fs s') tmp.
Proof.
  intros I ST. destruct ST as [f f' ps t j p p' H ST|f ps t j p H].
  - destruct (pstep_ok final okc okm _ _ _ _ _ (inv_fs _ _ _ _ I) (in_jobs _ _ _ _ I _ _ _ H) (in_procs _ _ _ _ I _ _ _ H) ST)
      as (tmp & _ & K & _). eauto.
  - exists None. apply keeps_refl.
Qed.

Lemma mstep_inv m m' : minv m -> mstep page true final jobs m m' -> minv m'.
Proof.
  intros I ST. assert (DK := disk_ok _ I). destruct I as [I1 I2 I3 I4 I5].
  destruct ST as [s s' k ST DT SY|s k i p|s k|s k js J]; cbn [mc_now mc_disk st_fs] in *.
  - destruct (fstep_keeps s s' I1 ST) as (tmp & K1 & K2 & K3 & K4).
    assert (I1' := fstep_inv _ _ _ _ _ I1 ST DT).
    constructor; cbn [mc_now mc_disk]; auto.
    + intros n i FN D. destruct (fs_dir (st_fs s) n) as [i0|] eqn:D0.
      * destruct (N.eq_dec i0 i) as [->|NE]; [|apply (SY eq_refl n i FN D); congruence].
        rewrite (I2 n i FN D0). destruct (K4 i) as [->|[(m & Em & Dm & Fm)|L]]; auto.
        -- rewrite (in_inj _ _ _ _ I1 _ _ _ Dm D0) in Fm. contradiction.
        -- apply (in_next _ _ _ _ I1) in D0. lia.
      * apply (SY eq_refl n i FN D). congruence.
    + intros n i FN D. destruct (I3 n i FN D) as (A & B & C & E).
      assert (X : fs_data (st_fs s') i = fs_data (st_fs s) i).
      { destruct (K4 i) as [X|[(m & Em & Dm & Fm)|L]]; auto; [|lia]. apply C in Dm. contradiction. }
      split; [lia|]. rewrite X. split; auto. split; auto.
      intros n' Dn. destruct (fs_dir (st_fs s) n') as [i0|] eqn:D0.
      * destruct (N.eq_dec i0 i) as [->|NE]; auto.
        destruct (K2 n' i Dn) as [G|(_ & L)]; auto; [congruence|lia].
      * destruct (K2 n' i Dn) as [G|(_ & L)]; auto; [congruence|lia].
  - assert (X : forall i', fs_data k i' = fs_data (st_fs s) i' ->
      (if i' =? i then overlay page p (fs_data k i) (fs_data (st_fs s) i) else fs_data k i') = fs_data (st_fs s) i').
    { intros i' E. destruct (N.eqb_spec i' i) as [->|]; auto. rewrite E. apply overlay_same. }
    constructor; cbn [mc_now mc_disk set_data fs_dir fs_data fs_next]; auto.
    + intros n i' FN D. apply X. eauto.
    + intros n i' FN D. destruct (I3 n i' FN D) as (A & B & C & E). auto.
  - constructor; cbn [mc_now mc_disk fs_dir fs_data fs_next]; auto; try apply I1.
    intros n i FN D. split; [eapply (in_next _ _ _ _ I1); eauto|]. split; [eapply (in_final _ _ _ _ I1); eauto|]. split; [|eauto].
    intros n' D'. rewrite (in_inj _ _ _ _ I1 _ _ _ D' D). exact FN.
  - apply initial_minv; auto.
Qed.

Lemma mrun_inv f m : fs_ok final okc f -> mrun page true final jobs f m -> minv m.
Proof.
  intros F R. induction R as [js J|m m' R IH ST]; [apply initial_minv; auto|eapply mstep_inv; eauto].
Qed.
End Inv.
