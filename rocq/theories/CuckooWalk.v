(** Which defect the walk of the Cuckoo verifiers names. *)
From Coq Require Import NArith ZArith Arith List Permutation Bool Lia ZifyBool ZifyNat ZifyN.
From Verif Require Import Base BaseFacts CryptoModel CryptoSpec CryptoProofs CuckooModel CuckooSpec CuckooCycle CuckooProofs CuckooWalkSpec.
Import ListNotations.
Open Scope N_scope.

Section Walk.
Variables (P : nat) (uvs : list N) (E : list (N * N)).
Hypothesis HP : (0 < P)%nat.
Hypothesis Hlen : length uvs = (2 * P)%nat.
Hypothesis LE : length E = P.
Hypothesis GE : forall b e, (e < P)%nat -> endpoint E b e = gv uvs b e.

Definition ends_with (r : cuckoo_err + N) : Prop :=
  match r with
  | inl ErrPowBranch => exists n b e, reached E n b e /\ (e < P)%nat /\ ~ (n <> 0 /\ b = false /\ e = 0)%nat /\ meets_branch E b e
  | inl ErrPowDeadEnd => exists n b e, reached E n b e /\ (e < P)%nat /\ ~ (n <> 0 /\ b = false /\ e = 0)%nat /\ meets_dead_end E b e
  | inl _ => False
  | inr n => exists m, n = N.of_nat m /\ m <> O /\ reached E m false 0
  end.

Lemma partner_only b e e' : partner P (gv uvs) b e e' -> only_other E b e e'.
Proof.
  intros (A & B & D & F & G). unfold only_other. rewrite LE, !GE by auto. repeat split; auto.
  intros x X N0 Q. rewrite !GE in Q by auto. auto.
Qed.
Lemma branch_meets b e : (e < P)%nat -> branch_at P uvs b e -> meets_branch E b e.
Proof.
  intros He (e1 & e2 & A1 & A2 & A3 & A4 & A5 & A6 & A7). exists e1, e2. rewrite LE, !GE by auto. repeat split; auto.
Qed.
Lemma dead_meets b e : (e < P)%nat -> dead_at P uvs b e -> meets_dead_end E b e.
Proof. intros He D x X N0. rewrite LE in X. rewrite !GE by auto. apply D; auto. Qed.

Lemma walk_ends_loop ff : (P <= ff)%nat -> forall r b e l fuel, path P (gv uvs) b (e :: l) -> reached E (length l) b e ->
  (length l + r = P)%nat -> (r <= fuel)%nat ->
  exists res, loop_fuel fuel (walk_body P uvs ff) (ix e b, lenN l) = Done res /\ ends_with res.
Proof.
  intros Hff. induction r as [|r IH]; intros b e l fuel Hp Hw Hr Hf.
  { pose proof (path_length _ _ _ _ Hp) as Q. cbn in Q. lia. }
  assert (He : (e < P)%nat). { pose proof (path_lt _ _ _ _ Hp) as F. inversion F; auto. }
  assert (NS : ~ (length l <> 0 /\ b = false /\ e = 0)%nat).
  { intros (A & _ & ->). pose proof (path_nodup _ _ _ _ Hp) as ND.
    pose proof (path_at0 _ _ _ _ Hp) as Q. unfold at_ in Q. cbn [rev] in Q.
    inversion ND as [|x y NI _]; subst. apply NI.
    rewrite app_nth1 in Q by (rewrite rev_length; lia). apply in_rev. rewrite <- Q at 1. apply nth_In. rewrite rev_length. lia. }
  destruct fuel as [|fuel]; [lia|]. cbn [loop_fuel walk_body].
  destruct (find_match_spec P uvs HP Hlen ff b e He Hff) as (res & -> & Hres). cbn [bind].
  destruct res as [err|j].
  - destruct Hres as [-> Hb]. cbn [bind]. eexists; split; [reflexivity|]. cbn. exists (length l), b, e. auto using branch_meets.
  - destruct Hres as [[-> Hd]|(e' & -> & Hpart)].
    + rewrite N.eqb_refl. cbn [bind]. eexists; split; [reflexivity|]. cbn. exists (length l), b, e. auto using dead_meets.
    + assert (ix e' b =? ix e b = false) as ->.
      { apply N.eqb_neq. intros Q. apply ix_inj in Q. destruct Q as [-> _]. destruct Hpart as (_ & _ & Q & _). auto. }
      cbv zeta. rewrite ix_xor.
      assert (RS : reached E (S (length l)) (negb b) e') by (apply reached_step with e; auto using partner_only).
      destruct (in_dec Nat.eq_dec e' (e :: l)) as [Hin|Hnin].
      * destruct (path_next _ _ _ _ _ _ Hp Hpart Hin) as [-> ->]. cbn [negb] in *.
        change (ix 0 false =? 0) with true. cbn [bind]. eexists; split; [reflexivity|].
        exists (S (length l)). split; [unfold lenN; lia|]. split; [lia|exact RS].
      * destruct (N.eqb_spec (ix e' (negb b)) 0) as [Q0|Q0].
        -- apply ix_zero in Q0. destruct Q0 as [-> _]. exfalso. apply Hnin.
           apply in_rev. pose proof (path_at0 _ _ _ _ Hp) as Q. unfold at_ in Q. rewrite <- Q at 1.
           apply nth_In. rewrite rev_length. cbn. lia.
        -- cbn [bind]. replace (lenN l + 1) with (lenN (e :: l)) by (rewrite lenN_cons; lia).
           apply IH; try (cbn [length]; lia); [constructor; auto|exact RS].
Qed.
Lemma walk_ends fuel : (P <= fuel)%nat -> exists res, walk fuel uvs (N.of_nat P) = Done res /\ ends_with res.
Proof.
  intros Hf. unfold walk. fold (walk_body P uvs fuel). change (0, 0) with (ix 0 false, lenN (@nil nat)).
  apply (walk_ends_loop fuel Hf P); try (cbn; lia); constructor. exact HP.
Qed.
End Walk.

(** The walk is determined. *)
Lemma reached_det E n b e : reached E n b e -> forall b' e', reached E n b' e' -> b = b' /\ e = e'.
Proof.
  induction 1 as [|n b e e1 R IH NS O]; intros b' e' R'; inversion R'; subst; [auto|].
  match goal with H : reached E n ?x ?y |- _ => destruct (IH _ _ H) as (<- & <-) end. split; [reflexivity|].
  match goal with H : only_other E b e e' |- _ => destruct H as (A1 & A2 & A3 & A4) end.
  destruct O as (B1 & B2 & B3 & B4). auto.
Qed.
(** Nothing follows a place without a step. *)
Definition final E n b e : Prop := (n <> 0 /\ b = false /\ e = 0)%nat \/ forall e', ~ only_other E b e e'.
Lemma reached_before E n b e : reached E n b e -> forall m, (m < n)%nat -> exists b' e', reached E m b' e' /\ ~ final E m b' e'.
Proof.
  induction 1 as [|n b e e1 R IH NS O]; intros m M; [lia|]. destruct (Nat.eq_dec m n) as [->|]; [|apply IH; lia].
  exists b, e. split; [exact R|]. intros [Q|Q]; [auto|]. elim (Q e1 O).
Qed.
Lemma final_unique E n b e n' b' e' : reached E n b e -> final E n b e -> reached E n' b' e' -> final E n' b' e' ->
  n = n' /\ b = b' /\ e = e'.
Proof.
  intros R F R' F'. destruct (lt_eq_lt_dec n n') as [[Q|Q]|Q].
  - destruct (reached_before _ _ _ _ R' n Q) as (x & y & X & NX). destruct (reached_det _ _ _ _ R _ _ X) as (<- & <-). contradiction.
  - subst n'. split; [reflexivity|]. apply (reached_det _ _ _ _ R _ _ R').
  - destruct (reached_before _ _ _ _ R n' Q) as (x & y & X & NX). destruct (reached_det _ _ _ _ R' _ _ X) as (<- & <-). contradiction.
Qed.
Lemma branch_final E n b e : meets_branch E b e -> final E n b e.
Proof.
  intros (x & y & A1 & A2 & A3 & A4 & A5 & A6 & A7). right. intros e' (_ & _ & _ & U). apply A5. rewrite (U x), (U y); auto.
Qed.
Lemma dead_final E n b e : meets_dead_end E b e -> final E n b e.
Proof. intros D. right. intros e' (A1 & A2 & A3 & _). apply (D e'); auto. Qed.
Lemma branch_not_dead E b e : meets_branch E b e -> ~ meets_dead_end E b e.
Proof. intros (x & y & A1 & A2 & A3 & A4 & A5 & A6 & A7) D. apply (D x); auto. Qed.

(** The verdict on edges within the mask whose endpoints cancel. *)
Definition walk_verdict0 (E : list (N * N)) (r : bool * option cuckoo_err) : Prop :=
  let stuck n b e := (reached E n b e /\ (e < length E)%nat /\ ~ (n <> 0 /\ b = false /\ e = 0)%nat) in
  (r = (false, Some ErrPowBranch) <-> exists n b e, stuck n b e /\ meets_branch E b e) /\
  (r = (false, Some ErrPowDeadEnd) <-> exists n b e, stuck n b e /\ meets_dead_end E b e) /\
  (r = (false, Some ErrPowShortCycle) <-> exists n, n <> 0%nat /\ n <> length E /\ reached E n false 0) /\
  (r = (true, None) <-> reached E (length E) false 0).

Lemma finish_walk fuel edges U V uvs x0 x1 :
  let P := length edges in
  (0 < P)%nat -> (P <= fuel)%nat -> length uvs = (2 * P)%nat ->
  (forall e, (e < P)%nat -> gv uvs false e = U (nth e edges 0) /\ gv uvs true e = V (nth e edges 0)) ->
  x0 = fold_left N.lxor (map U edges) 0 -> x1 = fold_left N.lxor (map V edges) 0 ->
  ~ unmatched (edge_pairs U V edges) ->
  exists r, finish fuel (N.of_nat P) (inr (uvs, x0, x1)) = Done r /\ walk_verdict0 (edge_pairs U V edges) r.
Proof.
  intros P HP Hf Hl Hg -> -> NU. set (E := edge_pairs U V edges) in *.
  assert (LE : length E = P) by (unfold E, edge_pairs; rewrite map_length; auto).
  assert (M1 : map fst E = map U edges) by (unfold E, edge_pairs; rewrite map_map; auto).
  assert (M2 : map snd E = map V edges) by (unfold E, edge_pairs; rewrite map_map; auto).
  assert (Z : N.lor (fold_left N.lxor (map U edges) 0) (fold_left N.lxor (map V edges) 0) = 0).
  { unfold unmatched in NU. rewrite M1, M2 in NU. apply N.lor_eq_0_iff.
    destruct (N.eq_dec (fold_left N.lxor (map U edges) 0) 0), (N.eq_dec (fold_left N.lxor (map V edges) 0) 0); tauto. }
  assert (GE : forall b e, (e < P)%nat -> endpoint E b e = gv uvs b e) by (intros; apply endpoint_pairs; auto).
  unfold finish. rewrite Z. cbn [N.eqb negb].
  destruct (walk_ends P uvs E HP Hl LE GE fuel Hf) as (res & -> & Hres). cbn [bind].
  clearbody E. clear Hg M1 M2 Z GE NU Hl.
  unfold walk_verdict0. rewrite LE.
  assert (RF : forall n, n <> 0%nat -> final E n false 0) by (intros n Hn; left; auto).
  destruct res as [err|n].
  - destruct err; cbn in Hres; try contradiction; destruct Hres as (n & b & e & R & L & NS & D).
    + pose proof (branch_final E n b e D) as F. eexists; split; [reflexivity|]. split; [|split; [|split]].
      * split; [intros _; exists n, b, e; auto|reflexivity].
      * split; [discriminate|]. intros (n' & b' & e' & (R' & _ & _) & D').
        destruct (final_unique _ _ _ _ _ _ _ R F R' (dead_final _ _ _ _ D')) as (<- & <- & <-). elim (branch_not_dead _ _ _ D D').
      * split; [discriminate|]. intros (n' & N1 & _ & R').
        destruct (final_unique _ _ _ _ _ _ _ R F R' (RF _ N1)) as (-> & -> & ->). elim NS. auto.
      * split; [discriminate|]. intros R'.
        destruct (final_unique _ _ _ _ _ _ _ R F R' (RF P ltac:(lia))) as (-> & -> & ->). elim NS. split; [lia|auto].
    + pose proof (dead_final E n b e D) as F. eexists; split; [reflexivity|]. split; [|split; [|split]].
      * split; [discriminate|]. intros (n' & b' & e' & (R' & _ & _) & D').
        destruct (final_unique _ _ _ _ _ _ _ R F R' (branch_final _ _ _ _ D')) as (<- & <- & <-). elim (branch_not_dead _ _ _ D' D).
      * split; [intros _; exists n, b, e; auto|reflexivity].
      * split; [discriminate|]. intros (n' & N1 & _ & R').
        destruct (final_unique _ _ _ _ _ _ _ R F R' (RF _ N1)) as (-> & -> & ->). elim NS. auto.
      * split; [discriminate|]. intros R'.
        destruct (final_unique _ _ _ _ _ _ _ R F R' (RF P ltac:(lia))) as (-> & -> & ->). elim NS. split; [lia|auto].
  - destruct Hres as (m & -> & M0 & R). pose proof (RF m M0) as F.
    assert (NB : ~ exists n b e, (reached E n b e /\ (e < P)%nat /\ ~ (n <> 0 /\ b = false /\ e = 0)%nat) /\ meets_branch E b e).
    { intros (n' & b' & e' & (R' & _ & NS) & D').
      destruct (final_unique _ _ _ _ _ _ _ R F R' (branch_final _ _ _ _ D')) as (<- & <- & <-). apply NS. auto. }
    assert (ND : ~ exists n b e, (reached E n b e /\ (e < P)%nat /\ ~ (n <> 0 /\ b = false /\ e = 0)%nat) /\ meets_dead_end E b e).
    { intros (n' & b' & e' & (R' & _ & NS) & D').
      destruct (final_unique _ _ _ _ _ _ _ R F R' (dead_final _ _ _ _ D')) as (<- & <- & <-). apply NS. auto. }
    destruct (N.eqb_spec (N.of_nat m) (N.of_nat P)) as [Q|Q]; cbn [negb]; eexists; (split; [reflexivity|]).
    + assert (m = P) as -> by lia. split; [|split; [|split]].
      * split; [discriminate|contradiction].
      * split; [discriminate|contradiction].
      * split; [discriminate|]. intros (n' & N1 & N2 & R').
        destruct (final_unique _ _ _ _ _ _ _ R F R' (RF _ N1)) as (<- & _). contradiction.
      * split; [intros _; exact R|reflexivity].
    + split; [|split; [|split]].
      * split; [discriminate|contradiction].
      * split; [discriminate|contradiction].
      * split; [|reflexivity]. intros _. exists m. split; [exact M0|]. split; [lia|exact R].
      * split; [discriminate|]. intros R'. destruct (final_unique _ _ _ _ _ _ _ R F R' (RF P ltac:(lia))) as (-> & _). lia.
Qed.

Lemma reached_lt E n b e : (0 < length E)%nat -> reached E n b e -> (e < length E)%nat.
Proof. intros L R. inversion R as [|? ? ? ? ? ? O]; subst; [exact L|]. apply O. Qed.
(** A place the walk comes back to is no defect. *)
Lemma reached_defect E n b e : reached E n b e -> (forall m, final E m b e) -> ~ (n <> 0 /\ b = false /\ e = 0)%nat.
Proof.
  intros R F (N0 & -> & ->). destruct (reached_before _ _ _ _ R 0 ltac:(lia)) as (x & y & X & NX).
  inversion X; subst. apply NX. apply F.
Qed.
Definition walk_verdict (E : list (N * N)) (r : bool * option cuckoo_err) : Prop :=
  (r = (false, Some ErrPowBranch) <-> exists n side e, reached E n side e /\ meets_branch E side e) /\
  (r = (false, Some ErrPowDeadEnd) <-> exists n side e, reached E n side e /\ meets_dead_end E side e) /\
  (r = (false, Some ErrPowShortCycle) <-> exists n, n <> 0%nat /\ n <> length E /\ reached E n false 0) /\
  (r = (true, None) <-> reached E (length E) false 0).
Lemma walk_verdict_simple E r : (0 < length E)%nat -> walk_verdict0 E r -> walk_verdict E r.
Proof.
  intros L (V1 & V2 & V3 & V4). split; [|split; [|split; assumption]].
  - rewrite V1. split; [intros (n & b & e & (R & _) & D); eauto|]. intros (n & b & e & R & D). exists n, b, e.
    split; [|exact D]. split; [exact R|]. split; [apply (reached_lt E n b e L R)|].
    apply (reached_defect E n b e R). intros m. apply branch_final, D.
  - rewrite V2. split; [intros (n & b & e & (R & _) & D); eauto|]. intros (n & b & e & R & D). exists n, b, e.
    split; [|exact D]. split; [exact R|]. split; [apply (reached_lt E n b e L R)|].
    apply (reached_defect E n b e R). intros m. apply dead_final, D.
Qed.

Lemma Verify_walk blake fuel c header sols U V :
  length (blake header) = 32%nat -> (0 < c_proofSize c)%Z -> (Z.to_nat (c_proofSize c) <= fuel)%nat ->
  c_variant c = Cuckoo \/ c_variant c = Cuckaroo ->
  cuckoo_endpoints c (untup (digest_key (blake header))) U V sols ->
  Z.of_nat (length sols) = c_proofSize c -> Forall (fun e => e <= c_edgeMask c) sols ->
  ~ unmatched (edge_pairs U V sols) ->
  exists r, Verify blake fuel c header sols = Done r /\ walk_verdict (edge_pairs U V sols) r.
Proof.
  intros Hb HP Hf Hv HE L HF NU. rewrite Verify_keys by auto.
  set (keys := untup (digest_key (blake header))) in *.
  destruct (Z.eqb_spec (Z.of_N (lenN sols)) (c_proofSize c)) as [_|L']; cbn [negb].
  2:{ unfold lenN in L'. lia. }
  assert (HPn : Z.to_N (c_proofSize c) = N.of_nat (length sols)) by lia.
  assert (exists f, (match c_variant c with Cuckoo => cuckoo fuel c keys sols | Cuckaroo => cuckaroo fuel c keys sols | _ => Done (false, Some ErrUnsupported) end)
     = finish fuel (N.of_nat (length sols)) f /\ fill_post c sols U V f) as (f & -> & Hpost).
  { unfold cuckoo, cuckaroo. rewrite HPn. destruct Hv as [Hv|Hv]; rewrite Hv.
    - destruct (cuckoo_fill_post c keys sols U V Hv HE) as (f & -> & ?). exists f. auto.
    - destruct (cuckaroo_fill_post c keys sols U V Hv HE) as (f & -> & ?). exists f. auto. }
  destruct f as [err|[[uvs x0] x1]].
  - destruct Hpost as [_ Hn]. contradiction.
  - destruct Hpost as (_ & Hl & Hg & E0 & E1). destruct (finish_walk fuel sols U V uvs x0 x1) as (r & A & B); auto; try lia.
    exists r. split; [exact A|]. apply walk_verdict_simple; [|exact B]. unfold edge_pairs. rewrite map_length. lia.
Qed.
