(** Proofs about MemHeavy.v. *)
From Coq Require Import NArith ZArith Arith List Bool Lia ZifyBool ZifyN ZifyNat.
From Verif Require Import Base BaseFacts CryptoModel HeavyModel MemModel MemProofs MemAppend MemProgpowProofs MemHeavy.
Import ListNotations.
Open Scope N_scope.
Ltac Zify.zify_post_hook ::= Z.div_mod_to_equations.

Lemma put64_cut_model (l : list N) a e o v {B} (g : list N -> outcome B) : e = a + 8 ->
  bind (slice l a e) (fun t => bind (put_uint64 o t v) (fun t' => bind (copy_at l a t') g)) = bind (put_at l a (enc o 8 v)) g.
Proof.
  intros ->. unfold slice, put_at. rewrite enc_lenN. replace (a <=? a + 8) with true by lia. cbn [andb]. change (N.of_nat 8) with 8.
  destruct (N.leb_spec (a + 8) (lenN l)) as [H|H]; [|reflexivity]. cbn [bind].
  rewrite put64_model_0. unfold put_at. rewrite enc_lenN.
  assert (L : lenN (firstn (N.to_nat (a + 8 - a)) (skipn (N.to_nat a) l)) = 8) by (unfold lenN in *; rewrite firstn_length, skipn_length; lia).
  rewrite L. cbn [N.leb N.add N.compare Pos.compare Pos.compare_cont bind]. change (0 + N.of_nat 8 <=? 8) with true. cbn [bind].
  rewrite overwrite_all by (rewrite enc_length; unfold lenN in L; lia). unfold copy_at. replace (a <=? lenN l) with true by lia. reflexivity.
Qed.
Lemma sim_put64_cut me s m n l a e o v : has m s l -> e = a + 8 -> e <= lenN l ->
  sim me (t <~ cut_at s a e ;; put64 o t v) m n (put_at l a (enc o 8 v)) (wrote m n s l).
Proof.
  intros H -> B. pose proof H as (L & C & D & E). unfold cut_at. replace ((a <=? a + 8) && (a + 8 <=? s_cap s)) with true by lia. cbn [pbind].
  unfold put64. cbn [s_len s_loc s_off]. fold (enc o 8 v). apply sim_put; [exact H|]. rewrite enc_lenN. lia.
Qed.
Lemma sim_copy_cut me s src m n l e x : has m s l -> has m src x -> lenN x = e -> e <= lenN l ->
  sim me (t <~ cut_at s 0 e ;; copy t src) m n (Done (overwrite l 0 x)) (wrote m n s l).
Proof.
  intros H HX <- B. pose proof H as (L & C & D & E). pose proof HX as (LX & CX & DX & EX).
  unfold cut_at. replace ((0 <=? lenN x) && (lenN x <=? s_cap s)) with true by lia. cbn [pbind].
  unfold copy. cbn [s_len s_loc s_off]. replace (N.min (lenN x - 0) (s_len src)) with (s_len src) by lia. rewrite N.add_0_r.
  unfold sim. rewrite run_bind. fold (read src). rewrite (run_read _ _ _ _ _ HX).
  destruct (run_stores me s m n l 0 x H) as (m' & R & HV & O); [lia|]. rewrite N.add_0_r in R. rewrite R.
  split; [exact HV|]. split; [|split; [exact O|reflexivity]]. unfold lenN in *. rewrite overwrite_length by lia. reflexivity.
Qed.

Section Heavy.
Variables (submul : float64 -> float64 -> float64 -> float64) (cshake : list N -> list N -> list N) (fuel : nat).

Lemma safe_heavyHash me hash timestamp nonce : readable me hash ->
  safe me (p_heavyHash submul cshake fuel hash timestamp nonce) (writable me).
Proof.
  intros R. unfold p_heavyHash.
  do 4 (eapply safe_bind; [safe_go|]; intros ? ?; eapply safe_bind; [safe_go|]; intros ? ?).
  eapply safe_bind; [apply safe_pure|]. intros mat _.
  eapply safe_bind with (Q := writable me); [unfold p_buildHeader; safe_go|]. intros hd W.
  eapply safe_bind; [apply safe_hash_new, writable_readable; exact W|]. intros hd2 W2.
  eapply safe_bind with (Q := fun _ => True).
  { unfold p_vector. apply (safe_for_n _ _ _ _ (fun _ => True)); [exact I|]. intros j v _. eapply safe_bind; [apply safe_get, writable_readable; exact W2|].
    intros b _. eapply safe_bind; [apply safe_pure|]. intros v' _. eapply safe_true. apply safe_pure. }
  intros v _. eapply safe_bind; [apply safe_pure|]. intros p _.
  eapply safe_bind with (Q := writable me).
  { unfold p_mixDigest. eapply safe_bind; [apply safe_make|]. intros d WD. eapply safe_bind with (Q := fun _ => True); [|intros; exact WD].
    apply (safe_for_n _ _ _ _ (fun _ => True)); [exact I|]. intros j [] _. eapply safe_bind; [apply safe_get, writable_readable; exact W2|].
    intros b _. do 2 (eapply safe_bind; [apply safe_pure|]; intros ? _). apply safe_set. exact WD. }
  intros d WD. eapply safe_bind; [apply safe_hash_new, writable_readable; exact WD|]. intros d2 WD2.
  eapply safe_bind; [unfold p_reverse; safe_go|]. intros _ _. exact WD2.
Qed.

Lemma sim_buildHeader me hash h timestamp nonce m n : has m hash h -> lenN h = 32 -> owner (s_loc hash) <> me ->
  sim me (p_buildHeader hash timestamp nonce) m n (buildHeader h timestamp nonce) (fun s x m' n' =>
    has m' s x /\ new me n n' s /\ kept me n m m' /\ n <= n').
Proof.
  intros H LH OW. unfold p_buildHeader, buildHeader. cbv zeta. apply sim_make. intros hd m1 E1 N1 H1 K1.
  set (ts := Z.to_N (timestamp mod 2 ^ 64)).
  apply sim_assoc. eapply sim_left; [apply sim_copy_cut; [exact H1|frame|exact LH|rewrite zeros_lenN; lia]|].
  intros [] m2 n2 (H2 & L2 & O2 & ->). change (N.to_nat 0) with 0%nat in *.
  rewrite zeros_lenN in L2.
  rewrite put64_cut_model by lia. apply sim_assoc. eapply sim_bind; [apply sim_put64_cut; [exact H2|lia|lia]|].
  intros [] x3 m3 n3 (H3 & L3 & O3 & ->).
  rewrite put64_cut_model by lia. apply sim_assoc. eapply sim_bind; [apply sim_put64_cut; [exact H3|lia|lia]|].
  intros [] x4 m4 n4 (H4 & L4 & O4 & ->). apply sim_ret. split; [exact H4|]. split; [exact N1|]. split; [|lia].
  intros l OL. rewrite O4, O3, O2 by apart. apply K1. exact OL.
Qed.
Lemma sim_vector me header x m n : has m header x -> sim me (p_vector header) m n (vector x) (same m n).
Proof.
  intros H. unfold p_vector, vector, same.
  apply (sim_for_n me _ _ _ _ _ m n (fun _ v v' m' n' => v = v' /\ m' = m /\ n' = n)); [auto|].
  intros j v ? ? ? Hj (<- & -> & ->). sget. apply sim_pure. intros v1 _. unfold sim.
  destruct (upd v1 _ _); cbn [pure run]; auto.
Qed.
Lemma sim_mixDigest me header x p m n : has m header x -> old me n header ->
  sim me (p_mixDigest header p) m n (mixDigest x p) (fun s y m' n' => has m' s y /\ new me n n' s /\ kept me n m m' /\ n <= n').
Proof.
  intros H O. unfold p_mixDigest, mixDigest. apply sim_make. intros d m1 E1 N1 H1 K1. rewrite <- (bind_done (for_n _ _ _)).
  eapply sim_bind.
  { apply (sim_for_n me _ _ _ tt _ m1 (n + 1) (fun _ (_ : unit) y m' n' => has m' d y /\ kept me n m m' /\ n' = n + 1)); [auto|].
    intros j [] y m2 n2 Hj (H2 & K2 & ->). sget. do 2 (apply sim_pure; intros ? _).
    eapply sim_weaken; [apply sim_set; exact H2|]. intros [] y3 m3 n3 (H3 & L3 & O3 & ->). split; [exact H3|]. split; [|reflexivity].
    intros l OL. rewrite O3 by apart. apply K2. exact OL. }
  intros [] y m2 n2 (H2 & K2 & ->). apply sim_ret. split; [exact H2|]. split; [exact N1|]. split; [exact K2|lia].
Qed.
Lemma sim_reverse me d x m n : has m d x -> sim me (p_reverse d) m n (reverse x) (wrote m n d x).
Proof.
  intros H. pose proof H as (L & _). unfold p_reverse, reverse, wrote. rewrite L.
  apply (sim_for_n me _ _ _ tt _ m n (fun _ (_ : unit) y m' n' => has m' d y /\ lenN y = lenN x /\ others m m' d /\ n' = n)).
  - split; [exact H|]. split; [reflexivity|]. split; [apply others_refl|reflexivity].
  - intros j [] y m1 n1 Hj (H1 & L1 & O1 & ->). cbv zeta. rewrite L1. sget. sget.
    eapply sim_bind; [apply sim_set; exact H1|]. intros [] y2 m2 n2 (H2 & L2 & O2 & ->).
    eapply sim_weaken; [apply sim_set; exact H2|]. intros [] y3 m3 n3 (H3 & L3 & O3 & ->).
    split; [exact H3|]. split; [lia|]. split; [|reflexivity]. eapply others_trans; [exact O1|]. eapply others_trans; [exact O2|exact O3].
Qed.
Lemma sim_heavyHash me hash h timestamp nonce m n : (forall x y, lenN (cshake x y) = 32) ->
  has m hash h -> lenN h = 32 -> owner (s_loc hash) <> me ->
  sim me (p_heavyHash submul cshake fuel hash timestamp nonce) m n (heavyHash submul cshake fuel h timestamp nonce) (fun s x m' n' =>
    has m' s x /\ owner (s_loc s) = me).
Proof.
  intros HC H LH OW. unfold p_heavyHash, heavyHash.
  do 4 (eapply sim_bind; [apply sim_cut_at; [exact H|left; lia]|]; intros ? ? ? ? (HB & _ & _ & -> & ->);
        eapply sim_bind; [apply sim_get64_le; exact HB|]; intros ? ? ? ? (-> & -> & ->); clear HB).
  apply sim_pure. intros mat _.
  eapply sim_bind; [apply sim_buildHeader; [exact H|exact LH|exact OW]|]. intros hd hx m1 n1 (H1 & N1 & K1 & LE1). cbv zeta.
  eapply sim_left; [apply sim_hash_new; [exact H1|apply HC]|]. intros hd2 m2 n2 (H2 & N2 & _ & _ & K2 & LE2).
  eapply sim_bind; [apply sim_vector; exact H2|]. intros v ? ? ? (<- & -> & ->).
  apply sim_pure. intros p _.
  eapply sim_bind; [apply sim_mixDigest; [exact H2|locs]|]. intros d dx m3 n3 (H3 & N3 & K3 & LE3).
  eapply sim_left; [apply sim_hash_new; [exact H3|apply HC]|]. intros d2 m4 n4 (H4 & N4 & _ & _ & K4 & LE4). rewrite <- (bind_done (reverse _)).
  eapply sim_bind; [apply sim_reverse; exact H4|]. intros [] y m5 n5 (H5 & _ & O5 & ->). apply sim_ret. split; [exact H5|]. apply N4.
Qed.
End Heavy.
