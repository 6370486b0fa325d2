(** hashimoto equals its specification and stays inside the dataset. *)
From Coq Require Import NArith ZArith List Lia ZifyBool ZifyNat ZifyN Arith.
From Verif Require Import Base BaseFacts CryptoModel CryptoProofs DagSpec Chunks DagContent EthashModel EthashSpec.
Import ListNotations.
Open Scope N_scope.
Ltac Zify.zify_post_hook ::= Z.div_mod_to_equations.

Lemma skipn_add {A} (l : list A) a b : skipn a (skipn b l) = skipn (b + a) l.
Proof.
  revert l; induction b; intros l; cbn [skipn Nat.add]; auto. destruct l; auto. apply skipn_nil.
Qed.

Lemma nth_le_words n b i :
  (i < n)%nat -> nth i (le_words n b) 0 = le_value (firstn 4 (skipn (4 * i) b)).
Proof.
  revert b i; induction n; intros b i H; [lia|]. destruct i; cbn [le_words nth].
  - reflexivity.
  - rewrite IHn by lia. rewrite skipn_add. do 3 f_equal. lia.
Qed.

Lemma read_u32_at b a i n :
  a = 4 * i -> 4 * i + 4 <= lenN b -> i < n ->
  (tail <- slice_from b a ;; le_u32 tail) = Done (nth (N.to_nat i) (le_words (N.to_nat n) b) 0).
Proof.
  intros -> H Hn. unfold slice_from. rewrite slice_Done by lia. cbn [bind]. unfold le_u32.
  assert (L : length (skipn (N.to_nat (4 * i)) b) = N.to_nat (lenN b - 4 * i))
    by (rewrite skipn_length; unfold lenN; lia).
  rewrite firstn_all2 by lia.
  destruct (N.leb_spec 4 (lenN (skipn (N.to_nat (4 * i)) b))); [|unfold lenN in *; lia].
  rewrite nth_le_words by lia. do 4 f_equal. lia.
Qed.

(** One step of the compression: word [q] from words 4q..4q+3. *)
Lemma nth_fold_words n mix q :
  length mix = (4 * n)%nat -> (q < n)%nat ->
  nth q (fold_words mix) 0 =
  fnv (fnv (fnv (nth (4 * q) mix 0) (nth (4 * q + 1) mix 0)) (nth (4 * q + 2) mix 0)) (nth (4 * q + 3) mix 0).
Proof.
  revert mix q; induction n; intros mix q L H; [lia|].
  destruct mix as [|a [|b [|c [|d t]]]]; cbn [length] in L; try lia.
  destruct q; cbn [fold_words nth].
  - reflexivity.
  - rewrite (IHn t q) by lia.
    replace (4 * S q)%nat with (4 + 4 * q)%nat by lia. reflexivity.
Qed.
Lemma fold_words_length n mix : length mix = (4 * n)%nat -> length (fold_words mix) = n.
Proof.
  revert mix; induction n; intros mix L.
  - destruct mix; cbn in *; [auto|lia].
  - destruct mix as [|a [|b [|c [|d t]]]]; cbn [length] in L; try lia.
    cbn [fold_words length]. rewrite IHn by lia. auto.
Qed.

Lemma compress_loop mix n :
  length mix = (4 * n)%nat ->
  exists m, for_n (lenN mix / 4) (fun q mix =>
      let i := 4 * q in
      m0 <- idx mix i ;;
      m1 <- idx mix (i + 1) ;;
      m2 <- idx mix (i + 2) ;;
      m3 <- idx mix (i + 3) ;;
      upd mix (i / 4) (Fnv1 (Fnv1 (Fnv1 m0 m1) m2) m3)) mix = Done m /\
    length m = length mix /\ firstn n m = fold_words mix.
Proof.
  intros L.
  destruct (for_n_inv (fun q m => lenN m = lenN mix /\
     (forall k, k < q -> nth (N.to_nat k) m 0 = nth (N.to_nat k) (fold_words mix) 0) /\
     (forall k, q <= k -> nth (N.to_nat k) m 0 = nth (N.to_nat k) mix 0)) (lenN mix / 4)
    (fun q mix =>
      let i := 4 * q in
      m0 <- idx mix i ;;
      m1 <- idx mix (i + 1) ;;
      m2 <- idx mix (i + 2) ;;
      m3 <- idx mix (i + 3) ;;
      upd mix (i / 4) (Fnv1 (Fnv1 (Fnv1 m0 m1) m2) m3)) mix) as (m & E & LM & H1 & H2).
  - split; auto. split; auto. intros; lia.
  - intros q m Hq (LM & H1 & H2). cbv zeta. unfold lenN in Hq.
    rewrite !(idx_Done m _ 0) by (rewrite LM; unfold lenN; lia). cbn [bind].
    rewrite !H2 by lia. replace (4 * q / 4) with q by lia.
    rewrite upd_Done by (rewrite LM; unfold lenN; lia).
    eexists; split; [reflexivity|]. split; [unfold lenN in *; rewrite set_nth_length; auto|].
    split; intros k Hk; rewrite nth_set_nth by (unfold lenN in LM; lia);
      destruct (Nat.eqb_spec (N.to_nat q) (N.to_nat k)) as [Eq|NE]; try lia.
    + rewrite (nth_fold_words n) by lia. rewrite !Fnv1_fnv.
      replace (N.to_nat (4 * q)) with (4 * N.to_nat k)%nat by lia.
      replace (N.to_nat (4 * q + 1)) with (4 * N.to_nat k + 1)%nat by lia.
      replace (N.to_nat (4 * q + 2)) with (4 * N.to_nat k + 2)%nat by lia.
      replace (N.to_nat (4 * q + 3)) with (4 * N.to_nat k + 3)%nat by lia. reflexivity.
    + apply H1; lia.
    + apply H2; lia.
  - exists m. split; auto. split; [unfold lenN in LM; lia|].
    apply (list_eq_nth _ _ 0).
    + rewrite firstn_length, (fold_words_length n) by auto. unfold lenN in LM. lia.
    + intros i Hi. rewrite firstn_length in Hi. rewrite nth_firstn by lia.
      specialize (H1 (N.of_nat i)). rewrite Nat2N.id in H1. apply H1. unfold lenN. lia.
Qed.

Lemma put_all_words vals n :
  length vals = n ->
  for_n (lenN vals) (fun i digest =>
      val <- idx vals i ;;
      tail <- slice_from digest (i * 4) ;;
      tail' <- put_uint32 LittleEndian tail val ;;
      copy_at digest (i * 4) tail') (zeros (4 * N.of_nat n)) = Done (words_bytes vals).
Proof.
  intros L. unfold for_n.
  assert (Z : zeros (4 * N.of_nat n) = concat (repeat [0; 0; 0; 0] n)).
  { unfold zeros. clear. induction n; [reflexivity|].
    replace (N.to_nat (4 * N.of_nat (S n))) with (4 + N.to_nat (4 * N.of_nat n))%nat by lia.
    cbn [repeat Nat.add concat app]. rewrite IHn. reflexivity. }
  rewrite Z. apply put_words_loop.
  - apply Forall_forall. intros x Hx. apply repeat_spec in Hx. subst; auto.
  - rewrite repeat_length; auto.
  - unfold lenN. lia.
  - intros; lia.
  - intros i _ Hi. apply idx_Done; auto.
Qed.

Section Proofs.
Variable H512 H256 : list N -> list N.
Hypothesis HH : hash_ok 64 H512.

Lemma hashimoto_mix_ok seed pages item i :
  length seed = 64%nat -> bytes seed -> 0 < pages ->
  (forall k, k < 2 * pages -> length (item k) = 16%nat /\ words 32 (item k)) ->
  length (hashimoto_mix seed pages item i) = 32%nat /\ words 32 (hashimoto_mix seed pages item i).
Proof.
  intros L B P I. induction i as [|i (IL & IW)]; cbn [hashimoto_mix].
  - rewrite app_length, !le_words_length. split; auto.
    apply words_app; split; apply le_words_words; auto.
  - set (p := _ mod pages).
    assert (Hp : p < pages) by (apply N.mod_lt; lia). clearbody p.
    destruct (I (2 * p) ltac:(lia)) as (L1 & W1). destruct (I (2 * p + 1) ltac:(lia)) as (L2 & W2).
    split.
    + rewrite map_length, combine_length, app_length, IL, L1, L2. auto.
    + apply Forall_forall. intros x Hx. apply in_map_iff in Hx. destruct Hx as ((u & v) & <- & Hx).
      apply in_combine_r in Hx. apply fnv_lt.
      assert (W : words 32 (item (2 * p) ++ item (2 * p + 1))) by (apply words_app; auto).
      unfold words in W. rewrite Forall_forall in W. apply W; auto.
Qed.

Theorem hashimoto_refines hash nonce size lookup item :
  length hash = 32%nat -> 128 <= size -> size <= 2 ^ 38 ->
  (forall i, i < 2 * (size / 128) -> lookup i = Done (item i) /\ length (item i) = 16%nat /\ words 32 (item i)) ->
  hashimoto H512 H256 hash nonce size lookup =
  Done (hashimoto_spec H512 H256 hash nonce (size / 128) item).
Proof.
  intros LH S1 S2 LK. unfold hashimoto.
  assert (R : u32 (size / mixBytes) = size / 128).
  { unfold u32, mixBytes. apply trunc_small. change (2 ^ 38) with (2 ^ 31 * 128) in S2. lia. }
  rewrite R. clear R. change (mixBytes / 4) with 32. change (mixBytes / hashBytes) with 2.
  unfold copy_at at 1. change (0 <=? lenN (zeros 40)) with true. cbn [bind].
  assert (S : overwrite (zeros 40) (N.to_nat 0) hash = hash ++ zeros 8).
  { unfold overwrite. change (N.to_nat 0) with 0%nat. cbn [firstn app Nat.add]. rewrite LH.
    rewrite firstn_all2 by (rewrite LH; apply Nat.leb_le; reflexivity). reflexivity. }
  rewrite S. clear S.
  unfold slice_from at 1. rewrite lenN_app. change (lenN (zeros 8)) with 8.
  assert (LH' : lenN hash = 32) by (unfold lenN; rewrite LH; auto).
  rewrite slice_Done by (rewrite ?lenN_app, ?LH'; change (lenN (zeros 8)) with 8; lia). cbn [bind].
  rewrite LH'. rewrite skipn_app, skipn_all2 by (change (N.to_nat 32) with 32%nat; lia).
  rewrite LH. change (N.to_nat 32 - 32)%nat with 0%nat. cbn [skipn app].
  change (firstn (N.to_nat (32 + 8 - 32)) (zeros 8)) with (zeros 8).
  unfold put_uint64. change (8 <=? lenN (zeros 8)) with true. cbv iota.
  unfold copy_at at 1. change (0 <=? lenN (zeros 8)) with true. cbn [bind].
  assert (S : overwrite (zeros 8) (N.to_nat 0) (le_bytes 8 nonce) = le_bytes 8 nonce) by reflexivity.
  rewrite S. clear S.
  unfold copy_at at 1. rewrite lenN_app, LH'. change (lenN (zeros 8)) with 8. change (32 <=? 32 + 8) with true. cbn [bind].
  assert (S : overwrite (hash ++ zeros 8) (N.to_nat 32) (le_bytes 8 nonce) = hash ++ le_bytes 8 nonce).
  { unfold overwrite. change (N.to_nat 32) with 32%nat. rewrite firstn_app, LH, Nat.sub_diag.
    rewrite firstn_all2 by lia. cbn [firstn]. rewrite app_nil_r. f_equal.
    rewrite app_length, LH, le_bytes_length. change (length (zeros 8)) with 8%nat.
    rewrite firstn_all2 by (rewrite le_bytes_length; lia).
    rewrite skipn_all2 by (rewrite app_length, LH; change (length (zeros 8)) with 8%nat; lia). apply app_nil_r. }
  rewrite S. clear S. unfold hashimoto_spec, nonce_seed. set (seed := H512 (hash ++ le_bytes 8 nonce)).
  destruct (HH (hash ++ le_bytes 8 nonce)) as (SL & SB). fold seed in SL, SB. clearbody seed.
  assert (HD : le_u32 seed = Done (le_value (firstn 4 seed))).
  { unfold le_u32, lenN. rewrite SL. reflexivity. }
  rewrite HD. cbn [bind]. clear HD.
  (* the initial mix *)
  assert (M0 : for_n 32 (fun i mix => tail <- slice_from seed (i mod 16 * 4) ;; v <- le_u32 tail ;; upd mix i v) (zeros 32)
     = Done (le_words 16 seed ++ le_words 16 seed)).
  { rewrite (for_fill 32 _ (fun i => nth (N.to_nat (i mod 16)) (le_words 16 seed) 0) _ 0).
    - reflexivity.
    - reflexivity.
    - intros j t Hj LT _ _.
      pose proof (read_u32_at seed (j mod 16 * 4) (j mod 16) 16 ltac:(lia) ltac:(unfold lenN; lia) ltac:(lia)) as E.
      destruct (slice_from seed (j mod 16 * 4)); cbn [bind] in *; try discriminate.
      rewrite E. reflexivity. }
  rewrite M0. cbn [bind]. clear M0.
  replace (lenN (le_words 16 seed ++ le_words 16 seed)) with 32 by (unfold lenN; rewrite app_length, !le_words_length; reflexivity).
  set (pages := size / 128) in *.
  assert (P0 : 0 < pages) by (unfold pages; lia).
  assert (P1 : pages <= 2 ^ 31). { unfold pages. change (2 ^ 38) with (2 ^ 31 * 128) in S2. lia. }
  assert (P2 : forall k, k < 2 * pages -> k < 2 * pages) by auto.
  assert (IT : forall k, k < 2 * pages -> length (item k) = 16%nat /\ words 32 (item k)).
  { intros k Hk. destruct (LK k (P2 k Hk)) as (_ & A). exact A. }
  clearbody pages.
  set (MX := hashimoto_mix seed pages item).
  assert (MO : forall i, length (MX i) = 32%nat /\ words 32 (MX i)) by (intros; apply hashimoto_mix_ok; auto).
  loop_inv (fun (i : N) (st : list N * list N) => fst st = MX (N.to_nat i) /\ length (snd st) = 32%nat) as st E I.
  - split; reflexivity.
  - intros i (mix, temp) Hi (E1 & LT). cbn [fst snd] in E1, LT. subst mix.
    destruct (MO (N.to_nat i)) as (ML & MW).
    unfold lenN at 1. rewrite ML. change (N.of_nat 32) with 32.
    rewrite (idx_Done _ _ 0) by (unfold lenN; rewrite ML; change (N.of_nat 32) with 32; lia). cbn [bind].
    unfold modc. destruct (N.eqb_spec pages 0) as [?|_]; [lia|]. cbn [bind].
    assert (UI : u32 i = i). { apply trunc_small. unfold hashimotoRounds in Hi. lia. }
    rewrite UI, Fnv1_fnv. set (p := fnv _ _ mod pages).
    assert (Hp : p < pages) by (apply N.mod_lt; lia).
    assert (LK2 : forall j, j < 2 -> lookup (addw 32 (mulw 32 2 p) j) = Done (item (2 * p + j))).
    { intros j Hj. assert (M : mulw 32 2 p = 2 * p) by (apply trunc_small; lia).
      assert (A : addw 32 (mulw 32 2 p) j = 2 * p + j) by (rewrite M; apply trunc_small; lia).
      rewrite A. apply LK. apply P2. lia. }
    assert (T : for_n 2 (fun j temp => item <- lookup (addw 32 (mulw 32 2 p) j) ;; copy_at temp (mulw 32 j hashWords) item) temp
       = Done (item (2 * p) ++ item (2 * p + 1))).
    { unfold for_n. change (N.to_nat 2) with 2%nat. cbn [for_up].
      change (0 + 1) with 1. rewrite (LK2 0), (LK2 1) by lia. rewrite N.add_0_r. cbn [bind].
      change (mulw 32 0 hashWords) with 0. change (mulw 32 1 hashWords) with 16.
      destruct (IT (2 * p) ltac:(lia)) as (L1 & _). destruct (IT (2 * p + 1) ltac:(lia)) as (L2 & _).
      unfold copy_at. destruct (N.leb_spec 0 (lenN temp)); [|lia]. cbn [bind].
      change (N.to_nat 0) with 0%nat. change (N.to_nat 16) with 16%nat.
      assert (O1 : overwrite temp 0 (item (2 * p)) = item (2 * p) ++ skipn 16 temp).
      { unfold overwrite. cbn [firstn app Nat.add]. rewrite Nat.sub_0_r, LT, L1. rewrite firstn_all2 by lia. reflexivity. }
      rewrite O1. rewrite lenN_app. unfold lenN at 1. rewrite L1.
      destruct (N.leb_spec 16 (N.of_nat 16 + lenN (skipn 16 temp))); [|lia]. cbn [bind].
      assert (O2 : overwrite (item (2 * p) ++ skipn 16 temp) 16 (item (2 * p + 1)) = item (2 * p) ++ item (2 * p + 1)).
      { unfold overwrite. rewrite firstn_app, L1. rewrite firstn_all2 by lia. cbn [firstn Nat.sub]. rewrite app_nil_r.
        f_equal. rewrite app_length, skipn_length, L1, L2, LT. rewrite firstn_all2 by lia.
        rewrite skipn_all2 by (rewrite app_length, skipn_length; lia). apply app_nil_r. }
      rewrite O2. reflexivity. }
    rewrite T. cbn [bind]. clear T.
    destruct (IT (2 * p) ltac:(lia)) as (L1 & _). destruct (IT (2 * p + 1) ltac:(lia)) as (L2 & _).
    pose proof (FnvHash_rows (MX (N.to_nat i)) (item (2 * p) ++ item (2 * p + 1)) []
      ltac:(rewrite app_length; lia)) as FH.
    rewrite app_nil_r in FH. rewrite FH. cbn [bind].
    eexists. split; [reflexivity|]. cbn [fst snd]. split; [|rewrite app_length; lia].
    replace (N.to_nat (i + 1)) with (S (N.to_nat i)) by lia.
    unfold MX. cbn [hashimoto_mix]. fold MX. rewrite N2Nat.id.
    replace (Nat.modulo (N.to_nat i) 32) with (N.to_nat (i mod 32)) by lia. reflexivity.
  - destruct st as (mix, temp). cbn [fst snd] in I. destruct I as (-> & _).
    change (N.to_nat hashimotoRounds) with 64%nat. destruct (MO 64%nat) as (ML & MW).
    destruct (compress_loop (MX 64%nat) 8 ltac:(rewrite ML; auto)) as (m & E2 & LM & FM).
    cbv zeta in E2. rewrite E2. cbn [bind]. rewrite slice_Done by (unfold lenN; lia). cbn [bind].
    assert (LMn : lenN m = 32) by (unfold lenN; rewrite LM, ML; reflexivity). rewrite LMn.
    change (N.to_nat (32 / 4 - 0)) with 8%nat. change (N.to_nat 0) with 0%nat. cbn [skipn]. rewrite FM.
    assert (FL : length (fold_words (MX 64%nat)) = 8%nat) by (apply fold_words_length; rewrite ML; auto).
    change (zeros 32) with (zeros (4 * N.of_nat 8)). rewrite put_all_words by auto. reflexivity.
Qed.
End Proofs.
