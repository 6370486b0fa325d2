(** Autolykos v2: table size, digest, panics. *)
From Coq Require Import NArith ZArith Arith List Lia Bool ZifyBool ZifyNat ZifyN.
From Verif Require Import Base BaseFacts CryptoModel CryptoProofs DagSpec AutoModel AutoSpec.
Import ListNotations.
Open Scope N_scope.
Ltac Zify.zify_post_hook ::= Z.div_mod_to_equations.

(** ** Table size *)
Lemma for_n_const {A} n (f : A -> A) s : for_n n (fun _ x => Done (f x)) s = Done (N.iter n f s).
Proof.
  destruct (for_n_inv (fun i x => x = N.iter i f s) n (fun _ x => Done (f x)) s) as (x & E & ->); auto.
  intros j t _ ->. eexists; split; [reflexivity|]. rewrite N.add_1_r, N.iter_succ. auto.
Qed.

Definition wgrow (n : N) : N := mulw 32 (n / 100) 105.
Lemma calcN_spec base h :
  calcN base h = Done (if 4198400 <? h then 2143944600 else N.iter (periods h) wgrow base).
Proof.
  unfold calcN, periods. change nIncreasementHeightMax with 4198400. change increaseStart with 614400.
  change increasePeriodForN with 51200.
  destruct (N.ltb_spec 4198400 h); auto.
  destruct (N.ltb_spec h 614400); destruct (N.leb_spec 614400 h); try lia; auto.
  rewrite (for_n_const _ wgrow). replace (N.min h 4198400) with h by lia. reflexivity.
Qed.

Lemma grow_le n : 2000 <= n -> n <= grow n.
Proof. unfold grow. intros. lia. Qed.
Lemma iter_grow_up base j : 2000 <= base -> base <= N.iter j grow base.
Proof.
  intros B. induction j using N.peano_ind; [cbn; lia|]. rewrite N.iter_succ.
  pose proof (grow_le (N.iter j grow base)). lia.
Qed.
Lemma iter_grow_mono base i j : 2000 <= base -> i <= j -> N.iter i grow base <= N.iter j grow base.
Proof.
  intros B L. replace j with (i + (j - i)) by lia. generalize (j - i). intros d.
  induction d using N.peano_ind; [rewrite N.add_0_r; lia|].
  rewrite N.add_succ_r, N.iter_succ. pose proof (grow_le (N.iter (i + d) grow base)).
  pose proof (iter_grow_up base (i + d) B). lia.
Qed.
Lemma periods_bound h : periods h <= 71.
Proof. unfold periods. destruct (N.ltb_spec h 614400); lia. Qed.
Lemma periods_mono h h' : h <= h' -> periods h <= periods h'.
Proof. unfold periods. destruct (N.ltb_spec h 614400), (N.ltb_spec h' 614400); lia. Qed.
Lemma periods_final h : 4198400 <= h -> periods h = 71.
Proof. unfold periods. destruct (N.ltb_spec h 614400); lia. Qed.
Lemma ergo_final : N.iter 71 grow (2 ^ 26) = 2143944600.
Proof. vm_compute. reflexivity. Qed.

Lemma ergo_bound h : 2 ^ 26 <= table_size (2 ^ 26) h /\ table_size (2 ^ 26) h <= 2143944600.
Proof.
  unfold table_size. split; [apply iter_grow_up; lia|]. rewrite <- ergo_final.
  apply iter_grow_mono; [lia|apply periods_bound].
Qed.
Lemma ergo_no_wrap j : j <= 71 -> N.iter j wgrow (2 ^ 26) = N.iter j grow (2 ^ 26).
Proof.
  induction j using N.peano_ind; intros L; auto.
  rewrite !N.iter_succ, IHj by lia. set (v := N.iter j grow _). unfold wgrow, grow, mulw. apply trunc_small.
  assert (B : N.iter (N.succ j) grow (2 ^ 26) <= 2143944600).
  { rewrite <- ergo_final. apply iter_grow_mono; lia. }
  rewrite N.iter_succ in B. fold v in B. clearbody v. unfold grow in B. lia.
Qed.
Lemma ergo_calcN h : calcN (2 ^ 26) h = Done (table_size (2 ^ 26) h).
Proof.
  rewrite calcN_spec. unfold table_size. destruct (N.ltb_spec 4198400 h).
  - rewrite periods_final, ergo_final by lia. auto.
  - rewrite ergo_no_wrap by apply periods_bound. auto.
Qed.

(** When the size is zero. *)
Lemma wgrow_zero j : N.iter j wgrow 0 = 0.
Proof. induction j using N.peano_ind; auto. rewrite N.iter_succ, IHj. reflexivity. Qed.
Lemma wgrow_small b j : b < 100 -> 1 <= j -> N.iter j wgrow b = 0.
Proof.
  intros B J. replace j with (N.succ (j - 1)) by lia. rewrite N.iter_succ_r.
  replace (wgrow b) with 0; [apply wgrow_zero|]. unfold wgrow. rewrite N.div_small by auto. reflexivity.
Qed.
Fixpoint nonzero (k : nat) (v : N) : bool :=
  match k with O => negb (v =? 0) | S k => negb (v =? 0) && nonzero k (wgrow v) end.
Lemma nonzero_iter k v j : nonzero k v = true -> j <= N.of_nat k -> N.iter j wgrow v <> 0.
Proof.
  revert v j; induction k; intros v j P J; cbn [nonzero] in P.
  - replace j with 0 by lia. cbn [N.iter]. lia.
  - destruct (N.eq_dec j 0) as [->|]; [cbn [N.iter]; lia|].
    replace j with (N.succ (j - 1)) by lia. rewrite N.iter_succ_r. apply andb_true_iff in P. apply IHk; [tauto|lia].
Qed.
Definition positive_b : bool := forallb (fun n => nonzero 71 (2 ^ N.of_nat n)) (seq 7 25).
Lemma positive_true : positive_b = true.
Proof. vm_compute. reflexivity. Qed.
Lemma wgrow_positive n j : 7 <= n -> n < 32 -> j <= 71 -> N.iter j wgrow (2 ^ n) <> 0.
Proof.
  intros A B J. pose proof positive_true as C. unfold positive_b in C. rewrite forallb_forall in C.
  specialize (C (N.to_nat n) ltac:(apply in_seq; lia)). rewrite N2Nat.id in C.
  eapply nonzero_iter; [exact C|]. lia.
Qed.
Lemma base_of n : shlw 32 1 n = if n <? 32 then 2 ^ n else 0.
Proof.
  unfold shlw. rewrite N.shiftl_1_l. destruct (N.ltb_spec n 32).
  - apply trunc_small. apply N.pow_lt_mono_r; lia.
  - rewrite trunc_mod. replace n with (n - 32 + 32) by lia. rewrite N.pow_add_r. apply N.mod_mul. discriminate.
Qed.
Definition no_table (n h : N) : bool := (h <=? 4198400) && ((32 <=? n) || ((n <=? 6) && (614400 <=? h))).
Lemma calcN_zero n h : exists s, calcN (shlw 32 1 n) h = Done s /\ s < 2 ^ 32 /\ (s = 0 <-> no_table n h = true).
Proof.
  rewrite calcN_spec, base_of. eexists; split; [reflexivity|]. unfold no_table.
  destruct (N.ltb_spec 4198400 h).
  { split; [reflexivity|]. split; [discriminate|]. intros X. lia. }
  destruct (N.ltb_spec n 32).
  - assert (P : 2 ^ n < 2 ^ 32) by (apply N.pow_lt_mono_r; lia).
    split.
    { destruct (N.eq_dec (periods h) 0) as [E|E]; [rewrite E; cbn [N.iter]; auto|].
      replace (periods h) with (N.succ (periods h - 1)) by lia. rewrite N.iter_succ. unfold wgrow at 1.
      apply trunc_lt. }
    destruct (N.leb_spec n 6).
    + destruct (N.leb_spec 614400 h).
      * split; intros _; [lia|]. apply wgrow_small.
        -- assert (2 ^ n <= 2 ^ 6) by (apply N.pow_le_mono_r; lia). change (2 ^ 6) with 64 in *. lia.
        -- unfold periods. destruct (N.ltb_spec h 614400); lia.
      * assert (periods h = 0) as -> by (unfold periods; destruct (N.ltb_spec h 614400); lia).
        cbn [N.iter]. pose proof (N.pow_nonzero 2 n). split; [lia|]. intros X. exfalso. lia.
    + pose proof (wgrow_positive n (periods h) ltac:(lia) ltac:(lia) (periods_bound h)).
      split; [tauto|]. intros X. lia.
  - rewrite wgrow_zero. split; [reflexivity|]. split; intros _; [lia|auto].
Qed.

(** ** Encodings *)
Lemma le_bytes_digits n x : le_bytes n x = map (fun i => x / 256 ^ N.of_nat i mod 256) (seq 0 n).
Proof.
  revert x; induction n; intros x; [reflexivity|]. cbn [le_bytes seq map].
  f_equal.
  - rewrite trunc_mod, N.pow_0_r, N.div_1_r. reflexivity.
  - rewrite IHn, <- seq_shift, map_map. apply map_ext. intros i.
    rewrite N.shiftr_div_pow2. change (2 ^ 8) with 256.
    rewrite Nat2N.inj_succ, N.pow_succ_r', N.div_div; auto. discriminate. apply N.pow_nonzero. discriminate.
Qed.
Lemma big_endian_be n x : be_bytes n x = big_endian n x.
Proof. unfold be_bytes, big_endian. rewrite le_bytes_digits. reflexivity. Qed.
Lemma u32_bytes v : Uint32ToBytes v BigEndian = Done (big_endian 4 v).
Proof. rewrite <- big_endian_be. reflexivity. Qed.
Lemma u64_bytes v : Uint64ToBytes v BigEndian = Done (big_endian 8 v).
Proof. rewrite <- big_endian_be. reflexivity. Qed.
Lemma big_endian_mod v : big_endian 4 (v mod 2 ^ 32) = big_endian 4 v.
Proof.
  unfold big_endian. f_equal. apply map_ext_in. intros i Hi. apply in_seq in Hi.
  assert (C : i = 0%nat \/ i = 1%nat \/ i = 2%nat \/ i = 3%nat) by lia.
  destruct C as [->|[->|[->| ->]]].
  - change (256 ^ N.of_nat 0) with 1. change (2 ^ 32) with 4294967296. lia.
  - change (256 ^ N.of_nat 1) with 256. change (2 ^ 32) with 4294967296. lia.
  - change (256 ^ N.of_nat 2) with 65536. change (2 ^ 32) with 4294967296. lia.
  - change (256 ^ N.of_nat 3) with 16777216. change (2 ^ 32) with 4294967296. lia.
Qed.
Lemma big_endian_length n x : length (big_endian n x) = n.
Proof. unfold big_endian. rewrite rev_length, map_length, seq_length. auto. Qed.

Lemma concat_length_const {A} n (f : nat -> list A) m s :
  (forall i, length (f i) = n) -> length (concat (map f (seq s m))) = (n * m)%nat.
Proof.
  intros H. revert s; induction m; intros s; cbn [seq map concat length]; [lia|].
  rewrite app_length, H, IHm. lia.
Qed.
Lemma generateM_spec size :
  generateM (N.of_nat size) = Done (concat (map (fun i => big_endian 8 (N.of_nat i)) (seq 0 size))).
Proof.
  unfold generateM.
  set (f := fun i => big_endian 8 (N.of_nat i)).
  assert (LF : forall i, length (f i) = 8%nat) by (intros; apply big_endian_length).
  loop_inv (fun i m => m = concat (map f (seq 0 (N.to_nat i))) ++ zeros (8 * (N.of_nat size - i))) as m E I.
  - replace (N.of_nat size * 8) with (8 * (N.of_nat size - 0)) by lia. reflexivity.
  - intros i m Hi ->.
    set (P := concat (map f (seq 0 (N.to_nat i)))).
    assert (LP : length P = (8 * N.to_nat i)%nat) by (apply concat_length_const; auto).
    assert (Z : zeros (8 * (N.of_nat size - i)) = zeros 8 ++ zeros (8 * (N.of_nat size - (i + 1)))).
    { unfold zeros. rewrite <- repeat_app. f_equal. lia. }
    rewrite Z. set (T := zeros (8 * (N.of_nat size - (i + 1)))).
    rewrite slice_Done by (try rewrite !lenN_app; try (unfold lenN at 1; rewrite LP); change (lenN (zeros 8)) with 8; lia).
    cbn [bind]. replace (N.to_nat (i * 8 + 8 - i * 8)) with 8%nat by lia.
    replace (N.to_nat (i * 8)) with (8 * N.to_nat i)%nat by lia.
    rewrite skipn_app, LP, Nat.sub_diag, skipn_all2 by lia. cbn [app skipn].
    rewrite firstn_app. change (length (zeros 8)) with 8%nat. rewrite Nat.sub_diag, firstn_O.
    rewrite app_nil_r. change (firstn 8 (zeros 8)) with (zeros 8).
    change (put_uint64 BigEndian (zeros 8) i) with (Uint64ToBytes i BigEndian). rewrite u64_bytes. cbn [bind].
    unfold copy_at. destruct (N.leb_spec (i * 8) (lenN (P ++ zeros 8 ++ T))).
    2:{ rewrite !lenN_app in *. unfold lenN at 1 in H. rewrite LP in H. lia. }
    eexists; split; [reflexivity|].
    replace (N.to_nat (i + 1)) with (S (N.to_nat i)) by lia. rewrite seq_S, map_app, concat_app. cbn [map concat Nat.add].
    fold P. rewrite app_nil_r. unfold overwrite. replace (N.to_nat (i * 8)) with (8 * N.to_nat i)%nat by lia.
    rewrite firstn_app, LP, Nat.sub_diag, firstn_all2 by lia. cbn [firstn]. rewrite app_nil_r, <- app_assoc. f_equal.
    rewrite !app_length, LP, big_endian_length. change (length (zeros 8)) with 8%nat.
    rewrite firstn_all2 by (rewrite big_endian_length; lia).
    unfold f. rewrite N2Nat.id. f_equal.
    rewrite app_assoc, skipn_app, skipn_all2 by (rewrite app_length, LP; change (length (zeros 8)) with 8%nat; lia).
    rewrite app_length, LP. change (length (zeros 8)) with 8%nat.
    replace (8 * N.to_nat i + 8 - (8 * N.to_nat i + 8))%nat with 0%nat by lia. reflexivity.
  - rewrite I. f_equal. rewrite Nat2N.id.
    replace (8 * (N.of_nat size - N.of_nat size)) with 0 by lia. cbn [zeros]. apply app_nil_r.
Qed.
Lemma generateM_pad : generateM 1024 = Done pad_M.
Proof. exact (generateM_spec 1024). Qed.

Lemma pad_M_length : length pad_M = (8 * 1024)%nat.
Proof. unfold pad_M. apply concat_length_const. intros. apply big_endian_length. Qed.

(** ** Digest *)
Section Digest.
Variable H : list N -> list N.
Hypothesis HH : hash_ok 32 H.

Lemma slice_tail32 (l : list N) : length l = 32%nat -> slice l 1 32 = Done (tl l).
Proof.
  intros L. rewrite slice_Done by (unfold lenN; lia).
  change (N.to_nat (32 - 1)) with 31%nat. change (N.to_nat 1) with 1%nat.
  destruct l as [|a t]; [discriminate|]. cbn [skipn tl]. rewrite firstn_all2 by (cbn [length] in L; lia). auto.
Qed.

Lemma genIndexes_spec seed k n : k <= 61 -> n <> 0 ->
  genIndexes H seed k n = Done (tab k (auto_index H seed n)).
Proof.
  intros K NZ. unfold genIndexes. destruct (HH seed) as (L & B).
  apply (for_fill _ _ _ _ 0); [apply lenN_zeros|].
  intros j t Hj LT _ _.
  assert (LE : length (H seed ++ H seed) = 64%nat) by (rewrite app_length, L; auto).
  rewrite slice_Done by (unfold lenN; lia). cbn [bind].
  replace (N.to_nat (j + 4 - j)) with 4%nat by lia.
  unfold be_u32, lenN. rewrite firstn_length, skipn_length, LE.
  destruct (N.leb_spec 4 (N.of_nat (Nat.min 4 (64 - N.to_nat j)))); [|lia]. cbn [bind].
  rewrite firstn_firstn. change (Nat.min 4 4) with 4%nat.
  unfold modc. destruct (N.eqb_spec n 0); [contradiction|]. cbn [bind]. reflexivity.
Qed.

Lemma genIndexes_panics seed k n : 61 < k -> n <> 0 -> genIndexes H seed k n = Panic.
Proof.
  intros K NZ. unfold genIndexes, for_n.
  replace (N.to_nat k) with (61 + N.to_nat (k - 61))%nat by lia. rewrite for_up_app.
  destruct (HH seed) as (L & B).
  assert (LE : length (H seed ++ H seed) = 64%nat) by (rewrite app_length, L; auto).
  destruct (for_up_inv (fun i (x : list N) => lenN x = k) (fun i indexes =>
    b <- slice (H seed ++ H seed) i (i + 4) ;; v <- be_u32 b ;; x <- modc v n ;; upd indexes i x) 61 0 (zeros k)) as (x & E & I).
  - apply lenN_zeros.
  - intros j t _ Hj LT. rewrite slice_Done by (unfold lenN; lia). cbn [bind].
    replace (N.to_nat (j + 4 - j)) with 4%nat by lia.
    unfold be_u32, lenN. rewrite firstn_length, skipn_length, LE.
    destruct (N.leb_spec 4 (N.of_nat (Nat.min 4 (64 - N.to_nat j)))); [|lia]. cbn [bind].
    unfold modc. destruct (N.eqb_spec n 0); [contradiction|]. cbn [bind].
    rewrite upd_Done by (unfold lenN in *; lia). eexists; split; [reflexivity|].
    unfold lenN in *. rewrite set_nth_length. auto.
  - rewrite E. cbn [bind]. replace (N.to_nat (k - 61)) with (S (N.to_nat (k - 62))) by lia. cbn [for_up].
    unfold slice at 1.
    destruct (N.leb_spec (0 + N.of_nat 61 + 4) (lenN (H seed ++ H seed))) as [X|X].
    + unfold lenN in X. rewrite LE in X. lia.
    + rewrite andb_false_r. reflexivity.
Qed.

Lemma sum_loop indexes (g : N -> N) :
  for_n (lenN indexes) (fun j f2 => index <- idx indexes j ;; Done (f2 + g index)) 0 =
  Done (fold_right N.add 0 (map g indexes)).
Proof.
  loop_inv (fun j s => s = fold_right N.add 0 (map g (firstn (N.to_nat j) indexes))) as s E I.
  - reflexivity.
  - intros j s Hj ->. rewrite (idx_Done _ _ 0) by lia. cbn [bind]. eexists; split; [reflexivity|].
    replace (N.to_nat (j + 1)) with (S (N.to_nat j)) by lia.
    rewrite (firstn_succ_snoc indexes _ (nth (N.to_nat j) indexes 0)) by (apply nth_error_nth'; unfold lenN in Hj; lia).
    rewrite map_app, fold_right_app. cbn [map fold_right]. rewrite N.add_0_r.
    generalize (map g (firstn (N.to_nat j) indexes)). generalize (g (nth (N.to_nat j) indexes 0)). clear.
    intros v l. induction l; cbn [fold_right]; [lia|]. rewrite <- IHl. lia.
  - rewrite I, firstn_all2 by (unfold lenN; lia). reflexivity.
Qed.

Lemma compute_head k nBase msg nonce height n : calcN nBase height = Done n -> n <> 0 -> n <= 2 ^ 32 ->
  compute H k nBase msg nonce height =
  (indexes <- genIndexes H (auto_seed H msg nonce height n) k n ;;
   Done (H (big_bytes (fold_right N.add 0 (map (fun i => be_value (element H height i)) indexes))))).
Proof.
  intros C NZ NB. unfold compute. rewrite generateM_pad. cbn [bind].
  rewrite u32_bytes. cbn [bind]. rewrite u64_bytes. cbn [bind]. rewrite C. cbn [bind].
  unfold concatBytes.
  assert (EH : big_endian 4 (u32 height) = big_endian 4 height).
  { unfold u32. rewrite trunc_mod. apply big_endian_mod. }
  rewrite EH. clear EH.
  destruct (HH (msg ++ big_endian 8 nonce)) as (L & B).
  rewrite slice_Done by (unfold lenN; lia). cbn [bind].
  change (N.to_nat (32 - 24)) with 8%nat. change (N.to_nat 24) with 24%nat.
  rewrite firstn_all2 by (rewrite skipn_length; lia).
  unfold modc at 1. destruct (N.eqb_spec n 0) as [?|_]; [contradiction|]. cbn [bind].
  set (r := be_value _ mod n).
  assert (Hr : r < n) by (apply N.mod_lt; auto).
  assert (U : u32 r = r) by (apply trunc_small; lia). rewrite U.
  rewrite u32_bytes. cbn [bind].
  destruct (HH (big_endian 4 r ++ big_endian 4 height ++ pad_M)) as (L1 & _).
  rewrite slice_tail32 by auto. cbn [bind].
  fold (element H height r). unfold auto_seed. fold r.
  destruct (genIndexes H _ k n) as [indexes| |]; cbn [bind]; auto.
  assert (E : for_n (lenN indexes) (fun j f2 => index <- idx indexes j ;; e <- Uint32ToBytes index BigEndian ;;
      elemHash <- slice_from (H (e ++ big_endian 4 height ++ pad_M)) 1 ;; Done (f2 + be_value elemHash)) 0 =
    for_n (lenN indexes) (fun j f2 => index <- idx indexes j ;; Done (f2 + be_value (element H height index))) 0).
  { unfold for_n. apply for_up_ext. intros j t. destruct (idx indexes j) as [index| |]; cbn [bind]; auto.
    rewrite u32_bytes. cbn [bind]. unfold slice_from.
    destruct (HH (big_endian 4 index ++ big_endian 4 height ++ pad_M)) as (L2 & _).
    unfold lenN. rewrite L2. change (N.of_nat 32) with 32. rewrite slice_tail32 by auto. reflexivity. }
  rewrite E, (sum_loop indexes (fun i => be_value (element H height i))). reflexivity.
Qed.

Lemma compute_spec k nBase msg nonce height n : calcN nBase height = Done n -> n <> 0 -> n <= 2 ^ 32 -> k <= 61 ->
  compute H k nBase msg nonce height = Done (H (big_bytes (auto_sum H k msg nonce height n))).
Proof.
  intros C NZ NB K. rewrite (compute_head k nBase msg nonce height n) by auto.
  rewrite genIndexes_spec by auto. reflexivity.
Qed.
Lemma compute_panics_k k nBase msg nonce height n : calcN nBase height = Done n -> n <> 0 -> n <= 2 ^ 32 -> 61 < k ->
  compute H k nBase msg nonce height = Panic.
Proof.
  intros C NZ NB K. rewrite (compute_head k nBase msg nonce height n) by auto.
  rewrite genIndexes_panics by auto. reflexivity.
Qed.
Lemma compute_panics_n k nBase msg nonce height : calcN nBase height = Done 0 ->
  compute H k nBase msg nonce height = Panic.
Proof.
  intros C. unfold compute. rewrite generateM_pad. cbn [bind].
  rewrite u32_bytes. cbn [bind]. rewrite u64_bytes. cbn [bind]. rewrite C. cbn [bind].
  unfold concatBytes.
  destruct (HH (msg ++ big_endian 8 nonce)) as (L & B).
  rewrite slice_Done by (unfold lenN; lia). reflexivity.
Qed.

Lemma element_lt height i : be_value (element H height i) < 2 ^ 248.
Proof.
  unfold element. destruct (HH (big_endian 4 i ++ big_endian 4 height ++ pad_M)) as (L & B).
  set (l := H _) in *. clearbody l. destruct l as [|a t]; [discriminate|]. cbn [tl].
  assert (BT : bytes t) by (inversion B; auto).
  pose proof (be_value_lt t BT) as X. assert (lenN t = 31) as Y by (unfold lenN; cbn [length] in L; lia).
  rewrite Y in X. exact X.
Qed.
Lemma auto_sum_lt k msg nonce height n : auto_sum H k msg nonce height n <= k * 2 ^ 248.
Proof.
  unfold auto_sum, auto_indexes.
  assert (L : lenN (tab k (auto_index H (auto_seed H msg nonce height n) n)) = k) by apply lenN_tab.
  set (l := tab _ _) in *. clearbody l. subst k. unfold lenN. induction l as [|x t IH]; cbn [map fold_right length]; [lia|].
  pose proof (element_lt height x). lia.
Qed.
Lemma big_bytes_32 x : 2 ^ 248 <= x -> x < 2 ^ 256 -> big_bytes x = big_endian 32 x.
Proof.
  intros A B. unfold big_bytes. rewrite <- big_endian_be. f_equal.
  assert (S : 249 <= N.size x /\ N.size x <= 256).
  { rewrite N.size_log2 by lia.
    pose proof (N.log2_le_mono _ _ A) as C. rewrite N.log2_pow2 in C by lia.
    pose proof (proj1 (N.log2_lt_pow2 x 256 ltac:(lia)) B). lia. }
  lia.
Qed.
End Digest.

Lemma le_bytes_top n x : x < 256 ^ N.of_nat (S n) -> 256 ^ N.of_nat n <= x ->
  exists y, y <> 0 /\ le_bytes (S n) x = le_bytes n x ++ [y].
Proof.
  revert x; induction n; intros x A B.
  - exists x. change (256 ^ N.of_nat 0) with 1 in B. change (256 ^ N.of_nat 1) with 256 in A.
    split; [lia|]. cbn [le_bytes app]. rewrite trunc_small; auto.
  - rewrite !Nat2N.inj_succ, !N.pow_succ_r' in *.
    destruct (IHn (N.shiftr x 8)) as (y & Y & E).
    + rewrite N.shiftr_div_pow2. change (2 ^ 8) with 256.
      apply N.div_lt_upper_bound; lia.
    + rewrite N.shiftr_div_pow2. change (2 ^ 8) with 256. apply N.div_le_lower_bound; lia.
    + exists y. split; auto. cbn [le_bytes app] in *. f_equal. exact E.
Qed.
Lemma big_bytes_spec x : bytes (big_bytes x) /\ be_value (big_bytes x) = x /\ hd 1 (big_bytes x) <> 0.
Proof.
  unfold big_bytes. set (n := N.to_nat ((N.size x + 7) / 8)).
  assert (U : x < 256 ^ N.of_nat n).
  { change 256 with (2 ^ 8). rewrite <- N.pow_mul_r. eapply N.lt_le_trans; [apply N.size_gt|].
    apply N.pow_le_mono_r; lia. }
  split; [apply be_bytes_bytes|]. split.
  - rewrite be_bytes_value. apply N.mod_small. auto.
  - destruct n as [|m] eqn:En; [discriminate|].
    destruct (le_bytes_top m x U) as (y & Y & E).
    + assert (X : x <> 0) by (intros X; unfold n in En; rewrite X in En; discriminate).
      change 256 with (2 ^ 8). rewrite <- N.pow_mul_r.
      transitivity (2 ^ (N.size x - 1)).
      * apply N.pow_le_mono_r; [lia|]. unfold n in En. clear U n. rewrite N.size_log2 in * by auto. lia.
      * rewrite N.size_log2 by auto. replace (N.succ (N.log2 x) - 1) with (N.log2 x) by lia.
        apply N.log2_spec. lia.
    + unfold be_bytes. rewrite E, rev_app_distr. exact Y.
Qed.
Lemma be_value_cons a t : be_value (a :: t) = a * 256 ^ lenN t + be_value t.
Proof.
  unfold be_value. cbn [rev]. rewrite le_value_app. cbn [le_value]. unfold lenN. rewrite rev_length. lia.
Qed.
Lemma In_tab {A} n (g : N -> A) x : In x (tab n g) -> exists j, j < n /\ x = g j.
Proof.
  unfold tab. intros H. apply in_map_iff in H. destruct H as (i & <- & Hi). apply in_seq in Hi.
  exists (N.of_nat i). split; [lia|auto].
Qed.
