(** Proofs about the contents of caches, dataset items and the L1 cache. *)
From Coq Require Import NArith ZArith List Bool Lia ZifyBool ZifyN ZifyNat.
From Verif Require Import Base BaseFacts CryptoModel CryptoProofs Chunks DagModel DagSpec DagSize.
Import ListNotations.
Open Scope N_scope.
Ltac Zify.zify_post_hook ::= Z.div_mod_to_equations.

(** ** Generic *)

Lemma XORBytes_spec dst a b n :
  lenN a = n -> lenN b = n -> lenN dst = n -> XORBytes dst a b = Done (xor_rows a b).
Proof.
  intros Ha Hb Hd. unfold XORBytes. rewrite Ha, Hb, Hd, N.min_id, N.ltb_irrefl.
  rewrite (for_fill n _ (fun i => N.lxor (nth (N.to_nat i) a 0) (nth (N.to_nat i) b 0)) dst 0); auto.
  - f_equal. symmetry. apply (list_eq_tab _ _ 0).
    + unfold lenN, xor_rows in *. rewrite map_length, combine_length. lia.
    + intros i Hi. unfold xor_rows.
      rewrite nth_map2 by (unfold lenN in *; lia). reflexivity.
  - intros j t Hj HL _ _. rewrite !(idx_Done _ _ 0) by lia. reflexivity.
Qed.

Lemma xor_rows_length a b : length a = length b -> length (xor_rows a b) = length a.
Proof. intros. unfold xor_rows. rewrite map_length, combine_length. lia. Qed.

Lemma hash_into_block H R i a data :
  hash_ok 64 H -> blocks 64 R -> i < lenN R -> a = i * 64 ->
  hash_into H 64 (concat R) a data = Done (concat (set_nth R (N.to_nat i) (H data))).
Proof.
  intros HH B Hi ->. destruct (HH data) as [L _].
  unfold hash_into. rewrite (slice_from_block 64 R i) by (auto; lia). cbn [bind].
  assert (E : lenN (concat (skipn (N.to_nat i) R)) = 64 * (lenN R - i)).
  { unfold lenN in *. rewrite (concat_blocks_length 64) by (apply Forall_skipn; auto).
    rewrite skipn_length. lia. }
  rewrite E. destruct (N.leb_spec 64 (64 * (lenN R - i))); [|lia].
  apply (copy_block 64); auto.
Qed.

(** ** C13: generateCache *)

Lemma iter_S {A} (f : A -> A) n x : Nat.iter (S n) f x = f (Nat.iter n f x).
Proof. reflexivity. Qed.

Lemma initial_rows_length H s n : length (initial_rows H s n) = n.
Proof. revert s; induction n; intros; cbn; auto. Qed.

Lemma initial_rows_snoc H s n :
  initial_rows H s (S n) = initial_rows H s n ++ [Nat.iter (S n) H s].
Proof.
  revert s; induction n; intros s; auto.
  change (initial_rows H s (S (S n))) with (H s :: initial_rows H (H s) (S n)).
  rewrite IHn. cbn [initial_rows app]. do 2 f_equal. f_equal.
  clear. induction n; [reflexivity|]. rewrite iter_S, IHn. reflexivity.
Qed.

Lemma nth_initial_rows H s n j d : (j < n)%nat -> nth j (initial_rows H s n) d = Nat.iter (S j) H s.
Proof.
  induction n; intros Hj; [lia|]. rewrite initial_rows_snoc.
  destruct (Nat.eq_dec j n) as [->|].
  - rewrite app_nth2; rewrite initial_rows_length; auto. rewrite Nat.sub_diag. reflexivity.
  - rewrite app_nth1 by (rewrite initial_rows_length; lia). apply IHn. lia.
Qed.

Lemma initial_rows_blocks H s n : hash_ok 64 H -> blocks 64 (initial_rows H s n).
Proof.
  intros HH. revert s; induction n; intros s; constructor.
  - apply HH.
  - apply IHn.
Qed.

Lemma fill_phase H seed buf n :
  hash_ok 64 H -> 1 <= n -> lenN buf = 64 * n ->
  (cache <- hash_into H 64 buf 0 seed ;;
   for_up (N.to_nat ((lenN buf - 1) / hashBytes)) 1 (fun i cache =>
      let offset := i * hashBytes in
      prev <- slice cache (offset - hashBytes) offset ;;
      hash_into H 64 cache offset prev) cache) =
  Done (concat (initial_rows H seed (N.to_nat n))).
Proof.
  intros HH Hn HL.
  set (R0 := cut 64 (N.to_nat n) buf).
  assert (LB : length buf = (64 * N.to_nat n)%nat) by (unfold lenN in HL; lia).
  assert (B0 : blocks 64 R0) by (apply cut_blocks; auto).
  assert (L0 : length R0 = N.to_nat n) by apply cut_length.
  assert (E0 : concat R0 = buf) by (apply cut_concat; auto).
  rewrite <- E0 at 1. clearbody R0.
  rewrite (hash_into_block H R0 0) by (auto; unfold lenN; lia). cbn [bind].
  replace (N.to_nat ((lenN buf - 1) / hashBytes)) with (N.to_nat n - 1)%nat.
  2:{ rewrite HL. unfold hashBytes. clear - Hn. lia. }
  destruct (for_up_inv (fun i c => exists R, c = concat R /\ blocks 64 R /\
      length R = N.to_nat n /\ firstn (N.to_nat i) R = initial_rows H seed (N.to_nat i))
    (fun i cache =>
      let offset := i * hashBytes in
      prev <- slice cache (offset - hashBytes) offset ;;
      hash_into H 64 cache offset prev)
    (N.to_nat n - 1) 1 (concat (set_nth R0 (N.to_nat 0) (H seed))))
    as (s' & E & R & ER & BR & LR & F).
  - exists (set_nth R0 0 (H seed)). repeat split.
    + apply blocks_set_nth; auto. apply HH.
    + rewrite set_nth_length; auto.
    + destruct R0; cbn in *; [lia|]. reflexivity.
  - intros j t Hj1 Hj2 (R & -> & BR & LR & F). unfold hashBytes. cbv zeta.
    rewrite (slice_block 64 R (j - 1)) by (auto; unfold lenN; lia). cbn [bind].
    rewrite (hash_into_block H R j) by (auto; unfold lenN; lia).
    eexists; split; [reflexivity|]. eexists; split; [reflexivity|].
    split; [apply blocks_set_nth; auto; apply HH|]. split; [rewrite set_nth_length; auto|].
    rewrite set_nth_split by lia.
    replace (N.to_nat (j + 1)) with (S (N.to_nat j)) by lia.
    rewrite initial_rows_snoc. rewrite <- F.
    replace (nth (N.to_nat (j - 1)) R []) with (Nat.iter (N.to_nat j) H seed).
    2:{ transitivity (nth (N.to_nat (j - 1)) (initial_rows H seed (N.to_nat j)) []).
        - rewrite nth_initial_rows by lia. f_equal. lia.
        - rewrite <- F. apply nth_firstn. lia. }
    rewrite firstn_app, firstn_firstn, firstn_length.
    replace (Nat.min (S (N.to_nat j)) (N.to_nat j)) with (N.to_nat j) by lia.
    replace (S (N.to_nat j) - Nat.min (N.to_nat j) (length R))%nat with 1%nat by lia.
    cbn [firstn]. rewrite iter_S. reflexivity.
  - cbv zeta in E. rewrite E, ER. f_equal. f_equal.
    replace (N.to_nat (1 + N.of_nat (N.to_nat n - 1))) with (N.to_nat n) in F by lia.
    rewrite <- F. rewrite firstn_all2; auto. lia.
Qed.

Lemma memo_row_length H R i : (i < length R)%nat -> length (memo_row H R i) = length R.
Proof.
  intros. unfold memo_row. rewrite !app_length, firstn_length, skipn_length. cbn [length]. lia.
Qed.

Lemma memo_row_set H R i :
  (i < length R)%nat ->
  memo_row H R i = set_nth R i (H (xor_rows
    (nth (Nat.modulo (i + length R - 1) (length R)) R [])
    (nth (N.to_nat (le_value (firstn 4 (nth i R [])) mod N.of_nat (length R))) R []))).
Proof. intros. rewrite set_nth_split by auto. reflexivity. Qed.

Lemma memo_row_blocks H R i :
  hash_ok 64 H -> (i < length R)%nat -> blocks 64 R -> blocks 64 (memo_row H R i).
Proof. intros HH Hi B. rewrite memo_row_set by auto. apply blocks_set_nth; auto. apply HH. Qed.

Lemma fold_memo_ok H R l :
  hash_ok 64 H -> blocks 64 R -> Forall (fun i => (i < length R)%nat) l ->
  blocks 64 (fold_left (memo_row H) l R) /\ length (fold_left (memo_row H) l R) = length R.
Proof.
  intros HH. revert R; induction l as [|i l IH]; intros R B F; cbn [fold_left]; auto.
  inversion F; subst.
  destruct (IH (memo_row H R i)) as [B' L'].
  - apply memo_row_blocks; auto.
  - rewrite memo_row_length by auto. auto.
  - split; auto. rewrite L'. apply memo_row_length; auto.
Qed.

Lemma memo_round_ok H R :
  hash_ok 64 H -> blocks 64 R -> blocks 64 (memo_round H R) /\ length (memo_round H R) = length R.
Proof.
  intros HH B. apply fold_memo_ok; auto.
  apply Forall_forall. intros i Hi. apply in_seq in Hi. lia.
Qed.

(** The body of the inner loop. *)
Definition memo_body (H : list N -> list N) (rows : N) :=
  fun j '(cache, temp) =>
        r <- modc (j + rows - 1) rows ;;
        let srcOff := r * hashBytes in
        let dstOff := j * hashBytes in
        tail <- slice_from cache dstOff ;;
        w <- le_u32 tail ;;
        m <- modc w (u32 rows) ;;
        let xorOff := mulw 32 m hashBytes in
        a <- slice cache srcOff (srcOff + hashBytes) ;;
        b <- slice cache xorOff (addw 32 xorOff hashBytes) ;;
        temp <- XORBytes temp a b ;;
        cache <- hash_into H 64 cache dstOff temp ;;
        Done (cache, temp).

Lemma le_u32_block R i a :
  blocks 64 R -> i < lenN R -> a = i * 64 ->
  (tail <- slice_from (concat R) a ;; le_u32 tail) = Done (le_value (firstn 4 (nth (N.to_nat i) R []))).
Proof.
  intros B Hi ->. unfold lenN in Hi.
  rewrite (slice_from_block 64 R i) by (auto; unfold lenN; lia). cbn [bind].
  rewrite skipn_nth_cons by lia. cbn [concat].
  assert (L : length (nth (N.to_nat i) R []) = 64%nat) by (apply blocks_nth; auto; lia).
  unfold le_u32.
  set (rest := concat (skipn (S (N.to_nat i)) R)).
  destruct (N.leb_spec 4 (lenN (nth (N.to_nat i) R [] ++ rest))).
  2:{ rewrite lenN_app in *. unfold lenN in *. lia. }
  rewrite firstn_app, L. cbn [Nat.sub]. rewrite firstn_O, app_nil_r. reflexivity.
Qed.

Lemma memo_body_spec H R j temp rows :
  hash_ok 64 H -> blocks 64 R -> lenN R = rows -> rows < 2 ^ 26 -> j < rows -> lenN temp = 64 ->
  exists temp', memo_body H rows j (concat R, temp) =
     Done (concat (memo_row H R (N.to_nat j)), temp') /\ lenN temp' = 64.
Proof.
  intros HH B LR HR Hj LT. unfold memo_body. unfold modc.
  destruct (N.eqb_spec rows 0); [lia|]. cbn [bind]. unfold hashBytes. cbv zeta.
  pose proof (le_u32_block R j (j * 64) B ltac:(lia) eq_refl) as E.
  destruct (slice_from (concat R) (j * 64)) as [tl| |]; cbn [bind] in E |- *; try discriminate.
  rewrite E. cbn [bind].
  assert (ER : u32 rows = rows).
  { unfold u32. apply trunc_small. eapply N.lt_trans; [exact HR|]. reflexivity. }
  rewrite ER. destruct (N.eqb_spec rows 0); [lia|]. cbn [bind].
  set (v := le_value (firstn 4 (nth (N.to_nat j) R [])) mod rows).
  assert (Hv : v < rows) by (apply N.mod_lt; lia).
  assert (E2 : mulw 32 v 64 = v * 64).
  { unfold mulw. apply trunc_small. change (2 ^ 32) with (2 ^ 26 * 64). lia. }
  assert (E3 : addw 32 (v * 64) 64 = v * 64 + 64).
  { unfold addw. apply trunc_small. change (2 ^ 32) with (2 ^ 26 * 64). lia. }
  rewrite E2, E3. set (p := (j + rows - 1) mod rows).
  assert (Hp : p < rows) by (apply N.mod_lt; lia).
  rewrite (slice_block 64 R p) by (auto; lia). cbn [bind].
  rewrite (slice_block 64 R v) by (auto; lia). cbn [bind].
  assert (La : length (nth (N.to_nat p) R []) = 64%nat) by (apply blocks_nth; auto; unfold lenN in LR; lia).
  assert (Lb : length (nth (N.to_nat v) R []) = 64%nat) by (apply blocks_nth; auto; unfold lenN in LR; lia).
  rewrite (XORBytes_spec temp _ _ 64) by (auto; unfold lenN; lia). cbn [bind].
  rewrite (hash_into_block H R j) by (auto; lia). cbn [bind].
  eexists; split.
  - rewrite memo_row_set by (unfold lenN in LR; lia). unfold lenN in LR.
    replace (Nat.modulo (N.to_nat j + length R - 1) (length R)) with (N.to_nat p).
    2:{ unfold p. rewrite N2Nat.inj_mod. f_equal; lia. }
    rewrite LR. fold v. reflexivity.
  - unfold lenN. rewrite xor_rows_length by lia. lia.
Qed.

Lemma memo_round_spec H R temp rows :
  hash_ok 64 H -> blocks 64 R -> lenN R = rows -> rows < 2 ^ 26 -> lenN temp = 64 ->
  exists temp', for_n rows (memo_body H rows) (concat R, temp) =
     Done (concat (memo_round H R), temp') /\ lenN temp' = 64.
Proof.
  intros HH B LR HR LT.
  destruct (for_n_inv (fun j '(c, t) =>
     c = concat (fold_left (memo_row H) (seq 0 (N.to_nat j)) R) /\ lenN t = 64)
     rows (memo_body H rows) (concat R, temp)) as ((c & t) & E & Ec & Et).
  - split; auto.
  - intros j (c & t) Hj (-> & Ht).
    destruct (fold_memo_ok H R (seq 0 (N.to_nat j)) HH B) as [B' L'].
    { apply Forall_forall. intros i Hi. apply in_seq in Hi. unfold lenN in LR. lia. }
    destruct (memo_body_spec H (fold_left (memo_row H) (seq 0 (N.to_nat j)) R) j t rows)
      as (t' & E & Lt'); auto.
    { unfold lenN in *. lia. }
    exists (concat (memo_row H (fold_left (memo_row H) (seq 0 (N.to_nat j)) R) (N.to_nat j)), t').
    split; [exact E|]. split; auto.
    replace (N.to_nat (j + 1)) with (N.to_nat j + 1)%nat by lia.
    rewrite seq_app, fold_left_app. reflexivity.
  - exists t. split; auto. rewrite E, Ec. do 2 f_equal. unfold memo_round.
    replace (length R) with (N.to_nat rows) by (unfold lenN in LR; lia). reflexivity.
Qed.

Lemma cache_rows_ok H seed n r :
  hash_ok 64 H ->
  blocks 64 (cache_rows H seed n r) /\ length (cache_rows H seed n r) = n.
Proof.
  intros HH. unfold cache_rows. induction r as [|r IH].
  - split; [apply initial_rows_blocks|apply initial_rows_length]; auto.
  - rewrite iter_S. destruct IH as [B L].
    destruct (memo_round_ok H _ HH B) as [B' L']. split; auto. lia.
Qed.

Theorem generateCache_spec H d buf seed n :
  hash_ok 64 H -> 1 <= n -> n < 2 ^ 26 -> lenN buf = 64 * n ->
  generateCache H d buf seed =
  Done (concat (cache_rows H seed (N.to_nat n) (N.to_nat (cf_cache_rounds d)))).
Proof.
  intros HH Hn1 Hn2 HL. unfold generateCache.
  pose proof (fill_phase H seed buf n HH Hn1 HL) as E1.
  destruct (hash_into H 64 buf 0 seed) as [c0| |]; cbn [bind] in E1 |- *; try discriminate.
  rewrite E1. cbn [bind]. clear E1.
  assert (ER : lenN buf / hashBytes = n) by (rewrite HL; unfold hashBytes; lia).
  rewrite ER.
  destruct (for_n_inv (fun r '(c, t) =>
     c = concat (cache_rows H seed (N.to_nat n) (N.to_nat r)) /\ lenN t = 64)
     (cf_cache_rounds d) (fun _ st => for_n n (memo_body H n) st)
     (concat (initial_rows H seed (N.to_nat n)), zeros hashBytes)) as ((c & t) & E & Ec & Et).
  - split; auto.
  - intros r (c & t) Hr (-> & Ht).
    destruct (cache_rows_ok H seed (N.to_nat n) (N.to_nat r) HH) as [B L].
    destruct (memo_round_spec H (cache_rows H seed (N.to_nat n) (N.to_nat r)) t n)
      as (t' & E & Lt'); auto.
    { unfold lenN. lia. }
    rewrite E. eexists; split; [reflexivity|]. split; auto.
    replace (N.to_nat (r + 1)) with (S (N.to_nat r)) by lia. reflexivity.
  - unfold memo_body in E. rewrite E. cbn [bind]. rewrite Ec. reflexivity.
Qed.

(** ** C14: dataset items *)

Lemma le_words_cut n b : le_words n b = map le_value (cut 4 n b).
Proof. revert b; induction n; intros; cbn; f_equal; auto. Qed.

Lemma le_words_length n b : length (le_words n b) = n.
Proof. rewrite le_words_cut, map_length, cut_length. auto. Qed.

Lemma words_bytes_concat l : words_bytes l = concat (map (le_bytes 4) l).
Proof. apply flat_map_concat_map. Qed.

Lemma words_bytes_length l : length (words_bytes l) = (4 * length l)%nat.
Proof. rewrite words_bytes_concat, (concat_blocks_length 4) by apply blocks_map_le. rewrite map_length. auto. Qed.

Lemma le_words_words n b : bytes b -> words 32 (le_words n b).
Proof.
  intros Hb. revert b Hb; induction n; intros b Hb; cbn [le_words]; constructor.
  - assert (L := le_value_lt (firstn 4 b) ltac:(apply Forall_firstn; auto)).
    eapply N.lt_le_trans; [exact L|]. change 32 with (8 * 4).
    rewrite N.pow_mul_r. change (2 ^ 8) with 256. apply N.pow_le_mono_r; [lia|].
    unfold lenN. rewrite firstn_length. lia.
  - apply IHn. apply Forall_skipn; auto.
Qed.

Lemma words_bytes_le_words n b : length b = (4 * n)%nat -> bytes b -> words_bytes (le_words n b) = b.
Proof.
  intros HL Hb. rewrite words_bytes_concat, le_words_cut, map_map.
  rewrite <- (cut_concat 4 n b HL) at 2. f_equal.
  rewrite <- (map_id (cut 4 n b)) at 2. apply map_ext_in. intros r Hr.
  assert (B := cut_blocks 4 n b HL). unfold blocks in B. rewrite Forall_forall in B.
  assert (F := Forall_cut _ 4 n b Hb). rewrite Forall_forall in F.
  rewrite <- (B r Hr) at 1. apply le_value_bytes. apply F. auto.
Qed.

Lemma le_words_words_bytes l n : words 32 l -> length l = n -> le_words n (words_bytes l) = l.
Proof.
  intros W <-. rewrite le_words_cut, words_bytes_concat.
  rewrite concat_cut by (try apply blocks_map_le; rewrite map_length; auto).
  rewrite map_map. rewrite <- (map_id l) at 2. apply map_ext_in. intros x Hx.
  unfold words in W. rewrite Forall_forall in W. rewrite le_bytes_value.
  apply N.mod_small. apply W in Hx. exact Hx.
Qed.

Lemma put_words_loop vals (f : N -> outcome N) n i0 W :
  blocks 4 W -> length W = length vals -> i0 + N.of_nat n = lenN vals ->
  (forall k, k < i0 -> nth (N.to_nat k) W [] = le_bytes 4 (nth (N.to_nat k) vals 0)) ->
  (forall i, i0 <= i -> i < lenN vals -> f i = Done (nth (N.to_nat i) vals 0)) ->
  for_up n i0 (fun i mix =>
      c <- f i ;;
      tail <- slice_from mix (i * 4) ;;
      tail' <- put_uint32 LittleEndian tail c ;;
      copy_at mix (i * 4) tail') (concat W) = Done (words_bytes vals).
Proof.
  intros B L Hn H0 Hf.
  destruct (for_up_inv (fun i m => exists W, m = concat W /\ blocks 4 W /\ length W = length vals /\
      forall k, k < i -> nth (N.to_nat k) W [] = le_bytes 4 (nth (N.to_nat k) vals 0))
    (fun i mix =>
      c <- f i ;;
      tail <- slice_from mix (i * 4) ;;
      tail' <- put_uint32 LittleEndian tail c ;;
      copy_at mix (i * 4) tail') n i0 (concat W)) as (m & E & W' & -> & B' & L' & H').
  - exists W. auto.
  - intros j t Hj1 Hj2 (W' & -> & B' & L' & H').
    rewrite Hf by lia. cbn [bind]. unfold lenN in Hn.
    rewrite (put_word W' j) by (auto; unfold lenN; lia).
    eexists; split; [reflexivity|]. eexists; split; [reflexivity|].
    split; [apply blocks_set_nth; auto; apply enc32_length|].
    split; [rewrite set_nth_length; auto|].
    intros k Hk. rewrite nth_set_nth by lia.
    destruct (Nat.eqb_spec (N.to_nat j) (N.to_nat k)) as [Ejk|].
    + rewrite Ejk. reflexivity.
    + apply H'. lia.
  - rewrite E. f_equal. rewrite words_bytes_concat. f_equal.
    apply (list_eq_nth _ _ []); [rewrite map_length; auto|].
    intros i Hi. specialize (H' (N.of_nat i)). rewrite Nat2N.id in H'. rewrite H' by (unfold lenN in Hn; lia).
    rewrite nth_indep with (d' := le_bytes 4 0) by (rewrite map_length; lia).
    rewrite map_nth. reflexivity.
Qed.

Lemma read_words_loop mix n l0 :
  lenN mix = 4 * n -> lenN l0 = n ->
  for_n n (fun i intMix =>
      tail <- slice_from mix (i * 4) ;;
      v <- le_u32 tail ;;
      upd intMix i v) l0 = Done (le_words (N.to_nat n) mix).
Proof.
  intros HL H0.
  assert (LM : length mix = (4 * N.to_nat n)%nat) by (unfold lenN in HL; lia).
  assert (B := cut_blocks 4 (N.to_nat n) mix LM).
  assert (C := cut_concat 4 (N.to_nat n) mix LM).
  assert (LC := cut_length 4 (N.to_nat n) mix).
  rewrite (for_fill n _ (fun i => le_value (nth (N.to_nat i) (cut 4 (N.to_nat n) mix) [])) l0 0); auto.
  - f_equal. symmetry. apply (list_eq_tab _ _ (le_value [])).
    + unfold lenN. rewrite le_words_length. lia.
    + intros i Hi. rewrite le_words_cut, map_nth. reflexivity.
  - intros j t Hj HLt _ _.
    pose proof (read_word (cut 4 (N.to_nat n) mix) j (j * 4) B ltac:(unfold lenN; lia) eq_refl) as E.
    rewrite C in E. destruct (slice_from mix (j * 4)); cbn [bind] in *; try discriminate.
    rewrite E. reflexivity.
Qed.

Lemma Fnv1_fnv a b : Fnv1 a b = fnv a b.
Proof. destruct (fnv_values a b) as [E _]. exact E. Qed.

Lemma FnvHash_rows mix row rest :
  length mix = length row ->
  FnvHash mix (row ++ rest) = Done (map (fun '(a, b) => fnv a b) (combine mix row)).
Proof.
  intros L. rewrite FnvHash_spec by (rewrite lenN_app; unfold lenN; lia).
  f_equal. symmetry. apply (list_eq_tab _ _ 0).
  - unfold lenN. rewrite map_length, combine_length. lia.
  - intros i Hi. unfold lenN in Hi.
    rewrite nth_map2 by lia. rewrite app_nth1 by lia.
    rewrite Fnv1_fnv. reflexivity.
Qed.

Lemma cache_ok_blocks C : cache_ok C -> blocks 16 C.
Proof. intros [_ F]. eapply Forall_impl; [|exact F]. intros r [L _]. auto. Qed.

Lemma item_mix_length H C i j : hash_ok 64 H -> cache_ok C -> length (item_mix H C i j) = 16%nat.
Proof.
  intros HH OK. induction j; cbn [item_mix].
  - unfold hash_words. apply le_words_length.
  - rewrite map_length, combine_length, IHj.
    rewrite (blocks_nth 16 C); auto; [apply cache_ok_blocks; auto|].
    destruct OK as [NE _]. destruct C as [|r C]; [congruence|].
    match goal with |- (N.to_nat (?x mod ?y) < _)%nat => pose proof (N.mod_lt x y) end.
    cbn [length] in *. lia.
Qed.

Lemma fnv_lt a b : b < 2 ^ 32 -> fnv a b < 2 ^ 32.
Proof. intros. unfold fnv. apply lxor_lt; auto. apply N.mod_lt. lia. Qed.

Lemma nth_words C i : cache_ok C -> words 32 (nth i C []).
Proof.
  intros [_ F]. destruct (Nat.lt_ge_cases i (length C)).
  - rewrite Forall_forall in F. apply F. apply nth_In; auto.
  - rewrite nth_overflow by auto. constructor.
Qed.

Lemma item_mix_words H C i j : hash_ok 64 H -> cache_ok C -> words 32 (item_mix H C i j).
Proof.
  intros HH OK. destruct j; cbn [item_mix].
  - unfold hash_words. apply le_words_words. apply HH.
  - apply Forall_forall. intros x Hx. apply in_map_iff in Hx. destruct Hx as ((a & b) & <- & Hx).
    apply in_combine_r in Hx. apply fnv_lt.
    assert (W := nth_words C (N.to_nat (fnv (N.lxor i (N.of_nat j))
        (nth (Nat.modulo j 16) (item_mix H C i j) 0) mod N.of_nat (length C))) OK).
    unfold words in W. rewrite Forall_forall in W. apply W in Hx. exact Hx.
Qed.

Lemma dataset_item_length H p C i : length (dataset_item H p C i) = 16%nat.
Proof. apply le_words_length. Qed.

Lemma dataset_item_words H p C i : hash_ok 64 H -> words 32 (dataset_item H p C i).
Proof. intros HH. apply le_words_words. apply HH. Qed.

Lemma nth_concat_row {A} k (C : list (list A)) r i d :
  blocks k C -> (r < length C)%nat -> (i < k)%nat ->
  nth (k * r + i) (concat C) d = nth i (nth r C []) d.
Proof.
  intros B Hr Hi. rewrite (concat_at C r) by auto.
  rewrite app_nth2; rewrite (firstn_blocks_length k) by (auto; lia); [|lia].
  replace (k * r + i - k * r)%nat with i by lia.
  rewrite app_nth1; auto. rewrite (blocks_nth k) by auto. auto.
Qed.

Theorem generateDatasetItem_spec H d C i :
  hash_ok 64 H -> cache_ok C -> lenN C < 2 ^ 28 ->
  generateDatasetItem H d (concat C) i =
  Done (words_bytes (dataset_item H (N.to_nat (cf_dataset_parents d)) C i)).
Proof.
  intros HH OK HC. assert (B := cache_ok_blocks C OK).
  assert (L16 : lenN (concat C) = 16 * lenN C).
  { unfold lenN. rewrite (concat_blocks_length 16) by auto. lia. }
  assert (NZ : 0 < lenN C).
  { destruct OK as [NE _]. destruct C; [congruence|]. rewrite lenN_cons. lia. }
  unfold generateDatasetItem.
  assert (ER : u32 (lenN (concat C) / hashWords) = lenN C).
  { rewrite L16. unfold hashWords. rewrite N.mul_comm, N.div_mul by lia.
    apply trunc_small. eapply N.lt_trans; [exact HC|]. reflexivity. }
  rewrite ER. unfold modc at 1. destruct (N.eqb_spec (lenN C) 0); [lia|]. cbn [bind].
  set (r := i mod lenN C). assert (Hr : r < lenN C) by (apply N.mod_lt; lia).
  assert (EM : mulw 32 r hashWords = r * 16).
  { unfold mulw, hashWords. apply trunc_small. change (2 ^ 32) with (2 ^ 28 * 16). lia. }
  rewrite EM. set (row := nth (N.to_nat r) C []).
  assert (Lrow : length row = 16%nat) by (apply blocks_nth; auto; unfold lenN in Hr; lia).
  assert (GET : forall k, k < 16 -> idx (concat C) (r * 16 + k) = Done (nth (N.to_nat k) row 0)).
  { intros k Hk. rewrite (idx_Done _ _ 0) by lia. f_equal.
    replace (N.to_nat (r * 16 + k)) with (16 * N.to_nat r + N.to_nat k)%nat by lia.
    rewrite (nth_concat_row 16) by (auto; unfold lenN in Hr; lia). reflexivity. }
  rewrite <- (N.add_0_r (r * 16)) at 1. rewrite (GET 0) by lia. cbn [bind].
  change (zeros hashBytes) with (concat (repeat (repeat 0 4) 16)).
  assert (BZ : blocks 4 (repeat (repeat 0 4) 16)) by (repeat constructor).
  rewrite put_word0 by (auto; reflexivity). cbn [bind].
  rewrite (put_words_loop (xor_head i row)
     (fun k => idx (concat C) (addw 32 (r * 16) k)) 15 1); cycle 1.
  { apply blocks_set_nth; [exact BZ|apply enc32_length]. }
  { rewrite set_nth_length, repeat_length. destruct row; cbn in *; lia. }
  { unfold lenN. destruct row; cbn [length xor_head] in *; lia. }
  { intros k Hk. replace (N.to_nat k) with 0%nat by lia. destruct row; [cbn in Lrow; lia|]. reflexivity. }
  { intros k Hk1 Hk2.
    assert (Lx : lenN (xor_head i row) = 16) by (unfold lenN; destruct row; cbn [length xor_head] in *; lia).
    replace (addw 32 (r * 16) k) with (r * 16 + k).
    2:{ symmetry. apply trunc_small. change (2 ^ 32) with (2 ^ 28 * 16). lia. }
    rewrite GET by lia. f_equal. destruct row; [cbn in Lrow; lia|].
    destruct (N.to_nat k) eqn:Ek; [lia|]. reflexivity. }
  cbn [bind].
  assert (Lx : length (xor_head i row) = 16%nat) by (destruct row; cbn [length xor_head] in *; lia).
  rewrite (hash_into_whole H 64) by (auto; rewrite words_bytes_length; lia). cbn [bind].
  set (h1 := H (words_bytes (xor_head i row))).
  assert (L1 : length h1 = 64%nat) by apply HH.
  rewrite (read_words_loop h1 16) by (auto; unfold lenN; lia). cbn [bind].
  destruct (for_n_inv (fun j m => m = item_mix H C i (N.to_nat j)) (cf_dataset_parents d)
    (fun i0 intMix =>
      m <- idx intMix (i0 mod 16) ;;
      parent <- modc (Fnv1 (N.lxor i i0) m) (lenN C) ;;
      tail <- slice_from (concat C) (mulw 32 parent hashWords) ;;
      FnvHash intMix tail) (le_words (N.to_nat 16) h1)) as (m & E & Em).
  { cbn [item_mix N.to_nat]. unfold hash_words. fold (lenN C). fold r. fold row. reflexivity. }
  { intros j t Hj ->.
    assert (Lm := item_mix_length H C i (N.to_nat j) HH OK).
    assert (Hj16 : j mod 16 < 16) by (apply N.mod_lt; lia).
    rewrite (idx_Done _ _ 0) by (unfold lenN; lia). cbn [bind].
    rewrite Fnv1_fnv. unfold modc. destruct (N.eqb_spec (lenN C) 0); [lia|]. cbn [bind].
    eexists; split; [|reflexivity].
    replace (N.to_nat (j + 1)) with (S (N.to_nat j)) by lia. cbn [item_mix].
    fold (lenN C).
    replace (Nat.modulo (N.to_nat j) 16) with (N.to_nat (j mod 16)).
    2:{ rewrite N2Nat.inj_mod. reflexivity. }
    rewrite N2Nat.id.
    set (p := fnv (N.lxor i j) (nth (N.to_nat (j mod 16)) (item_mix H C i (N.to_nat j)) 0) mod lenN C).
    assert (Hp : p < lenN C) by (apply N.mod_lt; lia).
    replace (mulw 32 p hashWords) with (p * 16).
    2:{ symmetry. unfold mulw, hashWords. apply trunc_small. change (2 ^ 32) with (2 ^ 28 * 16). lia. }
    rewrite (slice_from_block 16 C p) by (auto; lia). cbn [bind].
    unfold lenN in Hp. rewrite skipn_nth_cons by lia. cbn [concat].
    apply FnvHash_rows. rewrite Lm. symmetry. apply blocks_nth; auto. lia. }
  rewrite E. cbn [bind]. subst m.
  set (mx := item_mix H C i (N.to_nat (cf_dataset_parents d))).
  assert (Lm : length mx = 16%nat) by (apply item_mix_length; auto).
  unfold for_n. rewrite <- (cut_concat 4 16 h1) at 1 by (rewrite L1; reflexivity).
  rewrite (put_words_loop mx (fun k => idx mx k) (N.to_nat (lenN mx)) 0); cycle 1.
  { apply cut_blocks. rewrite L1; reflexivity. }
  { rewrite cut_length. auto. }
  { lia. }
  { intros k Hk. lia. }
  { intros k _ Hk. apply idx_Done. auto. }
  cbn [bind]. rewrite (hash_into_whole H 64) by (auto; rewrite words_bytes_length; lia).
  f_equal. unfold dataset_item, hash_words. fold mx.
  rewrite words_bytes_le_words; auto; apply HH.
Qed.

Theorem generateDatasetItemUint_spec H d C index size :
  hash_ok 64 H -> cache_ok C -> lenN C < 2 ^ 28 -> size < 2 ^ 28 ->
  index * size + size <= 2 ^ 32 ->
  generateDatasetItemUint H d (concat C) index size =
  Done (concat (tab size (fun n =>
     dataset_item H (N.to_nat (cf_dataset_parents d)) C (index * size + n)))).
Proof.
  intros HH OK HC Hs Hi. unfold generateDatasetItemUint.
  set (g := fun n => dataset_item H (N.to_nat (cf_dataset_parents d)) C (index * size + n)).
  replace (mulw 32 hashWords size) with (16 * size).
  2:{ symmetry. apply trunc_small. change (2 ^ 32) with (2 ^ 28 * 16). unfold hashWords. lia. }
  destruct (for_n_inv (fun n data => exists R, data = concat R /\ blocks 16 R /\ lenN R = size /\
      forall k, k < n -> nth (N.to_nat k) R [] = g k) size
    (fun n data =>
    item <- generateDatasetItem H d (concat C) (addw 32 (mulw 32 index size) (u32 n)) ;;
    for_n hashWords (fun i data =>
      tail <- slice_from item (i * 4) ;;
      v <- le_u32 tail ;;
      upd data (n * hashWords + i) v) data) (zeros (16 * size))) as (dat & E & R & -> & BR & LR & G).
  - exists (repeat (repeat 0 16) (N.to_nat size)). split; [|split; [|split]].
    + unfold zeros. replace (N.to_nat (16 * size)) with (16 * N.to_nat size)%nat by lia.
      generalize (N.to_nat size). intros m. induction m; [reflexivity|].
      change (concat (repeat (repeat 0 16) (S m))) with (repeat 0 16 ++ concat (repeat (repeat 0 16) m)).
      rewrite <- IHm, <- repeat_app. f_equal. lia.
    + apply Forall_forall. intros x Hx. apply repeat_spec in Hx. subst. reflexivity.
    + unfold lenN. rewrite repeat_length. lia.
    + intros; lia.
  - intros n data Hn (R & -> & BR & LR & G).
    replace (addw 32 (mulw 32 index size) (u32 n)) with (index * size + n).
    2:{ unfold u32. rewrite (trunc_small 32 n) by lia. unfold mulw.
        rewrite (trunc_small 32 (index * size)) by lia.
        symmetry. apply trunc_small. lia. }
    rewrite generateDatasetItem_spec by auto. cbn [bind]. fold (g n).
    assert (Lg : length (g n) = 16%nat) by apply dataset_item_length.
    assert (Wg : words 32 (g n)) by (apply dataset_item_words; auto).
    clearbody g.
    destruct (for_n_inv (fun i data => exists row, data = concat (set_nth R (N.to_nat n) row) /\
        length row = 16%nat /\ forall k, k < i -> nth (N.to_nat k) row 0 = nth (N.to_nat k) (g n) 0)
      hashWords (fun i data =>
        tail <- slice_from (words_bytes (g n)) (i * 4) ;;
        v <- le_u32 tail ;;
        upd data (n * hashWords + i) v) (concat R)) as (dat & E & row & -> & Lr & Gr).
    + exists (nth (N.to_nat n) R []). split; [|split].
      * f_equal. rewrite set_nth_split by (unfold lenN in LR; lia).
        rewrite <- skipn_nth_cons by (unfold lenN in LR; lia). symmetry. apply firstn_skipn.
      * apply blocks_nth; auto. unfold lenN in LR; lia.
      * intros; lia.
    + unfold hashWords. intros i data Hi16 (row & -> & Lr & Gr).
      pose proof (read_word (map (le_bytes 4) (g n)) i (i * 4) (blocks_map_le _)
        ltac:(unfold lenN; rewrite map_length, Lg; lia) eq_refl) as E.
      rewrite <- words_bytes_concat in E.
      destruct (slice_from (words_bytes (g n)) (i * 4)); cbn [bind] in *; try discriminate.
      rewrite E. cbn [bind].
      rewrite nth_indep with (d' := le_bytes 4 0) by (rewrite map_length; lia).
      rewrite map_nth, le_bytes_value.
      assert (BS : blocks 16 (set_nth R (N.to_nat n) row)) by (apply blocks_set_nth; auto).
      assert (LS : length (set_nth R (N.to_nat n) row) = N.to_nat size)
        by (rewrite set_nth_length; unfold lenN in LR; lia).
      rewrite upd_Done.
      2:{ unfold lenN. rewrite (concat_blocks_length 16), LS by auto. lia. }
      eexists; split; [reflexivity|].
      exists (set_nth row (N.to_nat i) (nth (N.to_nat i) (g n) 0)).
      split; [|split; [rewrite set_nth_length; auto|]].
      * rewrite N.mod_small by (apply (words_nth 32); auto).
        replace (N.to_nat (n * 16 + i)) with (16 * N.to_nat n + N.to_nat i)%nat by lia.
        unfold lenN in LR.
        rewrite !set_nth_split with (l := R) by lia.
        rewrite !concat_app. cbn [concat].
        set (pre := concat (firstn (N.to_nat n) R)).
        assert (Lp : length pre = (16 * N.to_nat n)%nat) by (apply firstn_blocks_length; auto; lia).
        rewrite set_nth_split by (rewrite !app_length; lia).
        rewrite firstn_app, skipn_app, Lp.
        replace (16 * N.to_nat n + N.to_nat i - 16 * N.to_nat n)%nat with (N.to_nat i) by lia.
        replace (S (16 * N.to_nat n + N.to_nat i) - 16 * N.to_nat n)%nat with (S (N.to_nat i)) by lia.
        rewrite (firstn_all2 pre) by lia. rewrite (skipn_all2 pre) by lia. cbn [app].
        rewrite firstn_app, skipn_app, Lr.
        replace (N.to_nat i - 16)%nat with 0%nat by lia.
        replace (S (N.to_nat i) - 16)%nat with 0%nat by lia.
        rewrite (set_nth_split row) by lia. cbn [firstn skipn].
        rewrite app_nil_r, <- !app_assoc. reflexivity.
      * intros k Hk. rewrite nth_set_nth by lia.
        destruct (Nat.eqb_spec (N.to_nat i) (N.to_nat k)) as [Eik|]; [rewrite Eik; reflexivity|].
        apply Gr. lia.
    + exists (concat (set_nth R (N.to_nat n) row)). split; [exact E|].
      exists (set_nth R (N.to_nat n) row). split; [reflexivity|]. split; [apply blocks_set_nth; auto|].
      split; [unfold lenN; rewrite set_nth_length; exact LR|].
      intros k Hk. rewrite nth_set_nth by (unfold lenN in LR; lia).
      destruct (Nat.eqb_spec (N.to_nat n) (N.to_nat k)) as [Ek|].
      * replace k with n by lia. apply (list_eq_nth _ _ 0); [lia|].
        intros q Hq. specialize (Gr (N.of_nat q)). rewrite Nat2N.id in Gr. apply Gr.
        unfold hashWords. lia.
      * apply G. lia.
  - rewrite E. do 2 f_equal. apply (list_eq_tab _ _ []); auto.
Qed.

(** ** C15: the L1 cache *)

Theorem generateL1Cache_spec H d C buf rows :
  hash_ok 64 H -> cache_ok C -> lenN C < 2 ^ 28 -> lenN buf = 64 * rows -> rows < 2 ^ 32 ->
  generateL1Cache H d buf (concat C) =
  Done (words_bytes (concat (tab rows (dataset_item H (N.to_nat (cf_dataset_parents d)) C)))).
Proof.
  intros HH OK HC HL Hr. unfold generateL1Cache.
  replace (lenN buf / hashBytes) with rows by (unfold hashBytes; rewrite HL; lia).
  assert (LB : length buf = (64 * N.to_nat rows)%nat) by (unfold lenN in HL; lia).
  destruct (for_n_inv (fun n l1 => exists R, l1 = concat R /\ blocks 64 R /\ lenN R = rows /\
      forall k, k < n -> nth (N.to_nat k) R [] =
        words_bytes (dataset_item H (N.to_nat (cf_dataset_parents d)) C k)) rows
    (fun i l1 =>
    item <- generateDatasetItem H d (concat C) (u32 i) ;;
    copy_at l1 (i * hashBytes) item) buf) as (dat & E & R & -> & BR & LR & G).
  - exists (cut 64 (N.to_nat rows) buf). split; [symmetry; apply cut_concat; auto|].
    split; [apply cut_blocks; auto|]. split; [unfold lenN; rewrite cut_length; lia|]. intros; lia.
  - intros n l1 Hn (R & -> & BR & LR & G).
    replace (u32 n) with n by (symmetry; apply trunc_small; lia).
    rewrite generateDatasetItem_spec by auto. cbn [bind].
    set (g := dataset_item H (N.to_nat (cf_dataset_parents d)) C) in *.
    assert (Lg : length (words_bytes (g n)) = 64%nat).
    { rewrite words_bytes_length. unfold g. rewrite dataset_item_length. reflexivity. }
    clearbody g.
    rewrite (copy_block 64 R n) by (auto; unfold hashBytes; lia).
    eexists; split; [reflexivity|]. eexists; split; [reflexivity|].
    split; [apply blocks_set_nth; auto|].
    split; [unfold lenN; rewrite set_nth_length; exact LR|].
    intros k Hk. rewrite nth_set_nth by (unfold lenN in LR; lia).
    destruct (Nat.eqb_spec (N.to_nat n) (N.to_nat k)) as [Ek|].
    + replace k with n by lia. reflexivity.
    + apply G. lia.
  - rewrite E. f_equal.
    rewrite (list_eq_tab R rows [] _ LR G).
    set (g := dataset_item H (N.to_nat (cf_dataset_parents d)) C). clearbody g. clear.
    unfold tab. induction (seq 0 (N.to_nat rows)) as [|x l IH]; [reflexivity|].
    cbn [map concat]. rewrite IH. unfold words_bytes. rewrite flat_map_app. reflexivity.
Qed.
