(** C55, C56, C57: Eaglesong. *)
From Coq Require Import NArith ZArith Arith List Lia Bool ZifyBool ZifyNat ZifyN.
From Verif Require Import Base BaseFacts CryptoSpec EagleTables EagleModel EagleSpec EagleProofs EaglePerm.
Import ListNotations.
Open Scope N_scope.
Ltac Zify.zify_post_hook ::= Z.div_mod_to_equations.

(** ** C55 *)

(** For every input of bytes, of any length, the function returns the sponge of the specification. *)
Theorem C55_sponge rounds capacity r delim input :
  bytes input -> delim < 256 -> rounds <= 43 -> 1 <= r <= 16 ->
  eaglesong rounds capacity (32 * r) delim input = Done (eagle_spec rounds capacity r delim input).
Proof. apply eaglesong_spec. Qed.
Print Assumptions C55_sponge.

(** The Nervos client: 43 rounds, 8 words per block, delimiter 6, one output block of 32 bytes. *)
Lemma bytes_flat l : bytes (flat_map (le_bytes 4) l).
Proof. induction l; cbn [flat_map]; [constructor|]. apply Forall_app. split; [apply le_bytes_bytes|auto]. Qed.
Theorem C55_nervos input : bytes input ->
  let s := absorb 43 8 (eagle_word 6 input) (N.to_nat ((lenN input + 32) / 32)) in
  Compute NewNervos input = Done (flat_map (le_bytes 4) (firstn 8 s)) /\
  length (flat_map (le_bytes 4) (firstn 8 s)) = 32%nat /\ bytes (flat_map (le_bytes 4) (firstn 8 s)).
Proof.
  intros B s. assert (S : state16 s).
  { apply state16_absorb; [lia|lia|]. intros w. apply eagle_word_lt; auto. lia. }
  split; [|split; [|apply bytes_flat]].
  - unfold Compute, NewNervos, New, c_rounds, c_capacity, c_rate, c_delim.
    change 256 with (32 * 8). rewrite eaglesong_spec by (auto; lia). unfold eagle_spec, eagle_blocks.
    replace (lenN input + 1 + 4 * 8 - 1) with (lenN input + 32) by lia. change (4 * 8) with 32. fold s.
    change (32 / 32) with 1. change (32 - 32 * 1) with 0. change (seq 0 (N.to_nat 1)) with [O]. cbn [map concat].
    change (zeros 0) with (@nil N). rewrite !app_nil_r. unfold out_block. cbn [squeezed].
    change (N.to_nat 8) with 8%nat. reflexivity.
  - rewrite flat_map_length_4, firstn_length. destruct S as (-> & _). reflexivity.
Qed.
Print Assumptions C55_nervos.

(** The length given to New plays no part. *)
Theorem C55_length_ignored rounds capacity rate len len' delim input :
  Compute (New rounds capacity rate len delim) input = Compute (New rounds capacity rate len' delim) input.
Proof. reflexivity. Qed.

(** Outside those parameters it fails: more rounds than constants, more words than the state. *)
Lemma permute_panics rounds s : state16 s -> 43 < rounds -> permute rounds s = Panic.
Proof.
  intros S R. unfold permute, for_n.
  replace (N.to_nat rounds) with (43 + Datatypes.S (N.to_nat (rounds - 44)))%nat by lia.
  rewrite for_up_app.
  assert (E := permute_spec 43 s S ltac:(lia)). unfold permute, for_n in E. change (N.to_nat 43) with 43%nat in E.
  rewrite E. clear E. pose proof (state16_perm 43 s S ltac:(lia)) as P. revert P.
  generalize (eagle_perm 43 s). intros t T. cbn [bind].
  assert (I : forall u, state16 u -> injectStage (0 + N.of_nat 43) u = Panic).
  { intros u (LU & _). unfold injectStage, for_n. change (N.to_nat 16) with (Datatypes.S 15). cbn [for_up].
    destruct u as [|x u]; [discriminate|]. rewrite (idx_Done _ _ 0) by (unfold lenN; cbn [length]; lia). cbn [bind].
    reflexivity. }
  cbn [for_up].
  pose proof (state16_bit_mix _ T) as B. pose proof (state16_circulant _ B) as C.
  rewrite bitStage_spec by auto. cbn [bind]. rewrite copyStage_spec by auto. cbn [bind].
  rewrite circStage_spec by auto. cbn [bind]. rewrite I by auto. reflexivity.
Qed.
Theorem C55_rounds_bound rounds capacity r delim input :
  bytes input -> delim < 256 -> 43 < rounds -> 1 <= r <= 16 -> eaglesong rounds capacity (32 * r) delim input = Panic.
Proof.
  intros B D R HR. unfold eaglesong, divc. destruct (N.eqb_spec (32 * r) 0) as [?|NZ0]; [lia|]. cbn [bind].
  assert (BL : 0 < ((lenN input + 1) * 8 + 32 * r - 1) / (32 * r)) by (apply N.div_str_pos; lia).
  unfold for_n at 1. set (nb := _ / (32 * r)) in *.
  replace (N.to_nat nb) with (Datatypes.S (N.to_nat (nb - 1))) by lia. cbn [for_up].
  replace (32 * r / 32) with r by (rewrite N.mul_comm, N.div_mul by discriminate; auto).
  rewrite (absorb_block_spec r _ _ (fun j => eagle_word delim input (r * 0 + j))); [|apply state16_zero|lia|].
  - cbn [bind]. rewrite permute_panics; auto. apply state16_tab. intros j J. change (zeros 16) with (repeat 0 16).
    pose proof (word_lt (repeat 0 16) j (proj2 state16_zero)).
    destruct (N.ltb_spec j r); auto. apply xor_lt32; auto. apply eagle_word_lt; auto.
  - intros j t J LT. rewrite absorbWord_spec by auto. reflexivity.
Qed.
Print Assumptions C55_rounds_bound.
Theorem C55_rate_bound rounds capacity r delim input :
  bytes input -> delim < 256 -> 16 < r -> eaglesong rounds capacity (32 * r) delim input = Panic.
Proof.
  intros B D HR. unfold eaglesong, divc. destruct (N.eqb_spec (32 * r) 0) as [?|NZ0]; [lia|]. cbn [bind].
  assert (BL : 0 < ((lenN input + 1) * 8 + 32 * r - 1) / (32 * r)) by (apply N.div_str_pos; lia).
  unfold for_n at 1. set (nb := _ / (32 * r)) in *.
  replace (N.to_nat nb) with (Datatypes.S (N.to_nat (nb - 1))) by lia. cbn [for_up].
  replace (32 * r / 32) with r by (rewrite N.mul_comm, N.div_mul by discriminate; auto).
  unfold for_n at 1. replace (N.to_nat r) with (16 + Datatypes.S (N.to_nat (r - 17)))%nat by lia.
  rewrite for_up_app.
  match goal with |- context [for_up 16 0 ?b (zeros 16)] =>
    assert (E := absorb_block_spec 16 (zeros 16) b (fun j => eagle_word delim input (r * 0 + j)) state16_zero ltac:(lia)) end.
  unfold for_n in E at 1. change (N.to_nat 16) with 16%nat in E. rewrite E.
  - cbn [bind for_up]. rewrite absorbWord_spec by auto. cbn [bind]. reflexivity.
  - intros j t J LT. rewrite absorbWord_spec by auto. reflexivity.
Qed.
Print Assumptions C55_rate_bound.
Theorem C55_rate_zero rounds capacity delim input : eaglesong rounds capacity 0 delim input = Panic.
Proof. reflexivity. Qed.

(** The published procedure for the constants: little-endian words of the extendable-output hash. *)
Theorem C55_constants shake256 seed rounds :
  length (shake256 (N.to_nat (64 * rounds)) seed) = N.to_nat (64 * rounds) ->
  bytes (shake256 (N.to_nat (64 * rounds)) seed) ->
  generateInjectionConstants shake256 seed rounds =
  Done (tab (16 * rounds) (fun i => le_value (firstn 4 (skipn (N.to_nat (4 * i)) (shake256 (N.to_nat (64 * rounds)) seed))))).
Proof.
  intros L B. unfold generateInjectionConstants. replace (rounds * 16 * 4) with (64 * rounds) by lia.
  set (h := shake256 (N.to_nat (64 * rounds)) seed) in *. cbv zeta. replace (rounds * 16) with (16 * rounds) by lia.
  apply (for_fill _ _ _ _ 0); [unfold zeros, lenN; rewrite repeat_length; lia|].
  intros i t I LT _ HI.
  assert (Z : nth (N.to_nat i) t 0 = 0).
  { rewrite HI by lia. unfold zeros.
    destruct (nth_in_or_default (N.to_nat i) (repeat 0 (N.to_nat (16 * rounds))) 0) as [In|E]; auto. apply repeat_spec in In. auto. }
  rewrite !(idx_Done h _ 0) by (unfold lenN; lia). cbn [bind].
  rewrite (idx_Done t _ 0) by lia. cbn [bind]. rewrite Z. f_equal.
  assert (LS : (4 <= length (skipn (N.to_nat (4 * i)) h))%nat) by (rewrite skipn_length; lia).
  pose proof (Forall_skipn_w _ (N.to_nat (4 * i)) _ B) as BS.
  assert (NS : forall k, k < 4 -> nth (N.to_nat (i * 4 + k)) h 0 = nth (N.to_nat k) (skipn (N.to_nat (4 * i)) h) 0).
  { intros k K. rewrite nth_skipn. f_equal. lia. }
  rewrite !NS by lia. clear NS. revert LS BS. generalize (skipn (N.to_nat (4 * i)) h).
  intros [|b0 [|b1 [|b2 [|b3 q]]]] LS BS; cbn [length] in LS; try lia.
  repeat match goal with H : Forall _ (_ :: _) |- _ => apply Forall_cons_iff in H as (? & H) end.
  cbn [firstn le_value]. change (N.to_nat 0) with O. change (N.to_nat 1) with 1%nat. change (N.to_nat 2) with 2%nat.
  change (N.to_nat 3) with 3%nat. cbn [nth]. unfold isw in *. change (2 ^ 8) with 256 in *.
  unfold addw, mulw. rewrite !trunc_mod. change (2 ^ 32) with 4294967296.
  rewrite !N.mod_small; try lia; repeat (rewrite N.mod_small by lia); lia.
Qed.
Print Assumptions C55_constants.

(** ** C56 *)

(** For every number of rounds up to 43 the permutation maps the 16-word states one to one onto
    themselves, and applying it cannot fail. *)
Theorem C56_bijection rounds : rounds <= 43 ->
  (forall s, state16 s -> exists t, permute rounds s = Done t /\ state16 t) /\
  (forall s t u, state16 s -> state16 t -> permute rounds s = Done u -> permute rounds t = Done u -> s = t) /\
  (forall t, state16 t -> exists s, state16 s /\ permute rounds s = Done t).
Proof.
  intros R. assert (R' : (N.to_nat rounds <= 43)%nat) by lia. split; [|split].
  - intros s S. eexists; split; [apply permute_spec; auto|apply state16_perm; auto].
  - intros s t u S T. rewrite !permute_spec by auto. intros A B.
    rewrite <- (unperm_perm (N.to_nat rounds) s S R'), <- (unperm_perm (N.to_nat rounds) t T R'). congruence.
  - intros t T. exists (unperm (N.to_nat rounds) t).
    pose proof (state16_unperm (N.to_nat rounds) t T R') as U. split; [exact U|].
    rewrite permute_spec, perm_unperm by auto. reflexivity.
Qed.
Print Assumptions C56_bijection.

(** ** C57 *)

(** The sequence of words exclusive-ored into the state for an input. *)
Definition absorbed (r delim : N) (input : list N) : list N :=
  tab (r * eagle_blocks r (lenN input)) (eagle_word delim input).

Lemma absorb_ext rounds r V W n : (forall w, w < r * N.of_nat n -> V w = W w) -> absorb rounds r V n = absorb rounds r W n.
Proof.
  induction n; intros H; [reflexivity|]. cbn [absorb]. rewrite IHn by (intros; apply H; lia).
  unfold absorb_block. f_equal. apply tab_ext. intros j J. destruct (N.ltb_spec j r); auto. f_equal. apply H. lia.
Qed.
Lemma tab_inj_at n m (f g : N -> N) k : tab n f = tab m g -> k < n -> f k = g k.
Proof.
  intros E K. assert (n = m).
  { apply (f_equal (@length N)) in E. rewrite !tab_length in E. lia. }
  subst m. pose proof (word_tab n f k K) as A. rewrite E, word_tab in A; auto.
Qed.
(** The digest is a function of the absorbed words. *)
Theorem C57_digest_of_absorbed rounds capacity r delim a b :
  bytes a -> bytes b -> delim < 256 -> rounds <= 43 -> 1 <= r <= 16 -> absorbed r delim a = absorbed r delim b ->
  eaglesong rounds capacity (32 * r) delim a = eaglesong rounds capacity (32 * r) delim b.
Proof.
  intros A B D R HR E. rewrite !eaglesong_spec by auto. unfold eagle_spec. unfold absorbed in E.
  assert (N1 : eagle_blocks r (lenN a) = eagle_blocks r (lenN b)).
  { apply (f_equal (@length N)) in E. rewrite !tab_length in E. nia. }
  rewrite <- N1. rewrite (absorb_ext _ _ (eagle_word delim a) (eagle_word delim b)); [reflexivity|].
  intros w W. apply (tab_inj_at _ _ _ _ _ E). lia.
Qed.
Print Assumptions C57_digest_of_absorbed.

Lemma blocks_of r len : 1 <= r -> eagle_blocks r len = len / 4 / r + 1.
Proof.
  intros R. unfold eagle_blocks. replace (len + 1 + 4 * r - 1) with (len + 1 * (4 * r)) by lia.
  rewrite N.div_add by lia. rewrite N.div_div by lia. reflexivity.
Qed.
Lemma be_value_inj a b : bytes a -> bytes b -> length a = length b -> be_value a = be_value b -> a = b.
Proof. intros A B L E. rewrite <- (be_value_bytes a A), <- (be_value_bytes b B). congruence. Qed.
Lemma be_value_zeros n t : be_value (repeat 0 n ++ t) = be_value t.
Proof. induction n; [reflexivity|]. cbn [repeat app]. rewrite AutoProofs.be_value_cons, IHn. lia. Qed.
Lemma be_value_pad a b : bytes a -> bytes b -> (length a <= length b)%nat -> be_value a = be_value b ->
  b = repeat 0 (length b - length a) ++ a.
Proof.
  intros A B L E. apply be_value_inj; auto.
  - apply Forall_app. split; auto. apply Forall_forall. intros x X. apply repeat_spec in X. subst. reflexivity.
  - rewrite app_length, repeat_length. lia.
  - rewrite be_value_zeros. auto.
Qed.
Lemma word_inside delim a w : 4 * w + 4 <= lenN a ->
  eagle_word delim a w = be_value (firstn 4 (skipn (N.to_nat (4 * w)) a)).
Proof.
  intros L. unfold eagle_word, lenN in *. rewrite skipn_app, firstn_app, skipn_length.
  replace (4 - (length a - N.to_nat (4 * w)))%nat with O by lia. rewrite firstn_O, app_nil_r. reflexivity.
Qed.
Lemma word_last delim a : eagle_word delim a (lenN a / 4) = 256 * be_value (skipn (N.to_nat (4 * (lenN a / 4))) a) + delim.
Proof.
  unfold eagle_word. rewrite <- be_value_snoc. f_equal. rewrite skipn_app.
  replace (N.to_nat (4 * (lenN a / 4)) - length a)%nat with O by (unfold lenN; lia). cbn [skipn].
  apply firstn_all2. rewrite app_length, skipn_length. cbn [length]. unfold lenN. lia.
Qed.
Lemma word_beyond delim a w : lenN a / 4 < w -> eagle_word delim a w = 0.
Proof.
  intros L. unfold eagle_word. rewrite skipn_all2; [reflexivity|].
  rewrite app_length. cbn [length]. unfold lenN in L. lia.
Qed.
Lemma prefix_words (q : nat) a b : bytes a -> bytes b -> (4 * q <= length a)%nat -> (4 * q <= length b)%nat ->
  (forall w, (w < q)%nat -> be_value (firstn 4 (skipn (4 * w) a)) = be_value (firstn 4 (skipn (4 * w) b))) ->
  firstn (4 * q) a = firstn (4 * q) b.
Proof.
  intros A B. induction q as [|q IH]; intros LA LB H; [reflexivity|].
  assert (S : forall l : list N, firstn (4 * Datatypes.S q) l = firstn (4 * q) l ++ firstn 4 (skipn (4 * q) l)).
  { intros l. replace (4 * Datatypes.S q)%nat with (4 * q + 4)%nat by lia.
    rewrite <- (firstn_skipn (4 * q) l) at 1. rewrite firstn_app, firstn_firstn, firstn_length.
    destruct (Nat.le_gt_cases (4 * q) (length l)) as [G|G].
    - replace (Nat.min (4 * q + 4) (4 * q)) with (4 * q)%nat by lia. f_equal. f_equal. lia.
    - rewrite skipn_all2 by lia. rewrite !firstn_nil. f_equal. f_equal. lia. }
  rewrite !S. f_equal; [apply IH; [lia|lia|]; intros; apply H; lia|].
  apply be_value_inj; try (apply Forall_firstn_w, Forall_skipn_w; auto).
  - rewrite !firstn_length, !skipn_length. lia.
  - apply H. lia.
Qed.

(** Exactly which inputs are absorbed alike: same leading groups of four bytes, and last incomplete
    groups that differ only in leading zero bytes. *)
Theorem C57_absorbed_alike_iff r delim a b :
  bytes a -> bytes b -> 0 < delim < 256 -> 1 <= r ->
  (absorbed r delim a = absorbed r delim b <->
   exists p t i j, lenN p mod 4 = 0 /\ a = p ++ repeat 0 i ++ t /\ b = p ++ repeat 0 j ++ t /\
     (i + length t <= 3)%nat /\ (j + length t <= 3)%nat).
Proof.
  intros A B D R. split.
  - intros E. unfold absorbed in E. rewrite !blocks_of in E by auto.
    assert (NE : lenN a / 4 / r = lenN b / 4 / r).
    { apply (f_equal (@length N)) in E. rewrite !tab_length in E. nia. }
    assert (In : forall l : list N, lenN l / 4 < r * (lenN l / 4 / r + 1)).
    { intros l. pose proof (N.mul_succ_div_gt (lenN l / 4) r ltac:(lia)). lia. }
    assert (W : forall w, eagle_word delim a w = eagle_word delim b w).
    { intros w. destruct (N.lt_ge_cases w (r * (lenN a / 4 / r + 1))) as [L|L].
      - apply (tab_inj_at _ _ _ _ w E L).
      - pose proof (In a). pose proof (In b). rewrite <- NE in H0. rewrite !word_beyond by lia. reflexivity. }
    assert (Q : lenN a / 4 = lenN b / 4).
    { destruct (N.lt_trichotomy (lenN a / 4) (lenN b / 4)) as [L|[L|L]]; auto; exfalso.
      - pose proof (W (lenN b / 4)) as X. rewrite word_last, word_beyond in X by auto. lia.
      - pose proof (W (lenN a / 4)) as X. rewrite word_last, word_beyond in X by auto. lia. }
    set (q := lenN a / 4) in *.
    assert (PQ : firstn (4 * N.to_nat q) a = firstn (4 * N.to_nat q) b).
    { unfold lenN in *. apply prefix_words; auto; try lia. intros w HW.
      specialize (W (N.of_nat w)). rewrite !word_inside in W by (unfold lenN; lia).
      replace (N.to_nat (4 * N.of_nat w)) with (4 * w)%nat in W by lia. exact W. }
    pose proof (W q) as X. unfold q in X at 1. rewrite word_last in X. fold q in X. rewrite Q, word_last, <- Q in X.
    replace (N.to_nat (4 * q)) with (4 * N.to_nat q)%nat in X by lia.
    set (ta := skipn (4 * N.to_nat q) a) in *. set (tb := skipn (4 * N.to_nat q) b) in *.
    assert (TA : bytes ta) by (apply Forall_skipn_w; auto). assert (TB : bytes tb) by (apply Forall_skipn_w; auto).
    assert (LA : (length ta <= 3)%nat) by (unfold ta; rewrite skipn_length; unfold lenN in *; lia).
    assert (LB : (length tb <= 3)%nat) by (unfold tb; rewrite skipn_length; unfold lenN in *; lia).
    assert (EV : be_value ta = be_value tb) by lia.
    assert (EA : a = firstn (4 * N.to_nat q) a ++ ta) by (symmetry; apply firstn_skipn).
    assert (EB : b = firstn (4 * N.to_nat q) a ++ tb) by (rewrite PQ; symmetry; apply firstn_skipn).
    assert (LP : lenN (firstn (4 * N.to_nat q) a) mod 4 = 0).
    { unfold lenN in *. rewrite firstn_length. lia. }
    exists (firstn (4 * N.to_nat q) a).
    destruct (Nat.le_gt_cases (length ta) (length tb)) as [L|L].
    + pose proof (be_value_pad ta tb TA TB L EV) as P. exists ta, O, (length tb - length ta)%nat.
      split; [exact LP|]. split; [exact EA|]. split; [rewrite <- P; exact EB|]. lia.
    + pose proof (be_value_pad tb ta TB TA ltac:(lia) (eq_sym EV)) as P. exists tb, (length ta - length tb)%nat, O.
      split; [exact LP|]. split; [rewrite <- P; exact EA|]. split; [exact EB|]. lia.
  - intros (p & t & i & j & M & EA & EB & LI & LJ).
    assert (G : forall i, (i + length t <= 3)%nat -> lenN (p ++ repeat 0 i ++ t) / 4 = lenN p / 4).
    { intros k K. rewrite !lenN_app. unfold lenN at 2 3. rewrite repeat_length. lia. }
    assert (V : forall i w, (i + length t <= 3)%nat -> eagle_word delim (p ++ repeat 0 i ++ t) w =
       if w <? lenN p / 4 then be_value (firstn 4 (skipn (N.to_nat (4 * w)) p))
       else if w =? lenN p / 4 then 256 * be_value t + delim else 0).
    { intros k w K. specialize (G k K).
      destruct (N.ltb_spec w (lenN p / 4)) as [H|H]; [|destruct (N.eqb_spec w (lenN p / 4)) as [H'|H']].
      - rewrite word_inside by (rewrite lenN_app; lia). f_equal. rewrite skipn_app, firstn_app, skipn_length.
        unfold lenN in H. replace (4 - (length p - N.to_nat (4 * w)))%nat with O by lia. rewrite firstn_O, app_nil_r. reflexivity.
      - rewrite H', <- G, word_last, G. f_equal. f_equal. rewrite <- (be_value_zeros k t). f_equal.
        rewrite skipn_app. replace (N.to_nat (4 * (lenN p / 4))) with (length p) by (unfold lenN in *; lia).
        rewrite skipn_all, Nat.sub_diag. reflexivity.
      - apply word_beyond. lia. }
    subst a b. unfold absorbed. rewrite !blocks_of by auto. rewrite !G by auto. apply tab_ext.
    intros w _. rewrite !V by auto. reflexivity.
Qed.
Print Assumptions C57_absorbed_alike_iff.

(** So padding does not separate all inputs: these four have the same Nervos digest. *)
Theorem C57_separates_refuted :
  ~ (forall a b, bytes a -> bytes b -> a <> b -> absorbed 8 6 a <> absorbed 8 6 b).
Proof. intros H. apply (H [] [0]); [constructor|repeat constructor|discriminate|reflexivity]. Qed.
Print Assumptions C57_separates_refuted.
Theorem C57_same_digest p t i j : bytes p -> bytes t -> lenN p mod 4 = 0 -> (i + length t <= 3)%nat -> (j + length t <= 3)%nat ->
  Compute NewNervos (p ++ repeat 0 i ++ t) = Compute NewNervos (p ++ repeat 0 j ++ t).
Proof.
  intros P T M I J. unfold Compute, NewNervos, New, c_rounds, c_capacity, c_rate, c_delim. change 256 with (32 * 8).
  assert (G : forall k, bytes (p ++ repeat 0 k ++ t)).
  { intros k. apply Forall_app; split; auto. apply Forall_app; split; auto.
    apply Forall_forall. intros x X. apply repeat_spec in X. subst. reflexivity. }
  apply C57_digest_of_absorbed; auto; try lia.
  apply C57_absorbed_alike_iff; auto; try lia. exists p, t, i, j. auto.
Qed.
Print Assumptions C57_same_digest.
(** It separates inputs of the same length, and inputs of whole words. *)
Theorem C57_separates_same_length r delim a b : bytes a -> bytes b -> 0 < delim < 256 -> 1 <= r ->
  length a = length b -> absorbed r delim a = absorbed r delim b -> a = b.
Proof.
  intros A B D R L E. apply C57_absorbed_alike_iff in E; auto. destruct E as (p & t & i & j & _ & -> & -> & _ & _).
  rewrite !app_length, !repeat_length in L. replace j with i by lia. reflexivity.
Qed.
Theorem C57_separates_whole_words r delim a b : bytes a -> bytes b -> 0 < delim < 256 -> 1 <= r ->
  lenN a mod 4 = 0 -> lenN b mod 4 = 0 -> absorbed r delim a = absorbed r delim b -> a = b.
Proof.
  intros A B D R LA LB E. apply C57_absorbed_alike_iff in E; auto. destruct E as (p & t & i & j & M & -> & -> & I & J).
  rewrite !lenN_app in *. unfold lenN in *. rewrite repeat_length in *. f_equal. f_equal. f_equal. lia.
Qed.
Print Assumptions C57_separates_whole_words.

(** ** Instances *)
Example C55_instance : eaglesong 2 32 256 6 [1; 2; 3] = Done (eagle_spec 2 32 8 6 [1; 2; 3]) /\
  hd 0 (eagle_spec 2 32 8 6 [1; 2; 3]) <> 0.
Proof. split; [vm_compute; reflexivity|vm_compute; discriminate]. Qed.
Example C55_bound_instance : eaglesong 44 32 256 6 [1; 2; 3] = Panic /\ eaglesong 43 32 544 6 [1; 2; 3] = Panic.
Proof. split; [apply (C55_rounds_bound 44 32 8)|apply (C55_rate_bound 43 32 17)]; try lia; repeat constructor. Qed.
Example C56_instance : state16 (tab 16 (fun j => j)) /\
  permute 1 (tab 16 (fun j => j)) <> Done (tab 16 (fun j => j)).
Proof. split; [split; [reflexivity|repeat constructor]|vm_compute; discriminate]. Qed.
Example C57_instance : absorbed 8 6 [1; 2; 3; 4; 0; 7] = absorbed 8 6 [1; 2; 3; 4; 7] /\
  absorbed 8 6 [1; 2; 3; 4; 7] <> absorbed 8 6 [1; 2; 3; 4; 8] /\
  Compute NewNervos [] = Compute NewNervos [0; 0; 0].
Proof.
  split; [reflexivity|]. split; [vm_compute; discriminate|].
  apply (C57_same_digest [] [] 0 3); [constructor|constructor|reflexivity|cbn; lia|cbn; lia].
Qed.
