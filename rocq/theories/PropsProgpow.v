(** C24-C30: ProgPoW and the proof-of-work functions built on it. *)
From Coq Require Import NArith ZArith List Lia Bool ZifyBool ZifyNat ZifyN Arith Permutation.
From Coq Require String.
From Verif Require Import Base BaseFacts KeccakSpec KeccakModel CryptoSpec DagSpec DagContent
  ProgpowModel ProgpowSpec ProgpowOps ProgpowProofs ProgpowHash.
Import String.StringSyntax.
Open Scope string_scope.
Open Scope list_scope.
Import ListNotations.
Open Scope N_scope.
Ltac Zify.zify_post_hook ::= Z.div_mod_to_equations.

(** ** C24 *)

(** The values of [k] successive draws. *)
Fixpoint draws (next : mixRngState -> outcome (N * mixRngState)) (k : nat) (s : mixRngState)
  : outcome (list N * mixRngState) :=
  match k with
  | O => Done ([], s)
  | S k' =>
      ' x <- next s ;;
      let '(v, s1) := x in
      ' y <- draws next k' s1 ;;
      let '(vs, s2) := y in
      Done (v :: vs, s2)
  end.
(** The registers 0, 1, ..., n-1. *)
Definition registers (n : nat) : list N := map N.of_nat (seq 0 n).

Lemma rotation_perm (l : list N) c n :
  length l = n -> (0 < n)%nat ->
  Permutation l (map (fun i => nth (Nat.modulo (c + i) n) l 0) (seq 0 n)).
Proof.
  intros L P.
  assert (E : map (fun i => nth (Nat.modulo (c + i) n) l 0) (seq 0 n) = skipn (Nat.modulo c n) l ++ firstn (Nat.modulo c n) l).
  { set (r := Nat.modulo c n). assert (Hr : (r < n)%nat) by (apply Nat.mod_upper_bound; lia).
    assert (G : forall i, Nat.modulo (c + i) n = Nat.modulo (r + i) n).
    { intros i. unfold r. rewrite Nat.add_mod_idemp_l by lia. reflexivity. }
    apply (list_eq_nth _ _ 0).
    - rewrite map_length, seq_length, app_length, skipn_length, firstn_length. lia.
    - intros i Hi. rewrite map_length, seq_length in Hi.
      set (f := fun i => nth (Nat.modulo (c + i) n) l 0).
      rewrite nth_indep with (d' := f 0%nat) by (rewrite map_length, seq_length; auto).
      rewrite map_nth, seq_nth by auto. unfold f. cbn [Nat.add]. rewrite G.
      destruct (Nat.lt_ge_cases (r + i) n).
      + rewrite Nat.mod_small by auto. rewrite app_nth1 by (rewrite skipn_length; lia).
        rewrite nth_skipn. f_equal.
      + rewrite app_nth2 by (rewrite skipn_length; lia). rewrite skipn_length, nth_firstn by lia.
        f_equal. replace (r + i)%nat with ((r + i - n) + 1 * n)%nat by lia.
        rewrite Nat.mod_add, Nat.mod_small by lia. lia. }
  rewrite E. rewrite <- (firstn_skipn (Nat.modulo c n) l) at 1. apply Permutation_app_comm.
Qed.

(** Counters stay below 2^32. *)
Lemma draws_src k s c :
  size s <> 0 -> lenN (srcSequence s) = size s -> srcCounter s = N.of_nat c -> N.of_nat (c + k) < 2 ^ 32 ->
  exists s', draws nextSrc k s = Done (map (fun i => nth (Nat.modulo (c + i) (N.to_nat (size s))) (srcSequence s) 0) (seq 0 k), s') /\
    size s' = size s /\ srcSequence s' = srcSequence s /\ srcCounter s' = N.of_nat (c + k).
Proof.
  revert s c; induction k as [|k IH]; intros s c NZ LS CS B.
  - exists s. rewrite Nat.add_0_r. auto.
  - cbn [draws]. unfold nextSrc at 1. unfold modc. destruct (N.eqb_spec (size s) 0) as [?|_]; [lia|]. cbn [bind].
    rewrite (idx_Done _ _ 0) by (rewrite LS; apply N.mod_lt; auto). cbn [bind].
    set (s1 := mkRng _ _ _ _ _ _).
    destruct (IH s1 (S c)) as (s' & E & A1 & A2 & A3).
    + exact NZ.
    + exact LS.
    + unfold s1. cbn [srcCounter]. rewrite CS. unfold addw. rewrite trunc_small; lia.
    + lia.
    + rewrite E. cbn [bind]. exists s'. split.
      * f_equal. f_equal. cbn [seq map]. f_equal.
        -- f_equal. rewrite CS, N2Nat.inj_mod, Nat2N.id, Nat.add_0_r. reflexivity.
        -- rewrite <- seq_shift, map_map. apply map_ext. intros i. unfold s1. cbn [size srcSequence].
           f_equal. f_equal. lia.
      * split; [exact A1|]. split; [exact A2|]. rewrite A3. f_equal. lia.
Qed.
Lemma draws_dst k s c :
  size s <> 0 -> lenN (dstSequence s) = size s -> dstCounter s = N.of_nat c -> N.of_nat (c + k) < 2 ^ 32 ->
  exists s', draws nextDst k s = Done (map (fun i => nth (Nat.modulo (c + i) (N.to_nat (size s))) (dstSequence s) 0) (seq 0 k), s') /\
    size s' = size s /\ dstSequence s' = dstSequence s /\ dstCounter s' = N.of_nat (c + k).
Proof.
  revert s c; induction k as [|k IH]; intros s c NZ LS CS B.
  - exists s. rewrite Nat.add_0_r. auto.
  - cbn [draws]. unfold nextDst at 1. unfold modc. destruct (N.eqb_spec (size s) 0) as [?|_]; [lia|]. cbn [bind].
    rewrite (idx_Done _ _ 0) by (rewrite LS; apply N.mod_lt; auto). cbn [bind].
    set (s1 := mkRng _ _ _ _ _ _).
    destruct (IH s1 (S c)) as (s' & E & A1 & A2 & A3).
    + exact NZ.
    + exact LS.
    + unfold s1. cbn [dstCounter]. rewrite CS. unfold addw. rewrite trunc_small; lia.
    + lia.
    + rewrite E. cbn [bind]. exists s'. split.
      * f_equal. f_equal. cbn [seq map]. f_equal.
        -- f_equal. rewrite CS, N2Nat.inj_mod, Nat2N.id, Nat.add_0_r. reflexivity.
        -- rewrite <- seq_shift, map_map. apply map_ext. intros i. unfold s1. cbn [size dstSequence].
           f_equal. f_equal. lia.
      * split; [exact A1|]. split; [exact A2|]. rewrite A3. f_equal. lia.
Qed.

(** For every seed and every number [n] of registers, after any number [c] of earlier draws, [n]
    successive draws of a destination (of a source) are the registers 0..n-1 in some order. *)
Theorem C24_draws_visit_every_register seed n c :
  (0 < n)%nat -> N.of_nat (c + n) < 2 ^ 32 ->
  exists s, initMixRngState seed (N.of_nat n) = Done s /\
  (exists before mid out after,
     draws nextDst c s = Done (before, mid) /\ draws nextDst n mid = Done (out, after) /\
     Permutation (registers n) out) /\
  (exists before mid out after,
     draws nextSrc c s = Done (before, mid) /\ draws nextSrc n mid = Done (out, after) /\
     Permutation (registers n) out).
Proof.
  intros P B. pose proof (initMixRngState_spec seed (N.of_nat n) ltac:(lia)) as IS.
  destruct (shuffle (N.to_nat (N.of_nat n)) (period_rng seed) (ids (N.of_nat n)) (ids (N.of_nat n))) as ((dst, src), k).
  destruct IS as (r & E & _ & _ & PD & PS).
  assert (ER : ids (N.of_nat n) = registers n) by (unfold ids, tab, registers; rewrite Nat2N.id; reflexivity).
  assert (LD : length dst = n) by (rewrite <- (Permutation_length PD), ER; unfold registers; rewrite map_length, seq_length; auto).
  assert (LS : length src = n) by (rewrite <- (Permutation_length PS), ER; unfold registers; rewrite map_length, seq_length; auto).
  rewrite ER in *.
  eexists. split; [exact E|]. split.
  - destruct (draws_dst c (mkRng (N.of_nat n) 0 0 src dst r) 0) as (m & E1 & A1 & A2 & A3); cbn [size dstSequence dstCounter Nat.add];
      try (unfold lenN; lia).
    destruct (draws_dst n m c) as (t & E2 & _); try (rewrite ?A1, ?A2, ?A3; cbn [size dstSequence dstCounter Nat.add]; unfold lenN; lia).
    do 4 eexists. split; [exact E1|]. split; [exact E2|]. rewrite A1, A2. cbn [size dstSequence]. rewrite Nat2N.id.
    eapply Permutation_trans; [exact PD|]. apply rotation_perm; auto.
  - destruct (draws_src c (mkRng (N.of_nat n) 0 0 src dst r) 0) as (m & E1 & A1 & A2 & A3); cbn [size srcSequence srcCounter Nat.add];
      try (unfold lenN; lia).
    destruct (draws_src n m c) as (t & E2 & _); try (rewrite ?A1, ?A2, ?A3; cbn [size srcSequence srcCounter Nat.add]; unfold lenN; lia).
    do 4 eexists. split; [exact E1|]. split; [exact E2|]. rewrite A1, A2. cbn [size srcSequence]. rewrite Nat2N.id.
    eapply Permutation_trans; [exact PS|]. apply rotation_perm; auto.
Qed.
Print Assumptions C24_draws_visit_every_register.

(** The two sequences themselves. *)
Theorem C24_sequences seed n :
  n < 2 ^ 32 -> exists s, initMixRngState seed n = Done s /\ size s = n /\
    Permutation (registers (N.to_nat n)) (dstSequence s) /\ Permutation (registers (N.to_nat n)) (srcSequence s).
Proof.
  intros H. pose proof (initMixRngState_spec seed n H) as IS.
  destruct (shuffle (N.to_nat n) (period_rng seed) (ids n) (ids n)) as ((dst, src), k).
  destruct IS as (r & E & _ & _ & PD & PS). eexists. split; [exact E|]. auto.
Qed.
Print Assumptions C24_sequences.
Example C24_instance :
  match initMixRngState 10000 8 with
  | Done s => dstSequence s = [4; 0; 7; 6; 1; 2; 3; 5] /\ srcSequence s <> dstSequence s
  | _ => False
  end.
Proof. vm_compute. split; [reflexivity|discriminate]. Qed.

(** ** C25 *)

Lemma done_inj {A} (a b : A) : Done a = Done b -> a = b.
Proof. intros E. inversion E. reflexivity. Qed.

(** For every number of registers from 2 to 65535 and every random word: two distinct registers. *)
Theorem C25_distinct_in_range cfg v :
  2 <= RegisterCount cfg -> RegisterCount cfg < 2 ^ 16 ->
  exists s1 s2, mathSources cfg v = Done (s1, s2) /\
    s1 < RegisterCount cfg /\ s2 < RegisterCount cfg /\ s1 <> s2.
Proof.
  intros H1 H2. set (R := RegisterCount cfg) in *.
  rewrite mathSources_spec by (split; [exact H1|exact H2]). fold R.
  assert (Hv : v mod (R * (R - 1)) < R * (R - 1)) by (apply N.mod_lt; nia).
  pose proof (two_sources_ok cfg (conj H1 H2) _ Hv) as T. fold R in T.
  destruct (two_sources R (v mod (R * (R - 1)))) as (s1, s2). exists s1, s2. tauto.
Qed.
Print Assumptions C25_distinct_in_range.
(** Each ordered pair of distinct registers comes from exactly one residue modulo n(n-1). *)
Theorem C25_every_pair_once cfg s1 s2 :
  let n := RegisterCount cfg in
  2 <= n -> n < 2 ^ 16 -> s1 < n -> s2 < n -> s1 <> s2 ->
  exists! r, r < n * (n - 1) /\
    forall v, v mod (n * (n - 1)) = r <-> mathSources cfg v = Done (s1, s2).
Proof.
  intros n H1 H2 A B NE.
  assert (MS : forall v, mathSources cfg v = Done (two_sources n (v mod (n * (n - 1))))).
  { intros v. apply mathSources_spec. split; auto. }
  set (q := if s2 <? s1 then s2 else s2 - 1).
  assert (Hq : q < n - 1) by (unfold q; destruct (N.ltb_spec s2 s1); lia).
  assert (TS : forall r, r < n * (n - 1) -> (r = s1 + n * q <-> two_sources n r = (s1, s2))).
  { intros r Hr. unfold two_sources. split.
    - intros ->. rewrite (N.mul_comm n q), N.mod_add, N.mod_small, N.div_add, N.div_small by lia.
      rewrite N.add_0_l. f_equal. unfold q. destruct (N.ltb_spec s2 s1).
      + destruct (N.ltb_spec s2 s1); lia.
      + destruct (N.ltb_spec (s2 - 1) s1); lia.
    - intros E. injection E as E1 E2. rewrite (N.div_mod r n) by lia. rewrite E1. rewrite E1 in E2.
      rewrite N.add_comm. f_equal. f_equal. unfold q.
      destruct (N.ltb_spec (r / n) s1), (N.ltb_spec s2 s1); lia. }
  assert (RM : forall v, v mod (n * (n - 1)) < n * (n - 1)) by (intros v; apply N.mod_lt; nia).
  exists (s1 + n * q). split.
  - split; [nia|]. intros v. rewrite MS. specialize (TS (v mod (n * (n - 1))) (RM v)). rewrite TS.
    split; [intros ->; auto|]. intros E. exact (done_inj _ _ E).
  - intros r (Hr & HV). specialize (HV r). rewrite (N.mod_small r) in HV by auto. destruct HV as (HV & _).
    specialize (HV eq_refl). rewrite MS, (N.mod_small r) in HV by auto. apply done_inj in HV. symmetry. apply TS; auto.
Qed.
Print Assumptions C25_every_pair_once.
Example C25_instance :
  mathSources kawpow_cfg (5 + 32 * 7 + 992 * 11) = Done (5, 8) /\
  mathSources kawpow_cfg (7 + 32 * 5 + 992) = Done (7, 5).
Proof. split; reflexivity. Qed.
(** With 65537 registers the product of 32-bit words wraps to 65536, so the second source is
    always 0 or 1. *)
Theorem C25_wraps_refuted :
  exists cfg s1 s2, s1 < RegisterCount cfg /\ s2 < RegisterCount cfg /\ s1 <> s2 /\
    forall v, mathSources cfg v <> Done (s1, s2).
Proof.
  exists (mkPConfig 1 4 1 65537 1 1 1), 0, 2. split; [reflexivity|]. split; [reflexivity|]. split; [lia|].
  intros v. unfold mathSources. cbn [RegisterCount].
  change (u32 65537) with 65537. change (mulw 32 65537 (u32 (65537 - 1))) with 65536.
  unfold modc, divc. change (65536 =? 0) with false. change (65537 =? 0) with false. cbn [bind].
  assert (H : v mod 65536 < 65536) by (apply N.mod_lt; lia). set (w := v mod 65536) in *. clearbody w.
  rewrite (N.div_small w) by lia. intros E. injection E as _ E.
  destruct (N.leb_spec (w mod 65537) 0); discriminate.
Qed.
Print Assumptions C25_wraps_refuted.

(** ** C26 *)

(** For each selector and data word, merging is a bijection of the accumulator; for each selector
    and accumulator it is a bijection of the data. *)
Theorem C26_merge_bijective sel x y :
  sel < 2 ^ 32 -> x < 2 ^ 32 -> y < 2 ^ 32 ->
  (exists! a, a < 2 ^ 32 /\ randomMerge a x sel = y) /\
  (exists! b, b < 2 ^ 32 /\ randomMerge x b sel = y).
Proof.
  intros Hs Hx Hy. split.
  - destruct (merge_bijective_acc x sel y Hx Hy) as (a & (A1 & A2) & U). exists a. split.
    + split; auto. rewrite randomMerge_spec; auto.
    + intros a' (B1 & B2). apply U. split; auto. rewrite randomMerge_spec in B2; auto.
  - destruct (merge_bijective_data x sel y Hx Hy) as (b & (A1 & A2) & U). exists b. split.
    + split; auto. rewrite randomMerge_spec; auto.
    + intros b' (B1 & B2). apply U. split; auto. rewrite randomMerge_spec in B2; auto.
Qed.
Print Assumptions C26_merge_bijective.
(** The four operations; the rotation is by 1 to 31 places, the number depending on the upper half of the
    selector only. *)
Theorem C26_merge_operations a b sel :
  a < 2 ^ 32 -> b < 2 ^ 32 -> sel < 2 ^ 32 ->
  let x := sel / 65536 mod 31 + 1 in
  1 <= x /\ x <= 31 /\
  (sel mod 4 = 0 -> randomMerge a b sel = (a * 33 + b) mod 2 ^ 32) /\
  (sel mod 4 = 1 -> randomMerge a b sel = (N.lxor a b * 33) mod 2 ^ 32) /\
  (sel mod 4 = 2 -> randomMerge a b sel = N.lxor (rotate 32 a x) b) /\
  (sel mod 4 = 3 -> randomMerge a b sel = N.lxor (rotate 32 a (32 - x)) b).
Proof.
  intros Ha Hb Hs. cbv zeta.
  assert (X : (sel / 65536) mod 31 < 31) by (apply N.mod_lt; lia).
  split; [lia|]. split; [lia|]. rewrite randomMerge_spec by auto. unfold merge_op.
  repeat split; intros ->; reflexivity.
Qed.
Print Assumptions C26_merge_operations.
Example C26_instance :
  randomMerge 0xFFFFFFFF 0x12345678 0x001E0002 = N.lxor 0xFFFFFFFF 0x12345678 /\
  randomMerge 0x80000000 7 0x00000002 = N.lxor 1 7 /\ randomMerge 1 7 0x001F0003 = N.lxor 0x80000000 7.
Proof. repeat split; reflexivity. Qed.

(** ** C27 *)

Theorem C27_math_operations a b sel :
  a < 2 ^ 32 -> b < 2 ^ 32 ->
  sel mod 11 < 11 /\
  (sel mod 11 = 0 -> randomMath a b sel = (a + b) mod 2 ^ 32) /\
  (sel mod 11 = 1 -> randomMath a b sel = (a * b) mod 2 ^ 32) /\
  (sel mod 11 = 2 -> randomMath a b sel = a * b / 2 ^ 32) /\
  (sel mod 11 = 3 -> randomMath a b sel = N.min a b) /\
  (sel mod 11 = 4 -> randomMath a b sel = rotate 32 a (b mod 32)) /\
  (sel mod 11 = 5 -> randomMath a b sel = rotate 32 a ((32 - b mod 32) mod 32)) /\
  (sel mod 11 = 6 -> randomMath a b sel = N.land a b) /\
  (sel mod 11 = 7 -> randomMath a b sel = N.lor a b) /\
  (sel mod 11 = 8 -> randomMath a b sel = N.lxor a b) /\
  (sel mod 11 = 9 -> randomMath a b sel = leading_zeros a + leading_zeros b) /\
  (sel mod 11 = 10 -> randomMath a b sel = one_bits a + one_bits b).
Proof.
  intros Ha Hb. split; [apply N.mod_lt; lia|]. rewrite randomMath_spec by auto. unfold math_op.
  repeat split; intros ->; reflexivity.
Qed.
Print Assumptions C27_math_operations.
Theorem C27_result_is_a_word a b sel : a < 2 ^ 32 -> b < 2 ^ 32 -> randomMath a b sel < 2 ^ 32.
Proof. intros. rewrite randomMath_spec by auto. apply math_op_lt; auto. Qed.
Print Assumptions C27_result_is_a_word.
Example C27_instance :
  randomMath 0xFFFFFFFF 0xFFFFFFFF 2 = 0xFFFFFFFE /\ randomMath 0x80000001 33 (11 * 5 + 4) = 3 /\
  randomMath 0x80000001 33 (11 * 5 + 5) = 0xC0000000 /\ randomMath 0 1 9 = 32 + 31 /\ randomMath 0xF0F0 7 10 = 8 + 3.
Proof. repeat split; reflexivity. Qed.

(** ** C28 *)

(** The values of [n] successive draws of the generator. *)
Fixpoint outputs (n : nat) (k : kiss99) : list N :=
  match n with
  | O => []
  | S m => fst (next k) :: outputs m (snd (next k))
  end.
Theorem C28_draws_follow_kiss99 k n :
  kiss_valid (k_z k, k_w k, k_jsr k, k_jcong k) ->
  outputs n k = map (fun i => draw (k_z k, k_w k, k_jsr k, k_jcong k) (S i)) (seq 0 n).
Proof.
  change (k_z k, k_w k, k_jsr k, k_jcong k) with (kt k).
  revert k; induction n as [|n IH]; intros k V; cbn [outputs seq map]; auto.
  destruct (next_spec k V) as (N1 & N2 & N3). rewrite N1. f_equal. rewrite IH by exact N3. rewrite N2.
  rewrite <- seq_shift, map_map. apply map_ext. intros i. unfold draw. f_equal.
  assert (G : forall i x, Nat.iter i kiss_step (kiss_step x) = kiss_step (Nat.iter i kiss_step x)).
  { clear. induction i; intros x; auto.
    change (kiss_step (Nat.iter i kiss_step (kiss_step x)) = kiss_step (kiss_step (Nat.iter i kiss_step x))).
    rewrite IHi. reflexivity. }
  change (kiss_step (Nat.iter i kiss_step (kiss_step (kt k))) = kiss_step (kiss_step (Nat.iter i kiss_step (kt k)))).
  rewrite G. reflexivity.
Qed.
Print Assumptions C28_draws_follow_kiss99.
(** The xorshift and congruential components are bijections of the 32-bit words. *)
Theorem C28_components_bijective y :
  y < 2 ^ 32 ->
  (exists! x, x < 2 ^ 32 /\ forall z w c, z < 2 ^ 32 -> w < 2 ^ 32 -> c < 2 ^ 32 ->
     k_jsr (snd (next (mkKiss z w x c))) = y) /\
  (exists! x, x < 2 ^ 32 /\ forall z w j, z < 2 ^ 32 -> w < 2 ^ 32 -> j < 2 ^ 32 ->
     k_jcong (snd (next (mkKiss z w j x))) = y).
Proof.
  intros Hy. split.
  - destruct (xorshift_bijective y Hy) as (x & (A & B) & U). exists x. split.
    + split; auto. intros z w c Hz Hw Hc. destruct (next_spec (mkKiss z w x c)) as (_ & N2 & _); [repeat split; auto|].
      destruct (snd (next (mkKiss z w x c))) as [z' w' j' c']. cbn in N2 |- *. injection N2 as _ _ E _. rewrite E. exact B.
    + intros x' (A' & B'). apply U. split; auto. specialize (B' 0 0 0 ltac:(lia) ltac:(lia) ltac:(lia)).
      destruct (next_spec (mkKiss 0 0 x' 0)) as (_ & N2 & _); [repeat split; auto; lia|].
      destruct (snd (next (mkKiss 0 0 x' 0))) as [z' w' j' c']. cbn in N2, B'. injection N2 as _ _ E _. congruence.
  - destruct (lcg_bijective y Hy) as (x & (A & B) & U). exists x. split.
    + split; auto. intros z w j Hz Hw Hj. destruct (next_spec (mkKiss z w j x)) as (_ & N2 & _); [repeat split; auto|].
      destruct (snd (next (mkKiss z w j x))) as [z' w' j' c']. cbn in N2 |- *. injection N2 as _ _ _ E. rewrite E. exact B.
    + intros x' (A' & B'). apply U. split; auto. specialize (B' 0 0 0 ltac:(lia) ltac:(lia) ltac:(lia)).
      destruct (next_spec (mkKiss 0 0 0 x')) as (_ & N2 & _); [repeat split; auto; lia|].
      destruct (snd (next (mkKiss 0 0 0 x'))) as [z' w' j' c']. cbn in N2, B'. injection N2 as _ _ _ E. congruence.
Qed.
Print Assumptions C28_components_bijective.
(** The published example of the generator. *)
Example C28_instance :
  firstn 3 (outputs 3 (mkKiss 362436069 521288629 123456789 380116160)) = [769445856; 742012328; 2121196314].
Proof. reflexivity. Qed.

(** ** C29 *)

(** For every configuration, seed, height, size, dataset and L1 content.  [lookup] only has to
    answer for the pages of the dataset and [l1] only has to hold the configured number of
    words: nothing else is accessed. *)
Theorem C29_hash cfg l1 size lookup page height seed :
  cfg_ok cfg l1 -> 256 <= size -> size / 256 < 2 ^ 32 ->
  (forall i, i < size / 256 -> lookup i = Done (page i) /\ length (page i) = 64%nat /\ words 32 (page i)) ->
  Hash cfg height seed size lookup l1 =
  Done (words_bytes (progpow_hash (PeriodLength cfg) (LaneCount cfg) (RegisterCount cfg) (RoundCount cfg)
     (RoundCacheAccesses cfg) (RoundMathOperations cfg) (CacheBytes cfg / 4) l1 (size / 256) page height seed)).
Proof. intros OK S1 S2 LK. apply (Hash_refines cfg l1 OK size lookup page); auto. Qed.
Print Assumptions C29_hash.
(** The shipped configurations qualify with an L1 cache of 4096 words. *)
Theorem C29_shipped_configurations l1 :
  length l1 = N.to_nat 4096 -> words 32 l1 ->
  cfg_ok kawpow_cfg l1 /\ cfg_ok firopow_cfg l1 /\ cfg_ok progpow094_cfg l1.
Proof.
  intros L W. assert (LL : lenN l1 = 4096) by (unfold lenN; lia).
  assert (D : 16 * 1024 / 4 = 4096) by reflexivity.
  repeat split; cbn [RegisterCount LaneCount CacheBytes RoundCacheAccesses RoundMathOperations RoundCount PeriodLength
    kawpow_cfg firopow_cfg progpow094_cfg]; try rewrite D; try exact W; lia.
Qed.
Print Assumptions C29_shipped_configurations.
(** The height matters only through the period. *)
Theorem C29_period cfg l1 size lookup page height height' seed :
  cfg_ok cfg l1 -> 256 <= size -> size / 256 < 2 ^ 32 ->
  (forall i, i < size / 256 -> lookup i = Done (page i) /\ length (page i) = 64%nat /\ words 32 (page i)) ->
  height / PeriodLength cfg = height' / PeriodLength cfg ->
  Hash cfg height seed size lookup l1 = Hash cfg height' seed size lookup l1.
Proof.
  intros OK S1 S2 LK E. rewrite !(C29_hash cfg l1 size lookup page) by auto. unfold progpow_hash. rewrite E. reflexivity.
Qed.
Print Assumptions C29_period.

Definition small_cfg : pconfig := mkPConfig 2 32 3 5 4 3 5.
Definition small_l1 : list N := tab 9 (fun i => (i * 2654435769 + 12345) mod 2 ^ 32).
Definition small_page (i : N) : list N := tab 64 (fun j => (i * 1640531527 + j * 40503 + 7) mod 2 ^ 32).
Definition small_lookup (i : N) : outcome (list N) := if i <? 3 then Done (small_page i) else Panic.
Lemma small_lookup_ok i : i < 900 / 256 ->
  small_lookup i = Done (small_page i) /\ length (small_page i) = 64%nat /\ words 32 (small_page i).
Proof.
  intros H. change (900 / 256) with 3 in H. unfold small_lookup. destruct (N.ltb_spec i 3); [|lia].
  split; [reflexivity|]. split; [apply tab_length|]. apply words_tab. intros. apply N.mod_lt. lia.
Qed.
Lemma small_cfg_ok : cfg_ok small_cfg small_l1.
Proof.
  assert (D : 32 / 4 = 8) by reflexivity.
  constructor; cbn [RegisterCount LaneCount CacheBytes RoundCacheAccesses RoundMathOperations RoundCount PeriodLength small_cfg];
    rewrite ?D; try lia.
  unfold small_l1. rewrite lenN_tab. split; [lia|]. split; [lia|].
  apply words_tab. intros. apply N.mod_lt. lia.
Qed.
Example C29_instance :
  Hash small_cfg 77 0x123456789ABCDEF0 900 small_lookup small_l1 =
    Done (words_bytes (progpow_hash 2 3 5 4 3 5 8 small_l1 3 small_page 77 0x123456789ABCDEF0)) /\
  Hash small_cfg 77 0x123456789ABCDEF0 900 small_lookup small_l1 <>
    Hash small_cfg 78 0x123456789ABCDEF0 900 small_lookup small_l1.
Proof.
  split.
  - apply (C29_hash small_cfg small_l1 900 small_lookup small_page 77 0x123456789ABCDEF0 small_cfg_ok);
      [lia|reflexivity|exact small_lookup_ok].
  - vm_compute. discriminate.
Qed.

(** ** C30 *)

Section Variants.
Variables (hash : list N) (height nonce size : N) (lookup : N -> outcome (list N)) (page : N -> list N) (l1 : list N).
Hypothesis Hhash : length hash = 32%nat /\ bytes hash.
Hypothesis Hnonce : nonce < 2 ^ 64.
Hypothesis Hsize : 256 <= size /\ size / 256 < 2 ^ 32.
Hypothesis Hlookup : forall i, i < size / 256 -> lookup i = Done (page i) /\ length (page i) = 64%nat /\ words 32 (page i).
Hypothesis Hl1 : length l1 = N.to_nat 4096 /\ words 32 l1.

Theorem C30_kawpow :
  let result := pow_spec (keccak_f 32) kawpow_seed_pad kawpow_digest_pad
    (standard_mix 3 height l1 (size / 256) page) hash nonce in
  kawpow hash height nonce size lookup l1 = Done result /\
  length (fst result) = 32%nat /\ length (snd result) = 32%nat.
Proof.
  destruct (C29_shipped_configurations l1) as (OK & _); try tauto.
  apply (pow_refines
    (fun seed => for_up 15 10 (fun i seed => p <- idx ravencoinKawpow (i - 10) ;; upd seed i p) seed)
    (fun state => for_up 9 16 (fun i state => p <- idx ravencoinKawpow (i - 16) ;; upd state i p) state)
    kawpow_seed_pad kawpow_digest_pad) with (mixfun := fun s => Hash kawpow_cfg height s size lookup l1); try tauto.
  - intros l L. do 11 (destruct l as [|? l]; try discriminate L). reflexivity.
  - intros l L. do 17 (destruct l as [|? l]; try discriminate L). reflexivity.
  - split; [reflexivity|]. repeat constructor.
  - split; [reflexivity|]. repeat constructor.
  - intros s. apply (Hash_refines kawpow_cfg l1 OK size lookup page); auto.
Qed.
Theorem C30_firopow :
  let result := pow_spec (keccak_f 32) firopow_seed_pad firopow_digest_pad
    (standard_mix 1 height l1 (size / 256) page) hash nonce in
  firopow hash height nonce size lookup l1 = Done result /\
  length (fst result) = 32%nat /\ length (snd result) = 32%nat.
Proof.
  destruct (C29_shipped_configurations l1) as (_ & OK & _); try tauto.
  pose proof (pow_refines
    (fun seed => seed <- upd seed 10 1 ;; upd seed 18 0x80008081)
    (fun state => state <- upd state 17 1 ;; upd state 24 0x80008081)
    firopow_seed_pad firopow_digest_pad) as P.
  specialize (P) with (mixfun := fun s => Hash firopow_cfg height s size lookup l1)
    (mix := standard_mix 1 height l1 (size / 256) page) (hash := hash) (nonce := nonce).
  cbv zeta. unfold firopow, firopow_initialize, firopow_finalize.
  destruct P as (E & P); try tauto.
  - intros l L. do 11 (destruct l as [|? l]; try discriminate L). reflexivity.
  - intros l L. do 17 (destruct l as [|? l]; try discriminate L). reflexivity.
  - split; [reflexivity|]. repeat constructor.
  - split; [reflexivity|]. repeat constructor.
  - intros s. apply (Hash_refines firopow_cfg l1 OK size lookup page); auto.
  - split; [|exact P]. rewrite <- E. clear E P.
    rewrite !bind_assoc.
    destruct (absorb_header hash nonce) as [seed| |]; cbn [bind]; auto.
    destruct (upd seed 10 1) as [seed1| |]; cbn [bind]; auto.
    destruct (upd seed1 18 0x80008081) as [seed2| |]; cbn [bind]; auto.
    destruct (KeccakF800 seed2) as [seed3| |]; cbn [bind]; auto.
    destruct (seed_head seed3) as [hd| |]; cbn [bind]; auto.
    destruct (Hash firopow_cfg height hd size lookup l1) as [m| |]; cbn [bind]; auto.
    rewrite !bind_assoc.
    destruct (absorb_mix seed3 m) as [st| |]; cbn [bind]; auto.
    destruct (upd st 17 1) as [st1| |]; cbn [bind]; auto.
Qed.
Theorem C30_progpow094 :
  let result := pow_spec (keccak_f 32) plain_seed_pad plain_digest_pad
    (standard_mix 10 height l1 (size / 256) page) hash nonce in
  progpow094 hash height nonce size lookup l1 = Done result /\
  length (fst result) = 32%nat /\ length (snd result) = 32%nat.
Proof.
  destruct (C29_shipped_configurations l1) as (_ & _ & OK); try tauto.
  apply (pow_refines (fun seed => Done seed) (fun state => Done state)
    plain_seed_pad plain_digest_pad) with (mixfun := fun s => Hash progpow094_cfg height s size lookup l1); try tauto.
  - split; [reflexivity|]. repeat constructor.
  - split; [reflexivity|]. repeat constructor.
  - intros s. apply (Hash_refines progpow094_cfg l1 OK size lookup page); auto.
Qed.
End Variants.
Print Assumptions C30_kawpow.
Print Assumptions C30_firopow.
Print Assumptions C30_progpow094.
Example C30_text : map N.to_nat kawpow_text = map (fun c => Ascii.nat_of_ascii c)
  (String.list_ascii_of_string "rAVENCOINKAWPOW").
Proof. reflexivity. Qed.
(** The hypotheses hold for a header, a dataset of three pages and an L1 cache. *)
Example C30_instance :
  let l1 := tab 4096 (fun i => (i * 2654435769) mod 2 ^ 32) in
  kawpow (repeat 200 32) 1219736 0xc9bb4d6b2a9f0e3c 900 small_lookup l1 =
    Done (pow_spec (keccak_f 32) kawpow_seed_pad kawpow_digest_pad (standard_mix 3 1219736 l1 3 small_page)
      (repeat 200 32) 0xc9bb4d6b2a9f0e3c).
Proof.
  intros l1. apply (C30_kawpow (repeat 200 32) 1219736 0xc9bb4d6b2a9f0e3c 900 small_lookup small_page l1).
  - split; [reflexivity|]. repeat constructor.
  - reflexivity.
  - split; [lia|reflexivity].
  - exact small_lookup_ok.
  - unfold l1. split; [apply tab_length|]. apply words_tab. intros. apply N.mod_lt. lia.
Qed.
