(** KISS99, random math and merge of ProgPoW: the model equals the specification; which of them
    are bijections. *)
From Coq Require Import NArith ZArith List Lia Bool ZifyBool ZifyNat ZifyN Arith.
From Verif Require Import Base BaseFacts CryptoModel CryptoSpec CryptoProofs ProgpowModel ProgpowSpec.
Import ListNotations.
Open Scope N_scope.
Ltac Zify.zify_post_hook ::= Z.div_mod_to_equations.

Definition kt (k : kiss99) : kiss := (k_z k, k_w k, k_jsr k, k_jcong k).
Definition valid_k (k : kiss99) : Prop := kiss_valid (kt k).

Lemma lxor_shift_lt x y : x < 2 ^ 32 -> y < 2 ^ 32 -> N.lxor x y < 2 ^ 32.
Proof. apply lxor_lt. Qed.

Lemma div_pow_lt x s : x < 2 ^ 32 -> x / 2 ^ s < 2 ^ 32.
Proof. intros. eapply N.le_lt_trans; [apply N.div_le_upper_bound; [apply pow2_nz|]|eassumption].
  assert (P := pow2_pos s). nia. Qed.

Lemma mwc_lt m x : m < 65535 -> x < 2 ^ 32 -> mwc m x < 2 ^ 32.
Proof. intros. unfold mwc. change (2 ^ 32) with 4294967296 in *. nia. Qed.

Lemma xorshift_lt x : x < 2 ^ 32 -> xorshift x < 2 ^ 32.
Proof.
  intros. unfold xorshift.
  repeat apply lxor_lt; auto; try apply N.mod_lt; try discriminate; apply div_pow_lt;
    apply lxor_lt; auto; apply N.mod_lt; discriminate.
Qed.

Lemma kiss_step_valid k : kiss_valid k -> kiss_valid (kiss_step k).
Proof.
  destruct k as (((z, w), jsr), jcong). intros (A & B & C & D). cbn [kiss_step kiss_valid].
  split; [apply mwc_lt; auto; lia|]. split; [apply mwc_lt; auto; lia|].
  split; [apply xorshift_lt; auto|]. apply N.mod_lt. discriminate.
Qed.
Lemma kiss_out_lt k : kiss_out k < 2 ^ 32.
Proof. destruct k as (((z, w), jsr), jcong). apply N.mod_lt. discriminate. Qed.

Lemma shlw_mod x s : shlw 32 x s = (x * 2 ^ s) mod 2 ^ 32.
Proof. unfold shlw. rewrite trunc_mod, N.shiftl_mul_pow2. reflexivity. Qed.

Lemma mwc_model m x : m < 65535 -> x < 2 ^ 32 ->
  addw 32 (mulw 32 m (N.land x 65535)) (N.shiftr x 16) = mwc m x.
Proof.
  intros Hm H. change 65535 with (N.ones 16). rewrite N.land_ones, N.shiftr_div_pow2.
  assert (B := mwc_lt m x Hm H). unfold mwc in *. change (2 ^ 16) with 65536.
  unfold addw, mulw. rewrite trunc_add_l. apply trunc_small. exact B.
Qed.

Theorem next_spec k : valid_k k ->
  fst (next k) = kiss_out (kiss_step (kt k)) /\ kt (snd (next k)) = kiss_step (kt k) /\ valid_k (snd (next k)).
Proof.
  destruct k as [z w jsr jcong]. unfold valid_k, kt. cbn [k_z k_w k_jsr k_jcong]. intros V.
  assert (V' := kiss_step_valid _ V). destruct V as (A & B & C & D).
  unfold next. cbn [k_z k_w k_jsr k_jcong fst snd]. rewrite !mwc_model by (auto; lia).
  rewrite !shlw_mod, !N.shiftr_div_pow2.
  assert (E : addw 32 (mulw 32 69069 jcong) 1234567 = lcg jcong).
  { unfold addw, mulw, lcg. rewrite trunc_add_l, trunc_mod. reflexivity. }
  rewrite E. change (N.lxor (N.lxor (N.lxor jsr ((jsr * 2 ^ 17) mod 2 ^ 32)) _) _) with (xorshift jsr).
  split; [|split; [reflexivity|exact V']].
  cbn [kiss_step kiss_out]. unfold addw. rewrite !trunc_mod. rewrite N.add_mod_idemp_l by discriminate.
  reflexivity.
Qed.

(** ** Math *)

Ltac pick :=
  match goal with
  | |- context [nth (N.to_nat ?c) _ _] =>
      let v := eval vm_compute in (N.to_nat c) in change (N.to_nat c) with v; cbn [nth]
  end.

Lemma pos32 : positions = map N.of_nat (seq 0 32).
Proof. reflexivity. Qed.

Lemma clz_spec a : a < 2 ^ 32 -> clz32 a = leading_zeros a.
Proof.
  intros H. unfold clz32, leading_zeros, count. rewrite pos32.
  assert (S : N.size a <= 32).
  { destruct (N.eq_dec a 0) as [->|NZ]; [cbn; lia|]. rewrite N.size_log2 by auto.
    apply N.log2_lt_pow2 in H; lia. }
  assert (G : forall i, (a <? 2 ^ i) = (N.size a <=? i)).
  { intros i. destruct (N.eq_dec a 0) as [->|NZ].
    - cbn [N.size]. destruct (N.leb_spec 0 i); [|lia]. apply N.ltb_lt, pow2_pos.
    - rewrite N.size_log2 by auto. destruct (N.ltb_spec a (2 ^ i)), (N.leb_spec (N.succ (N.log2 a)) i); auto.
      + apply N.log2_lt_pow2 in H0; lia.
      + exfalso. assert (2 ^ N.log2 a <= a) by (apply N.log2_spec; lia).
        assert (a < 2 ^ N.succ (N.log2 a)) by (apply N.log2_spec; lia).
        assert (2 ^ N.succ (N.log2 a) <= 2 ^ i) by (apply N.pow_le_mono_r; lia). lia. }
  rewrite (filter_ext _ (fun i => N.size a <=? i)) by auto.
  set (s := N.size a) in *. clearbody s. clear -S.
  assert (E : s = N.of_nat (N.to_nat s)) by lia. rewrite E in *. set (n := N.to_nat s) in *. clearbody n.
  clear E s. do 33 (destruct n as [|n]; [reflexivity|]). lia.
Qed.

Lemma popcount_spec a : a < 2 ^ 32 -> popcount32 a = one_bits a.
Proof.
  intros H. unfold one_bits, count. rewrite pos32.
  assert (G : forall n a, a < 2 ^ N.of_nat n ->
    popcount32 a = N.of_nat (length (filter (fun i => N.testbit a i) (map N.of_nat (seq 0 n))))).
  { clear. induction n as [|n IH]; intros a H.
    - cbn in *. replace a with 0 by lia. reflexivity.
    - cbn [seq map filter].
      assert (SH : forall f (l : list nat), length (filter f (map N.of_nat (map S l))) =
                   length (filter (fun i => f (N.succ i)) (map N.of_nat l))).
      { intros f l. induction l as [|x l IHl]; cbn [map filter]; auto.
        replace (N.of_nat (S x)) with (N.succ (N.of_nat x)) by lia.
        destruct (f (N.succ (N.of_nat x))); cbn [length]; rewrite IHl; auto. }
      assert (D : a = 2 * N.div2 a + N.b2n (N.testbit a 0)).
      { rewrite N.bit0_odd. apply N.div2_odd. }
      assert (L : N.div2 a < 2 ^ N.of_nat n).
      { replace (N.of_nat (S n)) with (N.succ (N.of_nat n)) in H by lia. rewrite N.pow_succ_r' in H.
        destruct (N.testbit a 0); cbn [N.b2n] in D; lia. }
      specialize (IH (N.div2 a) L).
      assert (P : popcount32 a = N.b2n (N.testbit a 0) + popcount32 (N.div2 a)).
      { destruct a as [|[p|p|]]; reflexivity. }
      rewrite P, IH. rewrite <- seq_shift.
      change (N.of_nat 0) with 0.
      assert (Q : N.of_nat (length (filter (fun i => N.testbit a i) (map N.of_nat (map S (seq 0 n))))) =
                  N.of_nat (length (filter (fun i => N.testbit (N.div2 a) i) (map N.of_nat (seq 0 n))))).
      { rewrite SH. do 2 f_equal. apply filter_ext. intros i. rewrite N.div2_spec, N.shiftr_spec'.
        rewrite N.add_1_r. auto. }
      destruct (N.testbit a 0); cbn [length N.b2n]; lia. }
  apply (G 32%nat). exact H.
Qed.

Lemma land31 b : N.land b 31 = b mod 32.
Proof. change 31 with (N.ones 5). apply N.land_ones. Qed.

Lemma sub32_mod b : b < 2 ^ 32 -> N.land (subw 32 32 b) 31 = (32 - b mod 32) mod 32.
Proof.
  intros H. rewrite land31. unfold subw. rewrite trunc_mod. change (2 ^ 32) with 4294967296 in *. lia.
Qed.

Lemma lor_disjoint x y : N.land x y = 0 -> N.lor x y = x + y.
Proof.
  intros H. rewrite <- N.lxor_lor by auto. rewrite N.add_nocarry_lxor; auto.
Qed.

Lemma rot_parts a s : a < 2 ^ 32 -> 0 < s -> s < 32 ->
  N.lor (shlw 32 a s) (N.shiftr a (32 - s)) = rotate 32 a s.
Proof.
  intros H H1 H2. unfold rotate. rewrite <- shlw_mod, <- N.shiftr_div_pow2. apply lor_disjoint.
  apply N.bits_inj. intro i. rewrite N.land_spec, testbit_shlw, N.shiftr_spec', N.bits_0.
  destruct (N.leb_spec s i); [|destruct (i <? 32); auto].
  replace (N.testbit a (i + (32 - s))) with false; [apply andb_false_r|].
  symmetry. eapply testbit_high; [exact H|]. lia.
Qed.

Lemma rotl32_spec a b : a < 2 ^ 32 -> b < 2 ^ 32 -> rotl32 a b = rotate 32 a (b mod 32).
Proof.
  intros Ha Hb. unfold rotl32. rewrite land31, sub32_mod by auto.
  destruct (N.eq_dec (b mod 32) 0) as [E|NE].
  - rewrite E. change ((32 - 0) mod 32) with 0. rewrite shlw_mod, N.shiftr_0_r. unfold rotate.
    change (2 ^ 0) with 1. rewrite N.mul_1_r, N.mod_small, N.lor_diag by auto.
    rewrite N.div_small by auto. lia.
  - replace ((32 - b mod 32) mod 32) with (32 - b mod 32) by lia. apply rot_parts; auto; lia.
Qed.
Lemma rotr32_spec a b : a < 2 ^ 32 -> b < 2 ^ 32 -> rotr32 a b = rotate 32 a ((32 - b mod 32) mod 32).
Proof.
  intros Ha Hb. unfold rotr32. rewrite sub32_mod, land31 by auto.
  destruct (N.eq_dec (b mod 32) 0) as [E|NE].
  - rewrite E. change ((32 - 0) mod 32) with 0. rewrite shlw_mod, N.shiftr_0_r. unfold rotate.
    change (2 ^ 0) with 1. rewrite N.mul_1_r, N.mod_small, N.lor_diag by auto.
    rewrite N.div_small by auto. lia.
  - replace ((32 - b mod 32) mod 32) with (32 - b mod 32) by lia.
    rewrite <- rot_parts by (auto; lia). do 2 f_equal. lia.
Qed.

Theorem randomMath_spec a b r : a < 2 ^ 32 -> b < 2 ^ 32 -> randomMath a b r = math_op a b r.
Proof.
  intros Ha Hb. unfold randomMath, math_op.
  assert (H : r mod 11 < 11) by (apply N.mod_lt; lia). set (s := r mod 11) in *. clearbody s.
  assert (E : s = 0 \/ s = 1 \/ s = 2 \/ s = 3 \/ s = 4 \/ s = 5 \/ s = 6 \/ s = 7 \/ s = 8 \/ s = 9 \/ s = 10) by lia.
  repeat (destruct E as [->|E]); [..|subst s];
    pick; auto.
  - apply trunc_mod.
  - apply trunc_mod.
  - unfold mul_hi32, mulw. rewrite N.shiftr_div_pow2.
    assert (a * b < 2 ^ 64) by (change (2 ^ 64) with (2 ^ 32 * 2 ^ 32); nia).
    rewrite (trunc_small 64) by auto. apply trunc_small. apply N.div_lt_upper_bound; [discriminate|].
    change (2 ^ 64) with (2 ^ 32 * 2 ^ 32) in H0. lia.
  - unfold minUint32. destruct (N.ltb_spec b a); lia.
  - apply rotl32_spec; auto.
  - apply rotr32_spec; auto.
  - rewrite !clz_spec by auto. apply trunc_small. rewrite <- !clz_spec by auto. unfold clz32. lia.
  - rewrite !popcount_spec by auto. apply trunc_small.
    assert (B : forall a, one_bits a <= 32).
    { intros x. unfold one_bits, count. rewrite pos32.
      assert (L : forall l : list N, (length (filter (fun i => N.testbit x i) l) <= length l)%nat).
      { induction l as [|y l IHl]; cbn [filter length]; [lia|]. destruct (N.testbit x y); cbn [length]; lia. }
      specialize (L (map N.of_nat (seq 0 32))). rewrite map_length, seq_length in L. lia. }
    pose proof (B a). pose proof (B b). change (2 ^ 32) with 4294967296. lia.
Qed.

Theorem randomMerge_spec a b r : a < 2 ^ 32 -> b < 2 ^ 32 -> r < 2 ^ 32 -> randomMerge a b r = merge_op a b r.
Proof.
  intros Ha Hb Hr. unfold randomMerge, merge_op. rewrite N.shiftr_div_pow2. change (2 ^ 16) with 65536.
  assert (X : addw 32 ((r / 65536) mod 31) 1 = (r / 65536) mod 31 + 1).
  { apply trunc_small. change (2 ^ 32) with 4294967296. lia. }
  rewrite X. clear X. set (x := (r / 65536) mod 31 + 1).
  assert (Hx : 1 <= x /\ x <= 31) by (unfold x; lia). clearbody x.
  assert (H : r mod 4 < 4) by (apply N.mod_lt; lia). set (s := r mod 4) in *. clearbody s.
  assert (E : s = 0 \/ s = 1 \/ s = 2 \/ s = 3) by lia.
  repeat (destruct E as [->|E]); [..|subst s];
    pick; auto.
  - unfold addw, mulw. rewrite trunc_add_l. apply trunc_mod.
  - apply trunc_mod.
  - rewrite rotl32_spec by (auto; change (2 ^ 32) with 4294967296; lia). do 2 f_equal. lia.
  - rewrite rotr32_spec by (auto; change (2 ^ 32) with 4294967296; lia). do 2 f_equal. lia.
Qed.

Lemma rotate32_lt a s : a < 2 ^ 32 -> 0 < s -> s < 32 -> rotate 32 a s < 2 ^ 32.
Proof.
  intros. rewrite <- rot_parts by auto. apply lor_lt; [apply shlw_lt|apply shiftr_lt; auto].
Qed.

Lemma merge_op_lt a b r : a < 2 ^ 32 -> b < 2 ^ 32 -> merge_op a b r < 2 ^ 32.
Proof.
  intros Ha Hb. unfold merge_op. set (x := (r / 65536) mod 31 + 1).
  assert (Hx : 1 <= x /\ x <= 31) by (unfold x; lia). clearbody x.
  assert (H : r mod 4 < 4) by (apply N.mod_lt; lia). set (s := r mod 4) in *. clearbody s.
  assert (E : s = 0 \/ s = 1 \/ s = 2 \/ s = 3) by lia.
  repeat (destruct E as [->|E]); [..|subst s];
    pick.
  - apply N.mod_lt; discriminate.
  - apply N.mod_lt; discriminate.
  - apply lxor_lt; auto. apply rotate32_lt; auto; lia.
  - apply lxor_lt; auto. apply rotate32_lt; auto; lia.
Qed.
Lemma math_op_lt a b r : a < 2 ^ 32 -> b < 2 ^ 32 -> math_op a b r < 2 ^ 32.
Proof.
  intros Ha Hb. rewrite <- randomMath_spec by auto. unfold randomMath.
  assert (H : r mod 11 < 11) by (apply N.mod_lt; lia). set (s := r mod 11) in *. clearbody s.
  assert (E : s = 0 \/ s = 1 \/ s = 2 \/ s = 3 \/ s = 4 \/ s = 5 \/ s = 6 \/ s = 7 \/ s = 8 \/ s = 9 \/ s = 10) by lia.
  repeat (destruct E as [->|E]); [..|subst s]; try apply trunc_lt.
  - unfold minUint32. destruct (b <? a); auto.
  - unfold rotl32. apply lor_lt; [apply shlw_lt|apply shiftr_lt; auto].
  - unfold rotr32. apply lor_lt; [apply shlw_lt|apply shiftr_lt; auto].
  - apply land_lt_l; auto.
  - apply lor_lt; auto.
  - apply lxor_lt; auto.
Qed.

(** ** Bijections *)

Lemma xor_bits_solve a b : (forall i, N.testbit a i = N.testbit b i) -> a = b.
Proof. apply N.bits_inj. Qed.

(** x xor (x << s), for a shift [s] with 7 s >= 32, undone by the alternating sum. *)
Definition unshift (s y : N) : N :=
  N.lxor y (N.lxor (shlw 32 y s) (N.lxor (shlw 32 y (s + s)) (N.lxor (shlw 32 y (s + s + s))
   (N.lxor (shlw 32 y (s + s + s + s)) (N.lxor (shlw 32 y (s + s + s + s + s)) (shlw 32 y (s + s + s + s + s + s))))))).
Lemma unshift_l s y : 5 <= s -> N.lxor (unshift s y) (shlw 32 (unshift s y) s) = y.
Proof.
  intros Hs. unfold unshift. rewrite !shlw_lxor, !shlw_shlw.
  rewrite (shlw_big 32 y (s + s + s + s + s + s + s)) by lia.
  apply xor_bits_solve. intro i. rewrite !N.lxor_spec, N.bits_0.
  destruct (N.testbit y i), (N.testbit (shlw 32 y s) i), (N.testbit (shlw 32 y (s + s)) i),
    (N.testbit (shlw 32 y (s + s + s)) i), (N.testbit (shlw 32 y (s + s + s + s)) i),
    (N.testbit (shlw 32 y (s + s + s + s + s)) i), (N.testbit (shlw 32 y (s + s + s + s + s + s)) i); reflexivity.
Qed.
Lemma unshift_r s y : 5 <= s -> unshift s (N.lxor y (shlw 32 y s)) = y.
Proof.
  intros Hs. unfold unshift. rewrite !shlw_lxor, !shlw_shlw.
  replace (s + (s + s)) with (s + s + s) by lia. replace (s + (s + s + s)) with (s + s + s + s) by lia.
  replace (s + (s + s + s + s)) with (s + s + s + s + s) by lia.
  replace (s + (s + s + s + s + s)) with (s + s + s + s + s + s) by lia.
  rewrite (shlw_big 32 y (s + (s + s + s + s + s + s))) by lia.
  apply xor_bits_solve. intro i. rewrite !N.lxor_spec, N.bits_0.
  destruct (N.testbit y i), (N.testbit (shlw 32 y s) i), (N.testbit (shlw 32 y (s + s)) i),
    (N.testbit (shlw 32 y (s + s + s)) i), (N.testbit (shlw 32 y (s + s + s + s)) i),
    (N.testbit (shlw 32 y (s + s + s + s + s)) i), (N.testbit (shlw 32 y (s + s + s + s + s + s)) i); reflexivity.
Qed.
Lemma unshift_lt s y : y < 2 ^ 32 -> unshift s y < 2 ^ 32.
Proof. intros. unfold unshift. repeat apply lxor_lt; auto; apply shlw_lt. Qed.

(** x xor (x >> 13). *)
Definition unshr (y : N) : N := N.lxor y (N.lxor (N.shiftr y 13) (N.shiftr y 26)).
Lemma shiftr_lxor x y s : N.shiftr (N.lxor x y) s = N.lxor (N.shiftr x s) (N.shiftr y s).
Proof. apply N.shiftr_lxor. Qed.
Lemma shiftr39 y : y < 2 ^ 32 -> N.shiftr y 39 = 0.
Proof.
  intros. rewrite N.shiftr_div_pow2. apply N.div_small. eapply N.lt_trans; [eassumption|]. reflexivity.
Qed.
Lemma unshr_l y : y < 2 ^ 32 -> N.lxor (unshr y) (N.shiftr (unshr y) 13) = y.
Proof.
  intros Hy. unfold unshr. rewrite !shiftr_lxor, !N.shiftr_shiftr. change (13 + 13) with 26. change (26 + 13) with 39.
  rewrite shiftr39 by auto. apply xor_bits_solve. intro i. rewrite !N.lxor_spec, N.bits_0.
  destruct (N.testbit y i), (N.testbit (N.shiftr y 13) i), (N.testbit (N.shiftr y 26) i); reflexivity.
Qed.
Lemma unshr_r y : y < 2 ^ 32 -> unshr (N.lxor y (N.shiftr y 13)) = y.
Proof.
  intros Hy. unfold unshr. rewrite !shiftr_lxor, !N.shiftr_shiftr. change (13 + 13) with 26. change (13 + 26) with 39.
  rewrite shiftr39 by auto. apply xor_bits_solve. intro i. rewrite !N.lxor_spec, N.bits_0.
  destruct (N.testbit y i), (N.testbit (N.shiftr y 13) i), (N.testbit (N.shiftr y 26) i); reflexivity.
Qed.
Lemma unshr_lt y : y < 2 ^ 32 -> unshr y < 2 ^ 32.
Proof. intros. unfold unshr. repeat apply lxor_lt; auto; apply shiftr_lt; auto. Qed.

Theorem xorshift_bijective y : y < 2 ^ 32 -> exists! x, x < 2 ^ 32 /\ xorshift x = y.
Proof.
  intros Hy. apply (unique_of_inverse xorshift (fun y => unshift 17 (unshr (unshift 5 y)))); auto.
  - apply xorshift_lt.
  - intros. apply unshift_lt, unshr_lt, unshift_lt; auto.
  - intros x Hx. unfold xorshift. rewrite <- !shlw_mod, <- N.shiftr_div_pow2.
    rewrite unshift_r by lia. rewrite unshr_r by (apply lxor_lt; auto; apply shlw_lt).
    apply unshift_r. lia.
  - intros x Hx. unfold xorshift. rewrite <- !shlw_mod, <- N.shiftr_div_pow2.
    rewrite unshift_l by lia. rewrite unshr_l by (apply unshift_lt; auto). apply unshift_l. lia.
Qed.

Definition inv69069 : N := 2783094533.
Definition inv33 : N := 1041204193.
Lemma lcg_bijective y : y < 2 ^ 32 -> exists! x, x < 2 ^ 32 /\ lcg x = y.
Proof.
  intros Hy.
  assert (E : forall x, lcg x = addw 32 (mulw 32 x 69069) 1234567).
  { intros x. unfold lcg, addw, mulw. rewrite trunc_add_l, trunc_mod, (N.mul_comm x). reflexivity. }
  apply (unique_of_inverse lcg (fun y => mulw 32 (subw 32 y 1234567) inv69069)); auto.
  - intros. apply N.mod_lt. discriminate.
  - intros. apply mulw_lt.
  - intros x Hx. rewrite E. rewrite addw_subw by (try apply mulw_lt; reflexivity).
    apply mulw_cancel; auto.
  - intros x Hx. rewrite E. rewrite mulw_cancel; [|reflexivity|apply subw_lt].
    apply subw_addw; auto. reflexivity.
Qed.

Lemma merge_cases r : exists s x, s < 4 /\ 1 <= x /\ x <= 31 /\ forall a b, a < 2 ^ 32 -> b < 2 ^ 32 ->
  merge_op a b r = nth (N.to_nat s)
    [ addw 32 (mulw 32 a 33) b; mulw 32 (N.lxor a b) 33; N.lxor (rolw 32 a x) b; N.lxor (rolw 32 a (32 - x)) b ] 0.
Proof.
  exists (r mod 4), ((r / 65536) mod 31 + 1).
  split; [apply N.mod_lt; lia|]. split; [lia|]. split; [lia|]. intros a b Ha Hb. unfold merge_op.
  unfold addw, mulw. rewrite trunc_add_l, !trunc_mod. unfold rolw. rewrite !rot_parts by (auto; lia). reflexivity.
Qed.

Theorem merge_bijective_acc b r y : b < 2 ^ 32 -> y < 2 ^ 32 -> exists! a, a < 2 ^ 32 /\ merge_op a b r = y.
Proof.
  intros Hb Hy. destruct (merge_cases r) as (s & x & Hs & X1 & X2 & M).
  apply (unique_of_inverse (fun a => merge_op a b r)
    (fun y => nth (N.to_nat s) [ mulw 32 (subw 32 y b) inv33; N.lxor (mulw 32 y inv33) b;
                                 rolw 32 (N.lxor y b) (32 - x); rolw 32 (N.lxor y b) x ] 0)); auto.
  - intros. apply merge_op_lt; auto.
  - intros z Hz. assert (E : s = 0 \/ s = 1 \/ s = 2 \/ s = 3) by lia.
    repeat (destruct E as [->|E]); [..|subst s]; pick; try apply mulw_lt.
    + apply lxor_lt; auto. apply mulw_lt.
    + apply rolw_lt, lxor_lt; auto.
    + apply rolw_lt, lxor_lt; auto.
  - intros z Hz. rewrite M by auto. assert (E : s = 0 \/ s = 1 \/ s = 2 \/ s = 3) by lia.
    repeat (destruct E as [->|E]); [..|subst s]; pick.
    + rewrite addw_subw by (auto; apply mulw_lt). apply mulw_cancel; auto.
    + rewrite mulw_cancel; [apply lxor_cancel_r|reflexivity|apply lxor_lt; auto].
    + rewrite lxor_cancel_r. apply rolw_inv; auto; lia.
    + rewrite lxor_cancel_r. apply rolw_inv'; auto; lia.
  - intros z Hz. assert (E : s = 0 \/ s = 1 \/ s = 2 \/ s = 3) by lia.
    repeat (destruct E as [->|E]); [..|subst s]; pick; rewrite M; try pick; auto; try apply mulw_lt;
      try (apply rolw_lt, lxor_lt; auto); try (apply lxor_lt; auto; apply mulw_lt).
    + rewrite mulw_cancel; [apply subw_addw; auto|reflexivity|apply subw_lt].
    + rewrite lxor_cancel_r. apply mulw_cancel; auto.
    + rewrite rolw_inv' by (try apply lxor_lt; auto; lia). apply lxor_cancel_r.
    + rewrite rolw_inv by (try apply lxor_lt; auto; lia). apply lxor_cancel_r.
Qed.

Theorem merge_bijective_data a r y : a < 2 ^ 32 -> y < 2 ^ 32 -> exists! b, b < 2 ^ 32 /\ merge_op a b r = y.
Proof.
  intros Ha Hy. destruct (merge_cases r) as (s & x & Hs & X1 & X2 & M).
  apply (unique_of_inverse (fun b => merge_op a b r)
    (fun y => nth (N.to_nat s) [ subw 32 y (mulw 32 a 33); N.lxor a (mulw 32 y inv33);
                                 N.lxor (rolw 32 a x) y; N.lxor (rolw 32 a (32 - x)) y ] 0)); auto.
  - intros. apply merge_op_lt; auto.
  - intros z Hz. assert (E : s = 0 \/ s = 1 \/ s = 2 \/ s = 3) by lia.
    repeat (destruct E as [->|E]); [..|subst s]; pick.
    + apply subw_lt.
    + apply lxor_lt; auto. apply mulw_lt.
    + apply lxor_lt; auto. apply rolw_lt; auto.
    + apply lxor_lt; auto. apply rolw_lt; auto.
  - intros z Hz. rewrite M by auto. assert (E : s = 0 \/ s = 1 \/ s = 2 \/ s = 3) by lia.
    repeat (destruct E as [->|E]); [..|subst s]; pick.
    + unfold addw. rewrite N.add_comm. apply (addw_subw 32); auto. apply mulw_lt.
    + rewrite mulw_cancel; [apply lxor_cancel_l|reflexivity|apply lxor_lt; auto].
    + apply lxor_cancel_l.
    + apply lxor_cancel_l.
  - intros z Hz. assert (E : s = 0 \/ s = 1 \/ s = 2 \/ s = 3) by lia.
    repeat (destruct E as [->|E]); [..|subst s]; pick; rewrite M; try pick; auto; try apply subw_lt;
      try (apply lxor_lt; auto; apply mulw_lt); try (apply lxor_lt; auto; apply rolw_lt; auto).
    + unfold addw. rewrite N.add_comm. apply (subw_addw 32); auto. apply mulw_lt.
    + rewrite lxor_cancel_l. apply mulw_cancel; auto.
    + apply lxor_cancel_l.
    + apply lxor_cancel_l.
Qed.
