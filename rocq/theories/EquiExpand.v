(** expandArray and the decoding of solutions. *)
From Coq Require Import NArith ZArith Arith List Lia Bool ZifyBool ZifyNat ZifyN.
From Verif Require Import Base BaseFacts CryptoModel CryptoProofs EquiModel EquiSpec.
Import ListNotations.
Open Scope N_scope.
Ltac Zify.zify_post_hook ::= Z.div_mod_to_equations.

Lemma upd_end P m v k : k = lenN P -> 0 < m -> upd (P ++ zeros m) k v = Done ((P ++ [v]) ++ zeros (m - 1)).
Proof.
  intros -> M. rewrite upd_Done.
  - f_equal. unfold zeros. replace (N.to_nat m) with (S (N.to_nat (m - 1))) by lia. cbn [repeat].
    unfold lenN. rewrite Nat2N.id, set_nth_app, <- app_assoc. reflexivity.
  - rewrite lenN_app. unfold zeros, lenN. rewrite repeat_length. lia.
Qed.
Lemma zeros_app a b : zeros (a + b) = zeros a ++ zeros b.
Proof. unfold zeros. replace (N.to_nat (a + b)) with (N.to_nat a + N.to_nat b)%nat by lia. apply repeat_app. Qed.
Lemma be_snoc l x : be_value (l ++ [x]) = 256 * be_value l + x.
Proof. unfold be_value. rewrite rev_app_distr. cbn [rev app le_value]. lia. Qed.
Lemma be_app l m : be_value (l ++ m) = be_value l * 256 ^ lenN m + be_value m.
Proof.
  unfold be_value. rewrite rev_app_distr, le_value_app. unfold lenN. rewrite rev_length. lia.
Qed.
Lemma Forall_firstn_e {A} (P : A -> Prop) n l : Forall P l -> Forall P (firstn n l).
Proof. intros H. revert n; induction H; intros [|n]; cbn; constructor; auto. Qed.
Lemma Forall_skipn_e {A} (P : A -> Prop) n l : Forall P l -> Forall P (skipn n l).
Proof. intros H. revert n; induction H; intros [|n]; cbn; auto. Qed.
Lemma pow256 n : 256 ^ n = 2 ^ (8 * n).
Proof. change 256 with (2 ^ 8). rewrite <- N.pow_mul_r. reflexivity. Qed.
Lemma be_prefix l i : bytes l -> i <= lenN l -> be_value l / 2 ^ (8 * (lenN l - i)) = be_value (firstn (N.to_nat i) l).
Proof.
  intros B I. rewrite <- pow256. rewrite <- (firstn_skipn (N.to_nat i) l) at 1. rewrite be_app.
  assert (E : lenN (skipn (N.to_nat i) l) = lenN l - i) by (unfold lenN in *; rewrite skipn_length; lia).
  rewrite E. rewrite N.div_add_l by (apply N.pow_nonzero; discriminate).
  pose proof (be_value_lt (skipn (N.to_nat i) l) (Forall_skipn_e _ _ _ B)) as L. rewrite E in L.
  rewrite N.div_small by auto. lia.
Qed.
Lemma push_acc x b : b < 256 -> N.lor (shlw 32 (x mod 2 ^ 32) 8) b = (256 * x + b) mod 2 ^ 32.
Proof.
  intros B. unfold shlw. rewrite trunc_mod, N.shiftl_mul_pow2. change (2 ^ 8) with 256. change (2 ^ 32) with 4294967296.
  rewrite lor_disjoint.
  - lia.
  - apply N.bits_inj; intro i. rewrite N.land_spec, N.bits_0. destruct (N.ltb_spec i 8) as [H|H].
    + replace ((x mod 4294967296 * 256) mod 4294967296) with ((x mod 16777216) * 2 ^ 8) by (change (2 ^ 8) with 256; lia).
      rewrite N.mul_pow2_bits_low by auto. reflexivity.
    + rewrite (testbit_high 8 b i) by auto. apply andb_false_r.
Qed.

(** One output byte. *)
Lemma group_byte acc r sh b : u8 (N.land (N.shiftr acc (r + sh)) (N.land (N.shiftr (N.ones b) sh) 255)) =
  ((N.shiftr acc r) mod 2 ^ b) / 2 ^ sh mod 256.
Proof.
  rewrite <- (N.land_ones (N.shiftr acc r) b), <- N.shiftr_div_pow2.
  change 256 with (2 ^ 8). rewrite <- N.land_ones. unfold u8. rewrite trunc_mod, <- N.land_ones. change 255 with (N.ones 8).
  apply N.bits_inj; intro t. rewrite !N.land_spec, !N.shiftr_spec', !N.land_spec, !N.shiftr_spec'.
  replace (t + sh + r) with (t + (r + sh)) by lia.
  destruct (N.testbit acc (t + (r + sh))), (N.testbit (N.ones b) (t + sh)), (N.testbit (N.ones 8) t); reflexivity.
Qed.
Lemma be_bytes_digit m v y : (y < m)%nat -> nth y (be_bytes m v) 0 = v / 2 ^ (8 * (N.of_nat m - 1 - N.of_nat y)) mod 256.
Proof.
  intros Y. unfold be_bytes. rewrite rev_nth by (rewrite le_bytes_length; auto). rewrite le_bytes_length.
  rewrite le_bytes_nth by lia. unfold CryptoSpec.byte_of. rewrite pow256. repeat f_equal. lia.
Qed.
Definition enc (pad m v : N) : list N := repeat 0 (N.to_nat pad) ++ be_bytes (N.to_nat m) v.
Lemma enc_length pad m v : lenN (enc pad m v) = pad + m.
Proof. unfold enc, lenN. rewrite app_length, repeat_length, be_bytes_length. lia. Qed.
Lemma expandGroup_spec pad m b r acc j P M : m = bytes_of_bits b -> 8 <= b <= 32 -> pad + m < 2 ^ 29 -> r + b <= 64 ->
  j = lenN P -> j + pad + m < 2 ^ 32 -> pad + m <= M ->
  expandGroup pad (m + pad) (subw 32 (shlw 32 1 b) 1) r acc j (P ++ zeros M) =
  Done ((P ++ enc pad m (N.shiftr acc r mod 2 ^ b)) ++ zeros (M - (pad + m))).
Proof.
  intros HM HB HW HR HJ HJ2 HMM. unfold expandGroup.
  assert (MASK : subw 32 (shlw 32 1 b) 1 = N.ones b).
  { destruct (N.eq_dec b 32) as [->|]; [reflexivity|].
    unfold subw, shlw. rewrite N.shiftl_1_l, (trunc_small 32 (2 ^ b)) by (apply N.pow_lt_mono_r; lia).
    pose proof (N.pow_nonzero 2 b ltac:(discriminate)). pose proof (N.pow_lt_mono_r 2 b 32 ltac:(lia) ltac:(lia)).
    rewrite trunc_mod. rewrite N.ones_equiv.
    replace (2 ^ b + 2 ^ 32 - 1) with (N.pred (2 ^ b) + 1 * 2 ^ 32) by lia.
    rewrite N.mod_add by discriminate. apply N.mod_small. lia. }
  rewrite MASK. set (v := N.shiftr acc r mod 2 ^ b).
  assert (M1 : 1 <= m <= 4) by (subst m; unfold bytes_of_bits; lia).
  replace (m + pad - pad) with m by lia.
  replace (P ++ zeros M) with ((P ++ repeat 0 (N.to_nat pad)) ++ zeros (M - pad)).
  2:{ rewrite <- app_assoc. f_equal. replace M with (pad + (M - pad)) at 2 by lia. rewrite zeros_app. reflexivity. }
  assert (L : exists s', for_up (N.to_nat m) pad (fun x output =>
    let sh := mulw 32 8 (subw 32 (subw 32 (m + pad) x) 1) in
    let p1 := N.shiftr acc (addw 32 r sh) in
    let p2 := N.land (N.shiftr (N.ones b) sh) 255 in
    upd output (addw 32 j x) (u8 (N.land p1 p2))) ((P ++ repeat 0 (N.to_nat pad)) ++ zeros (M - pad)) = Done s' /\
    (fun x out => out = (P ++ repeat 0 (N.to_nat pad) ++ firstn (N.to_nat (x - pad)) (be_bytes (N.to_nat m) v)) ++ zeros (M - x))
      (pad + N.of_nat (N.to_nat m)) s').
  { apply (for_up_inv (fun x out => out = (P ++ repeat 0 (N.to_nat pad) ++ firstn (N.to_nat (x - pad)) (be_bytes (N.to_nat m) v)) ++ zeros (M - x))).
    - rewrite N.sub_diag. change (N.to_nat 0) with O. rewrite firstn_O, app_nil_r. reflexivity.
    - intros x out X0 X1 ->. rewrite N2Nat.id in X1. assert (X : pad <= x < pad + m) by lia. clear X0 X1. cbv zeta.
      assert (S1 : subw 32 (subw 32 (m + pad) x) 1 = m + pad - x - 1).
      { clear - X HW M1. unfold subw. rewrite !trunc_mod. change (2 ^ 32) with 4294967296. change (2 ^ 29) with 536870912 in HW.
        lia. }
      rewrite S1. unfold mulw. rewrite (trunc_small 32 (8 * (m + pad - x - 1))) by (clear - X M1; lia).
      unfold addw. rewrite (trunc_small 32 (r + _)) by (clear - X M1 HR; lia).
      rewrite (trunc_small 32 (j + x)) by (clear - X HJ2; lia).
      rewrite group_byte. fold v.
      rewrite upd_end.
      + eexists; split; [reflexivity|].
        replace (M - x - 1) with (M - (x + 1)) by (clear; lia). f_equal. rewrite <- !app_assoc. do 2 f_equal.
        replace (N.to_nat (x + 1 - pad)) with (S (N.to_nat (x - pad))) by lia.
        symmetry. apply firstn_succ_snoc.
        rewrite (nth_error_nth' _ 0) by (rewrite be_bytes_length; lia). f_equal.
        rewrite be_bytes_digit by lia. do 3 f_equal. lia.
      + unfold lenN. rewrite !app_length, repeat_length, firstn_length, be_bytes_length. unfold lenN in HJ. lia.
      + lia. }
  destruct L as (s' & E & ->). cbv zeta in E. rewrite E. f_equal. f_equal.
  - f_equal. unfold enc. f_equal. rewrite firstn_all2; auto. rewrite be_bytes_length. lia.
  - f_equal. lia.
Qed.

(** The widths for which the 32-bit accumulator never loses a bit it still needs. *)
Definition exact_width (b : N) : bool := (8 <=? b) && (b <=? 26) || (b =? 28) || (b =? 32).
Lemma residue_fits b i : exact_width b = true -> b <= 8 * i mod b + 8 -> 8 * i mod b + 8 - b + b <= 32.
Proof.
  intros E H.
  assert (HB : b <> 0) by (unfold exact_width in E; lia).
  pose proof (N.mod_lt (8 * i) b HB) as L. pose proof (N.div_mod (8 * i) b HB) as D.
  set (r := 8 * i mod b) in *. set (q := 8 * i / b) in *. clearbody r q.
  destruct (N.le_gt_cases b 25); [lia|].
  assert (b = 26 \/ b = 28 \/ b = 32) as [->|[->| ->]] by (unfold exact_width in E; lia); lia.
Qed.

Definition out_state (b pad : N) (l : list N) (outLen i : N) : list N * N * N * N :=
  let m := bytes_of_bits b in
  (concat (map (enc pad m) (tab (8 * i / b) (group b l))) ++ zeros (outLen - (m + pad) * (8 * i / b)),
   8 * i mod b, be_value (firstn (N.to_nat i) l) mod 2 ^ 32, (m + pad) * (8 * i / b)).
Lemma concat_enc_length pad m vs : lenN (concat (map (enc pad m) vs)) = (m + pad) * lenN vs.
Proof.
  induction vs; cbn [map concat]; [unfold lenN; cbn [length]; lia|]. rewrite lenN_app, enc_length, IHvs. unfold lenN. cbn [length]. lia.
Qed.
Lemma expandStep_spec b pad l outLen i : exact_width b = true -> bytes l -> i < lenN l ->
  8 * (bytes_of_bits b + pad) * lenN l < 2 ^ 32 -> outLen = 8 * (bytes_of_bits b + pad) * lenN l / b ->
  expandStep b pad (bytes_of_bits b + pad) (subw 32 (shlw 32 1 b) 1) l i (out_state b pad l outLen i) =
  Done (out_state b pad l outLen (i + 1)).
Proof.
  intros EW B I SZ HO. unfold out_state at 1, expandStep.
  assert (HB : 8 <= b <= 32) by (unfold exact_width in EW; lia). assert (HB0 : b <> 0) by lia.
  set (m := bytes_of_bits b) in *. assert (M1 : 1 <= m <= 4) by (unfold m, bytes_of_bits; lia).
  pose proof (N.mod_lt (8 * i) b HB0) as RL. pose proof (N.div_mod (8 * i) b HB0) as DM.
  set (q := 8 * i / b) in *. set (r := 8 * i mod b) in *.
  cbn beta iota. rewrite (idx_Done _ _ 0) by auto. cbn [bind].
  assert (BI : nth (N.to_nat i) l 0 < 256).
  { apply (proj1 (Forall_forall _ _) B). apply nth_In. unfold lenN in I. lia. }
  rewrite push_acc by auto.
  assert (FS : firstn (N.to_nat (i + 1)) l = firstn (N.to_nat i) l ++ [nth (N.to_nat i) l 0]).
  { replace (N.to_nat (i + 1)) with (S (N.to_nat i)) by lia. apply firstn_succ_snoc. apply nth_error_nth'. unfold lenN in I. lia. }
  rewrite <- be_snoc, <- FS. set (V := be_value (firstn (N.to_nat (i + 1)) l)).
  assert (A8 : addw 32 r 8 = r + 8) by (apply trunc_small; lia). rewrite !A8.
  destruct (N.leb_spec b (r + 8)) as [G|G].
  - pose proof (residue_fits b i EW G) as FIT. fold r in FIT.
    assert (Q1 : 8 * (i + 1) / b = q + 1) by (symmetry; apply (N.div_unique _ b (q + 1) (r + 8 - b)); lia).
    assert (R1 : 8 * (i + 1) mod b = r + 8 - b) by (symmetry; apply (N.mod_unique _ b (q + 1) (r + 8 - b)); lia).
    assert (SB : subw 32 (r + 8) b = r + 8 - b).
    { unfold subw. rewrite trunc_mod. replace (r + 8 + 2 ^ 32 - b) with (r + 8 - b + 1 * 2 ^ 32) by lia.
      rewrite N.mod_add by discriminate. apply N.mod_small. lia. }
    rewrite SB.
    assert (QL : q + 1 <= 8 * lenN l / b) by (rewrite <- Q1; apply N.div_le_mono; lia).
    assert (OL : (m + pad) * (q + 1) <= outLen).
    { rewrite HO. apply N.div_le_lower_bound; auto.
      assert (b * (q + 1) <= 8 * lenN l) by lia.
      clear - H. nia. }
    assert (OU : outLen < 2 ^ 32).
    { rewrite HO. eapply N.le_lt_trans; [|exact SZ]. apply N.div_le_upper_bound; auto. clear - HB. nia. }
    rewrite (expandGroup_spec pad m b).
    + cbn [bind]. unfold out_state. rewrite Q1, R1. fold m V. f_equal.
      assert (GV : N.shiftr (V mod 2 ^ 32) (r + 8 - b) mod 2 ^ b = group b l q).
      { unfold group. replace (8 * lenN l - b * (q + 1)) with (8 * (lenN l - (i + 1)) + (r + 8 - b)) by lia.
        rewrite N.pow_add_r, <- N.div_div by (apply N.pow_nonzero; discriminate).
        rewrite be_prefix by (auto; lia). fold V. rewrite <- N.shiftr_div_pow2.
        rewrite <- !N.land_ones. apply N.bits_inj; intro t. rewrite !N.land_spec, !N.shiftr_spec', N.land_spec.
        destruct (N.ltb_spec t b).
        - rewrite (N.ones_spec_low 32) by lia. rewrite andb_true_r. reflexivity.
        - rewrite (N.ones_spec_high b) by auto. rewrite !andb_false_r. reflexivity. }
      rewrite GV, tab_succ, map_app, concat_app. cbn [map concat]. rewrite app_nil_r.
      unfold addw. rewrite trunc_small by (clear - OL OU; lia).
      replace (outLen - (m + pad) * q - (pad + m)) with (outLen - (m + pad) * (q + 1)) by (rewrite <- N.sub_add_distr; f_equal; clear; lia).
      replace ((m + pad) * q + (m + pad)) with ((m + pad) * (q + 1)) by lia. reflexivity.
    + reflexivity.
    + lia.
    + clear - SZ I. unfold lenN in *. change (2 ^ 32) with 4294967296 in SZ. change (2 ^ 29) with 536870912. nia.
    + lia.
    + rewrite concat_enc_length, lenN_tab. reflexivity.
    + lia.
    + lia.
  - assert (Q1 : 8 * (i + 1) / b = q) by (symmetry; apply (N.div_unique _ b q (r + 8)); lia).
    assert (R1 : 8 * (i + 1) mod b = r + 8) by (symmetry; apply (N.mod_unique _ b q (r + 8)); lia).
    unfold out_state. rewrite Q1, R1. reflexivity.
Qed.
Lemma expand_spec b pad l : exact_width b = true -> bytes l -> 8 * (bytes_of_bits b + pad) * lenN l < 2 ^ 32 ->
  8 * (bytes_of_bits b + pad) * lenN l / b <> lenN l ->
  expandArray l b pad = Done (Some (expanded b pad l ++
    zeros (8 * (bytes_of_bits b + pad) * lenN l / b - (bytes_of_bits b + pad) * (8 * lenN l / b)))).
Proof.
  intros EW B SZ NE. assert (HB : 8 <= b <= 32) by (unfold exact_width in EW; lia).
  unfold expandArray. destruct (N.ltb_spec b 8); [lia|]. destruct (N.ltb_spec 32 b); [lia|]. cbv zeta.
  assert (L0 : 0 < lenN l). { destruct (N.eq_dec (lenN l) 0) as [Z|]; [|lia]. rewrite Z in NE. rewrite N.mul_0_r, N.div_0_l in NE by lia. lia. }
  assert (M1 : 1 <= bytes_of_bits b <= 4) by (unfold bytes_of_bits; lia).
  assert (L1 : lenN l < 2 ^ 32) by (clear - SZ M1; change (2 ^ 32) with 4294967296 in *; nia).
  assert (P1 : pad < 2 ^ 29) by (clear - SZ L0; change (2 ^ 32) with 4294967296 in *; change (2 ^ 29) with 536870912; nia).
  unfold u32. rewrite (trunc_small 32 (lenN l)) by auto.
  unfold addw. rewrite (trunc_small 32 (b + 7)) by lia. fold (bytes_of_bits b).
  rewrite (trunc_small 32 (bytes_of_bits b + pad)) by (clear - M1 P1; change (2 ^ 29) with 536870912 in P1; change (2 ^ 32) with 4294967296; lia).
  assert (P2 : 8 * (bytes_of_bits b + pad) < 2 ^ 32) by (clear - SZ L0; nia).
  unfold mulw. rewrite (trunc_small 32 (8 * _)) by exact P2.
  rewrite trunc_small by auto.
  unfold divc. destruct (N.eqb_spec b 0); [lia|]. cbn [bind].
  set (outLen := 8 * (bytes_of_bits b + pad) * lenN l / b) in *.
  destruct (N.eqb_spec outLen (lenN l)) as [?|_]; [contradiction|].
  change (zeros outLen, 0, 0, 0) with (zeros outLen, 0, 0, 0).
  replace (zeros outLen, 0, 0, 0) with (out_state b pad l outLen 0).
  2:{ unfold out_state. change (8 * 0) with 0. rewrite N.div_0_l, N.mod_0_l, N.mul_0_r, N.sub_0_r by lia. reflexivity. }
  loop_inv (fun i st => st = out_state b pad l outLen i) as st E X.
  - reflexivity.
  - intros i st I ->. rewrite expandStep_spec by auto. eexists; split; reflexivity.
  - subst st. unfold out_state. reflexivity.
Qed.

(** ** Packing *)
Lemma packed_snoc b vs v : packed b (vs ++ [v]) = packed b vs * 2 ^ b + v.
Proof. unfold packed. rewrite fold_left_app. reflexivity. Qed.
Lemma packed_lt b vs : Forall (fun v => v < 2 ^ b) vs -> packed b vs < 2 ^ (b * lenN vs).
Proof.
  induction vs as [|v vs IH] using rev_ind; intros F; [unfold lenN; cbn [length]; rewrite N.mul_0_r; reflexivity|].
  apply Forall_app in F as (F & V). apply Forall_cons_iff in V as (V & _). specialize (IH F).
  rewrite packed_snoc, lenN_app. change (lenN [v]) with 1. rewrite N.mul_add_distr_l, N.mul_1_r, N.pow_add_r. nia.
Qed.
Definition digit_of (b q X g : N) : N := X / 2 ^ (b * q - b * (g + 1)) mod 2 ^ b.
Lemma packed_digits_prefix b q X t : t <= q -> X < 2 ^ (b * q) -> packed b (tab t (digit_of b q X)) = X / 2 ^ (b * (q - t)).
Proof.
  intros T HX. induction t as [|t IH] using N.peano_ind.
  - rewrite N.sub_0_r, N.div_small by auto. reflexivity.
  - rewrite <- N.add_1_r, tab_succ, packed_snoc, IH by lia. unfold digit_of.
    replace (b * q - b * (t + 1)) with (b * (q - (t + 1))) by (rewrite N.mul_sub_distr_l; lia).
    set (Y := 2 ^ (b * (q - (t + 1)))).
    assert (E : 2 ^ (b * (q - t)) = Y * 2 ^ b).
    { unfold Y. rewrite <- N.pow_add_r. f_equal. replace (q - t) with (q - (t + 1) + 1) by lia. lia. }
    assert (Y <> 0) by (apply N.pow_nonzero; discriminate).
    assert (B0 : 2 ^ b <> 0) by (apply N.pow_nonzero; discriminate).
    rewrite E, <- N.div_div by auto. rewrite (N.mul_comm (X / Y / 2 ^ b)). symmetry. apply N.div_mod. auto.
Qed.
Lemma packed_digits b q X : X < 2 ^ (b * q) -> packed b (tab q (digit_of b q X)) = X.
Proof.
  intros HX. rewrite packed_digits_prefix by (auto; lia). rewrite N.sub_diag, N.mul_0_r. apply N.div_1_r.
Qed.
Lemma digits_packed b vs : Forall (fun v => v < 2 ^ b) vs -> tab (lenN vs) (digit_of b (lenN vs) (packed b vs)) = vs.
Proof.
  induction vs as [|v vs IH] using rev_ind; intros F; [reflexivity|].
  apply Forall_app in F as (F & V). apply Forall_cons_iff in V as (V & _). specialize (IH F).
  rewrite lenN_app. change (lenN [v]) with 1. rewrite tab_succ. f_equal.
  - etransitivity; [|exact IH]. apply tab_ext. intros g G. unfold digit_of. rewrite packed_snoc.
    replace (b * (lenN vs + 1) - b * (g + 1)) with (b + (b * lenN vs - b * (g + 1))) by nia.
    rewrite N.pow_add_r, <- N.div_div by (apply N.pow_nonzero; discriminate).
    rewrite N.div_add_l by (apply N.pow_nonzero; discriminate). rewrite (N.div_small v) by auto. rewrite N.add_0_r. reflexivity.
  - f_equal. unfold digit_of. rewrite packed_snoc, N.sub_diag, N.div_1_r.
    rewrite N.add_comm, N.mod_add by (apply N.pow_nonzero; discriminate). apply N.mod_small. auto.
Qed.
Lemma digit_of_lt b q X g : digit_of b q X g < 2 ^ b.
Proof. unfold digit_of. apply N.mod_lt, N.pow_nonzero. discriminate. Qed.
Lemma groups_digits b l q : b <> 0 -> 8 * lenN l = b * q -> groups b l = tab q (digit_of b q (be_value l)).
Proof.
  intros B E. unfold groups. rewrite E, N.mul_comm, N.div_mul by auto. apply tab_ext. intros g G.
  unfold group, digit_of. rewrite E. reflexivity.
Qed.
Lemma packed_groups b l q : b <> 0 -> bytes l -> 8 * lenN l = b * q -> packed b (groups b l) = be_value l.
Proof.
  intros B0 B E. rewrite (groups_digits b l q) by auto. apply packed_digits.
  rewrite <- E, <- pow256. apply be_value_lt. auto.
Qed.
Lemma group_lt b l g : group b l g < 2 ^ b.
Proof. unfold group. apply N.mod_lt, N.pow_nonzero. discriminate. Qed.
Lemma groups_lt b l : Forall (fun v => v < 2 ^ b) (groups b l).
Proof. apply words_tab. intros. apply group_lt. Qed.
Lemma groups_len b l : lenN (groups b l) = 8 * lenN l / b.
Proof. apply lenN_tab. Qed.
Lemma be_bytes_value m v : v < 256 ^ N.of_nat m -> be_value (be_bytes m v) = v.
Proof. intros H. unfold be_value, be_bytes. rewrite rev_involutive, le_bytes_value. apply N.mod_small. auto. Qed.
Lemma be_bytes_ok m v : bytes (be_bytes m v).
Proof. unfold be_bytes. apply Forall_rev, le_bytes_bytes. Qed.
Lemma be_value_concat m vs : Forall (fun v => v < 256 ^ N.of_nat m) vs ->
  be_value (concat (map (be_bytes m) vs)) = packed (8 * N.of_nat m) vs.
Proof.
  induction vs as [|v vs IH] using rev_ind; intros F; [reflexivity|].
  apply Forall_app in F as (F & V). apply Forall_cons_iff in V as (V & _).
  rewrite map_app, concat_app. cbn [map concat]. rewrite app_nil_r, be_app, IH, packed_snoc by auto.
  unfold lenN. rewrite be_bytes_length, be_bytes_value by auto. rewrite pow256. reflexivity.
Qed.
Lemma be_inj a b : bytes a -> bytes b -> length a = length b -> be_value a = be_value b -> a = b.
Proof. intros A B L E. rewrite <- (be_value_bytes a A), <- (be_value_bytes b B). congruence. Qed.
Lemma bytes_concat m vs : bytes (concat (map (be_bytes m) vs)).
Proof. induction vs; cbn [map concat]; [constructor|]. apply Forall_app. split; auto. apply be_bytes_ok. Qed.
Lemma enc_0 m v : enc 0 m v = be_bytes (N.to_nat m) v.
Proof. reflexivity. Qed.
(** Whole bytes: nothing to do. *)
Lemma expanded_bytes w l : w <> 0 -> bytes l -> lenN l mod w = 0 -> expanded (8 * w) 0 l = l.
Proof.
  intros W B M. unfold expanded. assert (BW : bytes_of_bits (8 * w) = w) by (unfold bytes_of_bits; lia). rewrite BW.
  assert (Q : 8 * lenN l = 8 * w * (lenN l / w)).
  { pose proof (N.div_mod (lenN l) w W). rewrite M in H. nia. }
  change (map (fun v => repeat 0 (N.to_nat 0) ++ be_bytes (N.to_nat w) v) (groups (8 * w) l))
    with (map (be_bytes (N.to_nat w)) (groups (8 * w) l)).
  apply be_inj; auto.
  - apply bytes_concat.
  - pose proof (concat_enc_length 0 w (groups (8 * w) l)) as L. rewrite groups_len, Q in L.
    rewrite (N.mul_comm (8 * w) (lenN l / w)), N.div_mul in L by lia.
    assert (E : lenN (concat (map (be_bytes (N.to_nat w)) (groups (8 * w) l))) = lenN l).
    { etransitivity; [exact L|]. clear - Q W. nia. }
    unfold lenN in E. lia.
  - rewrite be_value_concat.
    + rewrite N2Nat.id. apply (packed_groups _ _ (lenN l / w)); auto. lia.
    + rewrite N2Nat.id, pow256. apply groups_lt.
Qed.
Lemma expand_exact b pad l : exact_width b = true -> bytes l -> 8 * (bytes_of_bits b + pad) * lenN l < 2 ^ 32 ->
  8 * lenN l mod b = 0 -> expandArray l b pad = Done (Some (expanded b pad l)).
Proof.
  intros EW B SZ M. assert (HB : 8 <= b <= 32) by (unfold exact_width in EW; lia). assert (B0 : b <> 0) by lia.
  pose proof (N.div_mod (8 * lenN l) b B0) as D. rewrite M, N.add_0_r in D. set (q := 8 * lenN l / b) in *.
  assert (O : 8 * (bytes_of_bits b + pad) * lenN l / b = (bytes_of_bits b + pad) * q).
  { replace (8 * (bytes_of_bits b + pad) * lenN l) with ((bytes_of_bits b + pad) * q * b) by nia. apply N.div_mul. auto. }
  destruct (N.eq_dec ((bytes_of_bits b + pad) * q) (lenN l)) as [E|E].
  - assert (R : expandArray l b pad = Done (Some l)).
    { unfold expandArray. destruct (N.ltb_spec b 8); [lia|]. destruct (N.ltb_spec 32 b); [lia|]. cbv zeta.
      assert (M1 : 1 <= bytes_of_bits b <= 4) by (unfold bytes_of_bits; lia).
      destruct (N.eq_dec (lenN l) 0) as [Z|Z].
      { rewrite Z. unfold mulw, u32. rewrite (trunc_small 32 0) by lia. rewrite N.mul_0_r, (trunc_small 32 0) by lia.
        unfold divc. destruct (N.eqb_spec b 0); [lia|]. cbn [bind]. rewrite N.div_0_l by auto. reflexivity. }
      assert (L1 : lenN l < 2 ^ 32) by (clear - SZ M1; change (2 ^ 32) with 4294967296 in *; nia).
      assert (P2 : 8 * (bytes_of_bits b + pad) < 2 ^ 32) by (clear - SZ Z; nia).
      unfold u32. rewrite (trunc_small 32 (lenN l)) by auto.
      unfold addw. rewrite (trunc_small 32 (b + 7)) by lia. fold (bytes_of_bits b).
      rewrite (trunc_small 32 (bytes_of_bits b + pad)) by (clear - P2; lia).
      unfold mulw. rewrite (trunc_small 32 (8 * _)) by exact P2. rewrite trunc_small by auto.
      unfold divc. destruct (N.eqb_spec b 0); [lia|]. cbn [bind]. rewrite O.
      destruct (N.eqb_spec ((bytes_of_bits b + pad) * q) (lenN l)); [reflexivity|contradiction]. }
    rewrite R. do 2 f_equal. destruct (N.eq_dec (lenN l) 0) as [Z|Z].
    + assert (l = []) as -> by (destruct l; auto; unfold lenN in Z; cbn in Z; lia).
      unfold expanded, groups. change (lenN []) with 0. rewrite N.mul_0_r, N.div_0_l by auto. reflexivity.
    + assert (Q0 : q <> 0) by (intros Q; rewrite Q in E; lia).
      assert (W8 : 8 * (bytes_of_bits b + pad) = b) by (clear - D E Q0; nia).
      assert (pad = 0 /\ b = 8 * bytes_of_bits b) as (-> & HBB) by (unfold bytes_of_bits in *; lia).
      rewrite N.add_0_r in E.
      rewrite HBB. symmetry. apply expanded_bytes; auto; [lia|]. rewrite <- E, N.mul_comm. apply N.mod_mul. lia.
  - rewrite expand_spec by (auto; rewrite O; auto). rewrite O. fold q. rewrite N.sub_diag. change (zeros 0) with (@nil N).
    rewrite app_nil_r. reflexivity.
Qed.

(** ** Decoding solutions *)
Lemma enc_be4 m v : m <= 4 -> v < 2 ^ (8 * m) -> enc (4 - m) m v = be_bytes 4 v.
Proof.
  intros M V. apply be_inj.
  - unfold enc. apply Forall_app. split; [|apply be_bytes_ok].
    apply Forall_forall. intros x X. apply repeat_spec in X. subst. reflexivity.
  - apply be_bytes_ok.
  - pose proof (enc_length (4 - m) m v) as E. unfold lenN in E. rewrite be_bytes_length. lia.
  - unfold enc. rewrite be_app.
    assert (Z : forall n, be_value (repeat 0 n) = 0).
    { induction n; [reflexivity|]. change (repeat 0 (S n)) with ([0] ++ repeat 0 n). rewrite be_app, IHn. reflexivity. }
    rewrite Z, !be_bytes_value; [reflexivity| |].
    + change (256 ^ N.of_nat 4) with (2 ^ (8 * 4)). eapply N.lt_le_trans; [exact V|]. apply N.pow_le_mono_r; lia.
    + rewrite N2Nat.id, pow256. auto.
Qed.
(** Parameters whose solutions decode exactly. *)
Definition decodable (n k : N) : bool :=
  (n <? 2 ^ 32) && (k <? 29) && exact_width (digit_bits n k + 1) && (2 ^ k * (digit_bits n k + 1) mod 8 =? 0) &&
  (4 * (2 ^ k * (digit_bits n k + 1)) <? 2 ^ 32).
Lemma collisionBitLength_spec n k : k < 2 ^ 32 - 1 -> collisionBitLength n k = Done (digit_bits n k).
Proof.
  intros K. unfold collisionBitLength, addw, divc. rewrite trunc_small by lia.
  destruct (N.eqb_spec (k + 1) 0); [lia|]. reflexivity.
Qed.
Lemma indicesFromMinimal_spec n k soln : decodable n k = true -> bytes soln -> lenN soln < 2 ^ 32 ->
  indicesFromMinimal n k soln =
  Done (if lenN soln =? solution_length n k then Some (groups (digit_bits n k + 1) soln) else None).
Proof.
  intros G B L. unfold decodable in G. apply andb_prop in G as (G & G5). apply andb_prop in G as (G & G4).
  apply andb_prop in G as (G & G3). apply andb_prop in G as (G1 & G2).
  apply N.ltb_lt in G1, G2, G5. apply N.eqb_eq in G4.
  unfold indicesFromMinimal. rewrite collisionBitLength_spec by lia. cbn [bind]. cbv zeta.
  unfold solution_length. set (c := digit_bits n k) in *. set (b := c + 1) in *.
  assert (HB : 8 <= b <= 32) by (clear - G3; unfold exact_width in G3; lia).
  unfold u32. rewrite (trunc_small 32 (lenN soln)) by auto.
  assert (K2 : 1 <= 2 ^ k < 2 ^ 32).
  { split; [pose proof (N.pow_nonzero 2 k ltac:(discriminate)); lia|apply N.pow_lt_mono_r; lia]. }
  unfold addw. fold b. rewrite (trunc_small 32 b) by (clear - HB; lia). rewrite (trunc_small 32 (b + 7)) by (clear - HB; lia).
  fold (bytes_of_bits b).
  unfold shlw. rewrite N.shiftl_1_l, (trunc_small 32 (2 ^ k)) by apply K2.
  unfold mulw. rewrite (trunc_small 32 (2 ^ k * b)) by (clear - G5; lia).
  destruct (N.eqb_spec (lenN soln) (2 ^ k * b / 8)) as [E|E]; [|reflexivity]. cbn [negb].
  assert (M1 : 1 <= bytes_of_bits b <= 4) by (clear - HB; unfold bytes_of_bits; lia).
  destruct (N.ltb_spec 4 (bytes_of_bits b)); [lia|].
  assert (PD : subw 32 4 (bytes_of_bits b) = 4 - bytes_of_bits b).
  { clear - M1. unfold subw. rewrite trunc_mod. change (2 ^ 32) with 4294967296. lia. }
  rewrite PD.
  assert (Q : 8 * lenN soln = b * 2 ^ k) by (rewrite E; clear - G4; lia).
  rewrite expand_exact; auto.
  - cbn [bind]. unfold expanded.
    assert (EM : concat (map (fun v => repeat 0 (N.to_nat (4 - bytes_of_bits b)) ++ be_bytes (N.to_nat (bytes_of_bits b)) v) (groups b soln))
      = concat (map (enc32 BigEndian) (groups b soln))).
    { f_equal. apply map_ext_in. intros v IN. apply enc_be4; [lia|].
      pose proof (groups_lt b soln) as F. rewrite Forall_forall in F. specialize (F v IN). cbv beta in F.
      eapply N.lt_le_trans; [exact F|]. apply N.pow_le_mono_r; [discriminate|]. unfold bytes_of_bits. lia. }
    rewrite EM. destruct (words_roundtrip (groups b soln) BigEndian) as (bs & E1 & _ & _ & E2).
    + apply Forall_forall. intros v IN. pose proof (groups_lt b soln) as F. rewrite Forall_forall in F. specialize (F v IN). cbv beta in F.
      unfold isw. eapply N.lt_le_trans; [exact F|]. apply N.pow_le_mono_r; [discriminate|lia].
    + rewrite Uint32ArrayToBytes_spec in E1. injection E1 as <-. rewrite E2. reflexivity.
  - replace (bytes_of_bits b + (4 - bytes_of_bits b)) with 4 by lia. clear - Q G5. lia.
  - rewrite Q, N.mul_comm. apply N.mod_mul. lia.
Qed.
