(** The BeamHash III verifier accepts exactly the solutions of the specification. *)
From Coq Require Import NArith ZArith Arith List Lia Bool ZifyBool ZifyNat ZifyN.
From Verif Require Import Base BaseFacts CryptoModel CryptoSpec CryptoProofs Levels EquiModel EquiSpec EquiExpand EquiProofs BeamModel BeamSpec.
Import ListNotations.
Open Scope N_scope.
Ltac Zify.zify_post_hook ::= Z.div_mod_to_equations.

(** ** Bits *)
Lemma lor_shift x y s : x < 2 ^ s -> N.lor x (N.shiftl y s) = x + 2 ^ s * y.
Proof.
  intros H. rewrite lor_disjoint; [rewrite N.shiftl_mul_pow2; lia|].
  apply N.bits_inj; intro t. rewrite N.land_spec, N.bits_0. destruct (N.lt_ge_cases t s).
  - rewrite N.shiftl_spec_low by auto. apply andb_false_r.
  - rewrite (testbit_high s x t) by auto. reflexivity.
Qed.
Lemma land_mod x s : N.land x (2 ^ s - 1) = x mod 2 ^ s.
Proof. rewrite <- N.land_ones. f_equal. rewrite N.ones_equiv. lia. Qed.
Lemma rotl_spec a b : a < 2 ^ 64 -> b <= 64 -> rotl a b = rotate 64 a b.
Proof.
  intros A B. rewrite <- rolw_rotate by auto. unfold rotl, rolw. do 2 f_equal. unfold subw. rewrite trunc_mod.
  change (2 ^ 64) with 18446744073709551616. lia.
Qed.
Lemma rotate64_lt a b : a < 2 ^ 64 -> b <= 64 -> rotate 64 a b < 2 ^ 64.
Proof. apply rotate_lt. Qed.

(** ** Indices *)
Lemma beamIndices_spec soln : lenN soln = 104 -> beamIndices soln = Done (beam_indices soln).
Proof.
  intros L. unfold beamIndices. rewrite slice_Done by lia. cbn [bind]. change (N.to_nat (100 - 0)) with 100%nat.
  change (N.to_nat 0) with O. rewrite skipn_O. cbv zeta.
  assert (E : be_value (reverseBytes (firstn 100 soln)) = le_value (firstn 100 soln)).
  { unfold be_value, reverseBytes. rewrite rev_involutive. reflexivity. }
  rewrite E. set (v := le_value (firstn 100 soln)).
  destruct (for_n_inv (fun i '(l, s) => l = tab i (fun i => v / 2 ^ (25 * i) mod 2 ^ 25) ++ zeros (32 - i) /\ s = v / 2 ^ (25 * i)) 32
    (fun i '(indices, streamBig) =>
      indices <- upd indices i (u32 (u64 (N.land streamBig indexMask))) ;;
      Done (indices, N.shiftr streamBig (collisionBitsSize + 1))) (zeros 32, v)) as ((l & s) & -> & H).
  - split; [reflexivity|]. rewrite N.mul_0_r, N.div_1_r. reflexivity.
  - intros i (l & s) I (-> & ->). rewrite upd_end by (rewrite ?lenN_tab; lia). cbn [bind].
    eexists; split; [reflexivity|]. split.
    + rewrite tab_succ. f_equal; [|f_equal; lia]. f_equal. f_equal.
      change indexMask with (2 ^ 25 - 1). rewrite land_mod. unfold u32, u64.
      assert (v / 2 ^ (25 * i) mod 2 ^ 25 < 2 ^ 25) by (apply N.mod_lt; discriminate).
      rewrite (trunc_small 64), (trunc_small 32); [reflexivity| |]; (eapply N.lt_trans; [eassumption|reflexivity]).
    + change (collisionBitsSize + 1) with 25. rewrite N.shiftr_div_pow2, N.div_div by (apply N.pow_nonzero; discriminate).
      rewrite <- N.pow_add_r. do 2 f_equal. lia.
  - destruct H as (-> & _). cbn [bind]. rewrite N.sub_diag. change (zeros 0) with (@nil N). rewrite app_nil_r. reflexivity.
Qed.
Lemma beam_indices_lt soln : Forall (fun i => i < 2 ^ 25) (beam_indices soln).
Proof. apply words_tab. intros. apply N.mod_lt. discriminate. Qed.
Lemma beam_indices_len soln : length (beam_indices soln) = 32%nat.
Proof. reflexivity. Qed.

(** ** Leaves *)
Lemma sum_snoc f n : fold_right N.add 0 (tab (n + 1) f) = fold_right N.add 0 (tab n f) + f n.
Proof.
  rewrite tab_succ. generalize (tab n f). intros l. induction l; cbn [app fold_right]; [lia|]. rewrite IHl. lia.
Qed.
Lemma sum_cons f n : fold_right N.add 0 (tab (n + 1) f) = f 0 + fold_right N.add 0 (tab n (fun d => f (1 + d))).
Proof. rewrite tab_S. reflexivity. Qed.
Lemma sum_scale c f n : fold_right N.add 0 (tab n (fun d => c * f d)) = c * fold_right N.add 0 (tab n f).
Proof.
  induction n as [|n IH] using N.peano_ind; [cbn [fold_right tab]; change (tab 0 (fun d => c * f d)) with (@nil N); change (tab 0 f) with (@nil N); cbn [fold_right]; lia|].
  rewrite <- N.add_1_r, !sum_snoc, IH. lia.
Qed.
Lemma words_sum_lt f n : (forall i, i < n -> f i < 2 ^ 64) -> fold_right N.add 0 (tab n (fun j => 2 ^ (64 * j) * f j)) < 2 ^ (64 * n).
Proof.
  induction n as [|n IH] using N.peano_ind; intros H; [reflexivity|].
  rewrite <- N.add_1_r, sum_snoc. specialize (IH ltac:(intros; apply H; lia)). specialize (H n ltac:(lia)).
  rewrite N.mul_add_distr_l, N.mul_1_r, N.pow_add_r. nia.
Qed.
Definition key_words (key : sipstate) : list N := let '(a, b, c, d) := key in [a; b; c; d].
Lemma leaf_words key i j : sip_valid key -> i < 2 ^ 25 -> j < 8 -> sip_out (sip_compress 2 4 key (8 * i + j)) < 2 ^ 64.
Proof.
  intros V I J. destruct key as [[[a b] c] d].
  destruct (Hash24_spec (mkSip a b c d) (8 * i + j) V ltac:(lia)) as (E & V'). unfold tup at 2 in E. cbn [v0 v1 v2 v3] in E.
  rewrite <- E. apply sip_out_lt. exact V'.
Qed.
Local Opaque sip_compress sip_out.
Lemma beamNode_spec key i : sip_valid key -> i < 2 ^ 25 -> beamNode (key_words key) i = Done (mkB (beam_leaf key i) [i]).
Proof.
  intros V I. destruct key as [[[a b] c] d]. unfold beamNode. set (f := fun j => sip_out (sip_compress 2 4 (a, b, c, d) (8 * i + j))).
  destruct (for_n_inv (fun t s => s = fold_right N.add 0 (tab t (fun j => 2 ^ (64 * j) * f (7 - t + j)))) 7 (fun t bitset =>
    let i0 := 6 - t in
    let bitset := N.shiftl bitset 64 in
    k0 <- idx (key_words (a, b, c, d)) 0 ;; k1 <- idx (key_words (a, b, c, d)) 1 ;; k2 <- idx (key_words (a, b, c, d)) 2 ;; k3 <- idx (key_words (a, b, c, d)) 3 ;;
    let hasher := Hash24 (mkSip k0 k1 k2 k3) (addw 64 (shlw 64 i 3) i0) in
    Done (N.lor bitset (XorLanes hasher))) 0) as (s & E & ->).
  - reflexivity.
  - intros t s T ->. cbv zeta. change (idx (key_words (a, b, c, d)) 0) with (Done a). change (idx (key_words (a, b, c, d)) 1) with (Done b).
    change (idx (key_words (a, b, c, d)) 2) with (Done c). change (idx (key_words (a, b, c, d)) 3) with (Done d). cbn [bind].
    eexists; split; [reflexivity|].
    assert (M : addw 64 (shlw 64 i 3) (6 - t) = 8 * i + (6 - t)).
    { unfold addw, shlw. rewrite N.shiftl_mul_pow2. rewrite (trunc_small 64 (i * 2 ^ 3)) by lia. rewrite trunc_small by lia. lia. }
    rewrite M, XorLanes_spec.
    destruct (Hash24_spec (mkSip a b c d) (8 * i + (6 - t)) V ltac:(lia)) as (E & _). rewrite E.
    change (tup {| v0 := a; v1 := b; v2 := c; v3 := d |}) with (a, b, c, d). fold (f (6 - t)).
    assert (FL : f (6 - t) < 2 ^ 64) by (apply leaf_words; auto; lia).
    rewrite N.lor_comm, lor_shift by auto. rewrite sum_cons, N.mul_0_r, N.add_0_r, N.mul_1_l.
    replace (7 - (t + 1)) with (6 - t) by lia. f_equal. rewrite <- sum_scale. f_equal. apply tab_ext. intros j J.
    replace (64 * (1 + j)) with (64 + 64 * j) by lia. rewrite N.pow_add_r, N.mul_assoc. do 2 f_equal. lia.
  - cbv zeta in E. rewrite E. cbn [bind]. clear E.
    rewrite (tab_ext 7 (fun j => 2 ^ (64 * j) * f (7 - 7 + j)) (fun j => 2 ^ (64 * j) * f j)) by (intros j _; reflexivity).
    reflexivity.
Qed.
Lemma beam_leaf_lt key i : sip_valid key -> i < 2 ^ 25 -> beam_leaf key i < 2 ^ 448.
Proof. intros V I. apply (words_sum_lt _ 7). intros. apply leaf_words; auto. lia. Qed.

Local Transparent sip_compress sip_out.

(** ** The mix *)
Lemma pack25_lt l : Forall (fun i => i < 2 ^ 25) l -> pack25 l < 2 ^ (25 * lenN l).
Proof.
  induction 1 as [|i l I F IH]; [reflexivity|]. unfold pack25 in *. cbn [fold_right].
  replace (25 * lenN (i :: l)) with (25 + 25 * lenN l) by (unfold lenN; cbn [length]; lia). rewrite N.pow_add_r. nia.
Qed.
Lemma pack25_snoc l i : pack25 (l ++ [i]) = pack25 l + 2 ^ (25 * lenN l) * i.
Proof.
  induction l as [|x l IH]; [cbn [app]; unfold pack25; cbn [fold_right]; change (lenN (@nil N)) with 0; rewrite N.mul_0_r; lia|].
  unfold pack25 in *. cbn [app fold_right]. rewrite IH.
  replace (25 * lenN (x :: l)) with (25 + 25 * lenN l) by (unfold lenN; cbn [length]; lia). rewrite N.pow_add_r. lia.
Qed.
Lemma width_range h : (h <= 4)%nat -> 288 <= width h <= 448.
Proof. intros H. do 5 (destruct h as [|h]; [vm_compute; split; discriminate|]). lia. Qed.
Lemma applyMix_spec h x l : (h <= 4)%nat -> x < 2 ^ width h -> Forall (fun i => i < 2 ^ 25) l -> lenN l < 2 ^ 32 ->
  applyMix (mkB x l) (width h) = Done (mkB (mix h x l) l).
Proof.
  intros H X F L. pose proof (width_range h H) as W. unfold applyMix. cbn [b_bitset b_indices]. unfold u32. rewrite (trunc_small 32 (lenN l)) by auto.
  assert (P : addw 32 (subw 32 512 (width h)) collisionBitsSize / (collisionBitsSize + 1) = N.of_nat (fill h)).
  { unfold fill, addw, subw, collisionBitsSize. rewrite !trunc_mod. change (2 ^ 32) with 4294967296. clear - W. lia. }
  rewrite P. clear P. cbv zeta.
  assert (FB : N.of_nat (fill h) <= 9) by (unfold fill; clear - W; lia).
  set (pn := if lenN l <? N.of_nat (fill h) then lenN l else N.of_nat (fill h)).
  assert (PN : firstn (N.to_nat pn) l = firstn (fill h) l /\ pn <= lenN l /\ pn <= 9).
  { unfold pn. destruct (N.ltb_spec (lenN l) (N.of_nat (fill h))) as [Q|Q].
    - split; [|lia]. unfold lenN in Q. rewrite !firstn_all2 by (unfold lenN; lia). reflexivity.
    - split; [|lia]. rewrite Nat2N.id. reflexivity. }
  destruct PN as (PN & PL & P9). clearbody pn.
  destruct (for_n_inv (fun i t => t = x + 2 ^ width h * pack25 (firstn (N.to_nat i) l)) pn (fun i tempBits =>
    y <- idx l i ;;
    Done (N.lor tempBits (N.shiftl y (addw 32 (width h) (mulw 32 i (collisionBitsSize + 1)))))) x) as (t & -> & ->).
  - change (pack25 (firstn (N.to_nat 0) l)) with 0. rewrite N.mul_0_r, N.add_0_r. reflexivity.
  - intros i t I ->. rewrite (idx_Done l i 0) by lia. cbn [bind]. eexists; split; [reflexivity|].
    assert (A : addw 32 (width h) (mulw 32 i (collisionBitsSize + 1)) = width h + 25 * i).
    { unfold addw, mulw, collisionBitsSize. rewrite (trunc_small 32 (i * (24 + 1))) by lia. rewrite trunc_small by lia. lia. }
    rewrite A. replace (N.to_nat (i + 1)) with (S (N.to_nat i)) by lia.
    rewrite (firstn_succ_snoc l (N.to_nat i) (nth (N.to_nat i) l 0)) by (apply nth_error_nth'; unfold lenN in PL; lia).
    rewrite pack25_snoc. assert (LF : lenN (firstn (N.to_nat i) l) = i) by (unfold lenN in *; rewrite firstn_length; lia). rewrite LF.
    rewrite lor_shift.
    + rewrite N.pow_add_r. lia.
    + pose proof (pack25_lt (firstn (N.to_nat i) l) (Forall_firstn_e _ _ _ F)) as PK. rewrite LF in PK. rewrite N.pow_add_r. nia.
  - rewrite PN. fold (lined h x l). set (t := lined h x l). cbn [bind].
    destruct (for_n_inv (fun i '(r, s) => r = fold_right N.add 0 (tab i (fun i => rotate 64 (word64 t i) (29 * (i + 1) mod 64))) mod 2 ^ 64 /\
      s = t / 2 ^ (64 * i)) 8 (fun i '(result, tempBits) =>
      let tmp := u64 (N.land tempBits mixMask) in
      Done (addw 64 result (rotl tmp (N.land (mulw 64 29 (addw 64 i 1)) 0x3F)), N.shiftr tempBits 64)) (0, t)) as ((r & s) & E & HR).
    + split; [reflexivity|]. rewrite N.mul_0_r, N.div_1_r. reflexivity.
    + intros i (r & s) I (-> & ->). cbv zeta. eexists; split; [reflexivity|]. split.
      * rewrite sum_snoc. change mixMask with (2 ^ 64 - 1). rewrite land_mod. fold (word64 t i).
        assert (WL : word64 t i < 2 ^ 64) by (apply N.mod_lt; discriminate).
        unfold u64. rewrite (trunc_small 64 (word64 t i)) by auto.
        assert (SH : N.land (mulw 64 29 (addw 64 i 1)) 63 = 29 * (i + 1) mod 64).
        { change 63 with (2 ^ 6 - 1). rewrite land_mod. unfold mulw, addw. rewrite (trunc_small 64 (i + 1)) by lia. rewrite trunc_small by lia. reflexivity. }
        rewrite SH, rotl_spec; [|auto|pose proof (N.mod_lt (29 * (i + 1)) 64 ltac:(discriminate)); lia].
        unfold addw. rewrite trunc_mod. apply N.add_mod_idemp_l. discriminate.
      * rewrite N.shiftr_div_pow2, N.div_div by (apply N.pow_nonzero; discriminate).
        rewrite <- N.pow_add_r. do 2 f_equal. lia.
    + cbv zeta in E. rewrite E. destruct HR as (-> & _). cbn [bind]. f_equal. f_equal.
      unfold mix. fold t. unfold mix_word. set (q := fold_right N.add 0 _ mod 2 ^ 64).
      assert (Q : q < 2 ^ 64) by (apply N.mod_lt; discriminate).
      rewrite rotl_spec by (auto; lia). pose proof (rotate64_lt q 24 Q ltac:(lia)) as RL. set (r := rotate 64 q 24) in *. clearbody r.
      rewrite N.lor_comm, lor_shift by auto. rewrite N.shiftr_div_pow2. lia.
Qed.

(** ** Pairs *)
Definition bcombine (h : nat) (a b : bnode) : option bnode :=
  let ma := mix h (b_bitset a) (b_indices a) in let mb := mix h (b_bitset b) (b_indices b) in
  if ma mod 2 ^ 24 =? mb mod 2 ^ 24 then
    if hd 0 (b_indices b) <? hd 0 (b_indices a) then None
    else if distinctIndices (b_indices a) (b_indices b) then
      Some (mkB (N.lxor ma mb / 2 ^ 24 mod 2 ^ width (S h))
              (if hd 0 (b_indices a) <? hd 0 (b_indices b) then b_indices a ++ b_indices b else b_indices b ++ b_indices a))
    else None
  else None.
Definition brow_ok (h : nat) (x : bnode) : Prop :=
  b_bitset x < 2 ^ width h /\ Forall (fun i => i < 2 ^ 25) (b_indices x) /\ b_indices x <> [] /\ lenN (b_indices x) <= 2 ^ N.of_nat h.
Lemma mask_ones remLen : 24 <= remLen <= 448 ->
  N.shiftr (be_value (repeat 255 (N.to_nat (workBitsSize / 8)))) (subw 32 workBitsSize remLen) = 2 ^ remLen - 1.
Proof.
  intros R. assert (S1 : subw 32 workBitsSize remLen = 448 - remLen).
  { unfold subw, workBitsSize. rewrite trunc_mod. change (2 ^ 32) with 4294967296. lia. }
  rewrite S1. assert (O : be_value (repeat 255 (N.to_nat (workBitsSize / 8))) = N.ones 448) by (vm_compute; reflexivity).
  rewrite O. apply N.bits_inj; intro t. rewrite N.shiftr_spec'.
  replace (2 ^ remLen - 1) with (N.ones remLen) by (rewrite N.ones_equiv; lia).
  destruct (N.lt_ge_cases t remLen).
  - rewrite !N.ones_spec_low by lia. reflexivity.
  - rewrite !N.ones_spec_high by lia. reflexivity.
Qed.
Lemma beamChild_spec a b remLen : 24 <= remLen <= 448 -> b_indices a <> [] -> b_indices b <> [] ->
  beamChild a b remLen = Done (mkB (N.lxor (b_bitset a) (b_bitset b) / 2 ^ 24 mod 2 ^ remLen)
    (if hd 0 (b_indices a) <? hd 0 (b_indices b) then b_indices a ++ b_indices b else b_indices b ++ b_indices a)).
Proof.
  intros R A B. unfold beamChild. cbv zeta. rewrite mask_ones, land_mod by auto. rewrite !idx_hd by auto. cbn [bind].
  rewrite N.shiftr_div_pow2. reflexivity.
Qed.
Lemma beamValidate_spec a b : b_indices a <> [] -> b_indices b <> [] ->
  beamValidate a b = Done (if b_bitset a mod 2 ^ 24 =? b_bitset b mod 2 ^ 24 then
    if hd 0 (b_indices b) <? hd 0 (b_indices a) then None
    else if distinctIndices (b_indices a) (b_indices b) then Some tt else None else None).
Proof.
  intros A B. unfold beamValidate. change collisionMask with (2 ^ 24 - 1). rewrite !land_mod.
  destruct (b_bitset a mod 2 ^ 24 =? b_bitset b mod 2 ^ 24); [|reflexivity]. cbn [negb]. rewrite !idx_hd by auto. cbn [bind].
  destruct (hd 0 (b_indices b) <? hd 0 (b_indices a)); [reflexivity|]. destruct (distinctIndices _ _); reflexivity.
Qed.
Lemma round_lengths h : (h <= 4)%nat -> let round := N.of_nat h + 1 in
  (let remLen := subw 32 workBitsSize (mulw 32 (subw 32 round 1) collisionBitsSize) in
   if round =? 5 then subw 32 remLen 64 else remLen) = width h /\
  (let remLen := subw 32 workBitsSize (mulw 32 round collisionBitsSize) in
   if round =? 4 then subw 32 remLen 64 else if round =? 5 then collisionBitsSize else remLen) = width (S h).
Proof. intros H. do 5 (destruct h as [|h]; [vm_compute; split; reflexivity|]). lia. Qed.
Lemma width_next h : (h <= 4)%nat -> 24 <= width (S h) <= 448.
Proof. intros H. do 5 (destruct h as [|h]; [vm_compute; split; discriminate|]). lia. Qed.
Lemma brow_len h x : (h <= 4)%nat -> brow_ok h x -> lenN (b_indices x) < 2 ^ 32.
Proof.
  intros H (_ & _ & _ & L). eapply N.le_lt_trans; [exact L|]. apply N.lt_le_trans with (2 ^ 5); [apply N.pow_lt_mono_r; lia|].
  apply N.pow_le_mono_r; lia.
Qed.
Lemma beamRound_spec h m rows : (h <= 4)%nat -> Forall (brow_ok h) rows -> length rows = (2 * m)%nat ->
  beamRound (N.of_nat h + 1) rows = Done (level (bcombine h) rows).
Proof.
  intros H F L. revert rows F L. induction m; intros rows F L.
  - destruct rows; [reflexivity|discriminate].
  - destruct rows as [|a [|b t]]; cbn [length] in L; try lia.
    apply Forall_cons_iff in F as (A & F). apply Forall_cons_iff in F as (B & F).
    cbn [beamRound level]. destruct (round_lengths h H) as (R1 & R2). cbv zeta in R1, R2 |- *. rewrite R1, R2. clear R1 R2.
    pose proof (brow_len h a H A) as LA. pose proof (brow_len h b H B) as LB.
    destruct A as (AX & AF & AN & _). destruct B as (BX & BF & BN & _). destruct a as [xa la]. destruct b as [xb lb]. cbn [b_bitset b_indices] in *.
    rewrite !applyMix_spec by auto. cbn [bind]. rewrite beamValidate_spec by auto. cbn [b_bitset b_indices bind].
    assert (IH : beamRound (N.of_nat h + 1) t = Done (level (bcombine h) t)) by (apply IHm; auto; lia).
    set (lv := level (bcombine h) t) in *. clearbody lv.
    unfold bcombine. cbn [b_bitset b_indices]. cbv zeta.
    destruct (mix h xa la mod 2 ^ 24 =? mix h xb lb mod 2 ^ 24); [|reflexivity].
    destruct (hd 0 lb <? hd 0 la); [reflexivity|]. destruct (distinctIndices la lb); [|reflexivity].
    rewrite beamChild_spec by (auto using width_next). cbn [b_bitset b_indices bind].
    rewrite IH. cbn [bind]. destruct lv; reflexivity.
Qed.
Lemma bcombine_ok h a b x : brow_ok h a -> brow_ok h b -> bcombine h a b = Some x -> brow_ok (S h) x.
Proof.
  intros (AX & AF & AN & AL) (BX & BF & BN & BL) E. unfold bcombine in E. cbv zeta in E.
  destruct (_ =? _); [|discriminate]. destruct (hd 0 (b_indices b) <? hd 0 (b_indices a)); [discriminate|].
  destruct (distinctIndices _ _); [|discriminate]. injection E as <-. unfold brow_ok. cbn [b_bitset b_indices].
  assert (LS : forall u v : list N, lenN u <= 2 ^ N.of_nat h -> lenN v <= 2 ^ N.of_nat h -> lenN (u ++ v) <= 2 ^ N.of_nat (S h)).
  { intros u v U V. rewrite lenN_app, Nat2N.inj_succ, N.pow_succ_r'. lia. }
  split; [apply N.mod_lt, N.pow_nonzero; discriminate|].
  destruct (hd 0 (b_indices a) <? hd 0 (b_indices b)).
  - split; [apply Forall_app; auto|]. split; [intros E; apply app_eq_nil in E; tauto|auto].
  - split; [apply Forall_app; auto|]. split; [intros E; apply app_eq_nil in E; tauto|auto].
Qed.
Lemma blevel_ok h rows l : Forall (brow_ok h) rows -> level (bcombine h) rows = Some l -> Forall (brow_ok (S h)) l.
Proof.
  intros F. revert l. assert (P : forall l, (level (bcombine h) rows = Some l -> Forall (brow_ok (S h)) l) /\
    (forall x, brow_ok h x -> level (bcombine h) (x :: rows) = Some l -> Forall (brow_ok (S h)) l)).
  { induction F as [|y rows Y F IH].
    - intros l. split; [intros E; injection E as <-; constructor|]. intros x X E. discriminate.
    - intros l. split.
      + apply (IH l). exact Y.
      + intros x X E. cbn [level] in E. destruct (bcombine h x y) as [z|] eqn:EZ; [|discriminate].
        destruct (level (bcombine h) rows) as [r|] eqn:ER; [|discriminate]. injection E as <-. constructor.
        * apply (bcombine_ok h x y z); auto.
        * apply (IH r). reflexivity. }
  intros l. apply (P l).
Qed.
Lemma beamRounds_spec h : forall d fuel rows, (d + h = 5)%nat -> Forall (brow_ok d) rows -> length rows = (2 ^ h)%nat -> (h <= fuel)%nat ->
  beamRounds fuel (N.of_nat d + 1) rows = Done (levels bcombine d h rows).
Proof.
  induction h; intros d fuel rows D F L FU.
  - destruct rows as [|x [|]]; try discriminate. destruct fuel; reflexivity.
  - cbn [Nat.pow] in L.
    assert (L1 : (1 <= 2 ^ h)%nat) by (clear; induction h; cbn [Nat.pow]; lia).
    destruct fuel as [|fuel]; [lia|].
    destruct rows as [|a [|b t]] eqn:ER; cbn [length] in L; try lia. rewrite <- ER in *. cbn [levels].
    replace (beamRounds (S fuel) (N.of_nat d + 1) rows) with (l <-? beamRound (N.of_nat d + 1) rows ;; beamRounds fuel (addw 32 (N.of_nat d + 1) 1) l) by (rewrite ER; reflexivity).
    assert (L2 : length rows = (2 * 2 ^ h)%nat) by (rewrite ER; cbn [length]; lia).
    rewrite (beamRound_spec d (2 ^ h)) by (auto; lia). cbn [bind].
    destruct (level (bcombine d) rows) as [l|] eqn:EL; [|reflexivity].
    replace (addw 32 (N.of_nat d + 1) 1) with (N.of_nat (S d) + 1) by (unfold addw; rewrite trunc_small; lia).
    apply IHh.
    + lia.
    + apply (blevel_ok d rows); auto.
    + apply (level_length (bcombine d) _ rows); auto.
    + lia.
Qed.
Section Trees.
  Variable leaf : N -> N.
  Let leaf_node (i : N) : bnode := mkB (leaf i) [i].
  Let node_of (h : nat) (l : list N) : bnode := mkB (work leaf h l) l.
  Lemma bcombine_node_of h a b x : length a = (2 ^ h)%nat -> a <> [] -> b <> [] ->
    bcombine h (node_of h a) (node_of h b) = Some x <->
    (hd 0 a < hd 0 b /\ (forall i, In i a -> ~ In i b) /\ mix h (work leaf h a) a mod 2 ^ 24 = mix h (work leaf h b) b mod 2 ^ 24) /\
    x = node_of (S h) (a ++ b).
  Proof.
    intros LA NA NB. unfold bcombine, node_of. cbn [b_bitset b_indices]. cbv zeta.
    assert (HH : hd 0 a = hd 0 b -> ~ (forall i, In i a -> ~ In i b)).
    { intros E D. destruct a as [|x0 a]; [congruence|]. destruct b as [|y b]; [congruence|]. cbn [hd] in E. subst y.
      apply (D x0); left; reflexivity. }
    assert (EW : work leaf (S h) (a ++ b) = N.lxor (mix h (work leaf h a) a) (mix h (work leaf h b) b) / 2 ^ 24 mod 2 ^ width (S h)).
    { cbn [work]. cbv zeta. rewrite <- LA, firstn_app, skipn_app, Nat.sub_diag, firstn_O, app_nil_r, firstn_all, skipn_all. reflexivity. }
    rewrite EW. split.
    - destruct (N.eqb_spec (mix h (work leaf h a) a mod 2 ^ 24) (mix h (work leaf h b) b mod 2 ^ 24)) as [E|]; [|discriminate].
      destruct (N.ltb_spec (hd 0 b) (hd 0 a)); [discriminate|].
      destruct (distinctIndices a b) eqn:D; [|discriminate]. pose proof (proj1 (distinct_spec a b) D) as D1. intros X. injection X as <-.
      assert (HL : hd 0 a < hd 0 b).
      { destruct (N.eq_dec (hd 0 a) (hd 0 b)) as [Q|Q]; [elim (HH Q D1)|lia]. }
      split; [auto|]. destruct (N.ltb_spec (hd 0 a) (hd 0 b)); [reflexivity|lia].
    - intros ((HL & D & E) & ->). rewrite E, N.eqb_refl.
      destruct (N.ltb_spec (hd 0 b) (hd 0 a)); [lia|]. rewrite (proj2 (distinct_spec a b) D).
      destruct (N.ltb_spec (hd 0 a) (hd 0 b)); [reflexivity|lia].
  Qed.
  Lemma btree_value_spec h : forall l x, length l = (2 ^ h)%nat ->
    tree_value bcombine h (map leaf_node l) = Some x <-> btree leaf h l /\ x = node_of h l.
  Proof.
    induction h; intros l x L.
    - destruct l as [|i [|]]; try discriminate. cbn [map tree_value btree]. unfold leaf_node, node_of. cbn [work hd].
      split; [intros X; injection X as <-; auto|intros (_ & ->); auto].
    - cbn [tree_value btree]. rewrite firstn_map, skipn_map.
      assert (L1 : (1 <= 2 ^ h)%nat) by (clear; induction h; cbn [Nat.pow]; lia).
      cbn [Nat.pow] in L.
      assert (LF : length (firstn (2 ^ h) l) = (2 ^ h)%nat) by (rewrite firstn_length; lia).
      assert (LS : length (skipn (2 ^ h) l) = (2 ^ h)%nat) by (rewrite skipn_length; lia).
      assert (NF : firstn (2 ^ h) l <> []) by (intros Z; rewrite Z in LF; cbn [length] in LF; lia).
      assert (NS : skipn (2 ^ h) l <> []) by (intros Z; rewrite Z in LS; cbn [length] in LS; lia).
      pose proof (fun x => IHh _ x LF) as IF. pose proof (fun x => IHh _ x LS) as IS.
      destruct (tree_value bcombine h (map leaf_node (firstn (2 ^ h) l))) as [a|].
      2:{ split; [discriminate|]. intros ((T & _) & _). specialize (IF (node_of h (firstn (2 ^ h) l))).
          assert (None = Some (node_of h (firstn (2 ^ h) l))) by (apply IF; auto). discriminate. }
      destruct (tree_value bcombine h (map leaf_node (skipn (2 ^ h) l))) as [b|].
      2:{ split; [discriminate|]. intros ((_ & T & _) & _). specialize (IS (node_of h (skipn (2 ^ h) l))).
          assert (None = Some (node_of h (skipn (2 ^ h) l))) by (apply IS; auto). discriminate. }
      destruct (proj1 (IF a) eq_refl) as (TA & ->). destruct (proj1 (IS b) eq_refl) as (TB & ->).
      rewrite bcombine_node_of by auto. rewrite firstn_skipn. tauto.
  Qed.
End Trees.

(** ** Verification *)
Lemma prePow_spec blake personal header soln : blake_ok blake -> lenN personal <= 8 -> bytes soln -> lenN soln = 104 ->
  initializePrePow blake personal header soln = Done (key_words (beam_key blake personal header (beam_nonce soln))) /\
  sip_valid (beam_key blake personal header (beam_nonce soln)).
Proof.
  intros OK P B L. unfold initializePrePow, slice_from. cbv zeta. rewrite slice_Done by lia. cbn [bind].
  change (N.to_nat 100) with 100%nat. replace (N.to_nat (lenN soln - 100)) with (length (skipn 100 soln)) by (rewrite skipn_length; unfold lenN in *; lia).
  rewrite firstn_all. fold (beam_nonce soln).
  assert (LN : length (beam_nonce soln) = 4%nat) by (unfold beam_nonce; rewrite skipn_length; unfold lenN in L; lia).
  unfold le_u32. unfold lenN at 1. rewrite LN. change (4 <=? N.of_nat 4) with true. cbv iota. cbn [bind].
  rewrite firstn_all2 by lia. rewrite <- LN at 1. rewrite le_value_bytes by (apply Forall_skipn_e; exact B).
  rewrite Blake2b_spec; [|lia|].
  2:{ unfold lenN in *. rewrite !app_length, !le_bytes_length. lia. }
  cbn [bind]. unfold workBitsSize, numRounds, beam_key. cbv zeta.
  destruct (OK 32 (personal ++ le_bytes 4 448 ++ le_bytes 4 5) (header ++ beam_nonce soln) ltac:(lia)) as (LH & BH).
  set (h := blake 32 _ _) in *. clearbody h.
  rewrite !slice_Done by lia. cbn [bind].
  assert (LU : forall a, (a <= 24)%nat -> le_u64 (firstn 8 (skipn a h)) = Done (le_value (firstn 8 (skipn a h)))).
  { intros a A. unfold le_u64. destruct (N.leb_spec 8 (lenN (firstn 8 (skipn a h)))) as [Q|Q].
    - rewrite firstn_firstn. reflexivity.
    - unfold lenN in *. rewrite firstn_length, skipn_length in Q. lia. }
  change (N.to_nat (8 - 0)) with 8%nat. change (N.to_nat (16 - 8)) with 8%nat. change (N.to_nat (24 - 16)) with 8%nat. change (N.to_nat (32 - 24)) with 8%nat.
  change (N.to_nat 0) with 0%nat. change (N.to_nat 8) with 8%nat. change (N.to_nat 16) with 16%nat. change (N.to_nat 24) with 24%nat.
  rewrite (LU 0%nat), (LU 8%nat), (LU 16%nat), (LU 24%nat) by lia. cbn [bind]. split; [reflexivity|].
  assert (LV : forall a, (a <= 24)%nat -> le_value (firstn 8 (skipn a h)) < 2 ^ 64).
  { intros a A. change (2 ^ 64) with (256 ^ 8). replace 8 with (lenN (firstn 8 (skipn a h))).
    - apply le_value_lt. apply Forall_firstn_e, Forall_skipn_e, BH.
    - unfold lenN in *. rewrite firstn_length, skipn_length. lia. }
  repeat split; apply LV; lia.
Qed.
Lemma beamNodes_spec key l : sip_valid key -> Forall (fun i => i < 2 ^ 25) l ->
  beamNodes (key_words key) l = Done (map (fun i => mkB (beam_leaf key i) [i]) l).
Proof.
  intros V. induction 1 as [|i l I F IH]; [reflexivity|]. cbn [beamNodes map]. rewrite beamNode_spec by auto. cbn [bind]. rewrite IH. reflexivity.
Qed.
Theorem beamVerify_spec blake personal header soln : blake_ok blake -> lenN personal <= 8 -> bytes soln -> lenN soln = 104 ->
  let leaf := beam_leaf (beam_key blake personal header (beam_nonce soln)) in
  exists r, beamVerify blake personal header soln = Done r /\
    (r <> None <-> btree leaf 5 (beam_indices soln)) /\
    (r = Some true <-> beam_solution leaf (beam_indices soln)).
Proof.
  intros OK P B L leaf. destruct (prePow_spec blake personal header soln OK P B L) as (E & V). unfold beamVerify. rewrite E. cbn [bind]. clear E.
  rewrite beamIndices_spec by auto. cbn [bind]. rewrite beamNodes_spec by (auto using beam_indices_lt). cbn [bind]. fold leaf.
  pose proof (beam_indices_lt soln) as IL. pose proof (beam_indices_len soln) as LI. set (l := beam_indices soln) in *. clearbody l.
  rewrite map_length, LI. change 1 with (N.of_nat 0 + 1). rewrite (beamRounds_spec 5 0) ; [|lia| |rewrite map_length; exact LI|lia].
  2:{ apply Forall_forall. intros x X. apply in_map_iff in X as (i & <- & I). rewrite Forall_forall in IL. specialize (IL i I).
      unfold brow_ok. cbn [b_bitset b_indices]. split; [apply beam_leaf_lt; auto|]. split; [constructor; auto|]. split; [discriminate|]. unfold lenN. cbn [length]. reflexivity || lia. }
  cbn [bind]. rewrite levels_tree by (rewrite map_length; exact LI).
  pose proof (fun x => btree_value_spec leaf 5 l x LI) as TV.
  destruct (tree_value bcombine 5 (map (fun i => mkB (leaf i) [i]) l)) as [x|].
  - destruct (proj1 (TV x) eq_refl) as (T & ->). cbn [bind]. unfold idx. cbn [nth_error N.to_nat bind b_bitset].
    clear TV. unfold beam_solution. generalize dependent (work leaf 5 l). intros v.
    exists (Some (v =? 0)). split; [reflexivity|]. split; [split; [auto|discriminate]|]. split.
    + intros E. injection E as E. apply N.eqb_eq in E. auto.
    + intros (_ & _ & E). rewrite E. reflexivity.
  - exists None. split; [reflexivity|].
    assert (NT : ~ btree leaf 5 l). { intros T. pose proof (proj2 (TV _) (conj T eq_refl)). discriminate. }
    split; split; try congruence; unfold beam_solution; tauto.
Qed.
