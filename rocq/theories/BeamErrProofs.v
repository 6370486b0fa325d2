(** The error texts of the BeamHash III verifier. *)
From Coq Require Import NArith ZArith Arith List Lia Bool ZifyBool ZifyNat ZifyN.
From Verif Require Import Base BaseFacts CryptoModel CryptoSpec CryptoProofs Levels EquiModel EquiExpand EquiProofs EquiErrModel EquiErrProofs
  BeamModel BeamSpec BeamProofs BeamErrModel.
Import ListNotations.
Open Scope N_scope.

(** ** Forgetting the texts *)
Lemma bvalidate_forget a b :
  (e <- beamValidateE a b ;; Done (match e with Some _ => None | None => Some tt end)) = beamValidate a b.
Proof.
  unfold beamValidateE, beamValidate. destruct (negb _); [reflexivity|].
  destruct (idx (b_indices b) 0) as [b0| |]; cbn [bind]; try reflexivity.
  destruct (idx (b_indices a) 0) as [a0| |]; cbn [bind]; try reflexivity.
  destruct (b0 <? a0); [reflexivity|]. destruct (distinctIndices _ _); reflexivity.
Qed.
Lemma bround_forget round rows : forgets (beamRoundE round rows) = beamRound round rows.
Proof.
  induction rows as [|x|a b t IH] using pairs_ind; [reflexivity|reflexivity|]. cbn [beamRoundE beamRound]. cbv zeta.
  apply forget_step; intros a'. apply forget_step; intros b'. rewrite <- bvalidate_forget.
  destruct (beamValidateE a' b') as [[e|]| |]; cbn [bind]; try reflexivity.
  apply forget_step; intros ?. apply forget_bind; [exact IH|reflexivity].
Qed.
Lemma brounds_forget fuel : forall round rows, forgets (beamRoundsE fuel round rows) = beamRounds fuel round rows.
Proof.
  induction fuel as [|f IH]; intros round rows; destruct rows as [|a [|b t]]; try reflexivity.
  change (forgets (l <-! beamRoundE round (a :: b :: t) ;; beamRoundsE f (addw 32 round 1) l) =
    (l <-? beamRound round (a :: b :: t) ;; beamRounds f (addw 32 round 1) l)).
  apply forget_bind; [apply bround_forget|intros; apply IH].
Qed.
Lemma bverify_forget blake personal header soln :
  forgets (beamVerifyE blake personal header soln) = beamVerify blake personal header soln.
Proof.
  unfold beamVerifyE, beamVerify. do 3 (apply forget_step; intros ?). apply forget_bind; [apply brounds_forget|].
  intros rows'. apply forget_step. reflexivity.
Qed.

(** ** Which text *)
Section Errors.
  Variable leaf : N -> N.
  Hypothesis leaf_lt : forall i, i < 2 ^ 25 -> leaf i < 2 ^ 448.
  Definition bnode_at (h : nat) (l : list N) : bnode := mkB (work leaf h l) l.
  Definition bpair_error (h : nat) (a b : list N) : option verr :=
    pair_error_if (mix h (work leaf h a) a mod 2 ^ 24 =? mix h (work leaf h b) b mod 2 ^ 24) a b.
  Definition bpart (h : nat) (p : list N) : Prop := length p = (2 ^ h)%nat /\ Forall (fun i => i < 2 ^ 25) p.

  Lemma bpart_nonempty h p : bpart h p -> p <> [].
  Proof. intros (L & _) ->. assert (1 <= 2 ^ h)%nat by (clear; induction h; cbn [Nat.pow]; lia). cbn [length] in L. lia. Qed.
  Lemma work_lt h l : bpart h l -> work leaf h l < 2 ^ width h.
  Proof.
    intros P. destruct h as [|h].
    - change (leaf (hd 0 l) < 2 ^ 448). apply leaf_lt. destruct P as (L & F). destruct l as [|i l]; [discriminate|].
      apply Forall_cons_iff in F. apply F.
    - cbn [work]. cbv zeta. apply N.mod_lt, N.pow_nonzero. discriminate.
  Qed.
  Lemma bpart_len h p : (h <= 4)%nat -> bpart h p -> lenN p < 2 ^ 32.
  Proof.
    intros H (L & _). unfold lenN. rewrite L. do 5 (destruct h as [|h]; [reflexivity|]). lia.
  Qed.
  Lemma bpart_app h a b : bpart h a -> bpart h b -> bpart (S h) (a ++ b).
  Proof. intros (LA & FA) (LB & FB). split; [rewrite app_length, LA, LB; cbn [Nat.pow]; lia|apply Forall_app; auto]. Qed.
  Lemma pairup_parts h ps : Forall (bpart h) ps -> Forall (bpart (S h)) (pairup ps).
  Proof.
    induction ps as [|x|a b t IH] using pairs_ind; intros F; try constructor.
    - apply Forall_cons_iff in F as (A & F). apply Forall_cons_iff in F as (B & _). apply bpart_app; auto.
    - apply Forall_cons_iff in F as (_ & F). apply Forall_cons_iff in F as (_ & F). auto.
  Qed.
  Lemma bvalidateE_spec a b : b_indices a <> [] -> b_indices b <> [] ->
    beamValidateE a b = Done (pair_error_if (b_bitset a mod 2 ^ 24 =? b_bitset b mod 2 ^ 24) (b_indices a) (b_indices b)).
  Proof.
    intros A B. unfold beamValidateE, pair_error_if. change collisionMask with (2 ^ 24 - 1). rewrite !land_mod.
    destruct (b_bitset a mod 2 ^ 24 =? b_bitset b mod 2 ^ 24); [|reflexivity]. cbn [negb]. rewrite !idx_hd by auto. cbn [bind].
    destruct (hd 0 (b_indices b) <? hd 0 (b_indices a)); [reflexivity|]. destruct (distinctIndices _ _); reflexivity.
  Qed.
  Lemma bchild_node h a b : (h <= 4)%nat -> bpart h a -> bpart h b -> bpair_error h a b = None ->
    beamChild (mkB (mix h (work leaf h a) a) a) (mkB (mix h (work leaf h b) b) b) (width (S h)) = Done (bnode_at (S h) (a ++ b)).
  Proof.
    intros H PA PB E. pose proof (bpart_nonempty h a PA) as NA. pose proof (bpart_nonempty h b PB) as NB.
    rewrite beamChild_spec by (auto using width_next). cbn [b_bitset b_indices]. f_equal.
    assert (C : bcombine h (bnode_at h a) (bnode_at h b) = Some (bnode_at (S h) (a ++ b))).
    { apply bcombine_node_of; auto; [apply PA|]. split; [|reflexivity]. unfold bpair_error, pair_error_if in E.
      destruct (N.eqb_spec (mix h (work leaf h a) a mod 2 ^ 24) (mix h (work leaf h b) b mod 2 ^ 24)) as [Q|Q]; [|discriminate].
      destruct (N.ltb_spec (hd 0 b) (hd 0 a)); [discriminate|]. destruct (distinctIndices a b) eqn:D; [|discriminate].
      pose proof (proj1 (distinct_spec a b) D) as D1. split; [|auto].
      destruct a as [|x a]; [congruence|]. destruct b as [|y b]; [congruence|]. cbn [hd] in *.
      assert (x <> y) by (intros ->; apply (D1 y); left; reflexivity). lia. }
    unfold bcombine in C. cbv zeta in C. destruct (_ =? _); [|discriminate].
    destruct (hd 0 (b_indices (bnode_at h b)) <? hd 0 (b_indices (bnode_at h a))); [discriminate|].
    destruct (distinctIndices _ _); [|discriminate].
    assert (S1 : forall x y : bnode, Some x = Some y -> x = y) by congruence. apply S1 in C. exact C.
  Qed.
  Lemma bround_nodes h : (h <= 4)%nat -> forall m ps, length ps = (2 * m)%nat -> Forall (bpart h) ps ->
    beamRoundE (N.of_nat h + 1) (map (bnode_at h) ps) =
    Done (match row_error bpair_error h ps with Some e => inl e | None => inr (map (bnode_at (S h)) (pairup ps)) end).
  Proof.
    intros H. induction m as [|m IH]; intros ps L F; destruct ps as [|a [|b t]]; cbn [length] in L; try lia; [reflexivity|].
    apply Forall_cons_iff in F as (PA & F). apply Forall_cons_iff in F as (PB & F).
    cbn [map beamRoundE row_error pairup]. destruct (round_lengths h H) as (R1 & R2). cbv zeta in R1, R2 |- *. rewrite R1, R2. clear R1 R2.
    pose proof (bpart_len h a H PA) as LA. pose proof (bpart_len h b H PB) as LB.
    unfold bnode_at at 1 2. rewrite !applyMix_spec by (auto using work_lt; first [apply PA|apply PB]). cbn [bind].
    rewrite bvalidateE_spec by (cbn [b_indices]; eauto using bpart_nonempty). cbn [b_bitset b_indices bind].
    fold (bpair_error h a b). destruct (bpair_error h a b) as [e|] eqn:E; [reflexivity|].
    rewrite bchild_node by auto. cbn [bind]. rewrite IH by (auto; lia). cbn [bind].
    destruct (row_error bpair_error h t); reflexivity.
  Qed.
  Lemma brounds_nodes d : forall h fuel ps, (h + d = 5)%nat -> length ps = (2 ^ d)%nat -> (d <= fuel)%nat -> Forall (bpart h) ps ->
    match levels_error bpair_error d h ps with
    | Some e => beamRoundsE fuel (N.of_nat h + 1) (map (bnode_at h) ps) = Done (inl e)
    | None => exists r, beamRoundsE fuel (N.of_nat h + 1) (map (bnode_at h) ps) = Done (inr [r])
    end.
  Proof.
    induction d as [|d IH]; intros h fuel ps H L FU F.
    - destruct ps as [|x [|]]; try discriminate. cbn [levels_error map]. exists (bnode_at h x). destruct fuel; reflexivity.
    - cbn [Nat.pow] in L. assert (L1 : (1 <= 2 ^ d)%nat) by (clear; induction d; cbn [Nat.pow]; lia).
      destruct fuel as [|fuel]; [lia|]. destruct ps as [|a [|b t]] eqn:EP; cbn [length] in L; try lia. rewrite <- EP in *.
      replace (beamRoundsE (S fuel) (N.of_nat h + 1) (map (bnode_at h) ps)) with
        (l <-! beamRoundE (N.of_nat h + 1) (map (bnode_at h) ps) ;; beamRoundsE fuel (addw 32 (N.of_nat h + 1) 1) l) by (rewrite EP; reflexivity).
      assert (L2 : length ps = (2 * 2 ^ d)%nat) by (rewrite EP; cbn [length]; lia).
      rewrite (bround_nodes h ltac:(lia) (2 ^ d) ps L2 F). cbn [levels_error bind].
      destruct (row_error bpair_error h ps) as [e|]; [reflexivity|].
      replace (addw 32 (N.of_nat h + 1) 1) with (N.of_nat (S h) + 1).
      2:{ unfold addw. rewrite trunc_small; [lia|]. change (2 ^ 32) with 4294967296. lia. }
      apply IH; [lia|apply pairup_length; exact L2|lia|apply pairup_parts; exact F].
  Qed.
End Errors.

Lemma brounds_leaves leaf l o : (forall i, i < 2 ^ 25 -> leaf i < 2 ^ 448) -> Forall (fun i => i < 2 ^ 25) l -> length l = 32%nat ->
  levels_error (bpair_error leaf) 5 0 (map (fun j => part 0 j l) (seq 0 32)) = o ->
  match o with
  | Some e => beamRoundsE 32 1 (map (fun i => mkB (leaf i) [i]) l) = Done (inl e)
  | None => exists r, beamRoundsE 32 1 (map (fun i => mkB (leaf i) [i]) l) = Done (inr [r])
  end.
Proof.
  intros LL IL LI E.
  assert (EP : map (fun j => part 0 j l) (seq 0 32) = map (fun i => [i]) l) by (rewrite parts_zero, LI; reflexivity).
  rewrite EP in E. clear EP.
  assert (EN : map (fun i => mkB (leaf i) [i]) l = map (bnode_at leaf 0) (map (fun i => [i]) l)).
  { rewrite map_map. apply map_ext. intros i. unfold bnode_at. cbn [work hd]. reflexivity. }
  rewrite EN. clear EN.
  assert (LP : length (map (fun i => [i]) l) = (2 ^ 5)%nat) by (rewrite map_length; exact LI).
  assert (F : Forall (bpart 0) (map (fun i => [i]) l)).
  { apply Forall_map. eapply Forall_impl; [|exact IL]. intros i I. split; [reflexivity|]. constructor; auto. }
  revert E LP F. generalize (map (fun i => [i]) l). intros ps E LP F.
  assert (H5 : (0 + 5 = 5)%nat) by reflexivity. assert (F5 : (5 <= 32)%nat) by lia.
  pose proof (brounds_nodes leaf LL 5 0 32 ps H5 LP F5 F) as R.
  rewrite E in R. exact R.
Qed.
Theorem beamVerifyE_tree blake personal header soln leaf o : blake_ok blake -> lenN personal <= 8 -> bytes soln -> lenN soln = 104 ->
  leaf = beam_leaf (beam_key blake personal header (beam_nonce soln)) ->
  levels_error (bpair_error leaf) 5 0 (map (fun j => part 0 j (beam_indices soln)) (seq 0 32)) = o ->
  match o with
  | Some e => beamVerifyE blake personal header soln = Done (inl e)
  | None => exists b, beamVerifyE blake personal header soln = Done (inr b)
  end.
Proof.
  intros OK P B L EL EO. destruct (prePow_spec blake personal header soln OK P B L) as (E & V). unfold beamVerifyE. rewrite E. cbn [bind]. clear E.
  rewrite beamIndices_spec by auto. cbn [bind]. rewrite beamNodes_spec by (auto using beam_indices_lt). cbn [bind]. rewrite <- EL.
  assert (LL : forall i, i < 2 ^ 25 -> leaf i < 2 ^ 448) by (intros i I; rewrite EL; apply beam_leaf_lt; auto).
  pose proof (brounds_leaves leaf (beam_indices soln) o LL (beam_indices_lt soln) (beam_indices_len soln) EO) as R.
  rewrite map_length, beam_indices_len. clear EO. destruct o as [e|].
  - rewrite R. reflexivity.
  - destruct R as (r & R). rewrite R. cbn [bind]. eexists. reflexivity.
Qed.
