(** C76, C77: what the rejections of the Equihash and BeamHash III verifiers say. *)
From Coq Require Import String Ascii NArith ZArith Arith List Lia Bool ZifyBool ZifyNat ZifyN.
From Verif Require Import Base BaseFacts EquiModel EquiSpec EquiExpand EquiProofs EquiErrModel EquiErrProofs PropsEqui
  CryptoSpec BeamModel BeamSpec BeamProofs BeamErrModel BeamErrProofs PropsBeam.
Import ListNotations.
Open Scope N_scope.

(** Two sibling subtrees, given by their indices [a] and [b], deserve the text [e]; [agree] says whether they collide. *)
Definition defect_if (agree : Prop) (a b : list N) (e : verr) : Prop :=
  match e with
  | Collision => ~ agree
  | OutOfOrder => agree /\ hd 0 b < hd 0 a
  | Duplicate => agree /\ hd 0 a <= hd 0 b /\ exists i, In i a /\ In i b
  | _ => False
  end.
(** Equihash: subtrees of height [h] collide if digit [h] of the sums of their hashes is the same. *)
Definition defect (digit : N -> N -> N) (h : nat) (a b : list N) : verr -> Prop :=
  defect_if (xor_digit digit (N.of_nat h) a = xor_digit digit (N.of_nat h) b) a b.
(** BeamHash III: if the low 24 bits of their mixed work are the same. *)
Definition beam_defect (leaf : N -> N) (h : nat) (a b : list N) : verr -> Prop :=
  defect_if (mix h (work leaf h a) a mod 2 ^ 24 = mix h (work leaf h b) b mod 2 ^ 24) a b.
(** Part [j] of the indices cut into parts of [2 ^ h]: subtree [j] of height [h]. *)
Definition subtree_at (l : list N) (h j : nat) : list N := firstn (2 ^ h) (skipn (j * 2 ^ h) l).
(** Pair [j] of the level of height [h] deserves [e]. *)
Definition pair_defect (D : nat -> list N -> list N -> verr -> Prop) (l : list N) (h j : nat) (e : verr) : Prop :=
  D h (subtree_at l h (2 * j)) (subtree_at l h (2 * j + 1)) e.
(** The levels of a tree of height [k] are gone through from the leaves to the root, the pairs of a level from the
    left to the right: pair [j] of level [h] is the first with a defect. *)
Definition first_defect D (k : nat) (l : list N) (h j : nat) (e : verr) : Prop :=
  (h < k)%nat /\ (j < 2 ^ (k - 1 - h))%nat /\ pair_defect D l h j e /\
  forall h' j' e', (h' < h /\ j' < 2 ^ (k - 1 - h') \/ h' = h /\ j' < j)%nat -> ~ pair_defect D l h' j' e'.

(** ** Facts *)
Lemma pair_error_if_defect x y a b e : pair_error_if (x =? y) a b = Some e <-> defect_if (x = y) a b e.
Proof.
  unfold pair_error_if, defect_if. destruct (N.eqb_spec x y) as [E|E].
  - destruct (N.ltb_spec (hd 0 b) (hd 0 a)) as [O|O].
    + split; [intros Q; injection Q as <-; auto|]. destruct e; intros X; try contradiction; [reflexivity|]. destruct X as (_ & X & _). lia.
    + destruct (distinctIndices a b) eqn:D.
      * split; [discriminate|]. pose proof (proj1 (distinct_spec a b) D) as D1.
        destruct e; intros X; try contradiction; [destruct X; lia|]. destruct X as (_ & _ & i & A & B). elim (D1 i A B).
      * split.
        { intros Q; injection Q as <-. split; [exact E|]. split; [exact O|].
          unfold distinctIndices in D. clear - D. induction a as [|x a IH]; [discriminate|]. cbn [forallb] in D.
          destruct (forallb (fun j => negb (x =? j)) b) eqn:F.
          - destruct (IH D) as (i & A & B). exists i. split; [right; exact A|exact B].
          - exists x. split; [left; reflexivity|]. clear - F. induction b as [|y b IH]; [discriminate|]. cbn [forallb] in F.
            destruct (N.eqb_spec x y) as [->|]; [left; reflexivity|right; apply IH; exact F]. }
        destruct e; intros X; try contradiction; [destruct X; lia|reflexivity].
  - split; [intros Q; injection Q as <-; exact E|]. destruct e; intros X; try contradiction; [reflexivity|destruct X; contradiction..].
Qed.
Lemma pair_error_defect digit h a b e : pair_error digit h a b = Some e <-> defect digit h a b e.
Proof. apply pair_error_if_defect. Qed.
Lemma bpair_error_defect leaf h a b e : bpair_error leaf h a b = Some e <-> beam_defect leaf h a b e.
Proof. apply pair_error_if_defect. Qed.
Section FirstDefect.
  Variables (pe : nat -> list N -> list N -> option verr) (D : nat -> list N -> list N -> verr -> Prop).
  Hypothesis pe_D : forall h a b e, pe h a b = Some e <-> D h a b e.
  Lemma pair_at_defect l h j e : pair_at pe l h j = Some e <-> pair_defect D l h j e.
  Proof. apply pe_D. Qed.
  Lemma pair_at_none l h j : pair_at pe l h j = None <-> forall e, ~ pair_defect D l h j e.
  Proof.
    split.
    - intros E e X. apply pair_at_defect in X. congruence.
    - intros H. destruct (pair_at pe l h j) as [e|] eqn:E; [|reflexivity]. apply pair_at_defect in E. elim (H e E).
  Qed.
  Lemma first_defect_error k l e :
    (exists h j, first_defect D k l h j e) <->
    levels_error pe k 0 (map (fun j => part 0 j l) (seq 0 (2 ^ k))) = Some e.
  Proof.
    pose proof (levels_error_at pe l k 0) as X. cbn [Nat.add] in X. split.
    - intros (h & j & H & J & DF & F). destruct (levels_error pe k 0 _) as [e0|].
      + destruct X as (h0 & j0 & H0 & J0 & E0 & B1 & B2).
        assert (Q : h = h0 /\ j = j0).
        { destruct (lt_eq_lt_dec h h0) as [[Q|Q]|Q].
          - pose proof (B2 h j ltac:(lia) J) as N0. apply pair_at_defect in DF. congruence.
          - subst h0. split; [reflexivity|]. destruct (lt_eq_lt_dec j j0) as [[R|R]|R]; [|exact R|].
            + pose proof (B1 j R) as N0. apply pair_at_defect in DF. congruence.
            + apply pair_at_defect in E0. elim (F h j0 e0 ltac:(lia) E0).
          - apply pair_at_defect in E0. elim (F h0 j0 e0 ltac:(lia) E0). }
        destruct Q as (-> & ->). apply pair_at_defect in DF. congruence.
      + pose proof (X h j ltac:(lia) J) as N0. apply pair_at_defect in DF. congruence.
    - intros E. rewrite E in X. destruct X as (h & j & H & J & E0 & B1 & B2). exists h, j. split; [lia|]. split; [exact J|].
      split; [apply pair_at_defect; exact E0|]. intros h' j' e' [(Q & R)|(-> & R)].
      + apply pair_at_none. apply B2; [lia|exact R].
      + apply pair_at_none. apply B1. exact R.
  Qed.
End FirstDefect.

(** ** C76 *)

(** Telling the texts apart changes no verdict: for all parameters and inputs, the code with one error (on which C42,
    C43 and C46 are) gives what this one gives when the text is forgotten. *)
Theorem C76_same_verdicts blake spare fuel c header soln :
  Verify blake spare fuel c header soln =
  match VerifyE blake spare fuel c header soln with
  | Done (inl _) => Done None
  | Done (inr v) => Done (Some v)
  | Panic => Panic
  | OutOfFuel => OutOfFuel
  end.
Proof.
  unfold Verify, VerifyE. rewrite <- verify_forget. unfold forgets.
  destruct (verifyE _ _ _ _ _ _ _ _ _) as [[e|v]| |]; reflexivity.
Qed.
(** For each network: the text on the length for the wrong lengths; else the text of the first defect, if a pair of
    siblings has one; else false when the last digits do not cancel, and true when they do.  No other text occurs. *)
Theorem C76_errors blake spare fuel c n k text sums size header soln : blake_ok blake ->
  In (c, (n, k, text, sums, size)) networks -> (16 < fuel)%nat -> bytes soln -> lenN soln < 2 ^ 32 ->
  let digit := leaf_digit n k ((if sums then twisted_hash else plain_hash) blake n k (ascii_bytes text) header) in
  let l := groups (n / (k + 1) + 1) soln in
  exists r, VerifyE blake spare fuel c header soln = Done r /\
    (r = inl BadMinimal <-> lenN soln <> size) /\
    (forall e, e <> BadMinimal -> r = inl e <-> lenN soln = size /\ exists h j, first_defect (defect digit) (N.to_nat k) l h j e) /\
    (r = inr false <-> lenN soln = size /\ tree digit (N.to_nat k) l /\ xor_digit digit k l <> 0) /\
    (r = inr true <-> lenN soln = size /\ tree digit (N.to_nat k) l /\ xor_digit digit k l = 0).
Proof.
  intros OK I FU B L digit l.
  assert (A : In c shipped /\ c = New n k (ascii_bytes text) sums /\ size = solution_length n k).
  { unfold networks in I. cbn [In] in I. destruct I as [I|[I|[I|[I|[I|[]]]]]]; inversion I; subst;
      (split; [unfold shipped; cbn [In]; auto 10|split; reflexivity]). }
  destruct A as (IS & EC & ->). destruct (shipped_ok c IS) as (U & DE & P & _).
  assert (GH : digit = leaf_digit n k (group_hash blake n k (ascii_bytes text) header sums)).
  { unfold digit, group_hash. destruct sums; reflexivity. }
  destruct (C42_verify_usable blake spare fuel c header soln OK U ltac:(lia) FU B L) as (r0 & E0 & T0 & T1).
  rewrite C76_same_verdicts in E0. unfold required_length, digit_of_index, indices_of in T0, T1. unfold VerifyE in *.
  rewrite EC in U, DE, P, E0, T0, T1 |- *. cbn [New c_n c_k c_personal c_twist] in *.
  rewrite <- GH in T0, T1. unfold digit_bits in T0, T1. fold l in T0, T1. clear EC IS I.
  destruct (N.eq_dec (lenN soln) (solution_length n k)) as [LE|LE].
  - pose proof (verifyE_tree blake spare fuel n k (ascii_bytes text) header sums soln OK U ltac:(lia) ltac:(intros; exact FU) B L LE) as V.
    cbv zeta in V. rewrite <- GH in V. unfold digit_bits in V. fold l in V.
    pose proof (first_defect_error _ _ (pair_error_defect digit) (N.to_nat k) l) as FD.
    destruct (levels_error (pair_error digit) (N.to_nat k) 0 _) as [e|].
    + rewrite V in E0 |- *. assert (R0 : r0 = None) by congruence. subst r0. exists (inl e). split; [reflexivity|].
      assert (NB : e <> BadMinimal).
      { intros ->. destruct (proj2 (FD BadMinimal) eq_refl) as (h & j & _ & _ & D & _). exact D. }
      assert (NT : ~ tree digit (N.to_nat k) l).
      { intros T. destruct (proj2 T0); auto. }
      split; [split; [congruence|tauto]|]. split.
      * intros e1 _. split.
        -- intros Q. injection Q as <-. split; [exact LE|]. apply FD. reflexivity.
        -- intros (_ & D). apply FD in D. congruence.
      * split; (split; [discriminate|tauto]).
    + destruct V as (b & V). rewrite V in E0 |- *. assert (R0 : r0 = Some b) by congruence. subst r0. exists (inr b). split; [reflexivity|].
      assert (TR : tree digit (N.to_nat k) l) by (apply T0; discriminate).
      assert (CN : length l = N.to_nat (2 ^ k)).
      { assert (LE' := solution_count n k sums U soln LE). unfold digit_bits in LE'. fold l in LE'. rewrite LE'. symmetry. apply pow2_nat. }
      assert (TB : b = true <-> xor_digit digit k l = 0).
      { split.
        - intros ->. destruct (proj1 T1 eq_refl) as (_ & _ & _ & Z). exact Z.
        - intros Z. assert (Q : Some b = Some true) by (apply T1; unfold solution; auto). congruence. }
      split; [split; [discriminate|tauto]|]. split.
      * intros e1 _. split; [discriminate|]. intros (_ & D). apply FD in D. discriminate.
      * split; split.
        -- intros Q. injection Q as ->. split; [exact LE|]. split; [exact TR|]. intros Z. apply TB in Z. discriminate.
        -- intros (_ & _ & Z). destruct b; [elim Z; apply TB; reflexivity|reflexivity].
        -- intros Q. injection Q as ->. split; [exact LE|]. split; [exact TR|]. apply TB. reflexivity.
        -- intros (_ & _ & Z). apply TB in Z. congruence.
  - exists (inl BadMinimal). unfold verifyE. cbv zeta. rewrite (indices_error n k soln DE L LE). split; [reflexivity|].
    split; [tauto|]. split; [intros e NE; split; [congruence|tauto]|]. split; (split; [discriminate|tauto]).
Qed.
(** The defects of a pair exclude each other, so a rejection names one. *)
Theorem C76_one_text digit h a b e e' : defect digit h a b e -> defect digit h a b e' -> e = e'.
Proof. intros D D'. apply pair_error_defect in D. apply pair_error_defect in D'. congruence. Qed.

Print Assumptions C76_same_verdicts.
Print Assumptions C76_errors.
Print Assumptions C76_one_text.

(** Each verdict on Flux: with a hash that is all zero, so that only order and distinctness matter, and with one that
    is not. *)
Definition uneven_blake (size : N) (personal data : list N) : list N :=
  tab size (fun i => (i + fold_left N.add data 0) mod 256).
Definition flux_soln (l : list N) : list N := be_bytes 52 (packed 26 l).
Example C76_instance :
  let run blake soln := VerifyE blake (fun _ => []) 17 NewFlux [] soln in
  run toy_blake [1; 2; 3] = Done (inl BadMinimal) /\
  run toy_blake (flux_soln (1 :: 0 :: map (fun i => i + 2) (tab 14 (fun i => i)))) = Done (inl OutOfOrder) /\
  run toy_blake (flux_soln (0 :: 0 :: map (fun i => i + 2) (tab 14 (fun i => i)))) = Done (inl Duplicate) /\
  run toy_blake (flux_soln ([0; 1; 2; 3; 4; 5; 0; 7] ++ map (fun i => i + 8) (tab 8 (fun i => i)))) = Done (inl OutOfOrder) /\
  run toy_blake (flux_soln ([0; 1; 2; 3; 4; 5; 6; 7] ++ 1 :: map (fun i => i + 9) (tab 7 (fun i => i)))) = Done (inl Duplicate) /\
  run toy_blake (flux_soln (tab 16 (fun i => i))) = Done (inr true) /\
  run uneven_blake (flux_soln (tab 16 (fun i => i))) = Done (inl Collision).
Proof. vm_compute. repeat split. Qed.

(** ** C77 *)

(** Telling the texts apart changes no verdict of BeamHash III. *)
Theorem C77_same_verdicts blake c header soln :
  BeamVerify blake c header soln =
  match BeamVerifyE blake c header soln with
  | Done (inl _) => Done None
  | Done (inr v) => Done (Some v)
  | Panic => Panic
  | OutOfFuel => OutOfFuel
  end.
Proof.
  unfold BeamVerify, BeamVerifyE. destruct (negb _); [reflexivity|]. destruct (negb _); [reflexivity|].
  rewrite <- bverify_forget. unfold forgets. destruct (beamVerifyE _ _ _ _) as [[e|v]| |]; reflexivity.
Qed.
(** The text on the header for a wrong header, whatever the solution is; else the text on the solution for its length;
    else the text of the first defect, if a pair of siblings has one; else false when work is left at the root, and
    true when none is.  No other text occurs. *)
Theorem C77_errors blake header soln : blake_ok blake -> bytes soln ->
  let leaf := beam_leaf (beam_key blake (map N_of_ascii (list_ascii_of_string "Beam-PoW")) header (skipn 100 soln)) in
  let l := beam_indices soln in
  exists r, BeamVerifyE blake NewBeam header soln = Done r /\
    (r = inl BadHeader <-> lenN header <> 40) /\
    (r = inl BadSolution <-> lenN header = 40 /\ lenN soln <> 104) /\
    (forall e, r = inl (Siblings e) <->
       lenN header = 40 /\ lenN soln = 104 /\ exists h j, first_defect (beam_defect leaf) 5 l h j e) /\
    (r = inr false <-> lenN header = 40 /\ lenN soln = 104 /\ btree leaf 5 l /\ work leaf 5 l <> 0) /\
    (r = inr true <-> lenN header = 40 /\ lenN soln = 104 /\ btree leaf 5 l /\ work leaf 5 l = 0).
Proof.
  intros OK B leaf l. unfold BeamVerifyE. destruct (N.eqb_spec (lenN header) 40) as [LH|LH]; cbn [negb].
  2:{ exists (inl BadHeader). split; [reflexivity|]. split; [tauto|]. split; [split; [discriminate|tauto]|].
      split; [intros e; split; [discriminate|tauto]|]. split; (split; [discriminate|tauto]). }
  destruct (N.eqb_spec (lenN soln) 104) as [LS|LS]; cbn [negb].
  2:{ exists (inl BadSolution). split; [reflexivity|]. split; [split; [discriminate|tauto]|]. split; [tauto|].
      split; [intros e; split; [discriminate|tauto]|]. split; (split; [discriminate|tauto]). }
  assert (P : map N_of_ascii (list_ascii_of_string "Beam-PoW") = bc_personal NewBeam) by reflexivity.
  assert (L8 : lenN (bc_personal NewBeam) <= 8) by discriminate.
  unfold leaf. rewrite P. fold (beam_nonce soln). clear leaf. set (leaf := beam_leaf _).
  pose proof (fun o => beamVerifyE_tree blake (bc_personal NewBeam) header soln leaf o OK L8 B LS eq_refl) as V. fold l in V.
  destruct (beamVerify_spec blake (bc_personal NewBeam) header soln OK L8 B LS) as (r0 & E0 & T0 & T1). cbv zeta in T0, T1. fold leaf l in T0, T1.
  rewrite <- bverify_forget in E0. pose proof (first_defect_error _ _ (bpair_error_defect leaf) 5 l) as FD.
  pose proof (beam_indices_len soln) as LI. fold l in LI. unfold beam_solution in T1.
  clearbody leaf l. generalize dependent (bc_personal NewBeam). intros personal P L8 V E0.
  generalize dependent (work leaf 5 l). intros v T1.
  change (seq 0 (2 ^ 5)) with (seq 0 32) in FD.
  destruct (levels_error (bpair_error leaf) 5 0 (map (fun j => part 0 j l) (seq 0 32))) as [e|]; specialize (V _ eq_refl); cbv iota in V.
  - rewrite V in E0 |- *. cbn [bind]. unfold forgets in E0. cbn [bind forget] in E0. assert (R0 : r0 = None) by congruence. subst r0.
    exists (inl (Siblings e)). split; [reflexivity|].
    assert (NT : ~ btree leaf 5 l) by (intros T; apply T0 in T; congruence).
    split; [split; [discriminate|tauto]|]. split; [split; [discriminate|tauto]|]. split.
    + intros e1. split.
      * intros Q. injection Q as <-. split; [exact LH|]. split; [exact LS|]. apply FD. reflexivity.
      * intros (_ & _ & X). apply FD in X. congruence.
    + split; (split; [discriminate|tauto]).
  - destruct V as (b & V). rewrite V in E0 |- *. cbn [bind]. unfold forgets in E0. cbn [bind forget] in E0.
    assert (R0 : r0 = Some b) by congruence. subst r0. exists (inr b). split; [reflexivity|].
    assert (TR : btree leaf 5 l) by (apply T0; discriminate).
    assert (TB : b = true <-> v = 0).
    { split.
      - intros ->. apply T1. reflexivity.
      - intros Z. assert (Q : Some b = Some true) by (apply T1; auto). congruence. }
    split; [split; [discriminate|tauto]|]. split; [split; [discriminate|tauto]|]. split.
    + intros e1. split; [discriminate|]. intros (_ & _ & X). apply FD in X. discriminate.
    + destruct b; split; split; try discriminate; intros X.
      * destruct X as (_ & _ & _ & Z). elim Z. apply TB. reflexivity.
      * do 3 (split; [assumption|]). apply TB. reflexivity.
      * reflexivity.
      * do 3 (split; [assumption|]). intros Z. apply TB in Z. discriminate.
      * reflexivity.
      * destruct X as (_ & _ & _ & Z). apply TB in Z. discriminate.
Qed.
Print Assumptions C77_same_verdicts.
Print Assumptions C77_errors.

(** Each text; a solution of the chain is accepted, and out of order with its first two indices exchanged. *)
Definition beam_soln (l : list N) : list N := le_bytes 100 (pack25 l) ++ [0; 0; 0; 0].
Example C77_instance :
  let run header soln := BeamVerifyE toy_blake NewBeam header soln in
  run [1; 2; 3] [] = Done (inl BadHeader) /\
  run (repeat 0 40) [1; 2; 3] = Done (inl BadSolution) /\
  run (repeat 0 40) (beam_soln (tab 32 (fun i => i))) = Done (inl (Siblings Collision)) /\
  run (repeat 0 40) (beam_soln (tab 32 (fun _ => 7))) = Done (inl (Siblings Duplicate)) /\
  BeamVerifyE fixed_hash NewBeam vector_header vector_soln = Done (inr true) /\
  BeamVerifyE fixed_hash NewBeam vector_header vector_swapped = Done (inl (Siblings OutOfOrder)).
Proof. vm_compute. repeat split. Qed.
