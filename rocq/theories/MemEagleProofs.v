(** Proofs about MemEagle.v. *)
From Coq Require Import NArith ZArith Arith List Bool Lia ZifyBool ZifyN ZifyNat.
From Verif Require Import Base BaseFacts EagleTables EagleModel MemModel MemProofs MemProgpowProofs MemAutoProofs MemEagle.
Import ListNotations.
Open Scope N_scope.
Ltac Zify.zify_post_hook ::= Z.div_mod_to_equations.

Lemma sim_then {A B D} me (p : prog A) m n (o : outcome B) (g : B -> D) (Q : A -> D -> memory -> N -> Prop) :
  sim me p m n o (fun a b m' n' => Q a (g b) m' n') -> sim me p m n (bind o (fun b => Done (g b))) Q.
Proof. unfold sim. destruct (run me p m n) as [[[a| |] m'] n'], o; cbn [bind]; auto. Qed.

Section Eagle.
Variables bits coeffs inject : sl.
Variable me : N.
(** The tables belong to nobody. *)
Definition tables (m : memory) : Prop :=
  has m bits bitMatrix /\ has m coeffs coefficients /\ has m inject injectionConstants.
Hypothesis OB : owner (s_loc bits) <> me.
Hypothesis OC : owner (s_loc coeffs) <> me.
Hypothesis OI : owner (s_loc inject) <> me.

Lemma tables_kept m m' : (forall l, owner l <> me -> m' l = m l) -> tables m -> tables m'.
Proof.
  intros E (A & B & C). split; [|split]; (apply (has_same m); [apply E; assumption|assumption]).
Qed.

Lemma safe_permute rounds state : readable me bits -> readable me coeffs -> readable me inject -> writable me state ->
  safe me (p_permute bits coeffs inject rounds state) (fun _ => True).
Proof.
  intros RB RC RI W. unfold p_permute. apply (safe_for_n _ _ _ _ (fun _ => True)); [exact I|]. intros i [] _.
  eapply safe_bind with (Q := writable me); [unfold p_bitStage; safe_go|]. intros temp WT.
  eapply safe_bind with (Q := fun _ => True); [unfold p_copyStage; safe_go|]. intros _ _.
  eapply safe_bind with (Q := fun _ => True); [unfold p_circStage; safe_go|]. intros _ _.
  eapply safe_bind with (Q := fun _ => True); [unfold p_injectStage; safe_go|]. intros _ _.
  unfold p_arxStage; safe_go.
Qed.
Lemma safe_eaglesong rounds capacity rate delim input : readable me bits -> readable me coeffs -> readable me inject -> readable me input ->
  safe me (p_eaglesong bits coeffs inject rounds capacity rate delim input) (writable me).
Proof.
  intros RB RC RI R. unfold p_eaglesong. eapply safe_bind; [apply safe_make|]. intros state W.
  eapply safe_bind; [apply safe_pure|]. intros blocks _.
  eapply safe_bind with (Q := fun _ => True).
  { apply (safe_for_n _ _ _ _ (fun _ => True)); [exact I|]. intros i [] _. eapply safe_bind with (Q := fun _ => True).
    { apply (safe_for_n _ _ _ _ (fun _ => True)); [exact I|]. intros j [] _. eapply safe_bind with (Q := fun _ => True); [|intros; safe_go].
      unfold p_absorbWord. apply (safe_for_n _ _ _ _ (fun _ => True)); [exact I|]. intros; safe_go. }
    intros _ _. apply safe_permute; assumption. }
  intros _ _. eapply safe_bind; [apply safe_make|]. intros output WO. eapply safe_bind; [apply safe_pure|]. intros outs _.
  eapply safe_bind with (Q := fun _ => True); [|intros; exact WO].
  apply (safe_for_n _ _ _ _ (fun _ => True)); [exact I|]. intros i [] _. eapply safe_bind with (Q := fun _ => True); [safe_go|].
  intros _ _. apply safe_permute; assumption.
Qed.

(** Loops that change one slice. *)
Lemma sim_over k (s : sl) (body : N -> prog unit) (body' : N -> list N -> outcome (list N)) l m n :
  has m s l ->
  (forall j y m', j < k -> has m' s y -> others m m' s -> sim me (body j) m' n (body' j y) (wrote m' n s y)) ->
  sim me (pfor_n k (fun j _ => body j) tt) m n (for_n k body' l) (fun _ y m' n' => has m' s y /\ others m m' s /\ n' = n).
Proof.
  intros H B. apply (sim_for_n me k _ _ tt l m n (fun _ (_ : unit) y m' n' => has m' s y /\ others m m' s /\ n' = n)).
  - split; [exact H|]. split; [apply others_refl|reflexivity].
  - intros j [] y m1 n1 Hj (H1 & O1 & ->). eapply sim_weaken; [apply B; assumption|].
    intros ? y2 m2 n2 (H2 & _ & O2 & ->). split; [exact H2|]. split; [eapply others_trans; eauto|reflexivity].
Qed.

Lemma sim_bitStage state y m1 n1 : tables m1 -> has m1 state y -> writable me state -> serial (s_loc state) < n1 ->
  sim me (p_bitStage bits state) m1 n1 (bitStage y) (builds me m1 n1).
Proof.
  intros T1 H1 W S. unfold p_bitStage, bitStage. apply sim_make. intros temp m2 E2 N2 H2 K2.
  assert (T2 : tables m2) by (apply (tables_kept m1); [|exact T1]; intros l O; apply K2; auto).
  assert (HS2 : has m2 state y) by frame.
  assert (NE : s_loc temp <> s_loc state) by (intros E; locs).
  rewrite <- (bind_done (for_n _ _ _)). eapply sim_bind.
  { apply (sim_for_n me 16 _ _ tt _ m2 (n1 + 1) (fun _ (_ : unit) z m' n' => has m' temp z /\ others m2 m' temp /\ n' = n1 + 1)).
    { split; [exact H2|]. split; [apply others_refl|reflexivity]. }
    intros j [] z m3 n3 Hj (H3 & O3 & ->).
    eapply sim_weaken.
    { apply (sim_over 16 temp); [exact H3|]. intros k u m4 Hk H4 O4.
      assert (HS4 : has m4 state y) by frame.
      assert (T4 : tables m4).
      { apply (tables_kept m2); [|exact T2]. intros l O. rewrite O4, O3 by (intros ->; locs). reflexivity. }
      destruct T4 as (TB & _). sget. sget. sget. eapply sim_weaken; [apply sim_set; exact H4|]. intros; assumption. }
    intros [] u m4 n4 (H4 & O4 & ->). split; [exact H4|]. split; [eapply others_trans; eauto|reflexivity]. }
  intros [] z m3 n3 (H3 & O3 & ->). apply sim_ret.
  split; [exact H3|]. split; [exact N2|]. split; [|lia]. intros l OL. rewrite O3 by apart. apply K2. exact OL.
Qed.
Lemma sim_permute rounds state x m n : tables m -> has m state x -> writable me state -> serial (s_loc state) < n ->
  sim me (p_permute bits coeffs inject rounds state) m n (permute rounds x) (fun _ y m' n' =>
    has m' state y /\ n <= n' /\ forall l, l <> s_loc state -> owner l <> me \/ serial l < n -> m' l = m l).
Proof.
  intros T H W S. unfold p_permute, permute.
  apply (sim_for_n me rounds _ _ tt x m n (fun _ (_ : unit) y m' n' =>
    has m' state y /\ n <= n' /\ forall l, l <> s_loc state -> owner l <> me \/ serial l < n -> m' l = m l)).
  { split; [exact H|]. split; [lia|auto]. }
  intros i [] y m1 n1 Hi (H1 & LE1 & K1).
  assert (T1 : tables m1) by (apply (tables_kept m); [|exact T]; intros l O; apply K1; [intros ->; apply O; exact W|auto]).
  eapply sim_bind; [apply sim_bitStage; [exact T1|exact H1|exact W|lia]|].
  intros temp z m3 n3 (H3 & N3 & K3 & LE3).
  assert (NE : s_loc temp <> s_loc state) by (intros E; locs).
  assert (HS3 : has m3 state y) by frame.
  assert (T3 : tables m3) by (apply (tables_kept m1); [|exact T1]; intros l O; apply K3; auto).
  eapply sim_bind.
  { unfold p_copyStage, copyStage. apply (sim_over 16 state); [exact HS3|]. intros j u m4 Hj H4 O4.
    assert (HT4 : has m4 temp z) by frame. sget. eapply sim_weaken; [apply sim_set; exact H4|]. intros; assumption. }
  intros [] y4 m4 n4 (H4 & O4 & ->).
  assert (T4 : tables m4) by (apply (tables_kept m3); [|exact T3]; intros l O; apply O4; intros ->; apply O; exact W).
  eapply sim_bind.
  { unfold p_circStage, circStage. apply (sim_over 16 state); [exact H4|]. intros j u m5 Hj H5 O5.
    assert (T5 : tables m5) by (apply (tables_kept m4); [|exact T4]; intros l O; apply O5; intros ->; apply O; exact W).
    destruct T5 as (_ & TC & _). sget. sget. sget. cbv zeta. eapply sim_weaken; [apply sim_set; exact H5|]. intros; assumption. }
  intros [] y5 m5 n5 (H5 & O5 & ->).
  assert (T5 : tables m5) by (apply (tables_kept m4); [|exact T4]; intros l O; apply O5; intros ->; apply O; exact W).
  eapply sim_bind.
  { unfold p_injectStage, injectStage. apply (sim_over 16 state); [exact H5|]. intros j u m6 Hj H6 O6.
    assert (T6 : tables m6) by (apply (tables_kept m5); [|exact T5]; intros l O; apply O6; intros ->; apply O; exact W).
    destruct T6 as (_ & _ & TI). sget. sget. eapply sim_weaken; [apply sim_set; exact H6|]. intros; assumption. }
  intros [] y6 m6 n6 (H6 & O6 & ->).
  eapply sim_weaken.
  { unfold p_arxStage, arxStage. apply (sim_over 8 state); [exact H6|]. intros j u m7 Hj H7 O7. cbv zeta. sget. sget.
    eapply sim_bind; [apply sim_set; exact H7|]. intros [] u8 m8 n8 (H8 & L8 & O8 & ->).
    eapply sim_weaken; [apply sim_set; exact H8|]. intros [] u9 m9 n9 (H9 & L9 & O9 & ->).
    split; [exact H9|]. split; [lia|]. split; [eapply others_trans; eauto|reflexivity]. }
  intros [] y7 m7 n7 (H7 & O7 & ->). split; [exact H7|]. split; [lia|].
  intros l A1 A2. rewrite O7, O6, O5, O4 by exact A1. rewrite K3 by (destruct A2; [auto|right; lia]). apply K1; auto.
Qed.

Lemma sim_absorbWord rate delim input x i j m n : has m input x ->
  sim me (p_absorbWord rate delim input i j) m n (absorbWord rate delim x i j) (same m n).
Proof.
  intros H. pose proof H as (L & _). unfold p_absorbWord, absorbWord, same. rewrite L.
  apply (sim_for_n me 4 _ _ 0 0 m n (fun _ v v' m' n' => v = v' /\ m' = m /\ n' = n)); [auto|].
  intros k v ? ? ? Hk (<- & -> & ->). cbv zeta. destruct (_ <? _); [|destruct (_ =? _); apply sim_ret; auto].
  sget. apply sim_ret. auto.
Qed.

Lemma sim_eaglesong rounds capacity rate delim input x m n : tables m -> has m input x -> owner (s_loc input) <> me ->
  sim me (p_eaglesong bits coeffs inject rounds capacity rate delim input) m n (eaglesong rounds capacity rate delim x) (fun s y m' n' =>
    has m' s y /\ owner (s_loc s) = me).
Proof.
  intros T H OW. pose proof H as (L & _). unfold p_eaglesong, eaglesong. rewrite L.
  apply sim_make. intros state m1 E1 N1 H1 K1. apply sim_pure. intros blocks _.
  assert (WS : writable me state) by apply N1.
  assert (PERM : forall y m2 n2, has m2 state y -> n + 1 <= n2 -> tables m2 -> has m2 input x ->
    sim me (p_permute bits coeffs inject rounds state) m2 n2 (permute rounds y) (fun _ y m' n' =>
      has m' state y /\ n2 <= n' /\ tables m' /\ has m' input x /\ forall l, l <> s_loc state -> owner l <> me \/ serial l < n2 -> m' l = m2 l)).
  { intros y m2 n2 A1 A2 A3 A4. eapply sim_weaken; [apply sim_permute; auto; subst state; cbn; lia|].
    intros [] z m3 n3 (B1 & B2 & B3). split; [exact B1|]. split; [exact B2|]. split; [|split; [|exact B3]].
    - apply (tables_kept m2); [|exact A3]. intros l O. apply B3; [intros ->; apply O; exact WS|auto].
    - apply (has_same m2); [|exact A4]. apply B3; [intros E; apply OW; rewrite E; exact WS|auto]. }
  eapply sim_bind.
  { apply (sim_for_n me blocks _ _ tt _ m1 (n + 1) (fun _ (_ : unit) y m' n' => has m' state y /\ n + 1 <= n' /\ tables m' /\ has m' input x)).
    { split; [exact H1|]. split; [lia|]. split; [|frame]. apply (tables_kept m); [|exact T]. intros l O. apply K1. auto. }
    intros i [] y m2 n2 Hi (H2 & LE2 & T2 & HI2).
    eapply sim_bind.
    { apply (sim_over (rate / 32) state); [exact H2|]. intros j u m3 Hj H3 O3.
      eapply sim_bind; [apply sim_absorbWord; apply (has_same m2); [apply O3; intros E; apply OW; rewrite E; exact WS|exact HI2]|].
      intros v ? ? ? (<- & -> & ->). sget. eapply sim_weaken; [apply sim_set; exact H3|]. intros; assumption. }
    intros [] u m3 n3 (H3 & O3 & ->).
    eapply sim_weaken; [apply PERM; [exact H3|exact LE2| |]|].
    - apply (tables_kept m2); [|exact T2]. intros l O. apply O3. intros ->. apply O. exact WS.
    - apply (has_same m2); [apply O3; intros E; apply OW; rewrite E; exact WS|exact HI2].
    - intros [] z m4 n4 (A1 & A2 & A3 & A4 & _). split; [exact A1|]. split; [lia|auto]. }
  intros [] y m2 n2 (H2 & LE2 & T2 & HI2).
  apply sim_make. intros output m3 E3 N3 H3 K3. apply sim_pure. intros outs _.
  assert (SS : serial (s_loc state) < n2) by (subst state; cbn; lia).
  assert (NE : s_loc state <> s_loc output) by (intros E; locs).
  eapply sim_bind.
  { apply (sim_for_n me outs _ _ tt _ m3 (n2 + 1) (fun _ (_ : unit) (st : list N * list N) m' n' =>
      has m' output (fst st) /\ has m' state (snd st) /\ n2 + 1 <= n' /\ tables m' /\ has m' input x)).
    { cbn [fst snd]. split; [exact H3|]. split; [frame|]. split; [lia|]. split; [|frame].
      apply (tables_kept m2); [|exact T2]. intros l O. apply K3. auto. }
    intros i [] (o, z) m4 n4 Hi (A1 & A2 & A3 & A4 & A5). cbn [fst snd] in *.
    eapply sim_bind.
    { apply (sim_for_n me _ _ _ tt o m4 n4 (fun _ (_ : unit) w m' n' => has m' output w /\ others m4 m' output /\ n' = n4)).
      { split; [exact A1|]. split; [apply others_refl|reflexivity]. }
      intros j [] w m5 n5 Hj (B1 & B2 & ->).
      eapply sim_weaken.
      { apply (sim_over 4 output); [exact B1|]. intros k w' m6 Hk C1 C2.
        assert (HS : has m6 state z) by frame. sget. eapply sim_weaken; [apply sim_set; exact C1|]. intros; assumption. }
      intros [] w' m6 n6 (C1 & C2 & ->). split; [exact C1|]. split; [eapply others_trans; eauto|reflexivity]. }
    intros [] w m5 n5 (B1 & B2 & ->).
    assert (T5 : tables m5) by (apply (tables_kept m4); [|exact A4]; intros l O; apply B2; intros ->; locs).
    assert (HS5 : has m5 state z) by frame.
    assert (HI5 : has m5 input x) by (apply (has_same m4); [apply B2; intros E; apply OW; rewrite E; apply N3|exact A5]).
    apply sim_then. eapply sim_weaken; [apply PERM; [exact HS5|lia|exact T5|exact HI5]|].
    intros [] z' m6 n6 (C1 & C2 & C3 & C4 & C5). cbn [fst snd]. split; [|split; [exact C1|split; [lia|auto]]].
    apply (has_same m5); [|exact B1]. apply C5; [auto|]. right. locs. }
  intros [] (o, z) m4 n4 (A1 & _). apply sim_ret. split; [exact A1|]. apply N3.
Qed.
End Eagle.
