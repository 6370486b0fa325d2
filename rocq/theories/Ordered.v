(** Index trees whose siblings are ordered by first index and disjoint. *)
From Coq Require Import NArith ZArith Arith List Lia Bool ZifyBool ZifyNat ZifyN.
Import ListNotations.
Open Scope N_scope.

Fixpoint ordered (h : nat) (l : list N) : Prop :=
  match h with
  | O => True
  | S h' =>
      let a := firstn (Nat.pow 2 h') l in
      let b := skipn (Nat.pow 2 h') l in
      ordered h' a /\ ordered h' b /\ hd 0 a < hd 0 b /\ (forall i, In i a -> ~ In i b)
  end.
Lemma pow2_ge1 h : (1 <= Nat.pow 2 h)%nat.
Proof. induction h; cbn [Nat.pow]; lia. Qed.
Lemma ordered_NoDup h : forall l, length l = Nat.pow 2 h -> ordered h l -> NoDup l.
Proof.
  induction h; intros l L T.
  - destruct l as [|x [|]]; try discriminate. repeat constructor. auto.
  - cbn [ordered] in T. cbv zeta in T. destruct T as (TA & TB & _ & D). cbn [Nat.pow] in L.
    assert (NA : NoDup (firstn (Nat.pow 2 h) l)) by (apply IHh; auto; rewrite firstn_length; lia).
    assert (NB : NoDup (skipn (Nat.pow 2 h) l)) by (apply IHh; auto; rewrite skipn_length; lia).
    rewrite <- (firstn_skipn (Nat.pow 2 h) l). revert NA D. generalize (firstn (Nat.pow 2 h) l). intros a NA D.
    induction NA as [|x a X NA IH]; [exact NB|]. cbn [app]. constructor.
    + rewrite in_app_iff. intros [Q|Q]; [contradiction|]. apply (D x); [left; reflexivity|exact Q].
    + apply IH. intros i A. apply D. right. exact A.
Qed.
Lemma ordered_smallest h : forall l i, length l = Nat.pow 2 h -> ordered h l -> In i l -> hd 0 l <= i.
Proof.
  induction h; intros l i L T I.
  - destruct l as [|x [|]]; try discriminate. destruct I as [<-|[]]. cbn [hd]. lia.
  - cbn [ordered] in T. cbv zeta in T. destruct T as (TA & TB & H & _). cbn [Nat.pow] in L. pose proof (pow2_ge1 h).
    assert (HD : hd 0 (firstn (Nat.pow 2 h) l) = hd 0 l).
    { destruct l; [rewrite firstn_nil; reflexivity|]. destruct (Nat.pow 2 h); [lia|reflexivity]. }
    rewrite HD in H. rewrite <- (firstn_skipn (Nat.pow 2 h) l) in I. apply in_app_or in I as [I|I].
    + rewrite <- HD. apply IHh; auto. rewrite firstn_length. lia.
    + apply N.le_trans with (hd 0 (skipn (Nat.pow 2 h) l)); [lia|]. apply IHh; auto. rewrite skipn_length. lia.
Qed.
Lemma ordered_subtree h : forall e m l P B S, length l = Nat.pow 2 h -> l = P ++ B ++ S -> (e <= h)%nat ->
  length B = Nat.pow 2 e -> length P = (Nat.pow 2 e * m)%nat -> ordered h l -> ordered e B.
Proof.
  induction h; intros e m l P B S L -> EH LB LP T.
  - replace e with O by lia. exact I.
  - rewrite !app_length in L. destruct (Nat.eq_dec e (Datatypes.S h)) as [->|NE].
    { destruct P; [|cbn [length] in L; lia]. destruct S; [|cbn [length] in L; lia]. rewrite app_nil_r in T. exact T. }
    cbn [ordered] in T. cbv zeta in T. destruct T as (TA & TB & _). cbn [Nat.pow] in L.
    assert (DV : exists q, Nat.pow 2 h = (Nat.pow 2 e * q)%nat).
    { exists (Nat.pow 2 (h - e)). rewrite <- Nat.pow_add_r. f_equal. lia. }
    destruct DV as (q & DV).
    destruct (Nat.lt_ge_cases m q) as [MQ|MQ].
    + assert (PB : (length P + length B <= Nat.pow 2 h)%nat) by nia.
      apply (IHh e m (firstn (Nat.pow 2 h) (P ++ B ++ S)) P B (firstn (Nat.pow 2 h - length P - length B) S)); auto; [|  |lia].
      * rewrite firstn_length, !app_length. lia.
      * rewrite !firstn_app. rewrite (firstn_all2 P), (firstn_all2 B) by lia. reflexivity.
    + assert (PB : (Nat.pow 2 h <= length P)%nat) by nia.
      apply (IHh e (m - q)%nat (skipn (Nat.pow 2 h) (P ++ B ++ S)) (skipn (Nat.pow 2 h) P) B S); auto; [| |lia|].
      * rewrite skipn_length, !app_length. lia.
      * rewrite skipn_app. replace (Nat.pow 2 h - length P)%nat with O by lia. reflexivity.
      * rewrite skipn_length. nia.
Qed.
(** Swapping two siblings destroys the order. *)
Lemma ordered_no_swap h d m P l r S : length (P ++ l ++ r ++ S) = Nat.pow 2 h ->
  length l = Nat.pow 2 d -> length r = Nat.pow 2 d -> length P = (Nat.pow 2 (d + 1) * m)%nat ->
  ordered h (P ++ l ++ r ++ S) -> ~ ordered h (P ++ r ++ l ++ S).
Proof.
  intros N1 LL LR LP T1 T2.
  assert (N2 : length (P ++ r ++ l ++ S) = Nat.pow 2 h) by (rewrite !app_length in *; lia).
  assert (DK : (Datatypes.S d <= h)%nat).
  { rewrite !app_length, LL, LR in N1. destruct (Nat.le_gt_cases (Datatypes.S d) h) as [|Q]; [assumption|].
    assert (Nat.pow 2 h <= Nat.pow 2 d)%nat by (apply Nat.pow_le_mono_r; lia). pose proof (pow2_ge1 d). lia. }
  assert (LP' : length P = (Nat.pow 2 (Datatypes.S d) * m)%nat) by (rewrite LP; do 2 f_equal; lia).
  assert (ORD : forall x y, length x = Nat.pow 2 d -> ordered (Datatypes.S d) (x ++ y) -> hd 0 x < hd 0 y).
  { clear. intros x y X T. cbn [ordered] in T. cbv zeta in T. destruct T as (_ & _ & H & _). rewrite <- X in H.
    rewrite firstn_app, skipn_app, Nat.sub_diag, firstn_O, app_nil_r, firstn_all, skipn_all in H. exact H. }
  assert (H1 : hd 0 l < hd 0 r).
  { apply ORD; auto. apply (ordered_subtree h (Datatypes.S d) m (P ++ l ++ r ++ S) P (l ++ r) S); auto.
    - rewrite <- !app_assoc. reflexivity.
    - rewrite app_length. cbn [Nat.pow]. lia. }
  assert (H2 : hd 0 r < hd 0 l).
  { apply ORD; auto. apply (ordered_subtree h (Datatypes.S d) m (P ++ r ++ l ++ S) P (r ++ l) S); auto.
    - rewrite <- !app_assoc. reflexivity.
    - rewrite app_length. cbn [Nat.pow]. lia. }
  lia.
Qed.
(** [rearranged h l l']: [l'] comes from the tree [l] of height [h] by swapping siblings, at any number of places. *)
Inductive rearranged : nat -> list N -> list N -> Prop :=
| RaLeaf x : rearranged 0 [x] [x]
| RaKeep h a b a' b' : rearranged h a a' -> rearranged h b b' -> rearranged (S h) (a ++ b) (a' ++ b')
| RaSwap h a b a' b' : rearranged h a a' -> rearranged h b b' -> rearranged (S h) (a ++ b) (b' ++ a').
Lemma rearranged_same h l l' : rearranged h l l' ->
  length l = Nat.pow 2 h /\ length l' = Nat.pow 2 h /\ forall i, In i l <-> In i l'.
Proof.
  induction 1 as [|h a b a' b' _ (A1 & A2 & A3) _ (B1 & B2 & B3)|h a b a' b' _ (A1 & A2 & A3) _ (B1 & B2 & B3)].
  - repeat split; auto.
  - rewrite !app_length. cbn [Nat.pow]. split; [lia|]. split; [lia|]. intros i. rewrite !in_app_iff, A3, B3. tauto.
  - rewrite !app_length. cbn [Nat.pow]. split; [lia|]. split; [lia|]. intros i. rewrite !in_app_iff, A3, B3. tauto.
Qed.
Lemma ordered_app h a b : length a = Nat.pow 2 h -> ordered (S h) (a ++ b) -> ordered h a /\ ordered h b /\ hd 0 a < hd 0 b.
Proof.
  intros L T. cbn [ordered] in T. cbv zeta in T. rewrite <- L in T.
  rewrite firstn_app, skipn_app, Nat.sub_diag, firstn_O, app_nil_r, firstn_all, skipn_all in T. cbn [app skipn] in T. tauto.
Qed.
Lemma ordered_same_head h a a' : rearranged h a a' -> ordered h a -> ordered h a' -> hd 0 a = hd 0 a'.
Proof.
  intros R O O'. destruct (rearranged_same _ _ _ R) as (L & L' & I). pose proof (pow2_ge1 h).
  apply N.le_antisymm.
  - apply (ordered_smallest h); auto. apply I. destruct a'; [cbn [length] in *; lia|left; reflexivity].
  - apply (ordered_smallest h); auto. apply I. destruct a; [cbn [length] in *; lia|left; reflexivity].
Qed.
(** At most one arrangement is ordered. *)
Lemma ordered_one_arrangement h l l' : rearranged h l l' -> ordered h l -> ordered h l' -> l = l'.
Proof.
  induction 1 as [|h a b a' b' RA IA RB IB|h a b a' b' RA IA RB IB]; intros O O'; auto;
    destruct (rearranged_same _ _ _ RA) as (LA & LA' & _); destruct (rearranged_same _ _ _ RB) as (LB & LB' & _).
  - apply ordered_app in O as (OA & OB & _); auto. apply ordered_app in O' as (OA' & OB' & _); auto. f_equal; auto.
  - exfalso. apply ordered_app in O as (OA & OB & H); auto. apply ordered_app in O' as (OB' & OA' & H'); auto.
    rewrite (ordered_same_head _ _ _ RA OA OA'), (ordered_same_head _ _ _ RB OB OB') in H. lia.
Qed.
