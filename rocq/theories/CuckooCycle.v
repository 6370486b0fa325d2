(** Combinatorics of the cycle walk: from the first edge, hop alternately to the only other edge
    with the same U (then V) endpoint.  No code here; used by CuckooProofs. *)
From Coq Require Import Arith NArith ZArith List Permutation FinFun Bool Lia ZifyNat.
From Verif Require Import CuckooSpec.
Import ListNotations.
Open Scope nat_scope.

Ltac Zify.zify_post_hook ::= Z.div_mod_to_equations.

Lemma NoDup_app {A} (l m : list A) :
  NoDup l -> NoDup m -> (forall x, In x l -> ~ In x m) -> NoDup (l ++ m).
Proof.
  induction 1 as [|x l Hx Hl IH]; intros Hm D; auto. cbn. constructor.
  - rewrite in_app_iff. intros [A1|A1]; auto. apply (D x); cbn; auto.
  - apply IH; auto. intros y Hy. apply D. cbn; auto.
Qed.

Section Cycle.
Variable P : nat.
Variable g : bool -> nat -> N.  (* g b e: endpoint of edge e on side b *)

(** [e'] is the only edge other than [e] with the same endpoint on side [b]. *)
Definition partner (b : bool) (e e' : nat) : Prop :=
  e < P /\ e' < P /\ e' <> e /\ g b e' = g b e /\
  forall e'', e'' < P -> e'' <> e -> g b e'' = g b e -> e'' = e'.

Lemma partner_sym b e e' : partner b e e' -> partner b e' e.
Proof.
  intros (H1 & H2 & H3 & H4 & H5). repeat split; auto. intros e'' A B C.
  destruct (Nat.eq_dec e'' e); auto. exfalso. apply B. apply H5; congruence.
Qed.

Lemma partner_fun b e x y : partner b e x -> partner b e y -> x = y.
Proof. intros (_ & _ & _ & _ & H) (_ & A & B & C & _). symmetry. apply H; auto. Qed.

(** A path: the edges visited so far, most recent first, with side [b] the one to be used next
    from the most recent edge; it starts at edge 0 on side [false]. *)
Inductive path : bool -> list nat -> Prop :=
| path_start : 0 < P -> path false [0]
| path_step b e e' l : path b (e :: l) -> partner b e e' -> ~ In e' (e :: l) ->
    path (negb b) (e' :: e :: l).

Lemma path_nodup b l : path b l -> NoDup l.
Proof.
  induction 1 as [|b e e' l H IH Hp Hn].
  - constructor; [intros []|constructor].
  - constructor; auto.
Qed.
Lemma path_lt b l : path b l -> Forall (fun e => e < P) l.
Proof.
  induction 1 as [|b e e' l H IH Hp Hn]; constructor; auto. destruct Hp as (_ & A & _); auto.
Qed.
Lemma path_length b l : path b l -> length l <= P.
Proof.
  intros H. rewrite <- (seq_length P 0). apply NoDup_incl_length.
  - eapply path_nodup; eauto.
  - intros x Hx. apply in_seq. pose proof (path_lt _ _ H) as F.
    rewrite Forall_forall in F. specialize (F _ Hx). lia.
Qed.

(** Side and position: the edge at position t from the start is used on side (odd t). *)
Lemma path_side b l : path b l -> b = Nat.even (length l).
Proof.
  induction 1 as [|b e e' l H IH Hp Hn]; auto.
  rewrite IH. cbn [length]. rewrite !Nat.even_succ, <- Nat.negb_even. 
  rewrite Nat.odd_succ. apply negb_involutive.
Qed.

Definition at_ (l : list nat) (t : nat) : nat := nth t (rev l) 0.

Lemma path_at0 b l : path b l -> at_ l 0 = 0.
Proof.
  unfold at_. induction 1 as [|b e e' l H IH Hp Hn]; auto.
  change (rev (e' :: e :: l)) with (rev (e :: l) ++ [e']).
  rewrite app_nth1; auto. rewrite rev_length. cbn. lia.
Qed.
Lemma path_partner b l : path b l -> forall t, S t < length l ->
  partner (Nat.odd t) (at_ l t) (at_ l (S t)).
Proof.
  unfold at_. induction 1 as [|b e e' l H IH Hp Hn]; intros t Ht.
  - cbn in Ht. lia.
  - change (rev (e' :: e :: l)) with (rev (e :: l) ++ [e']).
    assert (L : length (rev (e :: l)) = S (length l)) by (rewrite rev_length; reflexivity).
    cbn [length] in Ht. destruct (Nat.eq_dec t (length l)) as [->|Ne].
    + rewrite (app_nth1 _ _ _ (n:=length l)) by (rewrite L; lia).
      rewrite app_nth2 by (rewrite L; lia). rewrite L, Nat.sub_diag. cbn [nth].
      replace (nth (length l) (rev (e :: l)) 0) with e.
      2:{ rewrite rev_nth by (cbn; lia). cbn [length]. replace (S (length l) - S (length l)) with 0 by lia. auto. }
      apply path_side in H. cbn [length] in H. rewrite Nat.even_succ in H. rewrite <- H. auto.
    + rewrite !app_nth1 by (rewrite L; lia). apply IH. cbn [length]. lia.
Qed.

Lemma at_inj b l s t : path b l -> s < length l -> t < length l -> at_ l s = at_ l t -> s = t.
Proof.
  intros H Hs Ht E. apply path_nodup, NoDup_rev in H. unfold at_ in E.
  rewrite NoDup_nth with (d := 0) in H. apply H; rewrite ?rev_length; auto.
Qed.
Lemma at_last b e l : path b (e :: l) -> at_ (e :: l) (length l) = e.
Proof.
  intros _. unfold at_. rewrite rev_nth by (cbn; lia). cbn [length].
  replace (S (length l) - S (length l)) with 0 by lia. auto.
Qed.

(** The hop from the last edge either goes to a new edge or closes the path at its start. *)
Lemma path_next b e l e' : path b (e :: l) -> partner b e e' -> In e' (e :: l) ->
  e' = 0 /\ b = true.
Proof.
  intros H Hp Hin. set (L := e :: l) in *.
  apply In_nth with (d := 0) in Hin. destruct Hin as (q & Hq & E).
  assert (exists s, s < length L /\ at_ L s = e') as (s & Hs & Es).
  { exists (length L - S q). unfold at_. split; [lia|]. rewrite rev_nth by lia.
    replace (length L - S (length L - S q)) with q by lia. auto. }
  clear q Hq E.
  assert (Hlast : at_ L (length l) = e) by (eapply at_last; eauto).
  pose proof (path_side _ _ H) as Hb. 
  assert (length L = S (length l)) as HL by reflexivity.
  rewrite HL, Nat.even_succ in Hb.
  destruct (Nat.odd s) eqn:Os, b; try (
    (* same side as s: e' and e are partners on the side used at s *)
    exfalso;
    destruct (Nat.eq_dec s (length l)) as [->|Ns];
    [ destruct Hp as (_ & _ & Hne & _); congruence | ];
    assert (Hps : partner (Nat.odd s) (at_ L s) (at_ L (S s))) by (eapply path_partner; eauto; lia);
    rewrite Os, Es in Hps;
    assert (at_ L (S s) = e) as E2 by (eapply partner_fun; [exact Hps| apply partner_sym; exact Hp]);
    assert (S s = length l) as E3 by (eapply at_inj; eauto; try lia; congruence);
    rewrite <- E3, Nat.odd_succ, <- Nat.negb_odd, Os in Hb; discriminate ).
  - (* s odd, b = false *)
    exfalso. destruct s as [|s]; [discriminate|].
    assert (Hps : partner (Nat.odd s) (at_ L s) (at_ L (S s))) by (eapply path_partner; eauto; lia).
    rewrite Nat.odd_succ, <- Nat.negb_odd in Os. apply negb_true_iff in Os. rewrite Os, Es in Hps.
    assert (at_ L s = e) as E2 by (eapply partner_fun; apply partner_sym; eauto).
    assert (s = length l) as E3 by (eapply at_inj; eauto; try lia; congruence). lia.
  - (* s even, b = true *)
    destruct s as [|s].
    + rewrite (path_at0 _ _ H) in Es. auto.
    + exfalso. assert (Hps : partner (Nat.odd s) (at_ L s) (at_ L (S s))) by (eapply path_partner; eauto; lia).
      rewrite Nat.odd_succ, <- Nat.negb_odd in Os. apply negb_false_iff in Os. rewrite Os, Es in Hps.
      assert (at_ L s = e) as E2 by (eapply partner_fun; apply partner_sym; eauto).
      assert (s = length l) as E3 by (eapply at_inj; eauto; try lia; congruence). lia.
Qed.

(** ** A closed path through all the edges is a cycle *)

Definition edge_list : list (N * N) := map (fun e => (g false e, g true e)) (seq 0 P).

Lemma closed_path_alternating b e l :
  path b (e :: l) -> partner b e 0 -> b = true ->
  alternating (map (fun e => (g false e, g true e)) (rev (e :: l))).
Proof.
  intros H Hp Hbt. set (L := e :: l) in *. remember (length L) as n eqn:HP. symmetry in HP.
  pose proof (path_side _ _ H) as Hb. rewrite Hbt, HP in Hb.
  assert (PP : 0 < n) by (rewrite <- HP; cbn; lia).
  unfold alternating. rewrite map_length, rev_length, HP.
  split; [lia|]. split; [auto|].
  assert (Hnth : forall a, a < n -> nth a (map (fun e => (g false e, g true e)) (rev L)) (0,0)%N
             = (g false (at_ L a), g true (at_ L a))).
  { intros a Ha. rewrite nth_indep with (d' := (fun e => (g false e, g true e)) 0) by (rewrite map_length, rev_length; lia).
    rewrite (map_nth (fun e => (g false e, g true e))). reflexivity. }
  assert (Hlt : forall a, a < n -> at_ L a < P).
  { intros a Ha. pose proof (path_lt _ _ H) as F. rewrite Forall_forall in F. apply F.
    apply in_rev. apply nth_In. rewrite rev_length. lia. }
  assert (Hpart : forall t, t < n -> partner (Nat.odd t) (at_ L t) (at_ L ((t + 1) mod n))).
  { intros t Ht. destruct (Nat.eq_dec t (length l)) as [->|Ne].
    - assert (length l + 1 = n) as -> by (rewrite <- HP; cbn; lia).
      rewrite Nat.mod_same by lia. rewrite (path_at0 _ _ H). replace (at_ L (length l)) with e by (symmetry; exact (at_last _ _ _ H)).
      replace (Nat.odd (length l)) with b; auto.
      pose proof (path_side _ _ H) as Hb'. unfold L in Hb'. cbn [length] in Hb'. rewrite Nat.even_succ in Hb'. auto.
    - rewrite Nat.mod_small by (cbn in HP; lia). replace (t + 1) with (S t) by lia.
      eapply path_partner; eauto. rewrite HP. cbn in HP. lia. }
  assert (Hinj : forall a b, a < n -> b < n -> at_ L a = at_ L b -> a = b).
  { intros. eapply at_inj; eauto; lia. }
  assert (Ev : n = 2 * (n / 2)).
  { symmetry in Hb. apply Nat.even_spec in Hb. destruct Hb as [m ->]. rewrite Nat.mul_comm, Nat.div_mul; lia. }
  (* a shared endpoint on side s: the two are consecutive, starting at parity s *)
  assert (Hshare : forall s a c, a < n -> c < n -> a <> c -> g s (at_ L a) = g s (at_ L c) ->
            (Nat.odd a = s /\ c = (a + 1) mod n) \/ (Nat.odd c = s /\ a = (c + 1) mod n)).
  { intros s a c Ha Hc Hac E.
    destruct (Bool.bool_dec (Nat.odd a) s) as [Ea|Ea].
    - left. split; auto. pose proof (Hpart a Ha) as Q. rewrite Ea in Q.
      destruct Q as (_ & _ & _ & _ & U). assert (M : (a + 1) mod n < n) by (apply Nat.mod_upper_bound; lia).
      apply Hinj; auto.
    - right. set (p := (a + n - 1) mod n).
      assert (Hp1 : p < n) by (apply Nat.mod_upper_bound; lia).
      assert (Hp2 : (p + 1) mod n = a).
      { unfold p. destruct (Nat.eq_dec a 0) as [->|].
        - rewrite (Nat.mod_small (0 + n - 1)) by lia. replace (0+n-1+1) with n by lia. apply Nat.mod_same; lia.
        - replace (a + n - 1) with (a - 1 + 1 * n) by lia. rewrite Nat.mod_add by lia.
          rewrite (Nat.mod_small (a-1)) by lia. replace (a-1+1) with a by lia. apply Nat.mod_small; auto. }
      assert (Hodd : Nat.odd p = s).
      { assert (Nat.odd p = negb (Nat.odd a)) as ->.
        { unfold p. destruct (Nat.eq_dec a 0) as [->|].
          - rewrite Nat.mod_small by lia. replace (0 + n - 1) with (2 * (n/2 - 1) + 1) by lia.
            rewrite Nat.add_comm, Nat.odd_add_mul_2; reflexivity.
          - replace (a + n - 1) with (a - 1 + 1 * n) by lia. rewrite Nat.mod_add by lia.
            rewrite Nat.mod_small by lia. destruct a; [lia|]. replace (S a - 1) with a by lia.
            rewrite Nat.odd_succ, Nat.negb_even. auto. }
        destruct (Nat.odd a), s; auto; congruence. }
      pose proof (Hpart p Hp1) as Q. rewrite Hodd, Hp2 in Q.
      assert (c = p) as ->.
      { apply Hinj; auto. apply partner_sym in Q. destruct Q as (_ & _ & _ & _ & U). apply U; auto. }
      auto. }
  intros a c Ha Hc Hac. rewrite !Hnth by auto. cbn [fst snd].
  assert (Odd : forall a, Nat.odd a = true <-> a = 2 * (a / 2) + 1).
  { intros x. rewrite Nat.odd_spec. split; [intros [m ->]; lia| intros ->; eexists; reflexivity]. }
  assert (Evn : forall a, Nat.odd a = false <-> a = 2 * (a / 2)).
  { intros x. rewrite <- Nat.negb_even, negb_false_iff, Nat.even_spec. split; [intros [m ->]; lia| intros ->; eexists; reflexivity]. }
  assert (Hmod : forall a, a < n -> (a + 1) mod n = if Nat.eq_dec (a + 1) n then 0 else a + 1).
  { intros x Hx. destruct (Nat.eq_dec (x+1) n) as [->|]; [apply Nat.mod_same|apply Nat.mod_small]; lia. }
  split; split; intros E.
  - destruct (Hshare false a c Ha Hc Hac E) as [[O ->]|[O ->]]; apply Evn in O; rewrite Hmod by auto;
      destruct (Nat.eq_dec _ n); lia.
  - assert (W : (Nat.odd a = false /\ c = (a+1) mod n) \/ (Nat.odd c = false /\ a = (c+1) mod n)).
    { rewrite !Evn, !Hmod by auto. destruct (Nat.eq_dec (a+1) n), (Nat.eq_dec (c+1) n); lia. }
    destruct W as [[O ->]|[O ->]]; [pose proof (Hpart a Ha) as Q|pose proof (Hpart c Hc) as Q];
      rewrite O in Q; destruct Q as (_ & _ & _ & Q & _); auto.
  - destruct (Hshare true a c Ha Hc Hac E) as [[O ->]|[O ->]]; apply Odd in O.
    + rewrite (Hmod a) by auto. destruct (Nat.eq_dec (a+1) n).
      * rewrite Nat.mod_small by lia. lia.
      * assert (a + 1 + 1 < n) by lia. rewrite Nat.mod_small by lia. lia.
    + rewrite (Hmod c) by auto. destruct (Nat.eq_dec (c+1) n).
      * rewrite Nat.mod_small by lia. lia.
      * assert (c + 1 + 1 < n) by lia. rewrite Nat.mod_small by lia. lia.
  - assert (W : (Nat.odd a = true /\ c = (a+1) mod n) \/ (Nat.odd c = true /\ a = (c+1) mod n)).
    { rewrite !Odd. rewrite !Hmod in * by auto. destruct (Nat.eq_dec (a+1) n), (Nat.eq_dec (c+1) n); lia. }
    destruct W as [[O ->]|[O ->]]; [pose proof (Hpart a Ha) as Q|pose proof (Hpart c Hc) as Q];
      rewrite O in Q; destruct Q as (_ & _ & _ & Q & _); auto.
Qed.

Lemma closed_path_subcycle b e l :
  path b (e :: l) -> partner b e 0 -> b = true ->
  exists c rest, Permutation (c ++ rest) edge_list /\ alternating c /\ length c = length (e :: l).
Proof.
  intros H Hp Hbt. set (L := e :: l) in *.
  assert (exists r, Permutation (L ++ r) (seq 0 P)) as (r & Hr).
  { assert (HN : NoDup L) by (eapply path_nodup; eauto).
    assert (HI : incl L (seq 0 P)).
    { intros x Hx. apply in_seq. pose proof (path_lt _ _ H) as F.
      rewrite Forall_forall in F. specialize (F _ Hx). lia. }
    exists (filter (fun x => if in_dec Nat.eq_dec x L then false else true) (seq 0 P)).
    apply NoDup_Permutation.
    - apply NoDup_app; auto. apply NoDup_filter, seq_NoDup.
      intros x Hx Hf. apply filter_In in Hf. destruct Hf as [_ Hf]. destruct (in_dec _ x L); auto; discriminate.
    - apply seq_NoDup.
    - intros x. rewrite in_app_iff, filter_In. split.
      + intros [A|[A _]]; auto.
      + intros A. destruct (in_dec Nat.eq_dec x L); auto. }
  exists (map (fun e => (g false e, g true e)) (rev L)), (map (fun e => (g false e, g true e)) r).
  split; [|split].
  - rewrite <- map_app. apply Permutation_map. rewrite <- Hr. apply Permutation_app_tail, Permutation_sym, Permutation_rev.
  - eapply closed_path_alternating; eauto.
  - rewrite map_length, rev_length. auto.
Qed.

Lemma closed_path_cycle b e l :
  path b (e :: l) -> partner b e 0 -> b = true -> length (e :: l) = P -> single_cycle edge_list.
Proof.
  intros H Hp Hbt HP. destruct (closed_path_subcycle _ _ _ H Hp Hbt) as (c & r & A & B & D).
  assert (r = []) as ->.
  { apply Permutation_length in A. unfold edge_list in A. rewrite app_length, map_length, seq_length in A.
    destruct r; auto. cbn in A. cbn in D. cbn in HP. lia. }
  rewrite app_nil_r in A. exists c. auto.
Qed.

(** ** In a cycle the walk cannot fail nor close early *)

Section Complete.
Hypothesis C : single_cycle edge_list.

Lemma cycle_positions : exists f : nat -> nat,
  0 < P /\ P = 2 * (P / 2) /\
  (forall a, a < P -> f a < P) /\ (forall a b, a < P -> b < P -> f a = f b -> a = b) /\
  (forall e, e < P -> exists a, a < P /\ f a = e) /\
  forall a b, a < P -> b < P -> a <> b ->
    (g false (f a) = g false (f b) <-> a / 2 = b / 2) /\
    (g true (f a) = g true (f b) <-> ((a + 1) mod P) / 2 = ((b + 1) mod P) / 2).
Proof.
  destruct C as (c & Perm & Hne & Hev & Halt).
  apply Permutation_sym in Perm. rewrite Permutation_nth with (d := (0,0)%N) in Perm.
  assert (LP : length edge_list = P) by (unfold edge_list; rewrite map_length, seq_length; auto).
  cbv zeta in Perm. rewrite LP in Perm. destruct Perm as (LC & f & F1 & F2 & F3).
  rewrite LC in *. exists f.
  assert (Hnth : forall e, e < P -> nth e edge_list (0,0)%N = (g false e, g true e)).
  { intros e He. unfold edge_list. rewrite nth_indep with (d' := (fun e => (g false e, g true e)) 0) by (rewrite map_length, seq_length; lia).
    rewrite (map_nth (fun e => (g false e, g true e))). rewrite seq_nth; auto. }
  split; [lia|]. split.
  { apply Nat.even_spec in Hev. destruct Hev as [m ->]. rewrite Nat.mul_comm, Nat.div_mul; lia. }
  split; [intros; apply F1; auto|]. split; [intros; apply F2; auto|]. split.
  - intros e He. apply (bInjective_bSurjective F1) in F2. destruct (F2 e He) as (a & A1 & A2). eauto.
  - intros a b Ha Hb Hab. specialize (Halt a b Ha Hb Hab). rewrite !F3 in Halt by auto.
    rewrite !Hnth in Halt by (apply F1; auto). exact Halt.
Qed.

Lemma cycle_partner b e : e < P -> exists e', partner b e e'.
Proof.
  destruct cycle_positions as (f & PP & Ev & F1 & F2 & F3 & Alt).
  intros He. destruct (F3 e He) as (a & Ha & <-).
  assert (Hmod : forall a, a < P -> (a + 1) mod P = if Nat.eq_dec (a + 1) P then 0 else a + 1).
  { intros x Hx. destruct (Nat.eq_dec (x+1) P) as [->|]; [apply Nat.mod_same|apply Nat.mod_small]; lia. }
  assert (exists a', a' < P /\ a' <> a /\ g b (f a') = g b (f a) /\
     forall a'', a'' < P -> a'' <> a -> g b (f a'') = g b (f a) -> a'' = a') as (a' & A1 & A2 & A3 & A4).
  { destruct b.
    - set (q := if Nat.eq_dec (a + 1) P then 0 else a + 1).
      set (a' := if Nat.eq_dec q (2 * (q / 2)) then q (* pred of (q+1) *) else 
                 if Nat.eq_dec q 1 then P - 1 else q - 2).
      assert (Q : q < P) by (unfold q; destruct (Nat.eq_dec _ P); lia).
      assert (A' : a' < P) by (unfold a'; destruct (Nat.eq_dec q _); [lia|]; destruct (Nat.eq_dec q 1); lia).
      exists a'. split; auto.
      assert (a' <> a).
      { unfold a', q in *. destruct (Nat.eq_dec (a+1) P); destruct (Nat.eq_dec _ (2 * _)); try destruct (Nat.eq_dec _ 1); lia. }
      split; auto. split.
      + apply (Alt a' a); auto. rewrite !Hmod by auto. fold q. unfold a'.
        destruct (Nat.eq_dec q (2 * _)). destruct (Nat.eq_dec (q+1) P); lia.
        destruct (Nat.eq_dec q 1). destruct (Nat.eq_dec (P-1+1) P); lia.
        destruct (Nat.eq_dec (q-2+1) P); lia.
      + intros a'' B1 B2 B3. apply (Alt a'' a) in B3; auto. rewrite !Hmod in B3 by auto. fold q in B3.
        unfold a', q in *. destruct (Nat.eq_dec (a+1) P); destruct (Nat.eq_dec (a''+1) P); destruct (Nat.eq_dec _ (2 * _)); try destruct (Nat.eq_dec _ 1); lia.
    - exists (if Nat.eq_dec a (2 * (a / 2)) then a + 1 else a - 1).
      destruct (Nat.eq_dec a (2 * (a / 2))).
      + split; [lia|]. split; [lia|]. split.
        * apply Alt; lia.
        * intros a'' B1 B2 B3. apply Alt in B3; lia.
      + split; [lia|]. split; [lia|]. split.
        * apply Alt; lia.
        * intros a'' B1 B2 B3. apply Alt in B3; lia. }
  exists (f a'). repeat split; auto.
  intros e'' E1 E2 E3. destruct (F3 e'' E1) as (a'' & Ha'' & <-). f_equal. apply A4; auto.
Qed.

Lemma cycle_closed b e l :
  path b (e :: l) -> partner b e 0 -> b = true -> length (e :: l) = P.
Proof.
  intros H Hp Hbt. set (L := e :: l) in *.
  (* the visited set is closed under partners *)
  assert (PP0 : 0 < P) by (destruct Hp as (_ & A & _); lia).
  assert (Hn1 : length L = S (length l)) by reflexivity.
  assert (Hpart : forall t, t < length L -> partner (Nat.odd t) (at_ L t) (at_ L ((t + 1) mod length L))).
  { intros t Ht. destruct (Nat.eq_dec t (length l)) as [->|Ne].
    - replace (length l + 1) with (length L) by lia.
      rewrite Nat.mod_same by lia. rewrite (path_at0 _ _ H). replace (at_ L (length l)) with e by (symmetry; exact (at_last _ _ _ H)).
      replace (Nat.odd (length l)) with b; auto.
      pose proof (path_side _ _ H) as Hb'. rewrite Hn1, Nat.even_succ in Hb'. auto.
    - rewrite Nat.mod_small by lia. replace (t + 1) with (S t) by lia.
      eapply path_partner; eauto. lia. }
  pose proof (path_side _ _ H) as Hev. rewrite Hbt in Hev. symmetry in Hev. apply Nat.even_spec in Hev.
  destruct Hev as [m Hm].
  assert (HinL : forall x, In x L <-> exists t, t < length L /\ at_ L t = x).
  { intros x. rewrite in_rev. split.
    - intros Hin. apply In_nth with (d := 0) in Hin. rewrite rev_length in Hin. exact Hin.
    - intros (t & Ht & <-). apply nth_In. rewrite rev_length. auto. }
  assert (Closed : forall s x y, In x L -> partner s x y -> In y L).
  { intros s x y Hx Hxy. apply HinL in Hx. destruct Hx as (t & Ht & <-).
    destruct (Bool.bool_dec (Nat.odd t) s) as [<-|Ne].
    - rewrite (partner_fun _ _ _ _ Hxy (Hpart t Ht)). apply HinL. eexists; split; [|reflexivity].
      apply Nat.mod_upper_bound; lia.
    - set (p := if Nat.eq_dec t 0 then length L - 1 else t - 1).
      assert (Hp1 : p < length L) by (unfold p; destruct (Nat.eq_dec t 0); lia).
      assert (Hp2 : (p + 1) mod length L = t).
      { unfold p. destruct (Nat.eq_dec t 0) as [->|].
        - replace (length L - 1 + 1) with (length L) by lia. apply Nat.mod_same; lia.
        - replace (t-1+1) with t by lia. apply Nat.mod_small; auto. }
      assert (Hodd : Nat.odd p = s).
      { assert (Nat.odd p = negb (Nat.odd t)) as ->.
        { unfold p. destruct (Nat.eq_dec t 0) as [->|].
          - replace (length L - 1) with (1 + 2 * (m - 1)) by lia.
            rewrite Nat.odd_add_mul_2. reflexivity.
          - destruct t; [lia|]. replace (S t - 1) with t by lia.
            rewrite Nat.odd_succ, Nat.negb_even. auto. }
        destruct (Nat.odd t), s; auto; congruence. }
      pose proof (Hpart p Hp1) as Q. rewrite Hodd, Hp2 in Q. apply partner_sym in Q.
      rewrite (partner_fun _ _ _ _ Hxy Q). apply HinL. eauto. }
  destruct cycle_positions as (f & PP & Ev & F1 & F2 & F3 & Alt).
  destruct (F3 0 PP) as (a0 & Ha0 & E0).
  (* successor position of a visited edge is visited *)
  assert (Succ : forall a, a < P -> In (f a) L -> In (f ((a + 1) mod P)) L).
  { intros a Ha Hin.
    assert (Ha1 : (a + 1) mod P < P) by (apply Nat.mod_upper_bound; lia).
    set (s := Nat.odd a).
    destruct (cycle_partner s (f a) (F1 a Ha)) as (y & Hy).
    replace (f ((a + 1) mod P)) with y; [eapply Closed; eauto|]. symmetry.
    destruct Hy as (_ & _ & _ & _ & U). apply U; auto.
    - intros E. apply F2 in E; auto. destruct (Nat.eq_dec (a+1) P) as [EE|].
      + rewrite EE, Nat.mod_same in E by lia. lia.
      + rewrite Nat.mod_small in E by lia. lia.
    - destruct s eqn:Es; unfold s in Es.
      + apply Nat.odd_spec in Es. destruct Es as [q ->].
        apply Alt; auto.
        * destruct (Nat.eq_dec (2*q+1+1) P) as [EE|]; [rewrite EE, Nat.mod_same by lia; lia|rewrite Nat.mod_small by lia; lia].
        * destruct (Nat.eq_dec (2*q+1+1) P) as [EE|].
          -- rewrite EE, Nat.mod_same, Nat.mod_small by lia. lia.
          -- rewrite (Nat.mod_small (2*q+1+1) P) by lia. rewrite Nat.mod_small by lia. lia.
      + rewrite <- Nat.negb_even in Es. apply negb_false_iff, Nat.even_spec in Es. destruct Es as [q ->].
        rewrite Nat.mod_small by lia. apply Alt; lia. }
  assert (All : forall m, In (f ((a0 + m) mod P)) L).
  { induction m0 as [|k IH].
    - rewrite Nat.add_0_r, Nat.mod_small by auto. rewrite E0. apply HinL. exists 0. split; [lia|].
      apply (path_at0 _ _ H).
    - apply Succ in IH; [|apply Nat.mod_upper_bound; lia].
      rewrite Nat.add_mod_idemp_l in IH by lia. replace (a0 + k + 1) with (a0 + S k) in IH by lia. auto. }
  assert (incl (seq 0 P) L).
  { intros x Hx. apply in_seq in Hx. destruct (F3 x) as (a & Ha & <-); [lia|].
    specialize (All (if le_lt_dec a0 a then a - a0 else a + P - a0)).
    destruct (le_lt_dec a0 a).
    - replace (a0 + (a - a0)) with a in All by lia. rewrite Nat.mod_small in All; auto.
    - replace (a0 + (a + P - a0)) with (a + 1 * P) in All by lia. rewrite Nat.mod_add, Nat.mod_small in All by lia. auto. }
  apply Nat.le_antisymm.
  - eapply path_length; eauto.
  - rewrite <- (seq_length P 0) at 1. apply NoDup_incl_length; auto. apply seq_NoDup.
Qed.

(** The endpoints of a cycle cancel. *)
Lemma fold_xor_perm (l l' : list N) : Permutation l l' -> forall x, fold_left N.lxor l x = fold_left N.lxor l' x.
Proof.
  induction 1; intros z; cbn; auto.
  - f_equal. rewrite !N.lxor_assoc. f_equal. apply N.lxor_comm.
  - rewrite IHPermutation1. auto.
Qed.

Lemma fold_pairs (h : nat -> N) m : forall s x, (forall i, i < m -> h (s + 2 * i) = h (s + 2 * i + 1)) ->
  fold_left N.lxor (map h (seq s (2 * m))) x = x.
Proof.
  induction m as [|m IH]; intros s x H; [reflexivity|].
  replace (2 * S m) with (S (S (2 * m))) by lia. cbn [seq map fold_left].
  pose proof (H 0 ltac:(lia)) as E. rewrite Nat.mul_0_r, Nat.add_0_r in E.
  replace (s + 1) with (S s) in E by lia. rewrite <- E, N.lxor_assoc, N.lxor_nilpotent, N.lxor_0_r.
  apply IH. intros i Hi. specialize (H (S i) ltac:(lia)).
  replace (S (S s) + 2 * i) with (s + 2 * S i) by lia. auto.
Qed.

Lemma cycle_xor b : fold_left N.lxor (map (g b) (seq 0 P)) 0%N = 0%N.
Proof.
  destruct cycle_positions as (f & PP & Ev & F1 & F2 & F3 & Alt).
  assert (Perm : Permutation (map f (seq 0 P)) (seq 0 P)).
  { apply NoDup_Permutation_bis.
    - apply NoDup_nth with (d := f 0). intros i j Hi Hj. rewrite map_length, seq_length in *.
      rewrite !map_nth, !seq_nth by auto. intros. apply F2; auto.
    - rewrite map_length. lia.
    - intros x Hx. apply in_map_iff in Hx. destruct Hx as (y & <- & Hy). apply in_seq in Hy. apply in_seq.
      specialize (F1 y ltac:(lia)). lia. }
  destruct b.
  - (* rotate by one: position P-1 first *)
    rewrite <- (fold_xor_perm _ _ (Permutation_map (g true) Perm)). rewrite map_map.
    set (h := fun i => if Nat.eq_dec i 0 then g true (f (P - 1)) else g true (f (i - 1))).
    transitivity (fold_left N.lxor (map h (seq 0 (2 * (P / 2)))) 0%N); [|apply fold_pairs].
    + rewrite <- Ev. apply fold_xor_perm.
      replace (seq 0 P) with (seq 0 (P - 1) ++ [P - 1]) at 1.
      2:{ rewrite <- seq_S. f_equal. lia. }
      rewrite map_app. cbn [map]. rewrite <- Permutation_cons_append.
      replace (seq 0 P) with (0 :: seq 1 (P - 1)) by (replace P with (S (P-1)) at 2 by lia; reflexivity).
      cbn [map]. unfold h at 1. cbn [Nat.eq_dec]. 
      replace (map h (seq 1 (P - 1))) with (map (fun x => g true (f x)) (seq 0 (P - 1))); auto.
      rewrite <- seq_shift, map_map. apply map_ext. intros a. unfold h.
      destruct (Nat.eq_dec (S a) 0); [lia|]. f_equal. f_equal. lia.
    + intros i Hi. cbn [Nat.add]. unfold h. destruct (Nat.eq_dec (2*i) 0), (Nat.eq_dec (2*i+1) 0); try lia.
      * apply Alt; try lia. replace (P-1+1) with P by lia. rewrite Nat.mod_same by lia.
        replace (2*i+1-1+1) with 1 by lia. rewrite Nat.mod_small by lia. reflexivity.
      * apply Alt; try lia. rewrite !Nat.mod_small by lia. lia.
  - rewrite <- (fold_xor_perm _ _ (Permutation_map (g false) Perm)). rewrite map_map.
    rewrite Ev. apply fold_pairs. intros i Hi. cbn [Nat.add]. apply Alt; lia.
Qed.
End Complete.
End Cycle.
