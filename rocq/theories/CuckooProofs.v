(** Proofs about the cuckoo package. *)
From Coq Require Import NArith ZArith List Permutation Bool Lia ZifyBool ZifyNat ZifyN.
From Verif Require Import Base BaseFacts CryptoModel CryptoSpec CryptoProofs CuckooModel CuckooSpec CuckooCycle.
Import ListNotations.
Open Scope N_scope.
Ltac Zify.zify_post_hook ::= Z.div_mod_to_equations.

Definition gv (uvs : list N) (b : bool) (e : nat) : N := nth (2 * e + Nat.b2n b)%nat uvs 0.
Definition ix (e : nat) (b : bool) : N := N.of_nat (2 * e + Nat.b2n b).

Lemma ix_inj e b e' b' : ix e b = ix e' b' -> e = e' /\ b = b'.
Proof.
  unfold ix. intros H. apply Nat2N.inj in H.
  destruct b, b'; cbn [Nat.b2n] in H; split; auto; lia.
Qed.
Lemma ix_xor e b : N.lxor (ix e b) 1 = ix e (negb b).
Proof.
  unfold ix. apply N.bits_inj. intros n. rewrite N.lxor_spec. 
  destruct b; cbn [negb Nat.b2n].
  - replace (N.of_nat (2 * e + 1)) with (2 * N.of_nat e + 1) by lia.
    replace (N.of_nat (2 * e + 0)) with (2 * N.of_nat e) by lia.
    destruct (N.eq_dec n 0) as [->|].
    + rewrite N.testbit_odd_0, N.testbit_even_0. reflexivity.
    + replace n with (N.succ (N.pred n)) by lia.
      rewrite N.testbit_odd_succ, N.testbit_even_succ by lia.
      change 1 with (2 * 0 + 1) at 1. rewrite N.testbit_odd_succ, N.bits_0 by lia. apply xorb_false_r.
  - replace (N.of_nat (2 * e + 1)) with (2 * N.of_nat e + 1) by lia.
    replace (N.of_nat (2 * e + 0)) with (2 * N.of_nat e) by lia.
    destruct (N.eq_dec n 0) as [->|].
    + rewrite N.testbit_odd_0, N.testbit_even_0. reflexivity.
    + replace n with (N.succ (N.pred n)) by lia.
      rewrite N.testbit_odd_succ, N.testbit_even_succ by lia.
      change 1 with (2 * 0 + 1) at 1. rewrite N.testbit_odd_succ, N.bits_0 by lia. apply xorb_false_r.
Qed.
Lemma ix_zero e b : ix e b = 0 <-> e = 0%nat /\ b = false.
Proof. unfold ix. destruct b; cbn [Nat.b2n]; split; intros; try lia. Qed.

Section Walk.
Variable P : nat.
Variable uvs : list N.
Hypothesis HP : (0 < P)%nat.
Hypothesis Hlen : length uvs = (2 * P)%nat.
Notation g := (gv uvs).

Lemma ix_lt e b : (e < P)%nat -> ix e b < lenN uvs.
Proof. unfold ix, lenN. rewrite Hlen. destruct b; cbn [Nat.b2n]; lia. Qed.
Lemma idx_ix e b : (e < P)%nat -> idx uvs (ix e b) = Done (g b e).
Proof. intros H. rewrite (idx_Done _ _ 0) by (apply ix_lt; auto). unfold ix, gv. rewrite Nat2N.id. auto. Qed.

Lemma ix_next e s b : (e < P)%nat ->
  (ix ((e + s) mod P) b + 2) mod (2 * N.of_nat P) = ix ((e + (s + 1)) mod P) b.
Proof.
  intros He. unfold ix. 
  assert (H : ((e + (s + 1)) mod P = ((e + s) mod P + 1) mod P)%nat).
  { rewrite Nat.add_mod_idemp_l by lia. f_equal. lia. }
  rewrite H. set (x := ((e + s) mod P)%nat). assert (x < P)%nat by (apply Nat.mod_upper_bound; lia).
  destruct (Nat.eq_dec (x + 1) P) as [E|E].
  - rewrite E, Nat.mod_same by lia.
    destruct b; cbn [Nat.b2n].
    + replace (N.of_nat (2 * x + 1) + 2) with (1 + 1 * (2 * N.of_nat P)) by lia.
      rewrite N.mod_add, N.mod_small by lia. reflexivity.
    + replace (N.of_nat (2 * x + 0) + 2) with (0 + 1 * (2 * N.of_nat P)) by lia.
      rewrite N.mod_add, N.mod_small by lia. reflexivity.
  - rewrite (Nat.mod_small (x + 1)) by lia. rewrite N.mod_small; destruct b; cbn [Nat.b2n]; lia.
Qed.

Definition at_off (e s : nat) : nat := ((e + s) mod P)%nat.

Lemma at_off_lt e s : (at_off e s < P)%nat.
Proof. apply Nat.mod_upper_bound; lia. Qed.
Lemma at_off_cover e e' : (e < P)%nat -> (e' < P)%nat -> e' <> e ->
  exists s, (1 <= s < P)%nat /\ at_off e s = e'.
Proof.
  intros H1 H2 H3. unfold at_off. destruct (le_lt_dec e e').
  - exists (e' - e)%nat. split; [lia|]. rewrite Nat.mod_small; lia.
  - exists (e' + P - e)%nat. split; [lia|]. replace (e + (e' + P - e))%nat with (e' + 1 * P)%nat by lia.
    rewrite Nat.mod_add, Nat.mod_small; lia.
Qed.
Lemma at_off_inj e s t : (e < P)%nat -> (s < P)%nat -> (t < P)%nat -> at_off e s = at_off e t -> s = t.
Proof.
  intros He Hs Ht E. unfold at_off in E.
  assert (Q : forall s, (s < P)%nat -> ((e + s) mod P = if le_lt_dec P (e + s) then e + s - P else e + s)%nat).
  { intros x Hx. destruct (le_lt_dec P (e + x)); [|apply Nat.mod_small; auto].
    replace (e + x)%nat with (e + x - P + 1 * P)%nat at 1 by lia. rewrite Nat.mod_add, Nat.mod_small; lia. }
  rewrite !Q in E by auto. destruct (le_lt_dec P (e+s)), (le_lt_dec P (e+t)); lia.
Qed.
Lemma at_off_0 e : (e < P)%nat -> at_off e 0 = e.
Proof. intros. unfold at_off. rewrite Nat.add_0_r, Nat.mod_small; auto. Qed.
Lemma at_off_P e : (e < P)%nat -> at_off e P = e.
Proof. intros. unfold at_off. replace (e + P)%nat with (e + 1 * P)%nat by lia. rewrite Nat.mod_add, Nat.mod_small; lia. Qed.

Definition find_body (i : N) := fun '(j, k) =>
    k <- modc (k + 2) (2 * N.of_nat P) ;;
    if k =? i then Done (Break (inr j))
    else
      a <- idx uvs k ;;
      b <- idx uvs i ;;
      if a =? b then
        if negb (j =? i) then Done (Break (inl ErrPowBranch)) else Done (Continue (k, k))
      else Done (Continue (j, k)).

Definition branch_at (b : bool) (e : nat) : Prop :=
  exists e1 e2, (e1 < P)%nat /\ (e2 < P)%nat /\ e1 <> e /\ e2 <> e /\ e1 <> e2 /\
    g b e1 = g b e /\ g b e2 = g b e.
Definition dead_at (b : bool) (e : nat) : Prop :=
  forall e', (e' < P)%nat -> e' <> e -> g b e' <> g b e.

Definition find_post (b : bool) (e : nat) (r : cuckoo_err + N) : Prop :=
  match r with
  | inl err => err = ErrPowBranch /\ branch_at b e
  | inr j => (j = ix e b /\ dead_at b e) \/ exists e', j = ix e' b /\ partner P g b e e'
  end.

Lemma find_loop b e : (e < P)%nat -> forall r s fuel j,
  (s + r = P)%nat -> (0 < r)%nat -> (r <= fuel)%nat ->
  ((j = ix e b /\ forall t, (1 <= t <= s)%nat -> g b (at_off e t) <> g b e) \/
   (exists t0, (1 <= t0 <= s)%nat /\ j = ix (at_off e t0) b /\ g b (at_off e t0) = g b e /\
      forall t, (1 <= t <= s)%nat -> t <> t0 -> g b (at_off e t) <> g b e)) ->
  exists res, loop_fuel fuel (find_body (ix e b)) (j, ix (at_off e s) b) = Done res /\ find_post b e res.
Proof.
  intros He. induction r as [|r IH]; intros s fuel j Hs Hr Hf Hinv; [lia|].
  destruct fuel as [|fuel]; [lia|]. cbn [loop_fuel find_body].
  unfold modc. assert (2 * N.of_nat P =? 0 = false) as -> by lia. cbn [bind].
  replace ((ix (at_off e s) b + 2) mod (2 * N.of_nat P)) with (ix (at_off e (s + 1)) b)
    by (symmetry; apply ix_next; auto).
  destruct (N.eqb_spec (ix (at_off e (s + 1)) b) (ix e b)) as [E|E].
  - apply ix_inj in E. destruct E as [E _].
    assert (HsP : (s + 1 = P)%nat).
    { destruct (Nat.eq_dec (s + 1) P); auto. rewrite <- (at_off_0 e) in E at 2 by auto.
      apply at_off_inj in E; lia. }
    cbn [bind]. eexists; split; [reflexivity|]. destruct Hinv as [[-> H]|(t0 & T0 & -> & Eg & H)].
    + left. split; auto. intros e' He' Hne. destruct (at_off_cover e e') as (t & Ht & <-); auto. apply H. lia.
    + right. eexists; split; [reflexivity|]. repeat split; auto using at_off_lt.
      * intros E2. rewrite <- (at_off_0 e) in E2 at 2 by auto. apply at_off_inj in E2; lia.
      * intros e'' H1 H2 H3. destruct (at_off_cover e e'') as (t & Ht & <-); auto.
        destruct (Nat.eq_dec t t0) as [->|]; auto. exfalso. apply (H t); auto. lia.
  - assert (s + 1 < P)%nat.
    { destruct (Nat.eq_dec (s + 1) P) as [E2|]; [|lia]. exfalso. apply E. rewrite E2, at_off_P; auto. }
    rewrite !idx_ix by auto using at_off_lt. cbn [bind].
    destruct (N.eqb_spec (g b (at_off e (s + 1))) (g b e)) as [Eg|Eg].
    + destruct Hinv as [[-> H1]|(t0 & T0 & -> & Eg0 & H1)].
      * rewrite N.eqb_refl. cbn [negb bind]. apply IH; try lia. right. exists (s + 1)%nat.
        split; [lia|]. split; auto. split; auto. intros t Ht Hne. apply H1. lia.
      * assert (ix (at_off e t0) b =? ix e b = false) as ->.
        { apply N.eqb_neq. intros E2. apply ix_inj in E2. destruct E2 as [E2 _].
          rewrite <- (at_off_0 e) in E2 at 2 by auto. apply at_off_inj in E2; lia. }
        cbn [negb bind]. eexists; split; [reflexivity|]. split; auto.
        exists (at_off e t0), (at_off e (s + 1)).
        repeat split; auto using at_off_lt; intros E2;
          try (rewrite <- (at_off_0 e) in E2 at 2 by auto; apply at_off_inj in E2; lia).
        apply at_off_inj in E2; lia.
    + cbn [bind]. apply IH; try lia. destruct Hinv as [[-> H1]|(t0 & T0 & -> & Eg0 & H1)].
      * left. split; auto. intros t Ht. destruct (Nat.eq_dec t (s + 1)) as [->|]; auto. apply H1. lia.
      * right. exists t0. split; [lia|]. split; auto. split; auto. intros t Ht Hne.
        destruct (Nat.eq_dec t (s + 1)) as [->|]; auto. apply H1; lia.
Qed.

Lemma find_match_spec fuel b e : (e < P)%nat -> (P <= fuel)%nat ->
  exists res, find_match fuel uvs (N.of_nat P) (ix e b) = Done res /\ find_post b e res.
Proof.
  intros He Hf. unfold find_match. fold (find_body (ix e b)).
  replace (ix e b, ix e b) with (ix e b, ix (at_off e 0) b) by (rewrite at_off_0; auto).
  apply (find_loop b e He P 0 fuel); try lia. left. split; auto. intros; lia.
Qed.

Definition walk_post (r : cuckoo_err + N) : Prop :=
  match r with
  | inl ErrPowBranch => exists b e, (e < P)%nat /\ branch_at b e
  | inl ErrPowDeadEnd => exists b e, (e < P)%nat /\ dead_at b e
  | inl _ => False
  | inr n => exists b e l, path P g b (e :: l) /\ partner P g b e 0 /\ b = true /\ n = lenN (e :: l)
  end.

Definition walk_body (fuel : nat) := fun '(i, n) =>
    r <- find_match fuel uvs (N.of_nat P) i ;;
    match r with
    | inl e => Done (Break (inl e))
    | inr j =>
        if j =? i then Done (Break (inl ErrPowDeadEnd))
        else
          let i := N.lxor j 1 in
          let n := n + 1 in
          if i =? 0 then Done (Break (inr n)) else Done (Continue (i, n))
    end.

Lemma walk_loop ff : (P <= ff)%nat -> forall r b e l fuel, path P g b (e :: l) ->
  (length l + r = P)%nat -> (r <= fuel)%nat ->
  exists res, loop_fuel fuel (walk_body ff) (ix e b, lenN l) = Done res /\ walk_post res.
Proof.
  intros Hff. induction r as [|r IH]; intros b e l fuel Hp Hr Hf.
  { pose proof (path_length _ _ _ _ Hp) as Q. cbn in Q. lia. }
  assert (He : (e < P)%nat). { pose proof (path_lt _ _ _ _ Hp) as F. inversion F; auto. }
  destruct fuel as [|fuel]; [lia|]. cbn [loop_fuel walk_body].
  destruct (find_match_spec ff b e He Hff) as (res & -> & Hres). cbn [bind].
  destruct res as [err|j].
  - destruct Hres as [-> Hb]. cbn [bind]. eexists; split; [reflexivity|]. cbn. eauto.
  - destruct Hres as [[-> Hd]|(e' & -> & Hpart)].
    + rewrite N.eqb_refl. cbn [bind]. eexists; split; [reflexivity|]. cbn. eauto.
    + assert (ix e' b =? ix e b = false) as ->.
      { apply N.eqb_neq. intros E. apply ix_inj in E. destruct E as [-> _]. destruct Hpart as (_ & _ & Q & _). auto. }
      cbv zeta. rewrite ix_xor.
      destruct (in_dec Nat.eq_dec e' (e :: l)) as [Hin|Hnin].
      * destruct (path_next _ _ _ _ _ _ Hp Hpart Hin) as [-> ->]. cbn [negb].
        change (ix 0 false =? 0) with true. cbn [bind]. eexists; split; [reflexivity|].
        exists true, e, l. repeat split; auto; try apply Hpart. rewrite lenN_cons. lia.
      * destruct (N.eqb_spec (ix e' (negb b)) 0) as [E|E].
        -- apply ix_zero in E. destruct E as [-> _]. exfalso. apply Hnin.
           apply in_rev. pose proof (path_at0 _ _ _ _ Hp) as Q. unfold at_ in Q. rewrite <- Q at 1.
           apply nth_In. rewrite rev_length. cbn. lia.
        -- cbn [bind]. replace (lenN l + 1) with (lenN (e :: l)) by (rewrite lenN_cons; lia).
           apply IH; try (cbn [length]; lia). constructor; auto.
Qed.

Lemma walk_spec fuel : (P <= fuel)%nat ->
  exists res, walk fuel uvs (N.of_nat P) = Done res /\ walk_post res.
Proof.
  intros Hf. unfold walk. fold (walk_body fuel). change (0, 0) with (ix 0 false, lenN (@nil nat)).
  apply (walk_loop fuel Hf P); try (cbn; lia). constructor; auto.
Qed.
End Walk.

(** ** The fill *)

Lemma fill_spec mask (edges : list N) (U V : N -> N) body :
  let P := length edges in
  (forall n u0 x0 x1, (n < P)%nat -> length u0 = (2 * P)%nat ->
     body (N.of_nat n) (u0, x0, x1) =
       let e := nth n edges 0 in
       if mask <? e then Done (Break ErrPowTooBig)
       else Done (Continue (set_nth (set_nth u0 (2 * n) (U e)) (2 * n + 1) (V e),
                            N.lxor x0 (U e), N.lxor x1 (V e)))) ->
  exists r, for_break P 0 body (zeros (2 * N.of_nat P), 0, 0) = Done r /\
  match r with
  | inl err => err = ErrPowTooBig /\ ~ Forall (fun e => e <= mask) edges
  | inr (uvs, x0, x1) => Forall (fun e => e <= mask) edges /\ length uvs = (2 * P)%nat /\
      (forall e, (e < P)%nat -> gv uvs false e = U (nth e edges 0) /\ gv uvs true e = V (nth e edges 0)) /\
      x0 = fold_left N.lxor (map U edges) 0 /\ x1 = fold_left N.lxor (map V edges) 0
  end.
Proof.
  intros P Hbody. assert (LP : length edges = P) by reflexivity. clearbody P.
  assert (G : forall r s u0 x0 x1, (s + r = P)%nat -> length u0 = (2 * P)%nat ->
     Forall (fun e => e <= mask) (firstn s edges) ->
     (forall e, (e < s)%nat -> gv u0 false e = U (nth e edges 0) /\ gv u0 true e = V (nth e edges 0)) ->
     x0 = fold_left N.lxor (map U (firstn s edges)) 0 -> x1 = fold_left N.lxor (map V (firstn s edges)) 0 ->
     exists r', for_break r (N.of_nat s) body (u0, x0, x1) = Done r' /\
     match r' with
     | inl err => err = ErrPowTooBig /\ ~ Forall (fun e => e <= mask) edges
     | inr (uvs, x0, x1) => Forall (fun e => e <= mask) edges /\ length uvs = (2 * P)%nat /\
         (forall e, (e < P)%nat -> gv uvs false e = U (nth e edges 0) /\ gv uvs true e = V (nth e edges 0)) /\
         x0 = fold_left N.lxor (map U edges) 0 /\ x1 = fold_left N.lxor (map V edges) 0
     end).
  { induction r as [|r IH]; intros s u0 x0 x1 Hs Hl HF Hg -> ->.
    - cbn [for_break]. eexists; split; [reflexivity|]. assert (s = P) as -> by lia.
      rewrite <- LP, firstn_all in *. auto.
    - cbn [for_break]. rewrite Hbody by (auto; lia). cbv zeta.
      assert (Hsn : firstn (S s) edges = firstn s edges ++ [nth s edges 0]) by (apply firstn_succ_snoc, nth_error_nth'; lia).
      destruct (N.ltb_spec mask (nth s edges 0)) as [Hb|Hb]; cbn [bind].
      + eexists; split; [reflexivity|]. split; auto. intros F. rewrite Forall_forall in F.
        specialize (F (nth s edges 0) (nth_In edges 0 (n:=s) ltac:(lia))). cbn in F. lia.
      + replace (N.of_nat s + 1) with (N.of_nat (S s)) by lia. apply IH; try lia.
        * rewrite !set_nth_length. auto.
        * rewrite Hsn. apply Forall_app; auto.
        * intros e He. unfold gv. rewrite !nth_set_nth by (rewrite ?set_nth_length; lia). cbn [Nat.b2n].
          destruct (Nat.eq_dec e s) as [->|Ne].
          -- repeat match goal with |- context [Nat.eqb ?a ?b] => destruct (Nat.eqb_spec a b); try lia end; auto.
          -- repeat match goal with |- context [Nat.eqb ?a ?b] => destruct (Nat.eqb_spec a b); try lia end.
             apply Hg. lia.
        * rewrite Hsn, map_app, fold_left_app. auto.
        * rewrite Hsn, map_app, fold_left_app. auto. }
  change 0 with (N.of_nat 0) at 1. apply G; auto; try lia.
  - rewrite zeros_length. lia.
  - constructor.
Qed.

(** ** What the checks after the fill decide *)

Definition edge_pairs (U V : N -> N) (edges : list N) : list (N * N) := map (fun e => (U e, V e)) edges.

Lemma edge_list_pairs uvs U V edges :
  (forall e, (e < length edges)%nat -> gv uvs false e = U (nth e edges 0) /\ gv uvs true e = V (nth e edges 0)) ->
  edge_list (length edges) (gv uvs) = edge_pairs U V edges.
Proof.
  intros H. unfold edge_list, edge_pairs. apply (list_eq_nth _ _ (0, 0)).
  - rewrite !map_length, seq_length. auto.
  - intros i Hi. rewrite map_length, seq_length in Hi.
    rewrite nth_indep with (d' := (fun e => (gv uvs false e, gv uvs true e)) 0%nat) by (rewrite map_length, seq_length; auto).
    rewrite (map_nth (fun e => (gv uvs false e, gv uvs true e))), seq_nth by auto.
    rewrite nth_indep with (d' := (fun e => (U e, V e)) 0) by (rewrite map_length; auto).
    rewrite (map_nth (fun e => (U e, V e))). cbn [Nat.add]. destruct (H i Hi) as [-> ->]. auto.
Qed.

Lemma endpoint_pairs uvs U V edges b e :
  (forall e, (e < length edges)%nat -> gv uvs false e = U (nth e edges 0) /\ gv uvs true e = V (nth e edges 0)) ->
  (e < length edges)%nat -> endpoint (edge_pairs U V edges) b e = gv uvs b e.
Proof.
  intros H He. unfold endpoint, edge_pairs.
  rewrite nth_indep with (d' := (fun e => (U e, V e)) 0) by (rewrite map_length; auto).
  rewrite (map_nth (fun e => (U e, V e))). destruct (H e He) as [E1 E2]. destruct b; cbn [fst snd]; auto.
Qed.

(** The verdict a verifier should give on edges within the mask. *)
Definition verdict_ok (E : list (N * N)) (r : bool * option cuckoo_err) : Prop :=
  match r with
  | (true, None) => single_cycle E
  | (false, Some ErrPowNotMatching) => unmatched E
  | (false, Some ErrPowBranch) => ~ unmatched E /\ has_branch E
  | (false, Some ErrPowDeadEnd) => ~ unmatched E /\ has_dead_end E
  | (false, Some ErrPowShortCycle) => ~ unmatched E /\ has_short_cycle E
  | _ => False
  end.

Lemma single_cycle_matched E : single_cycle E -> ~ unmatched E.
Proof.
  intros C.
  set (g := fun (b : bool) e => endpoint E b e).
  assert (HE : edge_list (length E) g = E).
  { unfold edge_list. apply (list_eq_nth _ _ (0, 0)). rewrite map_length, seq_length; auto.
    intros i Hi. rewrite map_length, seq_length in Hi.
    rewrite nth_indep with (d' := (fun e => (g false e, g true e)) 0%nat) by (rewrite map_length, seq_length; auto).
    rewrite (map_nth (fun e => (g false e, g true e))), seq_nth by auto. cbn. destruct (nth i E (0,0)); auto. }
  rewrite <- HE in C.
  pose proof (cycle_xor _ _ C false) as X0. pose proof (cycle_xor _ _ C true) as X1.
  assert (M : forall b, map (g b) (seq 0 (length E)) = map (if b then snd else fst) E).
  { intros b. rewrite <- HE at 2. unfold edge_list. rewrite map_map. apply map_ext. destruct b; auto. }
  rewrite M in X0, X1. intros [H|H]; auto.
Qed.

Lemma single_cycle_no_branch E : single_cycle E -> ~ has_branch E.
Proof.
  intros C (s & a & b & c & Ha & Hb & Hc & N1 & N2 & N3 & E1 & E2).
  set (g := fun (b : bool) e => endpoint E b e).
  assert (HE : edge_list (length E) g = E).
  { unfold edge_list. apply (list_eq_nth _ _ (0, 0)). rewrite map_length, seq_length; auto.
    intros i Hi. rewrite map_length, seq_length in Hi.
    rewrite nth_indep with (d' := (fun e => (g false e, g true e)) 0%nat) by (rewrite map_length, seq_length; auto).
    rewrite (map_nth (fun e => (g false e, g true e))), seq_nth by auto. cbn. destruct (nth i E (0,0)); auto. }
  rewrite <- HE in C. destruct (cycle_partner _ _ C s a Ha) as (e' & _ & _ & _ & _ & U).
  assert (b = e') by (apply U; auto). assert (c = e') by (apply U; auto; unfold g; congruence). congruence.
Qed.

Lemma single_cycle_no_dead_end E : single_cycle E -> ~ has_dead_end E.
Proof.
  intros C (s & a & Ha & D).
  set (g := fun (b : bool) e => endpoint E b e).
  assert (HE : edge_list (length E) g = E).
  { unfold edge_list. apply (list_eq_nth _ _ (0, 0)). rewrite map_length, seq_length; auto.
    intros i Hi. rewrite map_length, seq_length in Hi.
    rewrite nth_indep with (d' := (fun e => (g false e, g true e)) 0%nat) by (rewrite map_length, seq_length; auto).
    rewrite (map_nth (fun e => (g false e, g true e))), seq_nth by auto. cbn. destruct (nth i E (0,0)); auto. }
  rewrite <- HE in C. destruct (cycle_partner _ _ C s a Ha) as (e' & _ & He' & Hn & Q & _).
  apply (D e'); auto.
Qed.

Lemma finish_spec fuel edges U V uvs x0 x1 :
  let P := length edges in
  (0 < P)%nat -> (P <= fuel)%nat -> length uvs = (2 * P)%nat ->
  (forall e, (e < P)%nat -> gv uvs false e = U (nth e edges 0) /\ gv uvs true e = V (nth e edges 0)) ->
  x0 = fold_left N.lxor (map U edges) 0 -> x1 = fold_left N.lxor (map V edges) 0 ->
  exists r, finish fuel (N.of_nat P) (inr (uvs, x0, x1)) = Done r /\
    verdict_ok (edge_pairs U V edges) r /\ (single_cycle (edge_pairs U V edges) -> r = (true, None)).
Proof.
  intros P HP Hf Hl Hg -> ->. set (E := edge_pairs U V edges).
  assert (LE : length E = P) by (unfold E, edge_pairs; rewrite map_length; auto).
  assert (M1 : map fst E = map U edges) by (unfold E, edge_pairs; rewrite map_map; auto).
  assert (M2 : map snd E = map V edges) by (unfold E, edge_pairs; rewrite map_map; auto).
  assert (HU : unmatched E <-> N.lor (fold_left N.lxor (map U edges) 0) (fold_left N.lxor (map V edges) 0) <> 0).
  { unfold unmatched. rewrite M1, M2. rewrite N.lor_eq_0_iff.
    destruct (N.eq_dec (fold_left N.lxor (map U edges) 0) 0), (N.eq_dec (fold_left N.lxor (map V edges) 0) 0); tauto. }
  unfold finish. destruct (N.eqb_spec (N.lor (fold_left N.lxor (map U edges) 0) (fold_left N.lxor (map V edges) 0)) 0) as [Z|Z]; cbn [negb].
  - destruct (walk_spec P uvs HP Hl fuel Hf) as (res & -> & Hres). cbn [bind].
    assert (EP : edge_list P (gv uvs) = E) by (apply edge_list_pairs; auto).
    assert (GE : forall b e, (e < P)%nat -> endpoint E b e = gv uvs b e) by (intros; apply endpoint_pairs; auto).
    assert (NU : ~ unmatched E) by (rewrite HU; auto).
    destruct res as [err|n].
    + destruct err; cbn in Hres; try contradiction.
      * assert (HB : has_branch E).
        { destruct Hres as (b & e & He & e1 & e2 & A1 & A2 & A3 & A4 & A5 & A6 & A7).
          exists b, e, e1, e2. rewrite !LE, !GE by auto. repeat split; auto; congruence. }
        eexists; split; [reflexivity|]. split; [cbn; auto|]. intros C. exfalso. eapply single_cycle_no_branch; eauto.
      * assert (HB : has_dead_end E).
        { destruct Hres as (b & e & He & D). exists b, e. rewrite LE. split; auto.
          intros e' A1 A2. rewrite !GE by auto. apply D; auto. }
        eexists; split; [reflexivity|]. split; [cbn; auto|]. intros C. exfalso. eapply single_cycle_no_dead_end; eauto.
    + destruct Hres as (b & e & l & Hp & Hpart & Hb & ->).
      destruct (N.eqb_spec (lenN (e :: l)) (N.of_nat P)) as [En|En]; cbn [negb].
      * eexists; split; [reflexivity|]. split; [|auto]. cbn. rewrite <- EP. eapply closed_path_cycle; eauto.
        unfold lenN in En. lia.
      * eexists; split; [reflexivity|]. split.
        -- split; auto. destruct (closed_path_subcycle _ _ _ _ _ Hp Hpart Hb) as (c & r & A & B & D).
           exists c, r. rewrite EP in A. split; [auto|]. split; [auto|]. intros ->. rewrite app_nil_r in A. apply Permutation_length in A.
           apply En. unfold lenN. lia.
        -- intros C. exfalso. apply En. rewrite <- EP in C.
           pose proof (cycle_closed _ _ C _ _ _ Hp Hpart Hb). unfold lenN. lia.
  - eexists; split; [reflexivity|]. split; [cbn; apply HU; auto|].
    intros C. exfalso. apply single_cycle_matched in C. apply C, HU; auto.
Qed.

(** ** Verify *)

Definition untup (t : sipstate) : sip := let '(a, b, c, d) := t in mkSip a b c d.

Lemma le_number_value l : le_number l = le_value l.
Proof. induction l; cbn; congruence. Qed.

Lemma Verify_keys blake fuel c header sols : length (blake header) = 32%nat ->
  Verify blake fuel c header sols =
  if negb (Z.of_N (lenN sols) =? c_proofSize c)%Z then Done (false, Some ErrSolsLength)
  else match c_variant c with
       | Cuckoo => cuckoo fuel c (untup (digest_key (blake header))) sols
       | Cuckaroo => cuckaroo fuel c (untup (digest_key (blake header))) sols
       | _ => Done (false, Some ErrUnsupported)
       end.
Proof.
  intros H. unfold Verify. destruct (negb _); auto. cbv zeta. unfold untup, digest_key.
  rewrite !slice_Done by (unfold lenN; lia). cbn [bind]. unfold le_u64.
  unfold lenN. rewrite !firstn_length, !skipn_length, H.
  change (8 <=? N.of_nat (Nat.min (N.to_nat (8 - 0)) (32 - N.to_nat 0))) with true.
  change (8 <=? N.of_nat (Nat.min (N.to_nat (16 - 8)) (32 - N.to_nat 8))) with true.
  change (8 <=? N.of_nat (Nat.min (N.to_nat (24 - 16)) (32 - N.to_nat 16))) with true.
  change (8 <=? N.of_nat (Nat.min (N.to_nat (32 - 24)) (32 - N.to_nat 24))) with true.
  cbn match. rewrite !firstn_firstn. reflexivity.
Qed.

(** Endpoints as computed by the client's hash function. *)
Definition cuckoo_endpoints (c : client) (keys : sip) (U V : N -> N) (edges : list N) : Prop :=
  forall e, In e edges -> e <= c_edgeMask c ->
    match c_variant c with
    | Cuckoo => call_node (c_sipnode c) (c_edgeMask c) keys e 0 = Done (U e) /\
                call_node (c_sipnode c) (c_edgeMask c) keys e 1 = Done (V e)
    | Cuckaroo => exists x, call_block (c_sipblock c) keys e = Done x /\
                U e = N.land x (c_edgeMask c) /\ V e = N.land (N.shiftr x 32) (c_edgeMask c)
    | _ => False
    end.

Definition verify_ok (mask : N) (P : Z) (sols : list N) (E : list (N * N)) (r : bool * option cuckoo_err) : Prop :=
  match r with
  | (false, Some ErrSolsLength) => Z.of_nat (length sols) <> P
  | (false, Some ErrPowTooBig) => Z.of_nat (length sols) = P /\ ~ Forall (fun e => e <= mask) sols
  | _ => Z.of_nat (length sols) = P /\ Forall (fun e => e <= mask) sols /\ verdict_ok E r
  end.

Lemma fill_body_ok (edges : list N) (uvs : list N) n :
  (n < length edges)%nat -> length uvs = (2 * length edges)%nat ->
  forall (x0 x1 : N) u v,
  (uvs0 <- upd uvs (2 * N.of_nat n) u ;;
   uvs1 <- upd uvs0 (2 * N.of_nat n + 1) v ;;
   Done (Continue (R:=cuckoo_err) (uvs1, N.lxor x0 u, N.lxor x1 v))) =
  Done (Continue (set_nth (set_nth uvs (2 * n) u) (2 * n + 1) v, N.lxor x0 u, N.lxor x1 v)).
Proof.
  intros H1 H2 x0 x1 u v. rewrite upd_Done by (unfold lenN; lia). cbn [bind].
  rewrite upd_Done by (unfold lenN; rewrite set_nth_length; lia). cbn [bind].
  replace (N.to_nat (2 * N.of_nat n)) with (2 * n)%nat by lia.
  replace (N.to_nat (2 * N.of_nat n + 1)) with (2 * n + 1)%nat by lia. auto.
Qed.

Definition fill_post (c : client) (edges : list N) (U V : N -> N) (r : cuckoo_err + (list N * N * N)) : Prop :=
  match r with
  | inl err => err = ErrPowTooBig /\ ~ Forall (fun e => e <= c_edgeMask c) edges
  | inr (uvs, x0, x1) => Forall (fun e => e <= c_edgeMask c) edges /\ length uvs = (2 * length edges)%nat /\
      (forall e, (e < length edges)%nat -> gv uvs false e = U (nth e edges 0) /\ gv uvs true e = V (nth e edges 0)) /\
      x0 = fold_left N.lxor (map U edges) 0 /\ x1 = fold_left N.lxor (map V edges) 0
  end.

Lemma cuckoo_fill_post c keys edges U V :
  c_variant c = Cuckoo -> cuckoo_endpoints c keys U V edges ->
  exists r, cuckoo_fill c (N.of_nat (length edges)) keys edges = Done r /\ fill_post c edges U V r.
Proof.
  intros Hv H. unfold cuckoo_endpoints in H. rewrite Hv in H. unfold cuckoo_fill. rewrite Nat2N.id.
  apply fill_spec. intros n u0 x0 x1 Hn Hl. cbv zeta.
  rewrite (idx_Done _ _ 0) by (unfold lenN; lia). rewrite Nat2N.id. cbn [bind].
  destruct (N.ltb_spec (c_edgeMask c) (nth n edges 0)); auto.
  destruct (N.ltb_spec (N.of_nat n) 0); [lia|]. cbn [bind].
  destruct (H (nth n edges 0)) as [E1 E2]; auto. { apply nth_In; auto. }
  rewrite E1, E2. cbn [bind]. apply fill_body_ok with (edges := edges); auto.
Qed.

Lemma cuckaroo_fill_post c keys edges U V :
  c_variant c = Cuckaroo -> cuckoo_endpoints c keys U V edges ->
  exists r, cuckaroo_fill c (N.of_nat (length edges)) keys edges = Done r /\ fill_post c edges U V r.
Proof.
  intros Hv H. unfold cuckoo_endpoints in H. rewrite Hv in H. unfold cuckaroo_fill. rewrite Nat2N.id.
  apply fill_spec. intros n u0 x0 x1 Hn Hl. cbv zeta.
  rewrite (idx_Done _ _ 0) by (unfold lenN; lia). rewrite Nat2N.id. cbn [bind].
  destruct (N.ltb_spec (c_edgeMask c) (nth n edges 0)); auto.
  destruct (N.ltb_spec (N.of_nat n) 0); [lia|]. cbn [bind].
  destruct (H (nth n edges 0)) as (x & E & E1 & E2); auto. { apply nth_In; auto. }
  rewrite E. cbn [bind]. cbv zeta. rewrite E1, E2. apply fill_body_ok with (edges := edges); auto.
Qed.

Lemma Verify_spec blake fuel c header sols U V :
  length (blake header) = 32%nat -> (0 < c_proofSize c)%Z -> (Z.to_nat (c_proofSize c) <= fuel)%nat ->
  c_variant c = Cuckoo \/ c_variant c = Cuckaroo ->
  cuckoo_endpoints c (untup (digest_key (blake header))) U V sols ->
  exists r, Verify blake fuel c header sols = Done r /\
    verify_ok (c_edgeMask c) (c_proofSize c) sols (edge_pairs U V sols) r /\
    (Z.of_nat (length sols) = c_proofSize c -> Forall (fun e => e <= c_edgeMask c) sols ->
     single_cycle (edge_pairs U V sols) -> r = (true, None)).
Proof.
  intros Hb HP Hf Hv HE. rewrite Verify_keys by auto.
  set (keys := untup (digest_key (blake header))) in *.
  destruct (Z.eqb_spec (Z.of_N (lenN sols)) (c_proofSize c)) as [L|L]; cbn [negb].
  2:{ eexists; split; [reflexivity|]. unfold lenN in L. cbn. split; lia. }
  unfold lenN in L.
  assert (HPn : Z.to_N (c_proofSize c) = N.of_nat (length sols)) by lia.
  assert (exists f, (match c_variant c with Cuckoo => cuckoo fuel c keys sols | Cuckaroo => cuckaroo fuel c keys sols | _ => Done (false, Some ErrUnsupported) end)
     = finish fuel (N.of_nat (length sols)) f /\ fill_post c sols U V f) as (f & -> & Hpost).
  { unfold cuckoo, cuckaroo. rewrite HPn. destruct Hv as [Hv|Hv]; rewrite Hv.
    - destruct (cuckoo_fill_post c keys sols U V Hv HE) as (f & -> & ?). exists f. auto.
    - destruct (cuckaroo_fill_post c keys sols U V Hv HE) as (f & -> & ?). exists f. auto. }
  destruct f as [err|[[uvs x0] x1]].
  - destruct Hpost as [-> Hn]. eexists; split; [reflexivity|]. cbn. split; [split; auto; lia|]. intros; contradiction.
  - destruct Hpost as (HF & Hl & Hg & E0 & E1).
    destruct (finish_spec fuel sols U V uvs x0 x1) as (r & Hr & Hok & Hc); auto; try lia.
    exists r. split; auto. split; auto.
    unfold verify_ok. destruct r as [[|] [[]|]]; cbn in Hok; try contradiction; repeat split; auto; try lia; try apply Hok.
Qed.

Lemma Verify_accept blake fuel c header sols U V :
  length (blake header) = 32%nat -> (0 < c_proofSize c)%Z -> (Z.to_nat (c_proofSize c) <= fuel)%nat ->
  c_variant c = Cuckoo \/ c_variant c = Cuckaroo ->
  cuckoo_endpoints c (untup (digest_key (blake header))) U V sols ->
  (Verify blake fuel c header sols = Done (true, None) <->
   Z.of_nat (length sols) = c_proofSize c /\ Forall (fun e => e <= c_edgeMask c) sols /\
   single_cycle (map (fun e => (U e, V e)) sols)).
Proof.
  intros Hb HP Hf Hv HE. destruct (Verify_spec blake fuel c header sols U V) as (r & -> & Hok & Hc); auto.
  split.
  - intros E. injection E as ->. exact Hok.
  - intros (A & B & D). rewrite Hc; auto.
Qed.

(** Acceptance does not depend on the order of the edges. *)
Lemma single_cycle_perm E E' : Permutation E E' -> single_cycle E -> single_cycle E'.
Proof. intros H (c & A & B). exists c. split; auto. rewrite A. auto. Qed.

Lemma Verify_perm blake fuel c header sols sols' U V :
  length (blake header) = 32%nat -> (0 < c_proofSize c)%Z -> (Z.to_nat (c_proofSize c) <= fuel)%nat ->
  c_variant c = Cuckoo \/ c_variant c = Cuckaroo ->
  cuckoo_endpoints c (untup (digest_key (blake header))) U V sols ->
  Permutation sols sols' ->
  Verify blake fuel c header sols = Done (true, None) ->
  Verify blake fuel c header sols' = Done (true, None).
Proof.
  intros Hb HP Hf Hv HE Hp H. rewrite Verify_accept in H by eauto. destruct H as (A & B & D).
  apply (Verify_accept blake fuel c header sols' U V); auto.
  - intros e He. apply HE. eapply Permutation_in; [apply Permutation_sym|]; eauto.
  - split; [rewrite <- (Permutation_length Hp); auto|]. split.
    + rewrite Forall_forall in *. intros e He. apply B. eapply Permutation_in; [apply Permutation_sym|]; eauto.
    + eapply single_cycle_perm; [|eauto]. apply Permutation_map; auto.
Qed.

(** Distinct edges. *)
Lemma single_cycle_nodup E : single_cycle E -> (2 < length E)%nat -> NoDup E.
Proof.
  intros (c & Hp & Hne & Hev & Halt) HL.
  eapply Permutation_NoDup; eauto. rewrite <- (Permutation_length Hp) in HL.
  apply NoDup_nth with (d := (0, 0)). intros a b Ha Hb Eab.
  destruct (Nat.eq_dec a b) as [|Ne]; auto. exfalso.
  destruct (Halt a b Ha Hb Ne) as [H1 H2]. rewrite Eab in H1, H2.
  destruct H1 as [H1 _]. destruct H2 as [H2 _]. specialize (H1 eq_refl). specialize (H2 eq_refl).
  apply Nat.even_spec in Hev. destruct Hev as [m Hm].
  set (L := length c) in *.
  assert (Hmod : forall a, (a < L)%nat -> ((a + 1) mod L = if Nat.eq_dec (a + 1) L then 0 else a + 1)%nat).
  { intros x Hx. destruct (Nat.eq_dec (x+1) L) as [->|]; [apply Nat.mod_same|apply Nat.mod_small]; lia. }
  rewrite !Hmod in H2 by auto. destruct (Nat.eq_dec (a+1) L), (Nat.eq_dec (b+1) L); lia.
Qed.

Lemma Verify_distinct blake fuel c header sols U V :
  length (blake header) = 32%nat -> (2 < c_proofSize c)%Z -> (Z.to_nat (c_proofSize c) <= fuel)%nat ->
  c_variant c = Cuckoo \/ c_variant c = Cuckaroo ->
  cuckoo_endpoints c (untup (digest_key (blake header))) U V sols ->
  Verify blake fuel c header sols = Done (true, None) -> NoDup sols.
Proof.
  intros Hb HP Hf Hv HE H. rewrite Verify_accept in H by (eauto; lia). destruct H as (A & B & D).
  apply single_cycle_nodup in D; [|rewrite map_length; lia]. eapply NoDup_map_inv; eauto.
Qed.

(** ** Statements in terms of the constructors *)

Lemma mask_value eb : (0 <= eb)%Z ->
  subw 64 (shlw 64 1 (Z.to_N eb)) 1 = 2 ^ N.min (Z.to_N eb) 64 - 1.
Proof.
  intros H. unfold subw, shlw. rewrite !trunc_mod, N.shiftl_1_l.
  destruct (N.lt_ge_cases (Z.to_N eb) 64) as [A|A].
  - rewrite N.min_l by lia.
    assert (B : 2 ^ Z.to_N eb < 2 ^ 64) by (apply N.pow_lt_mono_r; lia).
    assert (C : 0 < 2 ^ Z.to_N eb) by (apply N.neq_0_lt_0, N.pow_nonzero; lia).
    rewrite (N.mod_small (2 ^ Z.to_N eb)) by auto.
    replace (2 ^ Z.to_N eb + 2 ^ 64 - 1) with (2 ^ Z.to_N eb - 1 + 1 * 2 ^ 64).
    + rewrite N.mod_add by (vm_compute; discriminate). apply N.mod_small. lia.
    + change (2 ^ 64) with 18446744073709551616 in *. lia.
  - rewrite N.min_r by lia. 
    replace (2 ^ Z.to_N eb) with (2 ^ (Z.to_N eb - 64) * 2 ^ 64) by (rewrite <- N.pow_add_r; f_equal; lia).
    rewrite N.mod_mul by (vm_compute; discriminate). reflexivity.
Qed.

Lemma newClient_Done v eb ps nf bf c : newClient v eb ps nf bf = Done c ->
  (0 <= eb)%Z /\ c = mkClient v ps (2 ^ N.min (Z.to_N eb) 64 - 1) nf bf.
Proof.
  unfold newClient. destruct (Z.ltb_spec eb 0); [discriminate|]. intros E. injection E as <-.
  rewrite mask_value by auto. auto.
Qed.

Lemma mask_le eb sols : words 64 sols ->
  Forall (fun e => e <= 2 ^ N.min eb 64 - 1) sols <-> Forall (fun e => e < 2 ^ eb) sols.
Proof.
  intros W. unfold words, isw in W. rewrite Forall_forall in W.
  assert (C : forall n, 0 < 2 ^ n) by (intros; apply N.neq_0_lt_0, N.pow_nonzero; lia).
  rewrite !Forall_forall. split; intros H e He; specialize (H e He); specialize (W e He); cbn in *.
  - pose proof (C (N.min eb 64)). destruct (N.le_ge_cases eb 64).
    + rewrite N.min_l in * by lia. lia.
    + assert (2 ^ 64 <= 2 ^ eb) by (apply N.pow_le_mono_r; lia). lia.
  - pose proof (C (N.min eb 64)). destruct (N.le_ge_cases eb 64).
    + rewrite N.min_l in * by lia. lia.
    + rewrite N.min_r in * by lia. lia.
Qed.

Lemma words_le_number n l : bytes l -> (length l <= n)%nat -> le_number l < 256 ^ N.of_nat n.
Proof.
  intros H L. rewrite le_number_value. pose proof (le_value_lt l H).
  eapply N.lt_le_trans; eauto. apply N.pow_le_mono_r; unfold lenN; lia.
Qed.
Lemma digest_key_valid h : bytes h -> sip_valid (digest_key h).
Proof.
  intros H. unfold digest_key, sip_valid. change (2 ^ 64) with (256 ^ N.of_nat 8).
  repeat split; (apply words_le_number; [|rewrite firstn_length; lia]);
    repeat (apply Forall_firstn || apply Forall_skipn); auto.
Qed.
Lemma tup_untup t : tup (untup t) = t.
Proof. destruct t as [[[a b] c] d]. reflexivity. Qed.

Definition blake_ok (blake : list N -> list N) : Prop :=
  forall d, length (blake d) = 32%nat /\ bytes (blake d).

Lemma NewCuckoo_endpoints eb ps (node : N -> sip -> N -> N -> N) bf c keys sols :
  NewCuckoo eb ps (Some (fun m k e s => Done (node m k e s))) bf = Done c ->
  cuckoo_endpoints c keys (fun e => node (2 ^ N.min (Z.to_N eb) 64 - 1) keys e 0)
    (fun e => node (2 ^ N.min (Z.to_N eb) 64 - 1) keys e 1) sols.
Proof.
  intros H. apply newClient_Done in H. destruct H as [H ->].
  intros e He Hm. cbn. auto.
Qed.
Lemma NewCuckaroo_endpoints eb ps nf (block : sip -> N -> N) c keys sols :
  NewCuckaroo eb ps nf (Some (fun k e => Done (block k e))) = Done c ->
  cuckoo_endpoints c keys
    (fun e => N.land (block keys e) (2 ^ N.min (Z.to_N eb) 64 - 1))
    (fun e => N.land (N.shiftr (block keys e) 32) (2 ^ N.min (Z.to_N eb) 64 - 1)) sols.
Proof.
  intros H. apply newClient_Done in H. destruct H as [H ->].
  intros e He Hm. cbn. eauto.
Qed.

Lemma cuckoo_accepts_cycles blake eb ps (node : N -> sip -> N -> N -> N) bf c header sols fuel :
  blake_ok blake -> words 64 sols ->
  NewCuckoo eb ps (Some (fun m k e s => Done (node m k e s))) bf = Done c ->
  (0 < ps)%Z -> (Z.to_nat ps <= fuel)%nat ->
  let mask := 2 ^ N.min (Z.to_N eb) 64 - 1 in
  let keys := untup (digest_key (blake header)) in
  (Verify blake fuel c header sols = Done (true, None) <->
   Z.of_nat (length sols) = ps /\ Forall (fun e => e < 2 ^ Z.to_N eb) sols /\
   single_cycle (map (fun e => (node mask keys e 0, node mask keys e 1)) sols)).
Proof.
  intros Hb W HC HP Hf mask keys.
  pose proof (NewCuckoo_endpoints eb ps node bf c keys sols HC) as HE.
  apply newClient_Done in HC. destruct HC as [H0 ->].
  match type of HE with cuckoo_endpoints ?c _ ?U ?V _ =>
    rewrite (Verify_accept blake fuel c header sols U V (proj1 (Hb header)) HP Hf (or_introl eq_refl) HE) end.
  cbn [c_proofSize c_edgeMask]. rewrite mask_le by auto. reflexivity.
Qed.

Lemma cuckaroo_accepts_cycles blake eb ps nf (block : sip -> N -> N) c header sols fuel :
  blake_ok blake -> words 64 sols ->
  NewCuckaroo eb ps nf (Some (fun k e => Done (block k e))) = Done c ->
  (0 < ps)%Z -> (Z.to_nat ps <= fuel)%nat ->
  let mask := 2 ^ N.min (Z.to_N eb) 64 - 1 in
  let keys := untup (digest_key (blake header)) in
  (Verify blake fuel c header sols = Done (true, None) <->
   Z.of_nat (length sols) = ps /\ Forall (fun e => e < 2 ^ Z.to_N eb) sols /\
   single_cycle (map (fun e => (N.land (block keys e) mask, N.land (N.shiftr (block keys e) 32) mask)) sols)).
Proof.
  intros Hb W HC HP Hf mask keys.
  pose proof (NewCuckaroo_endpoints eb ps nf block c keys sols HC) as HE.
  apply newClient_Done in HC. destruct HC as [H0 ->].
  match type of HE with cuckoo_endpoints ?c _ ?U ?V _ =>
    rewrite (Verify_accept blake fuel c header sols U V (proj1 (Hb header)) HP Hf (or_intror eq_refl) HE) end.
  cbn [c_proofSize c_edgeMask]. rewrite mask_le by auto. reflexivity.
Qed.

(** The two preset clients, with the endpoints of the independent SipHash specification. *)
Lemma aeternity_endpoints blake c header sols : blake_ok blake -> NewAeternity = Done c ->
  cuckoo_endpoints c (untup (digest_key (blake header)))
    (fun e => cuckoo_node_rot (2 ^ 29 - 1) (digest_key (blake header)) e 0)
    (fun e => cuckoo_node_rot (2 ^ 29 - 1) (digest_key (blake header)) e 1) sols.
Proof.
  intros Hb HC. apply newClient_Done in HC. destruct HC as [H0 ->]. intros e He Hm.
  set (key := digest_key (blake header)).
  assert (V : valid_sip (untup key)) by (unfold valid_sip; rewrite tup_untup; apply digest_key_valid, Hb).
  cbn [c_variant c_sipnode c_edgeMask call_node].
  rewrite !SipNode24Legacy_spec by auto. rewrite tup_untup. auto.
Qed.
Lemma cortex_endpoints blake c header sols : blake_ok blake -> NewCortex = Done c ->
  cuckoo_endpoints c (untup (digest_key (blake header)))
    (fun e => N.land (cuckaroo_block (digest_key (blake header)) e) (2 ^ 30 - 1))
    (fun e => N.land (N.shiftr (cuckaroo_block (digest_key (blake header)) e) 32) (2 ^ 30 - 1)) sols.
Proof.
  intros Hb HC. apply newClient_Done in HC. destruct HC as [H0 ->]. intros e He Hm.
  set (key := digest_key (blake header)).
  assert (V : valid_sip (untup key)) by (unfold valid_sip; rewrite tup_untup; apply digest_key_valid, Hb).
  cbn [c_variant c_sipblock c_edgeMask call_block] in *. eexists. split; [|split; reflexivity].
  rewrite SipBlock48_spec; [rewrite tup_untup; auto|auto|].
  eapply N.le_lt_trans; eauto. vm_compute; auto.
Qed.

Lemma aeternity_accepts blake c header sols fuel :
  blake_ok blake -> words 64 sols -> NewAeternity = Done c -> (42 <= fuel)%nat ->
  let key := digest_key (blake header) in
  (Verify blake fuel c header sols = Done (true, None) <->
   length sols = 42%nat /\ Forall (fun e => e < 2 ^ 29) sols /\
   single_cycle (map (fun e => (cuckoo_node_rot (2 ^ 29 - 1) key e 0,
                                cuckoo_node_rot (2 ^ 29 - 1) key e 1)) sols)).
Proof.
  intros Hb W HC Hf key. pose proof (aeternity_endpoints blake c header sols Hb HC) as HE.
  apply newClient_Done in HC. destruct HC as [H0 ->].
  match type of HE with cuckoo_endpoints ?c _ ?U ?V _ =>
    rewrite (Verify_accept blake fuel c header sols U V (proj1 (Hb header)) eq_refl Hf (or_introl eq_refl) HE) end.
  cbn [c_proofSize c_edgeMask]. rewrite mask_le by auto. change (Z.to_N 29) with 29.
  split; (intros (A & B & C); split; [lia|auto]).
Qed.
Lemma cortex_accepts blake c header sols fuel :
  blake_ok blake -> words 64 sols -> NewCortex = Done c -> (42 <= fuel)%nat ->
  let key := digest_key (blake header) in
  (Verify blake fuel c header sols = Done (true, None) <->
   length sols = 42%nat /\ Forall (fun e => e < 2 ^ 30) sols /\
   single_cycle (map (fun e => (N.land (cuckaroo_block key e) (2 ^ 30 - 1),
                                N.land (N.shiftr (cuckaroo_block key e) 32) (2 ^ 30 - 1))) sols)).
Proof.
  intros Hb W HC Hf key. pose proof (cortex_endpoints blake c header sols Hb HC) as HE.
  apply newClient_Done in HC. destruct HC as [H0 ->].
  match type of HE with cuckoo_endpoints ?c _ ?U ?V _ =>
    rewrite (Verify_accept blake fuel c header sols U V (proj1 (Hb header)) eq_refl Hf (or_intror eq_refl) HE) end.
  cbn [c_proofSize c_edgeMask]. rewrite mask_le by auto. change (Z.to_N 30) with 30.
  split; (intros (A & B & C); split; [lia|auto]).
Qed.

(** What a client can be: any constructor with a hash function that returns. *)
Definition usable (c : client) : Prop :=
  (exists eb ps (node : N -> sip -> N -> N -> N) bf,
     (0 < ps)%Z /\ NewCuckoo eb ps (Some (fun m k e s => Done (node m k e s))) bf = Done c) \/
  (exists eb ps nf (block : sip -> N -> N),
     (0 < ps)%Z /\ NewCuckaroo eb ps nf (Some (fun k e => Done (block k e))) = Done c) \/
  NewCortex = Done c.

Lemma usable_spec c : usable c -> (0 < c_proofSize c)%Z /\
  (c_variant c = Cuckoo \/ c_variant c = Cuckaroo) /\
  forall blake header sols, blake_ok blake ->
  exists U V, cuckoo_endpoints c (untup (digest_key (blake header))) U V sols.
Proof.
  intros [(eb & ps & node & bf & HP & HC)|[(eb & ps & nf & block & HP & HC)|HC]].
  - pose proof HC as HC'. apply newClient_Done in HC'. destruct HC' as [H0 Ec]. rewrite Ec. cbn [c_proofSize c_variant].
    split; [auto|]. split; [auto|]. intros. rewrite <- Ec. do 2 eexists. eapply NewCuckoo_endpoints; eauto.
  - pose proof HC as HC'. apply newClient_Done in HC'. destruct HC' as [H0 Ec]. rewrite Ec. cbn [c_proofSize c_variant].
    split; [auto|]. split; [auto|]. intros. rewrite <- Ec. do 2 eexists. eapply NewCuckaroo_endpoints; eauto.
  - pose proof HC as HC'. apply newClient_Done in HC'. destruct HC' as [H0 Ec]. rewrite Ec. cbn [c_proofSize c_variant].
    split; [reflexivity|]. split; [auto|]. intros. rewrite <- Ec. do 2 eexists. eapply cortex_endpoints; eauto.
Qed.

Lemma terminates blake c header sols fuel :
  blake_ok blake -> usable c -> (Z.to_nat (c_proofSize c) <= fuel)%nat ->
  exists r, Verify blake fuel c header sols = Done r.
Proof.
  intros Hb Hu Hf. destruct (usable_spec c Hu) as (HP & HV & HE). destruct (HE blake header sols Hb) as (U & V & E).
  destruct (Verify_spec blake fuel c header sols U V (proj1 (Hb header)) HP Hf HV E) as (r & Hr & _). eauto.
Qed.

Lemma zero_size_panics blake eb nf bf c header fuel :
  blake_ok blake -> (NewCuckoo eb 0 nf bf = Done c \/ NewCuckaroo eb 0 nf bf = Done c) -> (0 < fuel)%nat ->
  Verify blake fuel c header [] = Panic.
Proof.
  intros Hb HC Hf. destruct fuel as [|fuel]; [lia|].
  destruct HC as [HC|HC]; apply newClient_Done in HC; destruct HC as [H0 ->];
    rewrite Verify_keys by apply Hb; reflexivity.
Qed.

Lemma order_irrelevant blake c header sols sols' fuel :
  blake_ok blake -> usable c -> (Z.to_nat (c_proofSize c) <= fuel)%nat ->
  Permutation sols sols' ->
  Verify blake fuel c header sols = Done (true, None) ->
  Verify blake fuel c header sols' = Done (true, None).
Proof.
  intros Hb Hu Hf Hp. destruct (usable_spec c Hu) as (HP & HV & HE). destruct (HE blake header sols Hb) as (U & V & E).
  eapply Verify_perm; eauto. apply Hb.
Qed.

Lemma distinct_edges blake c header sols fuel :
  blake_ok blake -> usable c -> (2 < c_proofSize c)%Z -> (Z.to_nat (c_proofSize c) <= fuel)%nat ->
  Verify blake fuel c header sols = Done (true, None) -> NoDup sols.
Proof.
  intros Hb Hu H2 Hf. destruct (usable_spec c Hu) as (HP & HV & HE). destruct (HE blake header sols Hb) as (U & V & E).
  eapply Verify_distinct; eauto. apply Hb.
Qed.

Lemma verdicts blake eb ps (node : N -> sip -> N -> N -> N) (block : sip -> N -> N) nf bf c header sols fuel :
  blake_ok blake -> words 64 sols -> (0 < ps)%Z -> (Z.to_nat ps <= fuel)%nat ->
  let mask := 2 ^ N.min (Z.to_N eb) 64 - 1 in
  let keys := untup (digest_key (blake header)) in
  forall E,
  (NewCuckoo eb ps (Some (fun m k e s => Done (node m k e s))) bf = Done c /\
   E = map (fun e => (node mask keys e 0, node mask keys e 1)) sols) \/
  (NewCuckaroo eb ps nf (Some (fun k e => Done (block k e))) = Done c /\
   E = map (fun e => (N.land (block keys e) mask, N.land (N.shiftr (block keys e) 32) mask)) sols) ->
  let size_ok := Z.of_nat (length sols) = ps in
  let range_ok := Forall (fun e => e < 2 ^ Z.to_N eb) sols in
  exists r, Verify blake fuel c header sols = Done r /\
  match r with
  | (true, None) => size_ok /\ range_ok /\ single_cycle E
  | (false, Some ErrSolsLength) => ~ size_ok
  | (false, Some ErrPowTooBig) => size_ok /\ ~ range_ok
  | (false, Some ErrPowNotMatching) => size_ok /\ range_ok /\ unmatched E
  | (false, Some ErrPowBranch) => size_ok /\ range_ok /\ ~ unmatched E /\ has_branch E
  | (false, Some ErrPowDeadEnd) => size_ok /\ range_ok /\ ~ unmatched E /\ has_dead_end E
  | (false, Some ErrPowShortCycle) => size_ok /\ range_ok /\ ~ unmatched E /\ has_short_cycle E
  | _ => False
  end.
Proof.
  intros Hb W HP Hf mask keys E HC size_ok range_ok.
  assert (exists U V, c_edgeMask c = mask /\ c_proofSize c = ps /\ (c_variant c = Cuckoo \/ c_variant c = Cuckaroo) /\
     cuckoo_endpoints c keys U V sols /\ E = edge_pairs U V sols) as (U & V & M & PS & HV & HE & ->).
  { destruct HC as [[HC ->]|[HC ->]].
    - pose proof (NewCuckoo_endpoints eb ps node bf c keys sols HC) as HE.
      apply newClient_Done in HC. destruct HC as [H0 ->]. do 2 eexists.
      repeat (split; [first [reflexivity | left; reflexivity | exact HE]|]). reflexivity.
    - pose proof (NewCuckaroo_endpoints eb ps nf block c keys sols HC) as HE.
      apply newClient_Done in HC. destruct HC as [H0 ->]. do 2 eexists.
      repeat (split; [first [reflexivity | right; reflexivity | exact HE]|]). reflexivity. }
  destruct (Verify_spec blake fuel c header sols U V (proj1 (Hb header))) as (r & Hr & Hok & _); auto; try (rewrite PS; auto).
  exists r. split; auto. unfold verify_ok in Hok. rewrite M, PS in Hok. unfold mask in Hok.
  pose proof (mask_le (Z.to_N eb) sols W) as HM. fold range_ok in HM. fold size_ok in Hok.
  destruct r as [[|] [[]|]]; cbn in Hok; tauto.
Qed.
