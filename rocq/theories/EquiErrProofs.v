(** The error texts of the Equihash verifier. *)
From Coq Require Import NArith ZArith Arith List Lia Bool ZifyBool ZifyNat ZifyN.
From Verif Require Import Base BaseFacts CryptoModel CryptoProofs Levels EquiModel EquiSpec EquiExpand EquiProofs EquiErrModel.
Import ListNotations.
Open Scope N_scope.
Ltac Zify.zify_post_hook ::= Z.div_mod_to_equations.

(** ** Forgetting the texts *)
Definition forget {A} (r : verr + A) : option A := match r with inl _ => None | inr x => Some x end.
Definition forgets {A} (o : outcome (verr + A)) : outcome (option A) := x <- o ;; Done (forget x).

Lemma forget_bind {A B} (o : outcome (verr + A)) o' (f : A -> outcome (verr + B)) f' :
  forgets o = o' -> (forall x, forgets (f x) = f' x) ->
  forgets (x <-! o ;; f x) = (x <-? o' ;; f' x).
Proof. intros <- H. unfold forgets in *. destruct o as [[e|x]| |]; cbn [bind forget]; try reflexivity. apply H. Qed.
Lemma forget_step {A B} (o : outcome A) (f : A -> outcome (verr + B)) f' :
  (forall x, forgets (f x) = f' x) -> forgets (x <- o ;; f x) = (x <- o ;; f' x).
Proof. intros H. unfold forgets in *. destruct o as [x| |]; cbn [bind]; try reflexivity. apply H. Qed.

Lemma expand_forget l b p : forgets (expandArrayE l b p) = expandArray l b p.
Proof.
  unfold expandArrayE. destruct (b <? 8) eqn:E1; [unfold expandArray; rewrite E1; reflexivity|].
  destruct (32 <? b) eqn:E2; [unfold expandArray; rewrite E1, E2; reflexivity|].
  unfold forgets. destruct (expandArray l b p) as [[x|]| |]; reflexivity.
Qed.
Lemma indices_forget n k m : forgets (indicesFromMinimalE n k m) = indicesFromMinimal n k m.
Proof.
  unfold indicesFromMinimalE, indicesFromMinimal. apply forget_step. intros c. cbv zeta.
  destruct (negb _); [reflexivity|]. destruct (4 <? _); [reflexivity|].
  apply forget_bind; [apply expand_forget|]. intros x. apply forget_step. reflexivity.
Qed.
Lemma newNode_forget blake spare fuel n k ps twist st i :
  forgets (newNodeE blake spare fuel n k ps twist st i) = newNode blake spare fuel n k ps twist st i.
Proof.
  unfold newNodeE, newNode. do 5 (apply forget_step; intros ?). cbv zeta. do 2 (apply forget_step; intros ?).
  apply forget_bind; [apply expand_forget|reflexivity].
Qed.
Lemma newNodes_forget blake spare fuel n k ps twist st l :
  forgets (newNodesE blake spare fuel n k ps twist st l) = newNodes blake spare fuel n k ps twist st l.
Proof.
  induction l as [|i l IH]; [reflexivity|]. cbn [newNodesE newNodes]. apply forget_bind; [apply newNode_forget|].
  intros x. apply forget_bind; [exact IH|]. reflexivity.
Qed.
Lemma validate_forget n k a b :
  (e <- validateSubtreesE n k a b ;; Done (match e with Some _ => None | None => Some tt end)) = validateSubtrees n k a b.
Proof.
  unfold validateSubtreesE, validateSubtrees. destruct (collisionByteLength n k) as [len| |]; cbn [bind]; try reflexivity.
  destruct (hasCollision len a b) as [[u|]| |]; cbn [bind]; try reflexivity.
  destruct (idx (n_indices b) 0) as [b0| |]; cbn [bind]; try reflexivity.
  destruct (idx (n_indices a) 0) as [a0| |]; cbn [bind]; try reflexivity.
  destruct (b0 <? a0); [reflexivity|]. destruct (distinctIndices _ _); reflexivity.
Qed.
Lemma pairs_ind {A} (P : list A -> Prop) : P [] -> (forall x, P [x]) -> (forall a b t, P t -> P (a :: b :: t)) -> forall l, P l.
Proof.
  intros P0 P1 P2 l. assert (H : P l /\ forall x, P (x :: l)).
  { induction l as [|y l (I1 & I2)]; [auto|]. split; [apply I2|]. intros x. apply P2. exact I1. }
  apply H.
Qed.
Lemma next_forget n k rows : forgets (nextRowsE n k rows) = nextRows n k rows.
Proof.
  induction rows as [|x|a b t IH] using pairs_ind; [reflexivity|reflexivity|]. cbn [nextRowsE nextRows].
  rewrite <- validate_forget. destruct (validateSubtreesE n k a b) as [[e|]| |]; cbn [bind]; try reflexivity.
  do 2 (apply forget_step; intros ?). apply forget_bind; [exact IH|reflexivity].
Qed.
Lemma reduce_forget n k fuel : forall rows, forgets (reduceRowsE fuel n k rows) = reduceRows fuel n k rows.
Proof.
  induction fuel as [|f IH]; intros rows; destruct rows as [|a [|b t]]; try reflexivity.
  change (forgets (l <-! nextRowsE n k (a :: b :: t) ;; reduceRowsE f n k l) = (l <-? nextRows n k (a :: b :: t) ;; reduceRows f n k l)).
  apply forget_bind; [apply next_forget|exact IH].
Qed.
Theorem verify_forget blake spare fuel n k personal header soln twist :
  forgets (verifyE blake spare fuel n k personal header soln twist) = verify blake spare fuel n k personal header soln twist.
Proof.
  unfold verifyE, verify. cbv zeta. apply forget_bind; [apply indices_forget|]. intros l.
  apply forget_bind; [apply newNodes_forget|]. intros rows. apply forget_bind; [apply reduce_forget|]. intros rows'.
  apply forget_step. reflexivity.
Qed.

(** ** Which text *)
Definition pair_error_if (agree : bool) (a b : list N) : option verr :=
  if agree then
    if hd 0 b <? hd 0 a then Some OutOfOrder
    else if distinctIndices a b then None else Some Duplicate
  else Some Collision.
Definition pair_error (digit : N -> N -> N) (h : nat) (a b : list N) : option verr :=
  pair_error_if (xor_digit digit (N.of_nat h) a =? xor_digit digit (N.of_nat h) b) a b.
(** [pe h a b]: the error of the siblings [a] and [b] of height [h]. *)
Fixpoint row_error (pe : nat -> list N -> list N -> option verr) (h : nat) (ps : list (list N)) : option verr :=
  match ps with
  | a :: b :: t => match pe h a b with Some e => Some e | None => row_error pe h t end
  | _ => None
  end.
Fixpoint pairup (ps : list (list N)) : list (list N) :=
  match ps with a :: b :: t => (a ++ b) :: pairup t | _ => [] end.
Fixpoint levels_error pe (d : nat) (h : nat) (ps : list (list N)) : option verr :=
  match d with
  | O => None
  | S d => match row_error pe h ps with Some e => Some e | None => levels_error pe d (S h) (pairup ps) end
  end.

Lemma pairup_length m : forall ps, length ps = (2 * m)%nat -> length (pairup ps) = m.
Proof.
  induction m as [|m IH]; intros ps L; destruct ps as [|a [|b t]]; cbn [length] in L; try lia; [reflexivity|].
  cbn [pairup length]. rewrite IH; lia.
Qed.
Lemma pairup_nonempty ps : Forall (fun p => p <> []) ps -> Forall (fun p : list N => p <> []) (pairup ps).
Proof.
  induction ps as [|x|a b t IH] using pairs_ind; intros F; try constructor.
  - apply Forall_cons_iff in F as (NA & _). intros Q. apply app_eq_nil in Q. tauto.
  - apply Forall_cons_iff in F as (_ & F). apply Forall_cons_iff in F as (_ & F). auto.
Qed.

Section Errors.
  Variables (c k n : N) (digit : N -> N -> N).
  Hypothesis digit_lt : forall i d, digit i d < 2 ^ c.
  Hypothesis C : collisionBitLength n k = Done c.
  Hypothesis C1 : c <= 32.
  Hypothesis K1 : k < 29.
  Let w := N.to_nat (bytes_of_bits c).
  Definition node_at (h : nat) (l : list N) : node :=
    mkNode (hash_of w (tab (k + 1 - N.of_nat h) (fun d => xor_digit digit (N.of_nat h + d) l))) l.
  Lemma node_row h l : l <> [] -> row_ok (w * N.to_nat (k + 1 - N.of_nat h)) (node_at h l).
  Proof. intros L. split; [|exact L]. cbn [node_at n_hash]. rewrite hash_of_length, tab_length. reflexivity. Qed.

  Lemma validateE_node h a b : N.of_nat h < k + 1 -> a <> [] -> b <> [] ->
    validateSubtreesE n k (node_at h a) (node_at h b) = Done (pair_error digit h a b).
  Proof.
    intros H NA NB. destruct (node_row h a NA) as (LA & _). destruct (node_row h b NB) as (LB & _).
    unfold validateSubtreesE, collisionByteLength. rewrite C. cbn [bind].
    unfold addw. rewrite (trunc_small 32 (c + 7)) by lia. fold (bytes_of_bits c).
    assert (W : (w <= w * N.to_nat (k + 1 - N.of_nat h))%nat).
    { assert (1 <= N.to_nat (k + 1 - N.of_nat h))%nat by lia. nia. }
    unfold hasCollision. fold w.
    pose proof (collide_loop w (n_hash (node_at h a)) (n_hash (node_at h b)) 0 ltac:(lia) ltac:(lia)) as CL.
    change (N.of_nat 0) with 0 in CL. rewrite CL. clear CL. cbn [bind]. rewrite !skipn_O.
    unfold node_at. cbn [n_hash n_indices].
    replace (k + 1 - N.of_nat h) with (k - N.of_nat h + 1) by lia. rewrite !tab_S, !firstn_hash_of, N.add_0_r.
    rewrite !idx_hd by auto. unfold pair_error, pair_error_if.
    destruct (N.eqb_spec (xor_digit digit (N.of_nat h) a) (xor_digit digit (N.of_nat h) b)) as [E|E].
    - rewrite E. destruct (list_eq_dec N.eq_dec _ _); [|congruence]. cbn [bind].
      destruct (hd 0 b <? hd 0 a); [reflexivity|]. destruct (distinctIndices a b); reflexivity.
    - destruct (list_eq_dec N.eq_dec _ _) as [Q|Q]; [|reflexivity]. elim E.
      apply (be_bytes_inj w); [apply (digit_bytes c k digit digit_lt), (xor_digit_lt c k digit digit_lt)..|exact Q].
  Qed.
  Lemma child_node h a b : N.of_nat h < k + 1 -> a <> [] -> b <> [] -> pair_error digit h a b = None ->
    newNodeFromChildrenRef (node_at h a) (node_at h b) (N.of_nat w) = Done (node_at (S h) (a ++ b)).
  Proof.
    intros H NA NB E. pose proof (node_row h a NA) as RA. pose proof (node_row h b NB) as RB.
    assert (W : (w <= w * N.to_nat (k + 1 - N.of_nat h))%nat).
    { assert (1 <= N.to_nat (k + 1 - N.of_nat h))%nat by lia. nia. }
    assert (W4 : (w <= 5)%nat) by (clear - C1; unfold w, bytes_of_bits; lia).
    rewrite (children_spec w _ _ _ RA RB W). 2:{ change (2 ^ 32) with 4294967296. clear - W4 K1. nia. }
    f_equal. cbn [n_indices node_at].
    assert (P : combine w (node_at h a) (node_at h b) = Some (node_at (S h) (a ++ b))).
    { apply (combine_node_of c k digit digit_lt h a b); auto. split; [|reflexivity]. unfold pair_error, pair_error_if in E.
      destruct (N.eqb_spec (xor_digit digit (N.of_nat h) a) (xor_digit digit (N.of_nat h) b)) as [Q|Q]; [|discriminate].
      destruct (N.ltb_spec (hd 0 b) (hd 0 a)); [discriminate|]. destruct (distinctIndices a b) eqn:D; [|discriminate].
      pose proof (proj1 (distinct_spec a b) D) as D1. split; [|auto].
      destruct a as [|x a]; [congruence|]. destruct b as [|y b]; [congruence|]. cbn [hd] in *.
      assert (x <> y) by (intros ->; apply (D1 y); left; reflexivity). lia. }
    unfold combine in P. destruct (list_eq_dec N.eq_dec _ _); [|discriminate].
    destruct (_ <? _); [discriminate|] . destruct (distinctIndices _ _); [|discriminate]. injection P as P1 P2.
    cbn [n_indices node_at] in *. unfold node_at at 3. rewrite <- P1. f_equal. exact P2.
  Qed.
  Lemma nextE_nodes h : N.of_nat h < k + 1 -> forall m ps, length ps = (2 * m)%nat -> Forall (fun p => p <> []) ps ->
    nextRowsE n k (map (node_at h) ps) =
    Done (match row_error (pair_error digit) h ps with Some e => inl e | None => inr (map (node_at (S h)) (pairup ps)) end).
  Proof.
    intros H. induction m as [|m IH]; intros ps L F; destruct ps as [|a [|b t]]; cbn [length] in L; try lia; [reflexivity|].
    apply Forall_cons_iff in F as (NA & F). apply Forall_cons_iff in F as (NB & F).
    cbn [map nextRowsE row_error pairup]. rewrite validateE_node by auto. cbn [bind].
    destruct (pair_error digit h a b) as [e|] eqn:E; [reflexivity|].
    unfold collisionByteLength. rewrite C. cbn [bind]. unfold addw. rewrite (trunc_small 32 (c + 7)) by lia. fold (bytes_of_bits c).
    replace (bytes_of_bits c) with (N.of_nat w) by (unfold w; lia). rewrite child_node by auto. cbn [bind].
    rewrite IH by (auto; lia). cbn [bind]. destruct (row_error (pair_error digit) h t); reflexivity.
  Qed.
  Lemma reduceE_nodes d : forall h fuel ps, (N.of_nat (h + d) <= k) -> length ps = (2 ^ d)%nat -> (d <= fuel)%nat ->
    Forall (fun p => p <> []) ps ->
    match levels_error (pair_error digit) d h ps with
    | Some e => reduceRowsE fuel n k (map (node_at h) ps) = Done (inl e)
    | None => exists r, reduceRowsE fuel n k (map (node_at h) ps) = Done (inr [r])
    end.
  Proof.
    induction d as [|d IH]; intros h fuel ps H L FU F.
    - destruct ps as [|x [|]]; try discriminate. cbn [levels_error map]. exists (node_at h x). destruct fuel; reflexivity.
    - cbn [Nat.pow] in L. assert (L1 : (1 <= 2 ^ d)%nat) by (clear; induction d; cbn [Nat.pow]; lia).
      destruct fuel as [|fuel]; [lia|]. destruct ps as [|a [|b t]] eqn:EP; cbn [length] in L; try lia. rewrite <- EP in *.
      replace (reduceRowsE (S fuel) n k (map (node_at h) ps)) with
        (l <-! nextRowsE n k (map (node_at h) ps) ;; reduceRowsE fuel n k l) by (rewrite EP; reflexivity).
      assert (L2 : length ps = (2 * 2 ^ d)%nat) by (rewrite EP; cbn [length]; lia).
      rewrite (nextE_nodes h ltac:(lia) (2 ^ d) ps L2 F). cbn [levels_error bind].
      destruct (row_error (pair_error digit) h ps) as [e|]; [reflexivity|].
      apply IH; [lia|apply pairup_length; exact L2|lia|apply pairup_nonempty; exact F].
  Qed.
End Errors.

(** ** Positions *)
(** Part [j] of a list cut into parts of [2 ^ h]. *)
Definition part (h j : nat) (l : list N) : list N := firstn (2 ^ h) (skipn (j * 2 ^ h) l).
Lemma firstn_plus {A} a b (l : list A) : firstn (a + b) l = firstn a l ++ firstn b (skipn a l).
Proof. revert l. induction a as [|a IH]; intros l; [reflexivity|]. destruct l; [cbn [skipn]; rewrite !firstn_nil; reflexivity|]. cbn. rewrite IH. reflexivity. Qed.
Lemma skipn_plus {A} a b (l : list A) : skipn (a + b) l = skipn b (skipn a l).
Proof. revert l. induction a as [|a IH]; intros l; [reflexivity|]. destruct l; [cbn [skipn Nat.add]; rewrite !skipn_nil; reflexivity|]. apply IH. Qed.
Lemma part_join h j l : part h (2 * j) l ++ part h (2 * j + 1) l = part (S h) j l.
Proof.
  unfold part. replace ((2 * j + 1) * 2 ^ h)%nat with (2 * j * 2 ^ h + 2 ^ h)%nat by lia. rewrite skipn_plus, <- firstn_plus.
  cbn [Nat.pow]. f_equal; [lia|]. f_equal. lia.
Qed.
Lemma parts_zero l : map (fun i => [i]) l = map (fun j => part 0 j l) (seq 0 (length l)).
Proof.
  unfold part. cbn [Nat.pow].
  assert (G : forall p l : list N, map (fun i => [i]) l = map (fun j => firstn 1 (skipn (j * 1) (p ++ l))) (seq (length p) (length l))).
  { intros p m. revert p. induction m as [|x m IH]; intros p; [reflexivity|]. cbn [length seq map]. f_equal.
    - rewrite Nat.mul_1_r, skipn_app, skipn_all, Nat.sub_diag. reflexivity.
    - rewrite (IH (p ++ [x])). rewrite app_length, Nat.add_1_r. rewrite <- app_assoc. reflexivity. }
  exact (G [] l).
Qed.
Lemma pairup_seq (f : nat -> list N) m : forall s,
  pairup (map f (seq (2 * s) (2 * m))) = map (fun j => f (2 * j)%nat ++ f (2 * j + 1)%nat) (seq s m).
Proof.
  induction m as [|m IH]; intros s; [reflexivity|].
  replace (2 * S m)%nat with (S (S (2 * m))) by lia. cbn [seq map pairup].
  replace (S (2 * s)) with (2 * s + 1)%nat by lia. f_equal. replace (S (2 * s + 1)) with (2 * S s)%nat by lia. apply IH.
Qed.
Lemma row_error_seq (pe0 : nat -> list N -> list N -> option verr) h (f : nat -> list N) m : forall s,
  let pe j := pe0 h (f (2 * j)%nat) (f (2 * j + 1)%nat) in
  match row_error pe0 h (map f (seq (2 * s) (2 * m))) with
  | Some e => exists j, (s <= j < s + m)%nat /\ pe j = Some e /\ forall i, (s <= i < j)%nat -> pe i = None
  | None => forall j, (s <= j < s + m)%nat -> pe j = None
  end.
Proof.
  cbv zeta. induction m as [|m IH]; intros s; [cbn [Nat.mul seq map row_error]; intros j J; lia|].
  replace (2 * S m)%nat with (S (S (2 * m))) by lia. cbn [seq map row_error].
  replace (S (2 * s)) with (2 * s + 1)%nat by lia. replace (S (2 * s + 1)) with (2 * S s)%nat by lia.
  destruct (pe0 h (f (2 * s)%nat) (f (2 * s + 1)%nat)) as [e|] eqn:E.
  - exists s. split; [lia|]. split; [exact E|]. intros i I. lia.
  - specialize (IH (S s)). destruct (row_error pe0 h (map f (seq (2 * S s) (2 * m)))) as [e|].
    + destruct IH as (j & J & EJ & B). exists j. split; [lia|]. split; [exact EJ|]. intros i I.
      destruct (Nat.eq_dec i s) as [->|]; [exact E|]. apply B. lia.
    + intros j J. destruct (Nat.eq_dec j s) as [->|]; [exact E|]. apply IH. lia.
Qed.
(** Pair [j] of level [h]. *)
Definition pair_at (pe : nat -> list N -> list N -> option verr) (l : list N) (h j : nat) : option verr :=
  pe h (part h (2 * j) l) (part h (2 * j + 1) l).
Lemma levels_error_at (pe : nat -> list N -> list N -> option verr) l d : forall h,
  match levels_error pe d h (map (fun j => part h j l) (seq 0 (2 ^ d))) with
  | Some e => exists h' j, (h <= h' < h + d)%nat /\ (j < 2 ^ (h + d - 1 - h'))%nat /\ pair_at pe l h' j = Some e /\
      (forall i, (i < j)%nat -> pair_at pe l h' i = None) /\
      (forall g i, (h <= g < h')%nat -> (i < 2 ^ (h + d - 1 - g))%nat -> pair_at pe l g i = None)
  | None => forall g i, (h <= g < h + d)%nat -> (i < 2 ^ (h + d - 1 - g))%nat -> pair_at pe l g i = None
  end.
Proof.
  induction d as [|d IH]; intros h; [cbn [levels_error]; intros g i G; lia|].
  cbn [levels_error Nat.pow]. replace (2 ^ d + (2 ^ d + 0))%nat with (2 * 2 ^ d)%nat by lia.
  pose proof (row_error_seq pe h (fun j => part h j l) (2 ^ d) 0) as R. cbv zeta in R.
  change (2 * 0)%nat with O in R.
  destruct (row_error pe h _) as [e|].
  - destruct R as (j & J & E & B). exists h, j. split; [lia|]. replace (h + S d - 1 - h)%nat with d by lia. split; [lia|].
    split; [exact E|]. split; [intros i I; apply B; lia|]. intros g i G. lia.
  - pose proof (pairup_seq (fun j => part h j l) (2 ^ d) 0) as P. change (2 * 0)%nat with O in P. rewrite P. clear P.
    rewrite (map_ext (fun j => part h (2 * j) l ++ part h (2 * j + 1) l) (fun j => part (S h) j l)) by (intros; apply part_join).
    specialize (IH (S h)). replace (h + S d - 1)%nat with (S h + d - 1)%nat by lia.
    destruct (levels_error pe d (S h) _) as [e|].
    + destruct IH as (h' & j & H & J & E & B1 & B2). exists h', j. split; [lia|]. split; [exact J|]. split; [exact E|]. split; [exact B1|].
      intros g i G I. destruct (Nat.eq_dec g h) as [->|]; [|apply B2; [lia|exact I]].
      apply R. replace (S h + d - 1 - h)%nat with d in I by lia. lia.
    + intros g i G I. destruct (Nat.eq_dec g h) as [->|]; [|apply IH; [lia|exact I]].
      apply R. replace (S h + d - 1 - h)%nat with d in I by lia. lia.
Qed.

(** ** The verifier *)
Lemma pow2_at_least h : (h <= 2 ^ h)%nat.
Proof. induction h; cbn [Nat.pow]; lia. Qed.
Lemma forgets_some {A} (o : outcome (verr + A)) x : forgets o = Done (Some x) -> o = Done (inr x).
Proof. unfold forgets. destruct o as [[e|y]| |]; cbn [bind forget]; congruence. Qed.
Lemma indices_error n k soln : decodable n k = true -> lenN soln < 2 ^ 32 -> lenN soln <> solution_length n k ->
  indicesFromMinimalE n k soln = Done (inl BadMinimal).
Proof.
  intros G L NE. unfold decodable in G. apply andb_prop in G as (G & G5). apply andb_prop in G as (G & G4).
  apply andb_prop in G as (G & G3). apply andb_prop in G as (G1 & G2).
  apply N.ltb_lt in G1, G2, G5.
  unfold indicesFromMinimalE. rewrite collisionBitLength_spec by lia. cbn [bind]. cbv zeta.
  unfold solution_length in NE. set (c := digit_bits n k) in *. set (b := c + 1) in *.
  assert (HB : 8 <= b <= 32) by (clear - G3; unfold exact_width in G3; lia).
  unfold u32. rewrite (trunc_small 32 (lenN soln)) by auto.
  assert (K2 : 1 <= 2 ^ k < 2 ^ 32).
  { split; [pose proof (N.pow_nonzero 2 k ltac:(discriminate)); lia|apply N.pow_lt_mono_r; lia]. }
  unfold addw. fold b. rewrite (trunc_small 32 b) by (clear - HB; lia).
  unfold shlw. rewrite N.shiftl_1_l, (trunc_small 32 (2 ^ k)) by apply K2.
  unfold mulw. rewrite (trunc_small 32 (2 ^ k * b)) by (clear - G5; lia).
  destruct (N.eqb_spec (lenN soln) (2 ^ k * b / 8)) as [E|E]; [contradiction|reflexivity].
Qed.
Theorem verifyE_tree blake spare fuel n k personal header twist soln : blake_ok blake -> usable n k twist = true ->
  lenN personal <= 8 -> (twist = true -> (16 < fuel)%nat) -> bytes soln -> lenN soln < 2 ^ 32 -> lenN soln = solution_length n k ->
  let l := groups (digit_bits n k + 1) soln in
  let digit := leaf_digit n k (group_hash blake n k personal header twist) in
  match levels_error (pair_error digit) (N.to_nat k) 0 (map (fun j => part 0 j l) (seq 0 (2 ^ N.to_nat k))) with
  | Some e => verifyE blake spare fuel n k personal header soln twist = Done (inl e)
  | None => exists b, verifyE blake spare fuel n k personal header soln twist = Done (inr b)
  end.
Proof.
  intros OK U P8 FU B L LE l digit. destruct (usable_facts n k twist U) as (NP & DE & EW & HO & HT).
  assert (K28 : k < 29). { clear - DE. unfold decodable in DE. lia. }
  set (c := digit_bits n k) in *. assert (HC : 8 <= c <= 32) by (clear - EW; unfold exact_width in EW; lia).
  assert (CN : length l = (2 ^ N.to_nat k)%nat) by (apply (solution_count n k twist U); exact LE).
  assert (E1 : indicesFromMinimalE n k soln = Done (inr l)).
  { apply forgets_some. rewrite indices_forget, indicesFromMinimal_spec by auto. rewrite LE, N.eqb_refl. reflexivity. }
  assert (CB : collisionBitLength n k = Done c) by (apply collisionBitLength_spec; lia).
  assert (DL : forall i d, digit i d < 2 ^ c) by (intros; apply group_lt).
  assert (E2 : newNodesE blake spare fuel n k (personal ++ le_bytes 4 n ++ le_bytes 4 k) twist header l =
    Done (inr (map (node_at c k digit 0) (map (fun j => part 0 j l) (seq 0 (2 ^ N.to_nat k)))))).
  { apply forgets_some. rewrite newNodes_forget. rewrite (newNodes_spec blake spare fuel n k personal header twist OK U P8 FU l) by apply groups_lt.
    do 2 f_equal. rewrite <- CN, <- parts_zero, map_map. apply map_ext. intros i. unfold node_at. f_equal. f_equal.
    change (N.of_nat 0) with 0. rewrite N.sub_0_r. apply tab_ext. intros d _.
    unfold xor_digit. cbn [fold_right]. rewrite N.add_0_l, N.lxor_0_r. reflexivity. }
  unfold verifyE. cbv zeta. rewrite E1. cbn [bind]. rewrite E2. cbn [bind].
  set (ps := map (fun j => part 0 j l) (seq 0 (2 ^ N.to_nat k))).
  assert (LP : length ps = (2 ^ N.to_nat k)%nat) by (unfold ps; rewrite map_length, seq_length; reflexivity).
  assert (NP' : Forall (fun p => p <> []) ps).
  { unfold ps. rewrite <- CN, <- parts_zero. apply Forall_map, Forall_forall. intros; discriminate. }
  pose proof (reduceE_nodes c k n digit DL CB ltac:(lia) K28 (N.to_nat k) 0 (length (map (node_at c k digit 0) ps)) ps) as R.
  rewrite map_length in R. specialize (R ltac:(lia) LP). rewrite LP in R. specialize (R (pow2_at_least _) NP').
  rewrite map_length, LP. destruct (levels_error (pair_error digit) (N.to_nat k) 0 ps) as [e|].
  - rewrite R. reflexivity.
  - destruct R as (r & R). rewrite R. cbn [bind]. eexists. reflexivity.
Qed.
