(** The Equihash verifier accepts exactly the solutions of the specification. *)
From Coq Require Import NArith ZArith Arith List Lia Bool ZifyBool ZifyNat ZifyN.
From Verif Require Import Base BaseFacts CryptoModel CryptoProofs Levels EquiModel EquiSpec EquiExpand.
Import ListNotations.
Open Scope N_scope.
Ltac Zify.zify_post_hook ::= Z.div_mod_to_equations.

(** ** Bytes of digits *)
Definition hash_of (w : nat) (ds : list N) : list N := concat (map (be_bytes w) ds).
Fixpoint zip_xor (a b : list N) : list N :=
  match a, b with x :: a, y :: b => N.lxor x y :: zip_xor a b | _, _ => [] end.
Lemma hash_of_length w ds : length (hash_of w ds) = (w * length ds)%nat.
Proof. unfold hash_of. induction ds; cbn [map concat length]; [lia|]. rewrite app_length, be_bytes_length, IHds. lia. Qed.
Lemma zip_xor_length a b : length a = length b -> length (zip_xor a b) = length a.
Proof. revert b; induction a; intros [|y b] L; cbn in *; auto; try discriminate. Qed.
Lemma zip_xor_app a b c d : length a = length b -> zip_xor (a ++ c) (b ++ d) = zip_xor a b ++ zip_xor c d.
Proof. revert b; induction a; intros [|y b] L; cbn in *; auto; try discriminate. f_equal. auto. Qed.
Lemma nth_zip_xor a b i : length a = length b -> nth i (zip_xor a b) 0 = N.lxor (nth i a 0) (nth i b 0).
Proof.
  revert b i; induction a; intros [|y b] i L; cbn [length] in L; try discriminate.
  - destruct i; reflexivity.
  - destruct i; cbn [zip_xor nth]; [reflexivity|]. apply IHa. lia.
Qed.
Lemma lxor_shr_mod x y s : (N.lxor x y / 2 ^ s) mod 256 = N.lxor (x / 2 ^ s mod 256) (y / 2 ^ s mod 256).
Proof.
  change 256 with (2 ^ 8). rewrite <- !N.shiftr_div_pow2, <- !N.land_ones. rewrite N.shiftr_lxor.
  apply N.bits_inj; intro t. rewrite !N.land_spec, !N.lxor_spec, !N.land_spec.
  destruct (N.testbit (N.ones 8) t); rewrite ?andb_true_r, ?andb_false_r; reflexivity.
Qed.
Lemma zip_be_bytes w x y : zip_xor (be_bytes w x) (be_bytes w y) = be_bytes w (N.lxor x y).
Proof.
  apply (list_eq_nth _ _ 0).
  - rewrite zip_xor_length; rewrite !be_bytes_length; auto.
  - intros i I. rewrite zip_xor_length, be_bytes_length in I by (rewrite !be_bytes_length; auto).
    rewrite nth_zip_xor by (rewrite !be_bytes_length; auto). rewrite !be_bytes_digit by auto. symmetry. apply lxor_shr_mod.
Qed.
Lemma zip_hash_of w a b : length a = length b -> zip_xor (hash_of w a) (hash_of w b) = hash_of w (zip_xor a b).
Proof.
  revert b; induction a as [|x a IH]; intros [|y b] L; cbn [length] in L; try discriminate; [reflexivity|].
  unfold hash_of. cbn [map concat zip_xor]. rewrite zip_xor_app by (rewrite !be_bytes_length; auto).
  rewrite zip_be_bytes. f_equal. apply IH. lia.
Qed.
Lemma firstn_hash_of w d ds : firstn w (hash_of w (d :: ds)) = be_bytes w d.
Proof.
  unfold hash_of. cbn [map concat]. rewrite firstn_app, be_bytes_length, Nat.sub_diag, firstn_O, app_nil_r.
  apply firstn_all2. rewrite be_bytes_length. lia.
Qed.
Lemma skipn_hash_of w d ds : skipn w (hash_of w (d :: ds)) = hash_of w ds.
Proof.
  unfold hash_of. cbn [map concat]. rewrite skipn_app, be_bytes_length, Nat.sub_diag.
  rewrite skipn_all2 by (rewrite be_bytes_length; lia). reflexivity.
Qed.
Lemma be_bytes_inj w x y : x < 256 ^ N.of_nat w -> y < 256 ^ N.of_nat w -> be_bytes w x = be_bytes w y -> x = y.
Proof. intros X Y E. rewrite <- (be_bytes_value w x X), <- (be_bytes_value w y Y). congruence. Qed.

(** ** Pair operations *)
Definition combine (w : nat) (a b : node) : option node :=
  if list_eq_dec N.eq_dec (firstn w (n_hash a)) (firstn w (n_hash b)) then
    if hd 0 (n_indices b) <? hd 0 (n_indices a) then None
    else if distinctIndices (n_indices a) (n_indices b) then
      Some (mkNode (zip_xor (skipn w (n_hash a)) (skipn w (n_hash b)))
              (if hd 0 (n_indices a) <? hd 0 (n_indices b) then n_indices a ++ n_indices b else n_indices b ++ n_indices a))
    else None
  else None.
Definition row_ok (len : nat) (x : node) : Prop := length (n_hash x) = len /\ n_indices x <> [].

Lemma collide_loop m a b i : (i + m <= length a)%nat -> (i + m <= length b)%nat ->
  for_break m (N.of_nat i) (fun i (_ : unit) => x <- idx a i ;; y <- idx b i ;;
     if x =? y then Done (Continue tt) else Done (Break tt)) tt =
  Done (if list_eq_dec N.eq_dec (firstn m (skipn i a)) (firstn m (skipn i b)) then inr tt else inl tt).
Proof.
  revert i. induction m; intros i A B; cbn [for_break].
  - rewrite !firstn_O. destruct (list_eq_dec N.eq_dec [] []); [reflexivity|congruence].
  - rewrite !(idx_Done _ _ 0) by (unfold lenN; lia). cbn [bind]. rewrite !Nat2N.id.
    assert (S1 : forall l : list N, (i + S m <= length l)%nat -> firstn (S m) (skipn i l) = nth i l 0 :: firstn m (skipn (S i) l)).
    { intros l L. rewrite <- (firstn_skipn i l) at 2. rewrite app_nth2; rewrite firstn_length; [|lia].
      replace (i - Nat.min i (length l))%nat with O by lia.
      destruct (skipn i l) as [|x t] eqn:E.
      - apply (f_equal (@length N)) in E. rewrite skipn_length in E. cbn [length] in E. lia.
      - cbn [firstn nth]. f_equal. f_equal.
        apply (f_equal (skipn 1)) in E. cbn [skipn] in E. rewrite <- E. clear.
        revert l. induction i; intros [|y l]; try reflexivity. exact (IHi l). }
    rewrite !S1 by auto. destruct (N.eqb_spec (nth i a 0) (nth i b 0)) as [E|E]; cbn [bind].
    + replace (N.of_nat i + 1) with (N.of_nat (S i)) by lia. rewrite IHm by lia. f_equal.
      destruct (list_eq_dec N.eq_dec (firstn m (skipn (S i) a)) (firstn m (skipn (S i) b)));
      destruct (list_eq_dec N.eq_dec (nth i a 0 :: firstn m (skipn (S i) a)) (nth i b 0 :: firstn m (skipn (S i) b)));
      try reflexivity; congruence.
    + destruct (list_eq_dec N.eq_dec _ _) as [F|F]; [injection F; intros; contradiction|reflexivity].
Qed.
Lemma idx_hd (l : list N) : l <> [] -> idx l 0 = Done (hd 0 l).
Proof. destruct l; [congruence|]. reflexivity. Qed.
Lemma validate_spec n k c w len a b : collisionBitLength n k = Done c -> c < 2 ^ 31 -> w = N.to_nat (bytes_of_bits c) ->
  row_ok len a -> row_ok len b -> (w <= len)%nat ->
  validateSubtrees n k a b = Done (match combine w a b with Some _ => Some tt | None => None end).
Proof.
  intros C C1 W (LA & IA) (LB & IB) L. unfold validateSubtrees, collisionByteLength. rewrite C. cbn [bind].
  unfold addw. rewrite (trunc_small 32 (c + 7)) by lia. fold (bytes_of_bits c).
  unfold hasCollision. rewrite <- W. pose proof (collide_loop w (n_hash a) (n_hash b) 0 ltac:(lia) ltac:(lia)) as CL.
  change (N.of_nat 0) with 0 in CL. rewrite CL. clear CL. cbn [bind]. rewrite !skipn_O.
  unfold combine. destruct (list_eq_dec N.eq_dec (firstn w (n_hash a)) (firstn w (n_hash b))); [|reflexivity]. cbn [bind].
  rewrite !idx_hd by auto. cbn [bind].
  destruct (hd 0 (n_indices b) <? hd 0 (n_indices a)); [reflexivity|].
  destruct (distinctIndices (n_indices a) (n_indices b)); reflexivity.
Qed.
Lemma tail_xor (a b : list N) trim : length a = length b -> (trim <= length a)%nat -> lenN a < 2 ^ 32 ->
  for_up (length a - trim) (N.of_nat trim) (fun i hash =>
    x <- idx a i ;; y <- idx b i ;; upd hash (i - N.of_nat trim) (N.lxor x y)) (zeros (lenN a - N.of_nat trim)) =
  Done (zip_xor (skipn trim a) (skipn trim b)).
Proof.
  intros L T H.
  assert (Q : exists s', for_up (length a - trim) (N.of_nat trim) (fun i hash =>
    x <- idx a i ;; y <- idx b i ;; upd hash (i - N.of_nat trim) (N.lxor x y)) (zeros (lenN a - N.of_nat trim)) = Done s' /\
    (fun i s => s = firstn (N.to_nat i - trim) (zip_xor (skipn trim a) (skipn trim b)) ++ zeros (lenN a - i))
      (N.of_nat trim + N.of_nat (length a - trim)) s').
  { assert (LZ : length (zip_xor (skipn trim a) (skipn trim b)) = (length a - trim)%nat).
    { rewrite zip_xor_length; rewrite !skipn_length; lia. }
    apply (for_up_inv (fun i s => s = firstn (N.to_nat i - trim) (zip_xor (skipn trim a) (skipn trim b)) ++ zeros (lenN a - i))).
    - rewrite Nat2N.id, Nat.sub_diag, firstn_O. reflexivity.
    - intros i s I1 I2 ->. rewrite !(idx_Done _ _ 0) by (unfold lenN; lia). cbn [bind].
      rewrite upd_end.
      + eexists; split; [reflexivity|]. f_equal; [|f_equal; lia].
        replace (N.to_nat (i + 1) - trim)%nat with (S (N.to_nat i - trim)) by lia. symmetry. apply firstn_succ_snoc.
        rewrite (nth_error_nth' _ 0) by lia. f_equal. rewrite nth_zip_xor by (rewrite !skipn_length; lia).
        rewrite !nth_skipn. do 2 f_equal; lia.
      + unfold lenN. rewrite firstn_length. lia.
      + unfold lenN. lia. }
  destruct Q as (s' & E & ->). rewrite E. f_equal.
  replace (lenN a - (N.of_nat trim + N.of_nat (length a - trim))) with 0 by (unfold lenN; lia).
  change (zeros 0) with (@nil N). rewrite app_nil_r. apply firstn_all2. rewrite zip_xor_length; rewrite !skipn_length; lia.
Qed.
Lemma children_spec w len a b : row_ok len a -> row_ok len b -> (w <= len)%nat -> N.of_nat len < 2 ^ 32 ->
  newNodeFromChildrenRef a b (N.of_nat w) =
  Done (mkNode (zip_xor (skipn w (n_hash a)) (skipn w (n_hash b)))
          (if hd 0 (n_indices a) <? hd 0 (n_indices b) then n_indices a ++ n_indices b else n_indices b ++ n_indices a)).
Proof.
  intros (LA & IA) (LB & IB) L H. unfold newNodeFromChildrenRef. cbv zeta. unfold u32.
  assert (LE : lenN (n_hash a) = N.of_nat len) by (unfold lenN; lia).
  rewrite (trunc_small 32 (lenN (n_hash a))) by (rewrite LE; auto).
  assert (S1 : subw 32 (lenN (n_hash a)) (N.of_nat w) = lenN (n_hash a) - N.of_nat w).
  { rewrite LE. unfold subw. rewrite trunc_mod. change (2 ^ 32) with 4294967296 in *. lia. }
  rewrite S1. replace (N.to_nat (lenN (n_hash a) - N.of_nat w)) with (length (n_hash a) - w)%nat by (unfold lenN; lia).
  rewrite tail_xor; [|lia|lia|rewrite LE; auto]. cbn [bind]. rewrite !idx_hd by auto. reflexivity.
Qed.
Lemma combine_ok w len a b x : row_ok len a -> row_ok len b -> (w <= len)%nat -> combine w a b = Some x -> row_ok (len - w) x.
Proof.
  intros (LA & IA) (LB & IB) L E. unfold combine in E.
  destruct (list_eq_dec N.eq_dec _ _); [|discriminate]. destruct (hd 0 (n_indices b) <? hd 0 (n_indices a)); [discriminate|].
  destruct (distinctIndices _ _); [|discriminate]. injection E as <-. split; cbn [n_hash n_indices].
  - rewrite zip_xor_length; rewrite !skipn_length; lia.
  - destruct (hd 0 (n_indices a) <? hd 0 (n_indices b)); intros E; apply app_eq_nil in E; tauto.
Qed.
Lemma nextRows_spec n k c w len m rows : collisionBitLength n k = Done c -> c < 2 ^ 31 -> w = N.to_nat (bytes_of_bits c) ->
  Forall (row_ok len) rows -> length rows = (2 * m)%nat -> (w <= len)%nat -> N.of_nat len < 2 ^ 32 ->
  nextRows n k rows = Done (level (combine w) rows).
Proof.
  intros C C1 W F L WL H. revert rows F L. induction m; intros rows F L.
  - destruct rows; [reflexivity|discriminate].
  - destruct rows as [|a [|b t]]; cbn [length] in L; try lia.
    apply Forall_cons_iff in F as (A & F). apply Forall_cons_iff in F as (B & F).
    cbn [nextRows level]. rewrite (validate_spec n k c w len) by auto. cbn [bind].
    destruct (combine w a b) as [x|] eqn:E; [|reflexivity]. cbn [bind].
    unfold collisionByteLength. rewrite C. cbn [bind]. unfold addw. rewrite (trunc_small 32 (c + 7)) by lia. fold (bytes_of_bits c).
    replace (bytes_of_bits c) with (N.of_nat w) by lia. rewrite (children_spec w len) by auto. cbn [bind].
    rewrite IHm by (auto; lia). cbn [bind]. unfold combine in E.
    destruct (list_eq_dec N.eq_dec _ _); [|discriminate]. destruct (hd 0 (n_indices b) <? hd 0 (n_indices a)); [discriminate|].
    destruct (distinctIndices _ _); [|discriminate]. injection E as <-. destruct (level (combine w) t); reflexivity.
Qed.
Lemma level_rows_ok w len rows l : Forall (row_ok len) rows -> (w <= len)%nat -> level (combine w) rows = Some l -> Forall (row_ok (len - w)) l.
Proof.
  intros F L. revert l. assert (P : forall l, (level (combine w) rows = Some l -> Forall (row_ok (len - w)) l) /\
    (forall x, row_ok len x -> level (combine w) (x :: rows) = Some l -> Forall (row_ok (len - w)) l)).
  { induction F as [|y rows Y F IH].
    - intros l. split; [intros E; injection E as <-; constructor|]. intros x X E. discriminate.
    - intros l. split.
      + apply (IH l). exact Y.
      + intros x X E. cbn [level] in E. destruct (combine w x y) as [z|] eqn:EZ; [|discriminate].
        destruct (level (combine w) rows) as [r|] eqn:ER; [|discriminate]. injection E as <-. constructor.
        * apply (combine_ok w len x y z); auto.
        * apply (IH r). reflexivity. }
  intros l. apply (P l).
Qed.
Lemma reduceRows_spec n k c w h : collisionBitLength n k = Done c -> c < 2 ^ 31 -> w = N.to_nat (bytes_of_bits c) ->
  forall d fuel len rows, Forall (row_ok len) rows -> length rows = (2 ^ h)%nat -> (h <= fuel)%nat -> (w * h <= len)%nat -> N.of_nat len < 2 ^ 32 ->
  reduceRows fuel n k rows = Done (levels (fun _ => combine w) d h rows).
Proof.
  intros C C1 W. induction h; intros d fuel len rows F L FU WL H.
  - destruct rows as [|x [|]]; try discriminate. destruct fuel; reflexivity.
  - cbn [Nat.pow] in L.
    assert (L1 : (1 <= 2 ^ h)%nat) by (clear; induction h; cbn [Nat.pow]; lia).
    destruct fuel as [|fuel]; [lia|].
    destruct rows as [|a [|b t]] eqn:ER; cbn [length] in L; try lia. rewrite <- ER in *. cbn [levels].
    replace (reduceRows (S fuel) n k rows) with (l <-? nextRows n k rows ;; reduceRows fuel n k l) by (rewrite ER; reflexivity).
    assert (L2 : length rows = (2 * 2 ^ h)%nat) by (rewrite ER; cbn [length]; lia).
    rewrite (nextRows_spec n k c w len (2 ^ h)) by (auto; nia). cbn [bind].
    destruct (level (combine w) rows) as [l|] eqn:EL; [|reflexivity].
    apply (IHh (S d) fuel (len - w)%nat).
    + apply (level_rows_ok w len rows); auto. nia.
    + apply (level_length (combine w) _ rows); auto.
    + lia.
    + nia.
    + lia.
Qed.

(** ** Trees of digits *)
Section Trees.
  Variables (c k : N) (digit : N -> N -> N).
  Hypothesis digit_lt : forall i d, digit i d < 2 ^ c.
  Let w := N.to_nat (bytes_of_bits c).
  Let leaf_node (i : N) : node := mkNode (hash_of w (tab (k + 1) (digit i))) [i].
  Let node_of (h : nat) (l : list N) : node :=
    mkNode (hash_of w (tab (k + 1 - N.of_nat h) (fun d => xor_digit digit (N.of_nat h + d) l))) l.

  Lemma xor_digit_app d a b : xor_digit digit d (a ++ b) = N.lxor (xor_digit digit d a) (xor_digit digit d b).
  Proof.
    unfold xor_digit. induction a; cbn [app fold_right]; [rewrite N.lxor_0_l; auto|]. rewrite IHa, N.lxor_assoc. auto.
  Qed.
  Lemma xor_digit_lt d l : xor_digit digit d l < 2 ^ c.
  Proof.
    unfold xor_digit. induction l; cbn [fold_right].
    - pose proof (N.pow_nonzero 2 c ltac:(discriminate)). lia.
    - apply lxor_lt; auto.
  Qed.
  Lemma digit_bytes x : x < 2 ^ c -> x < 256 ^ N.of_nat w.
  Proof.
    intros X. unfold w. rewrite N2Nat.id, pow256. eapply N.lt_le_trans; [exact X|]. apply N.pow_le_mono_r; [discriminate|].
    unfold bytes_of_bits. lia.
  Qed.
  Lemma distinct_spec a b : distinctIndices a b = true <-> (forall i, In i a -> ~ In i b).
  Proof.
    unfold distinctIndices. rewrite forallb_forall. split.
    - intros H i A B. specialize (H i A). rewrite forallb_forall in H. specialize (H i B). rewrite N.eqb_refl in H. discriminate.
    - intros H i A. apply forallb_forall. intros j B. destruct (N.eqb_spec i j); [subst; elim (H j); auto|reflexivity].
  Qed.
  Lemma tab_S n (f : N -> N) : tab (n + 1) f = f 0 :: tab n (fun d => f (1 + d)).
  Proof. rewrite (N.add_comm n 1), tab_app. reflexivity. Qed.
  Lemma zip_tab n f g : zip_xor (tab n f) (tab n g) = tab n (fun d => N.lxor (f d) (g d)).
  Proof.
    apply (list_eq_tab _ _ 0).
    - unfold lenN. rewrite zip_xor_length; rewrite !tab_length; lia.
    - intros i I. rewrite nth_zip_xor by (rewrite !tab_length; auto). rewrite !nth_tab by lia. rewrite N2Nat.id. reflexivity.
  Qed.
  Lemma combine_node_of h a b x : N.of_nat h < k + 1 -> a <> [] -> b <> [] ->
    combine w (node_of h a) (node_of h b) = Some x <->
    (hd 0 a < hd 0 b /\ (forall i, In i a -> ~ In i b) /\ xor_digit digit (N.of_nat h) a = xor_digit digit (N.of_nat h) b) /\
    x = node_of (S h) (a ++ b).
  Proof.
    intros H NA NB. unfold combine, node_of. cbn [n_hash n_indices].
    replace (k + 1 - N.of_nat h) with (k - N.of_nat h + 1) by lia. rewrite !tab_S, !firstn_hash_of, !skipn_hash_of, N.add_0_r.
    assert (HH : hd 0 a = hd 0 b -> ~ (forall i, In i a -> ~ In i b)).
    { intros E D. destruct a as [|x0 a]; [congruence|]. destruct b as [|y b]; [congruence|]. cbn [hd] in E. subst y.
      apply (D x0); left; reflexivity. }
    rewrite zip_hash_of by (rewrite !tab_length; auto). rewrite zip_tab.
    assert (EH : tab (k - N.of_nat h) (fun d => N.lxor (xor_digit digit (N.of_nat h + (1 + d)) a) (xor_digit digit (N.of_nat h + (1 + d)) b))
      = tab (k + 1 - N.of_nat (S h)) (fun d => xor_digit digit (N.of_nat (S h) + d) (a ++ b))).
    { replace (k + 1 - N.of_nat (S h)) with (k - N.of_nat h) by lia. apply tab_ext. intros d _. rewrite xor_digit_app.
      replace (N.of_nat (S h) + d) with (N.of_nat h + (1 + d)) by lia. reflexivity. }
    rewrite EH. clear EH. split.
    - destruct (list_eq_dec N.eq_dec _ _) as [E|]; [|discriminate].
      destruct (N.ltb_spec (hd 0 b) (hd 0 a)); [discriminate|].
      destruct (distinctIndices a b) eqn:D; [|discriminate]. pose proof (proj1 (distinct_spec a b) D) as D1. intros X. injection X as <-.
      assert (HL : hd 0 a < hd 0 b).
      { destruct (N.eq_dec (hd 0 a) (hd 0 b)) as [Q|Q]; [elim (HH Q D1)|lia]. }
      split.
      + split; [exact HL|]. split; [exact D1|].
        apply (be_bytes_inj w); auto; apply digit_bytes, xor_digit_lt.
      + destruct (N.ltb_spec (hd 0 a) (hd 0 b)); [reflexivity|lia].
    - intros ((HL & D & E) & ->). rewrite E. destruct (list_eq_dec N.eq_dec _ _); [|congruence].
      destruct (N.ltb_spec (hd 0 b) (hd 0 a)); [lia|]. apply (proj2 (distinct_spec a b)) in D. rewrite D.
      destruct (N.ltb_spec (hd 0 a) (hd 0 b)); [reflexivity|lia].
  Qed.
  Lemma tree_value_spec h : N.of_nat h <= k -> forall l x, length l = (2 ^ h)%nat ->
    tree_value (fun _ => combine w) h (map leaf_node l) = Some x <-> tree digit h l /\ x = node_of h l.
  Proof.
    induction h; intros H l x L.
    - destruct l as [|i [|]]; try discriminate. cbn [map tree_value tree].
      assert (E : leaf_node i = node_of 0 [i]).
      { unfold leaf_node, node_of. f_equal. f_equal. change (N.of_nat 0) with 0. rewrite N.sub_0_r. apply tab_ext.
        intros d _. cbn [xor_digit fold_right]. unfold xor_digit. cbn [fold_right]. rewrite N.add_0_l, N.lxor_0_r. reflexivity. }
      rewrite E. split; [intros X; injection X as <-; auto|intros (_ & ->); auto].
    - cbn [tree_value tree]. rewrite firstn_map, skipn_map.
      assert (L1 : (1 <= 2 ^ h)%nat) by (clear; induction h; cbn [Nat.pow]; lia).
      cbn [Nat.pow] in L.
      assert (LF : length (firstn (2 ^ h) l) = (2 ^ h)%nat) by (rewrite firstn_length; lia).
      assert (LS : length (skipn (2 ^ h) l) = (2 ^ h)%nat) by (rewrite skipn_length; lia).
      assert (NF : firstn (2 ^ h) l <> []) by (intros Z; rewrite Z in LF; cbn [length] in LF; lia).
      assert (NS : skipn (2 ^ h) l <> []) by (intros Z; rewrite Z in LS; cbn [length] in LS; lia).
      pose proof (fun x => IHh ltac:(lia) _ x LF) as IF. pose proof (fun x => IHh ltac:(lia) _ x LS) as IS.
      destruct (tree_value _ h (map leaf_node (firstn (2 ^ h) l))) as [a|].
      2:{ split; [discriminate|]. intros ((T & _) & _). specialize (IF (node_of h (firstn (2 ^ h) l))).
          assert (None = Some (node_of h (firstn (2 ^ h) l))) by (apply IF; auto). discriminate. }
      destruct (tree_value _ h (map leaf_node (skipn (2 ^ h) l))) as [b|].
      2:{ split; [discriminate|]. intros ((_ & T & _) & _). specialize (IS (node_of h (skipn (2 ^ h) l))).
          assert (None = Some (node_of h (skipn (2 ^ h) l))) by (apply IS; auto). discriminate. }
      destruct (proj1 (IF a) eq_refl) as (TA & ->). destruct (proj1 (IS b) eq_refl) as (TB & ->).
      rewrite combine_node_of by (auto; lia). rewrite firstn_skipn. tauto.
  Qed.
  Lemma zero_hash l : forallb (fun v => v =? 0) (n_hash (node_of (N.to_nat k) l)) = true <-> xor_digit digit k l = 0.
  Proof.
    unfold node_of. cbn [n_hash]. rewrite N2Nat.id. replace (k + 1 - k) with 1 by lia.
    change (tab 1 (fun d => xor_digit digit (k + d) l)) with [xor_digit digit (k + 0) l]. rewrite N.add_0_r.
    unfold hash_of. cbn [map concat]. rewrite app_nil_r. set (v := xor_digit digit k l).
    pose proof (digit_bytes v (xor_digit_lt k l)) as V. split.
    - intros F. rewrite <- (be_bytes_value w v V).
      assert (Z : be_bytes w v = repeat 0 w).
      { rewrite forallb_forall in F. apply (list_eq_nth _ _ 0); [rewrite be_bytes_length, repeat_length; auto|].
        intros i I. rewrite nth_repeat. apply N.eqb_eq, F, nth_In, I. }
      rewrite Z. clear. induction w; [reflexivity|]. change (repeat 0 (S n)) with ([0] ++ repeat 0 n).
      rewrite be_app, IHn. reflexivity.
    - intros ->. apply forallb_forall. intros x X. apply (In_nth _ _ 0) in X as (i & I & E).
      rewrite be_bytes_length in I. rewrite be_bytes_digit, N.div_0_l in E by (auto; apply N.pow_nonzero; discriminate).
      change (0 mod 256) with 0 in E. subst x. reflexivity.
  Qed.
  Lemma leaf_rows_ok l : Forall (row_ok (w * N.to_nat (k + 1))) (map leaf_node l).
  Proof.
    apply Forall_forall. intros x X. apply in_map_iff in X as (i & <- & _). split; [|discriminate].
    cbn [leaf_node n_hash]. rewrite hash_of_length, tab_length. reflexivity.
  Qed.
End Trees.

(** ** Hashes of groups of leaves *)
Definition blake_ok (blake : N -> list N -> list N -> list N) : Prop :=
  forall size p d, size <= 64 -> lenN (blake size p d) = size /\ bytes (blake size p d).
Lemma Blake2b_spec blake data personal size : 1 <= size <= 64 -> lenN personal <= 16 ->
  Blake2b blake data personal size = Done (blake size personal data).
Proof.
  intros H P. unfold Blake2b, u8. rewrite trunc_small by lia. destruct (N.eqb_spec size 0); [lia|].
  destruct (N.ltb_spec 64 size); [lia|]. destruct (N.ltb_spec 16 (lenN personal)); [lia|]. reflexivity.
Qed.
Lemma indicesPer_spec n : 1 <= n -> indicesPerHashOutput n = Done (leaves_per_hash n).
Proof. intros H. unfold indicesPerHashOutput, divc. destruct (N.eqb_spec n 0); [lia|]. reflexivity. Qed.
Lemma leaf_length_small n : n <= 512 -> addw 32 n 7 / 8 = leaf_length n.
Proof. intros H. unfold addw. rewrite trunc_small by lia. reflexivity. Qed.
Lemma per_pos n : 1 <= n <= 512 -> 1 <= leaves_per_hash n <= 512.
Proof.
  intros H. unfold leaves_per_hash. split; [|apply N.div_le_upper_bound; lia].
  apply N.div_le_lower_bound; lia.
Qed.
Lemma leaf_pos n : 1 <= n <= 512 -> 1 <= leaf_length n <= 64.
Proof. intros H. unfold leaf_length, bytes_of_bits. lia. Qed.
Lemma hashOutput_spec n : 1 <= n <= 512 -> leaves_per_hash n * leaf_length n <= 64 ->
  hashOutput n = Done (leaves_per_hash n * leaf_length n).
Proof.
  intros H P. unfold hashOutput. rewrite indicesPer_spec by lia. cbn [bind]. rewrite leaf_length_small by lia.
  unfold mulw. rewrite trunc_small by lia. reflexivity.
Qed.

Lemma land248 h : h < 256 -> N.land h 248 = h - h mod 8.
Proof.
  intros H. assert (A : forallb (fun h => N.land h 248 =? h - h mod 8) (tab 256 (fun i => i)) = true) by (vm_compute; reflexivity).
  rewrite forallb_forall in A. apply N.eqb_eq, A.
  replace h with (nth (N.to_nat h) (tab 256 (fun i => i)) 0) by (rewrite nth_tab by lia; apply N2Nat.id).
  apply nth_In. rewrite tab_length. lia.
Qed.
Lemma mask_spec h : bytes h -> lenN h = 64 -> maskHash 64 h = Done (clear_low3 h).
Proof.
  intros B L. unfold maskHash. change (64 / 16) with 4. set (v := fun j => nth (N.to_nat j) h 0).
  set (val := fun i j => if (j mod 16 =? 15) && (j <? 16 * i) then v j - v j mod 8 else v j).
  assert (V : forall j, v j < 256).
  { intros j. unfold v. destruct (Nat.lt_ge_cases (N.to_nat j) (length h)) as [Q|Q].
    - eapply Forall_forall in B; [exact B|apply nth_In, Q].
    - rewrite nth_overflow by auto. lia. }
  destruct (for_n_inv (fun i s => s = tab 64 (val i)) 4 (fun i hash =>
    let j := 15 + 16 * i in h <- idx hash j ;; upd hash j (N.land h 248)) h) as (s & E & ->).
  - apply (list_eq_tab _ _ 0); auto. intros i I. unfold val. destruct (N.ltb_spec i (16 * 0)); [lia|].
    rewrite andb_false_r. reflexivity.
  - intros i s I ->. cbv zeta. rewrite idx_tab by lia. cbn [bind]. rewrite upd_Done by (rewrite lenN_tab; lia).
    eexists; split; [reflexivity|]. apply (list_eq_tab _ _ 0).
    + unfold lenN. rewrite set_nth_length, tab_length. reflexivity.
    + intros j J. rewrite nth_set_nth by (rewrite tab_length; lia). 
      destruct (Nat.eqb_spec (N.to_nat (15 + 16 * i)) (N.to_nat j)) as [Q|Q].
      * replace j with (15 + 16 * i) by lia. clear Q. unfold val. replace ((15 + 16 * i) mod 16) with 15 by lia. change (15 =? 15) with true. cbn [andb].
        destruct (N.ltb_spec (15 + 16 * i) (16 * i)); [lia|]. destruct (N.ltb_spec (15 + 16 * i) (16 * (i + 1))); [|lia].
        apply land248, V.
      * rewrite nth_tab, N2Nat.id by lia. unfold val. destruct (N.eqb_spec (j mod 16) 15) as [M|M]; cbn [andb]; [|reflexivity].
        destruct (N.ltb_spec j (16 * i)); destruct (N.ltb_spec j (16 * (i + 1))); try reflexivity; lia.
  - cbv zeta in E. rewrite E. unfold clear_low3. rewrite L. apply (f_equal Done), tab_ext. intros j J. unfold val.
    fold (v j). destruct (j mod 16 =? 15); cbn [andb]; [|reflexivity]. destruct (N.ltb_spec j (16 * 4)); [reflexivity|lia].
Qed.
Lemma sum_snoc (f : list N -> N) hs h :
  fold_right (fun h a => (f h + a) mod 2 ^ 32) 0 (hs ++ [h]) =
  (fold_right (fun h a => (f h + a) mod 2 ^ 32) 0 hs + f h) mod 2 ^ 32.
Proof.
  change (2 ^ 32) with 4294967296. induction hs as [|x hs IH]; cbn [app fold_right]; [f_equal; lia|]. rewrite IH. clear.
  rewrite N.add_mod_idemp_r, N.add_mod_idemp_l by discriminate. f_equal. lia.
Qed.
Lemma addLanes_spec spare t hs : lenN t = 64 -> bytes t -> addLanes spare t (sum_lanes hs) = Done (sum_lanes (hs ++ [t])).
Proof.
  intros L B. unfold addLanes, sum_lanes. apply (for_fill 16 _ _ _ 0); [apply lenN_tab|].
  intros j s J LS _ H. rewrite slice_Done; [|lia|unfold lenN in *; rewrite app_length; lia]. cbn [bind].
  replace (N.to_nat ((j + 1) * 4 - j * 4)) with 4%nat by lia. rewrite skipn_app, firstn_app.
  unfold lenN in L.
  replace (4 - length (skipn (N.to_nat (j * 4)) t))%nat with O by (rewrite skipn_length; lia). rewrite firstn_O, app_nil_r.
  replace (j * 4) with (4 * j) by lia.
  assert (U : le_u32 (firstn 4 (skipn (N.to_nat (4 * j)) t)) = Done (lane t j)).
  { unfold le_u32. destruct (N.leb_spec 4 (lenN (firstn 4 (skipn (N.to_nat (4 * j)) t)))) as [Q|Q].
    - rewrite firstn_firstn. reflexivity.
    - unfold lenN in Q. rewrite firstn_length, skipn_length in Q. lia. }
  rewrite U. cbn [bind]. rewrite (idx_Done s j 0) by lia. cbn [bind]. rewrite H by lia. rewrite nth_tab, N2Nat.id by lia.
  rewrite sum_snoc. unfold addw. rewrite trunc_mod. reflexivity.
Qed.
Lemma round16 g : g < 2 ^ 32 -> N.land g 4294967280 = g / 16 * 16.
Proof.
  intros H. replace 4294967280 with (N.shiftl (N.ones 28) 4) by reflexivity.
  rewrite <- (N.shiftl_mul_pow2 _ 4). change 16 with (2 ^ 4) at 1. rewrite <- N.shiftr_div_pow2.
  apply N.bits_inj; intro t. rewrite N.land_spec. destruct (N.lt_ge_cases t 4).
  - rewrite !N.shiftl_spec_low by auto. apply andb_false_r.
  - rewrite !N.shiftl_spec_high' by auto. rewrite N.shiftr_spec'. replace (t - 4 + 4) with t by lia.
    destruct (N.lt_ge_cases (t - 4) 28).
    + rewrite N.ones_spec_low by auto. apply andb_true_r.
    + rewrite N.ones_spec_high by auto. rewrite andb_false_r. symmetry. apply (testbit_high 32); [exact H|lia].
Qed.
Lemma twistLoop_spec blake spare st ps g : blake_ok blake -> lenN ps <= 16 -> g < 2 ^ 32 - 1 ->
  forall m fuel t, (m < fuel)%nat -> t + N.of_nat m = g + 1 -> g / 16 * 16 <= t ->
  twistLoop blake spare fuel st ps g 64 t (sum_lanes (tab (t - g / 16 * 16) (fun i => blake 64 ps (st ++ le_bytes 4 (g / 16 * 16 + i))))) =
  Done (sum_lanes (tab (g - g / 16 * 16 + 1) (fun i => blake 64 ps (st ++ le_bytes 4 (g / 16 * 16 + i))))).
Proof.
  intros OK P G. set (first := g / 16 * 16). assert (FG : first <= g) by (unfold first; lia). clearbody first.
  set (f := fun i => blake 64 ps (st ++ le_bytes 4 (first + i))).
  induction m; intros fuel t FU T FT; (destruct fuel as [|fuel]; [lia|]).
  - cbn [twistLoop loop_fuel]. unfold twistLoop. cbn [loop_fuel]. destruct (N.leb_spec t g); [lia|]. cbn [bind].
    do 3 f_equal. lia.
  - unfold twistLoop. cbn [loop_fuel]. destruct (N.leb_spec t g); [|lia]. unfold hashBlakeWithOffset.
    rewrite Blake2b_spec by (auto; lia). cbn [bind]. rewrite addLanes_spec by (apply OK; lia). cbn [bind].
    unfold addw. rewrite trunc_small by lia.
    specialize (IHm fuel (t + 1) ltac:(lia) ltac:(lia) ltac:(lia)). unfold twistLoop in IHm. rewrite <- IHm.
    do 3 f_equal. replace (t + 1 - first) with ((t - first) + 1) by lia. rewrite tab_succ. f_equal. unfold f.
    replace (first + (t - first)) with t by lia. reflexivity.
Qed.

Section Hash.
  Variables (blake : N -> list N -> list N -> list N) (spare : N -> list N) (fuel : nat) (n k : N) (personal header : list N).
  Hypothesis OK : blake_ok blake.
  Hypothesis NP : 1 <= n <= 512.
  Hypothesis P8 : lenN personal <= 8.
  Hypothesis HO : leaves_per_hash n * leaf_length n <= 64.
  Let ps := personal ++ le_bytes 4 n ++ le_bytes 4 k.
  Lemma ps_len : lenN ps <= 16.
  Proof. unfold ps, lenN in *. rewrite !app_length, !le_bytes_length. lia. Qed.
  Lemma out_pos : 1 <= leaves_per_hash n * leaf_length n.
  Proof. pose proof (per_pos n NP). pose proof (leaf_pos n NP). nia. Qed.
  Lemma plain_len g : lenN (plain_hash blake n k personal header g) = leaves_per_hash n * leaf_length n.
  Proof. apply OK. exact HO. Qed.
  Lemma plain_bytes g : bytes (plain_hash blake n k personal header g).
  Proof. apply OK. exact HO. Qed.
  Lemma generate_plain g : generateHash blake spare fuel header ps g (leaves_per_hash n * leaf_length n) false =
    Done (plain_hash blake n k personal header g ++ spare (leaves_per_hash n * leaf_length n)).
  Proof.
    unfold generateHash, hashBlakeWithOffset. cbn [negb]. pose proof out_pos. rewrite Blake2b_spec by (auto using ps_len).
    cbn [bind]. fold ps. f_equal. f_equal. f_equal. apply plain_len.
  Qed.
  Lemma twisted_len g : lenN (twisted_hash blake n k personal header g) = 64 /\ bytes (twisted_hash blake n k personal header g).
  Proof.
    unfold twisted_hash. cbv zeta. set (l := tab _ _).
    assert (Q : forall l', lenN l' = 16 -> lenN (flat_map (le_bytes 4) l') = 64).
    { intros l' L. unfold lenN in *. rewrite flat_map_concat_map.
      assert (Z : forall m : list N, length (concat (map (le_bytes 4) m)) = (4 * length m)%nat).
      { clear. induction m; cbn [map concat length]; [reflexivity|]. rewrite app_length, le_bytes_length, IHm. lia. }
      rewrite Z. lia. }
    unfold clear_low3. split; [rewrite lenN_tab; apply Q; unfold sum_lanes; apply lenN_tab|].
    assert (BF : bytes (flat_map (le_bytes 4) (sum_lanes l))).
    { clear. generalize (sum_lanes l). intros m. induction m; cbn [flat_map]; [constructor|].
      apply Forall_app; split; auto. apply le_bytes_bytes. }
    apply words_tab. intros j J. set (h := flat_map _ _) in *. clearbody h.
    assert (V : nth (N.to_nat j) h 0 < 2 ^ 8).
    { eapply Forall_forall in BF; [exact BF|apply nth_In]. unfold lenN in J. lia. }
    destruct (j mod 16 =? 15); [|exact V]. lia.
  Qed.
  Lemma generate_twisted g : g < 2 ^ 32 - 1 -> leaves_per_hash n * leaf_length n = 64 -> (16 < fuel)%nat ->
    generateHash blake spare fuel header ps g 64 true = Done (twisted_hash blake n k personal header g).
  Proof.
    intros G H64 FU. unfold generateHash. cbn [negb]. cbv zeta. rewrite round16 by lia.
    assert (Z : zeros 16 = sum_lanes (tab (g / 16 * 16 - g / 16 * 16) (fun i => blake 64 ps (header ++ le_bytes 4 (g / 16 * 16 + i))))).
    { rewrite N.sub_diag. reflexivity. }
    rewrite Z. rewrite (twistLoop_spec blake spare header ps g OK ps_len G (N.to_nat (g + 1 - g / 16 * 16))); [|clear - FU|clear|clear; lia].
    2:{ pose proof (N.mod_lt g 16 ltac:(discriminate)). pose proof (N.div_mod g 16 ltac:(discriminate)). lia. }
    2:{ pose proof (N.mod_lt g 16 ltac:(discriminate)). pose proof (N.div_mod g 16 ltac:(discriminate)). lia. }
    cbn [bind]. rewrite Uint32ArrayToBytes_spec. cbn [bind]. unfold twisted_hash. cbv zeta.
    unfold plain_hash. rewrite H64. fold ps. rewrite <- flat_map_concat_map. change (enc32 LittleEndian) with (le_bytes 4).
    apply mask_spec.
    - generalize (sum_lanes (tab (g - g / 16 * 16 + 1) (fun t => blake 64 ps (header ++ le_bytes 4 (g / 16 * 16 + t))))).
      clear. intros m. induction m; cbn [flat_map]; [constructor|]. apply Forall_app; split; auto. apply le_bytes_bytes.
    - reflexivity.
  Qed.
End Hash.

(** ** Verification *)
(** Parameters for which the leaves split into [k + 1] digits and the hashes fit in one BLAKE2b output. *)
Definition usable (n k : N) (twist : bool) : bool :=
  let c := digit_bits n k in let w := bytes_of_bits c in let h := leaf_length n in
  (1 <=? n) && (n <=? 512) && decodable n k && exact_width c && (leaves_per_hash n * h <=? 64) &&
  (8 * h / c =? k + 1) && (8 * w * h / c =? w * (k + 1)) && (negb (8 * w * h / c =? h) || (8 * h mod c =? 0)) &&
  (negb twist || (leaves_per_hash n * h =? 64) && (c + 1 <? 32)).

Lemma expanded_hash c l : expanded c 0 l = hash_of (N.to_nat (bytes_of_bits c)) (groups c l).
Proof. reflexivity. Qed.
Lemma leaf_expand n k twist l : usable n k twist = true -> bytes l -> lenN l = leaf_length n ->
  expandArray l (digit_bits n k) 0 = Done (Some (hash_of (N.to_nat (bytes_of_bits (digit_bits n k))) (tab (k + 1) (group (digit_bits n k) l)))).
Proof.
  intros U B L. unfold usable in U. cbv zeta in U.
  apply andb_prop in U as (U & _). apply andb_prop in U as (U & U8). apply andb_prop in U as (U & U7). apply andb_prop in U as (U & U6).
  apply andb_prop in U as (U & U5). apply andb_prop in U as (U & U4). apply andb_prop in U as (U & U3). apply andb_prop in U as (U1 & U2).
  apply N.leb_le in U1, U2, U5. apply N.eqb_eq in U6, U7.
  set (c := digit_bits n k) in *. clearbody c.
  assert (HC : 8 <= c <= 32) by (clear - U4; unfold exact_width in U4; lia).
  assert (W4 : bytes_of_bits c <= 4) by (clear - HC; unfold bytes_of_bits; lia).
  pose proof (leaf_pos n ltac:(lia)) as LP.
  assert (SZ : 8 * (bytes_of_bits c + 0) * lenN l < 2 ^ 32) by (rewrite L; clear - W4 LP; change (2 ^ 32) with 4294967296; nia).
  assert (G : groups c l = tab (k + 1) (group c l)) by (unfold groups; rewrite L, U6; reflexivity).
  apply orb_prop in U8 as [U8|U8].
  - apply negb_true_iff, N.eqb_neq in U8. rewrite (expand_spec c 0 l U4 B SZ); rewrite L, N.add_0_r; [|exact U8].
    rewrite U7, U6, N.sub_diag. change (zeros 0) with (@nil N). rewrite app_nil_r, expanded_hash, G. reflexivity.
  - apply N.eqb_eq in U8. rewrite (expand_exact c 0 l U4 B SZ); [|rewrite L; exact U8]. rewrite expanded_hash, G. reflexivity.
Qed.
Lemma usable_facts n k twist : usable n k twist = true -> let c := digit_bits n k in
1 <= n <= 512 /\ decodable n k = true /\ exact_width c = true /\ leaves_per_hash n * leaf_length n <= 64 /\
  (twist = true -> leaves_per_hash n * leaf_length n = 64 /\ c + 1 < 32).
Proof.
  intros U c. unfold usable in U. cbv zeta in U. fold c in U.
  apply andb_prop in U as (V & U9). apply andb_prop in V as (V & _). apply andb_prop in V as (V & _). apply andb_prop in V as (V & _).
  apply andb_prop in V as (V & U5). apply andb_prop in V as (V & U4). apply andb_prop in V as (V & U3). apply andb_prop in V as (U1 & U2).
  apply N.leb_le in U1, U2, U5. split; [split; assumption|]. split; [assumption|]. split; [assumption|]. split; [assumption|].
  intros ->. cbn [negb orb] in U9. apply andb_prop in U9 as (X & Y). apply N.eqb_eq in X. apply N.ltb_lt in Y. auto.
Qed.
Section Verify.
  Variables (blake : N -> list N -> list N -> list N) (spare : N -> list N) (fuel : nat) (n k : N) (personal header : list N) (twist : bool).
  Hypothesis OK : blake_ok blake.
  Hypothesis U : usable n k twist = true.
  Hypothesis P8 : lenN personal <= 8.
  Hypothesis FU : twist = true -> (16 < fuel)%nat.
  Let ps := personal ++ le_bytes 4 n ++ le_bytes 4 k.
  Let hash := group_hash blake n k personal header twist.
  Let c := digit_bits n k.
  Let w := N.to_nat (bytes_of_bits c).
  Let digit := leaf_digit n k hash.
  Let leaf_node (i : N) : node := mkNode (hash_of w (tab (k + 1) (digit i))) [i].

  Lemma hash_len g : lenN (hash g) = leaves_per_hash n * leaf_length n /\ bytes (hash g).
  Proof.
    destruct (usable_facts n k twist U) as (NP & _ & _ & HO & HT). unfold hash, group_hash. destruct twist.
    - rewrite (proj1 (HT eq_refl)). apply twisted_len; auto.
    - apply OK. exact HO.
  Qed.
  Lemma leaf_len i : lenN (leaf n hash i) = leaf_length n /\ bytes (leaf n hash i).
  Proof.
    destruct (usable_facts n k twist U) as (NP & _ & _ & HO & _). destruct (hash_len (i / leaves_per_hash n)) as (HL & HB).
    pose proof (per_pos n NP). pose proof (N.mod_lt i (leaves_per_hash n) ltac:(lia)) as M.
    unfold leaf. split.
    - unfold lenN in *. rewrite firstn_length, skipn_length.
      set (r := i mod leaves_per_hash n) in *. clearbody r.
      assert ((r + 1) * leaf_length n <= N.of_nat (length (hash (i / leaves_per_hash n)))) by (rewrite HL; apply N.mul_le_mono_r; lia). lia.
    - apply Forall_firstn_e, Forall_skipn_e, HB.
  Qed.
  Lemma newNode_spec i : i < 2 ^ (c + 1) -> newNode blake spare fuel n k ps twist header i = Done (Some (leaf_node i)).
  Proof.
    intros I. destruct (usable_facts n k twist U) as (NP & DE & EW & HO & HT).
    assert (K28 : k < 29). { clear - DE. unfold decodable in DE. lia. }
    assert (C32 : c + 1 <= 32) by (unfold decodable in DE; fold c in DE; clear - DE; unfold exact_width in DE; lia).
    assert (I32 : i < 2 ^ 32) by (eapply N.lt_le_trans; [exact I|apply N.pow_le_mono_r; [discriminate|exact C32]]).
    pose proof (per_pos n NP) as PP. pose proof (leaf_pos n NP) as LP.
    unfold newNode. rewrite indicesPer_spec by lia. cbn [bind]. unfold divc. destruct (N.eqb_spec (leaves_per_hash n) 0); [lia|]. cbn [bind].
    rewrite hashOutput_spec by auto. cbn [bind].
    set (g := i / leaves_per_hash n).
    destruct (hash_len g) as (HL & HB).
    assert (GH : exists tail, generateHash blake spare fuel header ps g (leaves_per_hash n * leaf_length n) twist = Done (hash g ++ tail)).
    { unfold hash, group_hash. destruct twist.
      - destruct (HT eq_refl) as (H64 & C31). exists []. rewrite app_nil_r, H64. apply generate_twisted; auto.
        apply N.le_lt_trans with i; [apply N.div_le_upper_bound; nia|].
        eapply N.lt_le_trans; [exact I|]. apply N.le_trans with (2 ^ 31); [apply N.pow_le_mono_r; lia|lia].
      - exists (spare (leaves_per_hash n * leaf_length n)). apply generate_plain; auto. }
    destruct GH as (tail & GH). rewrite GH. cbn [bind]. unfold modc. destruct (N.eqb_spec (leaves_per_hash n) 0); [lia|]. cbn [bind].
    rewrite leaf_length_small by lia. cbv zeta. pose proof (N.mod_lt i (leaves_per_hash n) ltac:(lia)) as M.
    set (r := i mod leaves_per_hash n) in *.
    assert (R1 : (r + 1) * leaf_length n <= leaves_per_hash n * leaf_length n) by (apply N.mul_le_mono_r; lia).
    assert (M1 : mulw 32 r (leaf_length n) = r * leaf_length n) by (unfold mulw; apply trunc_small; lia).
    assert (A1 : addw 32 (r * leaf_length n) (leaf_length n) = r * leaf_length n + leaf_length n) by (unfold addw; apply trunc_small; lia).
    rewrite M1, A1. rewrite slice_Done; [|lia|unfold lenN in *; rewrite app_length; lia]. cbn [bind].
    replace (r * leaf_length n + leaf_length n - r * leaf_length n) with (leaf_length n) by lia.
    unfold lenN in HL. rewrite skipn_app, firstn_app, skipn_length.
    replace (N.to_nat (leaf_length n) - (length (hash g) - N.to_nat (r * leaf_length n)))%nat with O by lia.
    rewrite firstn_O, app_nil_r. fold (leaf_length n).
    change (firstn (N.to_nat (leaf_length n)) (skipn (N.to_nat (r * leaf_length n)) (hash g))) with (leaf n hash i).
    rewrite collisionBitLength_spec by lia. cbn [bind]. destruct (leaf_len i) as (LL & LB).
    rewrite (leaf_expand n k twist) by auto. reflexivity.
  Qed.
  Lemma newNodes_spec l : Forall (fun i => i < 2 ^ (c + 1)) l -> newNodes blake spare fuel n k ps twist header l = Done (Some (map leaf_node l)).
  Proof.
    induction 1 as [|i l I F IH]; [reflexivity|]. cbn [newNodes map]. rewrite newNode_spec by auto. cbn [bind]. rewrite IH. reflexivity.
  Qed.
  Lemma digit_small i d : digit i d < 2 ^ c.
  Proof. apply group_lt. Qed.
  Lemma pow2_nat_ge h : (h <= 2 ^ h)%nat.
  Proof. induction h; cbn [Nat.pow]; [lia|]. assert (1 <= 2 ^ h)%nat by (clear; induction h; cbn [Nat.pow]; lia). lia. Qed.
  Lemma pow2_nat m : N.to_nat (2 ^ m) = (2 ^ N.to_nat m)%nat.
  Proof.
    rewrite <- (N2Nat.id m) at 1. generalize (N.to_nat m). clear. intros h. induction h; [reflexivity|].
    rewrite Nat2N.inj_succ, N.pow_succ_r'. cbn [Nat.pow]. lia.
  Qed.
  Lemma solution_count soln : lenN soln = solution_length n k -> length (groups (c + 1) soln) = (2 ^ N.to_nat k)%nat.
  Proof.
    intros L. destruct (usable_facts n k twist U) as (_ & DE & _). unfold decodable in DE. fold c in DE.
    apply andb_prop in DE as (DE & _). apply andb_prop in DE as (DE & D4). apply N.eqb_eq in D4.
    pose proof (groups_len (c + 1) soln) as GL. rewrite L in GL. unfold solution_length in GL. fold c in GL.
    assert (E : 8 * (2 ^ k * (c + 1) / 8) = 2 ^ k * (c + 1)).
    { pose proof (N.div_mod (2 ^ k * (c + 1)) 8 ltac:(discriminate)) as Z. rewrite D4 in Z. clear - Z. lia. }
    rewrite E, N.div_mul in GL by (clear; lia). rewrite <- pow2_nat. unfold lenN in GL. clear - GL. lia.
  Qed.
  (** The verdict: an error exactly for wrong lengths and lists that are not trees. *)
  Theorem verify_spec soln : bytes soln -> lenN soln < 2 ^ 32 ->
    exists r, verify blake spare fuel n k personal header soln twist = Done r /\
    (r <> None <-> lenN soln = solution_length n k /\ tree digit (N.to_nat k) (groups (c + 1) soln)) /\
    (r = Some true <-> lenN soln = solution_length n k /\ solution digit k (groups (c + 1) soln)).
  Proof.
    intros B L. destruct (usable_facts n k twist U) as (NP & DE & EW & HO & HT).
    unfold verify. cbv zeta. fold ps. rewrite indicesFromMinimal_spec by auto. cbn [bind].
    destruct (N.eqb_spec (lenN soln) (solution_length n k)) as [LE|LE].
    2:{ exists None. split; [reflexivity|]. split; split; try congruence; tauto. }
    fold c. rewrite newNodes_spec by apply groups_lt. cbn [bind]. rewrite map_length.
    pose proof (solution_count soln LE) as CN. set (l := groups (c + 1) soln) in *. clearbody l.
    assert (K28 : k < 29). { clear - DE. unfold decodable in DE. lia. }
    assert (HC : 8 <= c <= 32) by (clear - EW; unfold exact_width in EW; lia).
    assert (W4 : (w <= 4)%nat) by (clear - HC; unfold w, bytes_of_bits; lia).
    rewrite (reduceRows_spec n k c w (N.to_nat k)) with (d := O) (len := (w * N.to_nat (k + 1))%nat);
      [|apply collisionBitLength_spec; lia|lia|reflexivity|apply leaf_rows_ok|rewrite map_length; exact CN|rewrite CN; apply pow2_nat_ge|nia|].
    2:{ clear - W4 K28. change (2 ^ 32) with 4294967296. nia. }
    cbn [bind].
    rewrite levels_tree by (rewrite map_length; exact CN).
    pose proof (fun x => tree_value_spec c k digit digit_small (N.to_nat k) ltac:(lia) l x CN) as TV. fold w in TV.
    assert (CN' : length l = N.to_nat (2 ^ k)) by (rewrite pow2_nat; exact CN).
    fold leaf_node in TV.
    destruct (tree_value (fun _ => combine w) (N.to_nat k) (map leaf_node l)) as [x|].
    - destruct (proj1 (TV x) eq_refl) as (T & ->). cbn [bind]. unfold idx. cbn [nth_error N.to_nat]. cbn [bind].
      eexists; split; [reflexivity|]. split; [split; [auto|discriminate]|].
      pose proof (zero_hash c k digit digit_small l) as Z.
      unfold solution. split.
      + intros E. injection E as E. apply Z in E. auto.
      + intros (_ & _ & _ & E). apply Z in E. f_equal. exact E.
    - exists None. split; [reflexivity|].
      assert (NT : ~ tree digit (N.to_nat k) l).
      { intros T. pose proof (proj2 (TV _) (conj T eq_refl)). discriminate. }
      split; split; try congruence; unfold solution; tauto.
  Qed.
End Verify.
