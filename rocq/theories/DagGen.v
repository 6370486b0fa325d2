(** Proofs about the table generator cmd/gen-lookup. *)
From Coq Require Import NArith ZArith List Bool Lia ZifyBool ZifyN ZifyNat.
From Verif Require Import Base BaseFacts CryptoModel CryptoProofs DagModel DagSpec.
Import ListNotations.
Open Scope N_scope.

Lemma dec_digits_read f n acc :
  (0 < f)%nat -> n < 2 ^ N.of_nat f ->
  read_numbers None (dec_digits f n acc) = read_numbers (Some n) acc.
Proof.
  revert n acc; induction f; intros n acc F H; [lia|].
  cbn [dec_digits].
  assert (D : n = 10 * (n / 10) + n mod 10) by (apply N.div_mod; lia).
  assert (M : n mod 10 < 10) by (apply N.mod_lt; lia).
  destruct (N.eqb_spec (n / 10) 0) as [Z|Z].
  - cbn [read_numbers].
    replace ((48 <=? 48 + n mod 10) && (48 + n mod 10 <=? 57)) with true by lia.
    f_equal. f_equal. lia.
  - destruct f.
    { change (2 ^ N.of_nat 1) with 2 in H. lia. }
    rewrite IHf.
    + cbn [read_numbers].
      replace ((48 <=? 48 + n mod 10) && (48 + n mod 10 <=? 57)) with true by lia.
      f_equal. f_equal. lia.
    + lia.
    + replace (N.of_nat (S (S f))) with (N.of_nat (S f) + 1) in H by lia.
      rewrite N.pow_add_r in H. change (2 ^ 1) with 2 in H.
      apply N.div_lt_upper_bound; lia.
Qed.

Lemma dec_digits_app f n acc rest :
  dec_digits f n acc ++ rest = dec_digits f n (acc ++ rest).
Proof.
  revert n acc; induction f; intros n acc; cbn [dec_digits]; auto.
  destruct (n / 10 =? 0); auto. rewrite IHf. reflexivity.
Qed.

Lemma decimal_read v rest :
  read_numbers None (decimal v ++ rest) = read_numbers (Some v) rest.
Proof.
  unfold decimal. rewrite dec_digits_app. cbn [app]. apply dec_digits_read; [lia|].
  pose proof (N.size_gt v).
  eapply N.lt_le_trans; [eassumption|]. apply N.pow_le_mono_r; lia.
Qed.

(** A text that reads as [l] when followed by something: what each loop iteration adds. *)
Definition reads (t : list N) (l : list N) : Prop :=
  forall rest, read_numbers None (t ++ rest) = l ++ read_numbers None rest.

Lemma reads_nil : reads [] [].
Proof. intro rest. reflexivity. Qed.
Lemma reads_app t l t' l' : reads t l -> reads t' l' -> reads (t ++ t') (l ++ l').
Proof. intros A B rest. rewrite <- !app_assoc, A, B. reflexivity. Qed.
Lemma reads_sep c : (48 <=? c) && (c <=? 57) = false -> reads [c] [].
Proof. intros H rest. cbn [app read_numbers]. rewrite H. reflexivity. Qed.
Lemma reads_entry v c : (48 <=? c) && (c <=? 57) = false -> reads (decimal v ++ [c]) [v].
Proof.
  intros H rest. rewrite <- app_assoc, decimal_read. cbn [app read_numbers]. rewrite H. reflexivity.
Qed.

Lemma firstn_S_nth l n d : (n < length l)%nat -> firstn (S n) l = firstn n l ++ [nth n l d : N].
Proof. intros H. apply firstn_succ_snoc. apply nth_error_nth'. auto. Qed.

Lemma formatLookupTable_spec l r :
  0 < r ->
  exists text, formatLookupTable l r = Done text /\
    literal_entries text = firstn (N.to_nat (r * (lenN l / r))) l.
Proof.
  intros HR. unfold formatLookupTable, divc.
  destruct (N.eqb_spec r 0); [lia|]. cbn [bind].
  pose proof (N.mul_div_le (lenN l) r ltac:(lia)) as HB.
  remember (lenN l / r) as rows.
  match goal with |- context [for_n rows ?b []] =>
    destruct (for_n_inv (fun i t => reads t (firstn (N.to_nat (r * i)) l)) rows b []) as (t & E & HT) end.
  - replace (r * 0) with 0 by lia. apply reads_nil.
  - intros i t Hi HT. cbv beta.
    match goal with |- context [for_n r ?b []] =>
      destruct (for_n_inv (fun j row => reads row (firstn (N.to_nat j) (skipn (N.to_nat (r * i)) l)))
                  r b []) as (row & E & HRow) end.
    + apply reads_nil.
    + intros j row Hj HRow. cbv beta zeta.
      assert (i * r + j < lenN l) by nia.
      destruct (N.leb_spec (lenN l) (i * r + j)); [lia|].
      rewrite (idx_Done _ _ 0) by auto. cbn [bind].
      eexists. split; [reflexivity|].
      assert (R1 : reads (row ++ decimal (nth (N.to_nat (i * r + j)) l 0) ++ [44])
                (firstn (N.to_nat (j + 1)) (skipn (N.to_nat (r * i)) l))).
      { replace (N.to_nat (j + 1)) with (S (N.to_nat j)) by lia.
        rewrite (firstn_S_nth _ _ 0) by (rewrite skipn_length; unfold lenN in *; lia).
        apply reads_app; auto.
        rewrite nth_skipn.
        replace (N.to_nat (r * i) + N.to_nat j)%nat with (N.to_nat (i * r + j)) by lia.
        apply reads_entry. reflexivity. }
      destruct (j <? r - 1); auto.
      rewrite <- (app_nil_r (firstn _ _)). apply reads_app; auto. apply reads_sep. reflexivity.
    + rewrite E. cbn [bind]. eexists. split; [reflexivity|].
      replace (firstn (N.to_nat (r * (i + 1))) l)
        with (firstn (N.to_nat (r * i)) l ++ [] ++ firstn (N.to_nat r) (skipn (N.to_nat (r * i)) l) ++ []).
      * apply reads_app; auto. apply reads_app; [apply reads_sep; reflexivity|].
        apply reads_app; auto. apply reads_sep; reflexivity.
      * cbn [app]. rewrite app_nil_r.
        replace (N.to_nat (r * (i + 1))) with (N.to_nat (r * i) + N.to_nat r)%nat by lia.
        rewrite <- (firstn_skipn (N.to_nat (r * i)) (firstn (N.to_nat (r * i) + N.to_nat r) l)).
        rewrite firstn_firstn, Nat.min_l by lia. f_equal.
        rewrite skipn_firstn_comm. f_equal. lia.
  - rewrite E. cbn [bind]. eexists. split; [reflexivity|].
    transitivity (read_numbers None ([10] ++ (t ++ [125]))); [reflexivity|].
    rewrite (reads_sep 10 eq_refl). cbn [app].
    rewrite HT. cbn [read_numbers]. apply app_nil_r.
Qed.

Lemma gen_fill (f : N -> outcome N) n (g : N -> N) :
  (forall i, i < n -> f i = Done (g i)) ->
  for_n n (fun i t => s <- f i ;; upd t i s) (zeros n) = Done (tab n g).
Proof.
  intros H.
  match goal with |- for_n n ?b _ = _ =>
    destruct (for_n_inv (fun i t => lenN t = n /\ forall j, j < i -> nth (N.to_nat j) t 0 = g j) n b (zeros n))
      as (t & E & HT) end.
  - split; [apply lenN_zeros|]. intros; lia.
  - intros i t Hi [L HT]. rewrite H by auto. cbn [bind]. rewrite upd_Done by lia.
    eexists. split; [reflexivity|]. split.
    + unfold lenN in *. rewrite set_nth_length. auto.
    + intros j Hj. rewrite nth_set_nth by (unfold lenN in L; lia).
      destruct (Nat.eqb_spec (N.to_nat i) (N.to_nat j)).
      * f_equal. lia.
      * apply HT. lia.
  - rewrite E. f_equal. apply (list_eq_tab _ _ 0); [apply HT|]. apply HT.
Qed.
