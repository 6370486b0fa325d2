(** Facts about the Go semantics of Base.v. *)
From Coq Require Import NArith ZArith List Bool Lia ZifyBool ZifyNat ZifyN.
From Verif Require Import Base.
Import ListNotations.
Open Scope N_scope.

Ltac Zify.zify_post_hook ::= Z.div_mod_to_equations.
Global Arguments N.add : simpl never.
Global Arguments N.sub : simpl never.
Global Arguments N.mul : simpl never.
Global Arguments N.div : simpl never.
Global Arguments N.modulo : simpl never.
Global Arguments N.pow : simpl never.
Global Arguments N.shiftl : simpl never.
Global Arguments N.shiftr : simpl never.
Global Arguments N.land : simpl never.
Global Arguments N.lor : simpl never.
Global Arguments N.lxor : simpl never.
Global Arguments N.ones : simpl never.
Global Arguments N.testbit : simpl never.
Global Arguments N.of_nat : simpl never.
Global Arguments N.to_nat : simpl never.
Global Arguments N.ltb : simpl never.
Global Arguments N.leb : simpl never.
Global Arguments N.eqb : simpl never.

(** ** Truncation *)

Lemma pow2_nz w : 2 ^ w <> 0.
Proof. apply N.pow_nonzero; lia. Qed.

Lemma pow2_pos w : 0 < 2 ^ w.
Proof. pose proof (pow2_nz w); lia. Qed.

Lemma trunc_mod w x : trunc w x = x mod 2 ^ w.
Proof. unfold trunc. apply N.land_ones. Qed.

Lemma trunc_lt w x : trunc w x < 2 ^ w.
Proof. rewrite trunc_mod. apply N.mod_lt, pow2_nz. Qed.

Lemma trunc_small w x : x < 2 ^ w -> trunc w x = x.
Proof. intros. rewrite trunc_mod. apply N.mod_small; auto. Qed.

Lemma trunc_idem w x : trunc w (trunc w x) = trunc w x.
Proof. apply trunc_small, trunc_lt. Qed.

Lemma testbit_trunc w x i :
  N.testbit (trunc w x) i = (i <? w) && N.testbit x i.
Proof.
  unfold trunc. rewrite N.land_spec.
  destruct (N.ltb_spec i w).
  - rewrite N.ones_spec_low by lia. apply andb_true_r.
  - rewrite N.ones_spec_high by lia. apply andb_false_r.
Qed.

Lemma testbit_ones w i : N.testbit (N.ones w) i = (i <? w).
Proof.
  destruct (N.ltb_spec i w).
  - apply N.ones_spec_low; lia.
  - apply N.ones_spec_high; lia.
Qed.

Lemma trunc_add_l w a b : trunc w (trunc w a + b) = trunc w (a + b).
Proof. rewrite !trunc_mod. apply N.add_mod_idemp_l, pow2_nz. Qed.
Lemma trunc_add_r w a b : trunc w (a + trunc w b) = trunc w (a + b).
Proof. rewrite !trunc_mod. apply N.add_mod_idemp_r, pow2_nz. Qed.
Lemma trunc_mul_l w a b : trunc w (trunc w a * b) = trunc w (a * b).
Proof. rewrite !trunc_mod. apply N.mul_mod_idemp_l, pow2_nz. Qed.
Lemma trunc_mul_r w a b : trunc w (a * trunc w b) = trunc w (a * b).
Proof. rewrite !trunc_mod. apply N.mul_mod_idemp_r, pow2_nz. Qed.

Lemma addw_lt w a b : addw w a b < 2 ^ w.
Proof. apply trunc_lt. Qed.
Lemma mulw_lt w a b : mulw w a b < 2 ^ w.
Proof. apply trunc_lt. Qed.
Lemma subw_lt w a b : subw w a b < 2 ^ w.
Proof. apply trunc_lt. Qed.
Lemma shlw_lt w a b : shlw w a b < 2 ^ w.
Proof. apply trunc_lt. Qed.

Lemma addw_subw w a b : a < 2 ^ w -> b < 2 ^ w -> subw w (addw w a b) b = a.
Proof.
  intros. unfold addw, subw. rewrite !trunc_mod.
  assert (P := pow2_pos w). remember (2 ^ w) as m.
  destruct (N.lt_ge_cases (a + b) m).
  - rewrite (N.mod_small (a + b)) by lia.
    replace (a + b + m - b) with (a + 1 * m) by lia.
    rewrite N.mod_add by lia. apply N.mod_small; lia.
  - rewrite (N.mod_eq (a + b)) by lia.
    replace ((a + b) / m) with 1.
    + replace (a + b - m * 1 + m - b) with a by lia. apply N.mod_small; lia.
    + apply N.div_unique with (r := a + b - m); lia.
Qed.

Lemma subw_addw w a b : a < 2 ^ w -> b < 2 ^ w -> addw w (subw w a b) b = a.
Proof.
  intros. unfold addw, subw. rewrite trunc_add_l.
  replace (a + 2 ^ w - b + b) with (a + 1 * 2 ^ w) by lia.
  rewrite trunc_mod, N.mod_add by apply pow2_nz. apply N.mod_small; lia.
Qed.

(** ** Ranges and bits *)

Lemma lt_pow2_bits w x : x < 2 ^ w <-> (forall i, w <= i -> N.testbit x i = false).
Proof.
  split.
  - intros H i Hi. destruct (N.eq_dec x 0) as [->|Hx]; [apply N.bits_0|].
    apply N.bits_above_log2.
    apply N.lt_le_trans with w; auto.
    apply N.log2_lt_pow2; lia.
  - intros H. rewrite <- (trunc_small (N.succ (N.log2 x) + w) x).
    + replace (trunc (N.succ (N.log2 x) + w) x) with (trunc w x). apply trunc_lt.
      apply N.bits_inj; intro i. rewrite !testbit_trunc.
      destruct (N.ltb_spec i w); destruct (N.ltb_spec i (N.succ (N.log2 x) + w));
        cbn; auto; try lia. symmetry; auto.
    + rewrite N.pow_add_r.
      destruct (N.eq_dec x 0) as [->|Hx].
      * pose proof (pow2_pos w). pose proof (pow2_pos (N.succ (N.log2 0))). nia.
      * pose proof (N.log2_spec x ltac:(lia)). pose proof (pow2_pos w). nia.
Qed.

Lemma testbit_high w x i : x < 2 ^ w -> w <= i -> N.testbit x i = false.
Proof. intros. eapply lt_pow2_bits; eauto. Qed.

Lemma lxor_lt w a b : a < 2 ^ w -> b < 2 ^ w -> N.lxor a b < 2 ^ w.
Proof.
  rewrite !lt_pow2_bits. intros Ha Hb i Hi. rewrite N.lxor_spec, Ha, Hb; auto.
Qed.
Lemma lor_lt w a b : a < 2 ^ w -> b < 2 ^ w -> N.lor a b < 2 ^ w.
Proof.
  rewrite !lt_pow2_bits. intros Ha Hb i Hi. rewrite N.lor_spec, Ha, Hb; auto.
Qed.
Lemma land_lt_l w a b : a < 2 ^ w -> N.land a b < 2 ^ w.
Proof.
  rewrite !lt_pow2_bits. intros Ha i Hi. rewrite N.land_spec, Ha; auto.
Qed.
Lemma land_lt_r w a b : b < 2 ^ w -> N.land a b < 2 ^ w.
Proof. rewrite N.land_comm. apply land_lt_l. Qed.
Lemma land_le_r a b : N.land a b <= b.
Proof.
  assert (H : N.land (N.ldiff b (N.land a b)) (N.land a b) = 0).
  { apply N.bits_inj; intro i. rewrite !N.land_spec, N.ldiff_spec, N.land_spec, N.bits_0.
    destruct (N.testbit a i), (N.testbit b i); auto. }
  assert (E : b = N.ldiff b (N.land a b) + N.land a b).
  { rewrite N.add_nocarry_lxor by exact H.
    apply N.bits_inj; intro i. rewrite N.lxor_spec, N.ldiff_spec, N.land_spec.
    destruct (N.testbit a i), (N.testbit b i); auto. }
  lia.
Qed.
Lemma shiftr_lt w a s : a < 2 ^ w -> N.shiftr a s < 2 ^ w.
Proof.
  rewrite !lt_pow2_bits. intros Ha i Hi. rewrite N.shiftr_spec'. apply Ha; lia.
Qed.
Lemma notw_lt w a : a < 2 ^ w -> notw w a < 2 ^ w.
Proof.
  intros. apply lxor_lt; auto. rewrite N.ones_equiv. pose proof (pow2_pos w). lia.
Qed.
Lemma rolw_lt w x s : x < 2 ^ w -> rolw w x s < 2 ^ w.
Proof. intros. apply lor_lt. apply shlw_lt. apply shiftr_lt; auto. Qed.

Lemma testbit_shlw w x s i :
  N.testbit (shlw w x s) i = (i <? w) && (s <=? i) && N.testbit x (i - s).
Proof.
  unfold shlw. rewrite testbit_trunc.
  destruct (N.ltb_spec i w); cbn; auto.
  destruct (N.leb_spec s i); cbn.
  - apply N.shiftl_spec_high'; auto.
  - apply N.shiftl_spec_low; auto.
Qed.

Lemma testbit_rolw w x s i :
  x < 2 ^ w -> s <= w ->
  N.testbit (rolw w x s) i =
  if i <? w then (if s <=? i then N.testbit x (i - s) else N.testbit x (i + w - s))
  else false.
Proof.
  intros Hx Hs. unfold rolw. rewrite N.lor_spec, testbit_shlw, N.shiftr_spec'.
  destruct (N.ltb_spec i w); cbn.
  - destruct (N.leb_spec s i); cbn.
    + rewrite (testbit_high w x (i + (w - s))) by (auto; lia). apply orb_false_r.
    + f_equal. lia.
  - apply (testbit_high w); auto; lia.
Qed.

Lemma rolw_inv w x s :
  x < 2 ^ w -> s <= w -> rolw w (rolw w x s) (w - s) = x.
Proof.
  intros Hx Hs. apply N.bits_inj; intro i.
  rewrite testbit_rolw by (try apply rolw_lt; auto; lia).
  destruct (N.ltb_spec i w).
  - destruct (N.leb_spec (w - s) i).
    + rewrite testbit_rolw by (auto; lia).
      destruct (N.ltb_spec (i - (w - s)) w); try lia.
      destruct (N.leb_spec s (i - (w - s))).
      * assert (s = 0) by lia. subst. f_equal; lia.
      * f_equal; lia.
    + rewrite testbit_rolw by (auto; lia).
      destruct (N.ltb_spec (i + w - (w - s)) w); try lia.
      destruct (N.leb_spec s (i + w - (w - s))); try lia.
      f_equal; lia.
  - symmetry. apply (testbit_high w); auto.
Qed.

Lemma rolw_inv' w x s :
  x < 2 ^ w -> s <= w -> rolw w (rolw w x (w - s)) s = x.
Proof.
  intros. pose proof (rolw_inv w x (w - s) H ltac:(lia)).
  replace (w - (w - s)) with s in H1 by lia. auto.
Qed.

Lemma lxor_cancel_r a b : N.lxor (N.lxor a b) b = a.
Proof. rewrite N.lxor_assoc, N.lxor_nilpotent, N.lxor_0_r; auto. Qed.
Lemma lxor_cancel_l a b : N.lxor b (N.lxor b a) = a.
Proof. rewrite <- N.lxor_assoc, N.lxor_nilpotent, N.lxor_0_l; auto. Qed.
Lemma lxor_inj_r a b c : N.lxor a c = N.lxor b c -> a = b.
Proof. intros H. rewrite <- (lxor_cancel_r a c), H. apply lxor_cancel_r. Qed.

(** ** Outcomes *)

Lemma bind_Done {A B} (m : outcome A) (k : A -> outcome B) b :
  bind m k = Done b -> exists a, m = Done a /\ k a = Done b.
Proof. destruct m; cbn; try discriminate; eauto. Qed.

Lemma bind_assoc {A B C} (m : outcome A) (f : A -> outcome B) (g : B -> outcome C) :
  bind (bind m f) g = bind m (fun a => bind (f a) g).
Proof. destruct m; auto. Qed.

Ltac inv_bind H :=
  let a := fresh "a" in let E := fresh "E" in
  apply bind_Done in H; destruct H as (a & E & H).

(** ** Lists and slices *)

Lemma lenN_nil {A} : lenN (@nil A) = 0. Proof. reflexivity. Qed.
Lemma lenN_cons {A} (x : A) l : lenN (x :: l) = 1 + lenN l.
Proof. unfold lenN. cbn [length]. lia. Qed.
Lemma lenN_app {A} (l m : list A) : lenN (l ++ m) = lenN l + lenN m.
Proof. unfold lenN. rewrite app_length. lia. Qed.
Lemma lenN_length {A} (l : list A) n : lenN l = n <-> length l = N.to_nat n.
Proof. unfold lenN. lia. Qed.

Lemma set_nth_length {A} (l : list A) i v : length (set_nth l i v) = length l.
Proof. revert i; induction l; destruct i; cbn; auto. Qed.

Lemma nth_error_set_nth {A} (l : list A) i j v :
  nth_error (set_nth l i v) j =
  if Nat.eqb i j then (if Nat.ltb i (length l) then Some v else None) else nth_error l j.
Proof.
  revert i j; induction l as [|x l IH]; intros i j.
  - cbn. destruct j, (Nat.eqb i _); auto.
  - destruct i, j; cbn [set_nth nth_error]; auto.
    rewrite IH. cbn [Nat.eqb length]. destruct (Nat.eqb i j); auto.
Qed.

Lemma nth_set_nth {A} (l : list A) i j v d :
  (i < length l)%nat ->
  nth j (set_nth l i v) d = if Nat.eqb i j then v else nth j l d.
Proof.
  revert i j; induction l as [|x l IH]; intros i j H; cbn in *; try lia.
  destruct i, j; cbn; auto. apply IH; lia.
Qed.

Lemma set_nth_app {A} (l m : list A) x v :
  set_nth (l ++ x :: m) (length l) v = l ++ v :: m.
Proof. induction l; cbn; f_equal; auto. Qed.

Lemma set_nth_split {A} (l : list A) i v :
  (i < length l)%nat -> set_nth l i v = firstn i l ++ v :: skipn (S i) l.
Proof.
  revert i; induction l as [|x l IH]; intros i H; cbn in H; try lia.
  destruct i; cbn; auto. f_equal. apply IH. lia.
Qed.

Lemma Forall_set_nth {A} (P : A -> Prop) l i v :
  Forall P l -> P v -> Forall P (set_nth l i v).
Proof. intros H Hv. revert i; induction H; destruct i; cbn; auto. Qed.

Lemma idx_Done {A} (l : list A) i d :
  i < lenN l -> idx l i = Done (nth (N.to_nat i) l d).
Proof.
  intros H. unfold idx. rewrite (nth_error_nth' l d). reflexivity.
  unfold lenN in H. lia.
Qed.

Lemma idx_Done_inv {A} (l : list A) i a :
  idx l i = Done a -> nth_error l (N.to_nat i) = Some a.
Proof. unfold idx. destruct nth_error; congruence. Qed.

Lemma idx_Panic {A} (l : list A) i : lenN l <= i -> idx l i = Panic.
Proof.
  intros H. unfold idx. rewrite (proj2 (nth_error_None l (N.to_nat i))); auto.
  unfold lenN in H. lia.
Qed.

Lemma upd_Done {A} (l : list A) i v :
  i < lenN l -> upd l i v = Done (set_nth l (N.to_nat i) v).
Proof. intros H. unfold upd. apply N.ltb_lt in H. rewrite H. auto. Qed.

Lemma slice_Done {A} (l : list A) a b :
  a <= b -> b <= lenN l ->
  slice l a b = Done (firstn (N.to_nat (b - a)) (skipn (N.to_nat a) l)).
Proof.
  intros H1 H2. unfold slice. apply N.leb_le in H1, H2. rewrite H1, H2. auto.
Qed.

Lemma zeros_length n : length (zeros n) = N.to_nat n.
Proof. apply repeat_length. Qed.

Lemma lenN_zeros n : lenN (zeros n) = n.
Proof. unfold lenN. rewrite zeros_length. lia. Qed.

Lemma words_zeros w n : words w (zeros n).
Proof.
  apply Forall_forall. intros x H. apply repeat_spec in H. subst. apply pow2_pos.
Qed.

Lemma words_nth w l i : words w l -> nth i l 0 < 2 ^ w.
Proof.
  intros H. destruct (Nat.lt_ge_cases i (length l)).
  - unfold words in H. rewrite Forall_forall in H. apply H. apply nth_In; auto.
  - rewrite nth_overflow; auto. apply pow2_pos.
Qed.

Lemma words_app w l m : words w (l ++ m) <-> words w l /\ words w m.
Proof. apply Forall_app. Qed.

Lemma words_set_nth w l i v : words w l -> v < 2 ^ w -> words w (set_nth l i v).
Proof. intros. apply Forall_set_nth; auto. Qed.

Lemma Forall_firstn {A} (P : A -> Prop) n l : Forall P l -> Forall P (firstn n l).
Proof. intros H; revert n; induction H; destruct n; cbn; auto. Qed.
Lemma Forall_skipn {A} (P : A -> Prop) n l : Forall P l -> Forall P (skipn n l).
Proof. intros H; revert n; induction H; destruct n; cbn; auto. Qed.

Lemma nth_firstn {A} (l : list A) n i d :
  (i < n)%nat -> nth i (firstn n l) d = nth i l d.
Proof.
  revert n i; induction l; intros n i H.
  - rewrite firstn_nil; auto.
  - destruct n; try lia. destruct i; cbn; auto. apply IHl; lia.
Qed.

Lemma nth_skipn {A} (l : list A) n i d : nth i (skipn n l) d = nth (n + i) l d.
Proof.
  revert n; induction l; intros n.
  - rewrite skipn_nil. destruct i, n; auto.
  - destruct n; cbn; auto.
Qed.

Lemma list_eq_nth {A} (l m : list A) d :
  length l = length m -> (forall i, (i < length l)%nat -> nth i l d = nth i m d) -> l = m.
Proof.
  revert m; induction l; destruct m; cbn; intros HL H; try lia; auto.
  f_equal.
  - apply (H 0%nat); lia.
  - apply IHl; [lia|]. intros i Hi. apply (H (S i)); lia.
Qed.

Lemma overwrite_length {A} (dst src : list A) off :
  (off <= length dst)%nat -> length (overwrite dst off src) = length dst.
Proof.
  intros. unfold overwrite. rewrite !app_length, !firstn_length, skipn_length. lia.
Qed.

Lemma overwrite_nth {A} (dst src : list A) off i d :
  (off <= length dst)%nat ->
  nth i (overwrite dst off src) d =
  if (off <=? i)%nat && (i <? off + length src)%nat && (i <? length dst)%nat
  then nth (i - off) src d else nth i dst d.
Proof.
  intros H. unfold overwrite.
  destruct (Nat.leb_spec off i); cbn [andb].
  - rewrite app_nth2; rewrite firstn_length_le by lia; try lia.
    destruct (Nat.ltb_spec i (off + length src)); cbn [andb].
    + destruct (Nat.ltb_spec i (length dst)).
      * rewrite app_nth1 by (rewrite firstn_length; lia). apply nth_firstn; lia.
      * rewrite app_nth2; rewrite firstn_length; try lia.
        rewrite nth_skipn, !nth_overflow; auto; lia.
    + rewrite app_nth2; rewrite firstn_length; try lia.
      rewrite nth_skipn.
      destruct (Nat.lt_ge_cases i (length dst)).
      * f_equal; lia.
      * rewrite !nth_overflow; auto; lia.
  - rewrite app_nth1 by (rewrite firstn_length; lia). apply nth_firstn; lia.
Qed.

Lemma words_overwrite w dst off src :
  words w dst -> words w src -> words w (overwrite dst off src).
Proof.
  intros. unfold overwrite, words. rewrite !Forall_app.
  repeat split; auto using Forall_firstn, Forall_skipn.
Qed.

(** ** Loops *)

Lemma for_up_inv {S} (I : N -> S -> Prop) body :
  forall n i s,
    I i s ->
    (forall j t, i <= j -> j < i + N.of_nat n -> I j t ->
       exists t', body j t = Done t' /\ I (j + 1) t') ->
    exists s', for_up n i body s = Done s' /\ I (i + N.of_nat n) s'.
Proof.
  induction n as [|n IH]; intros i s Hi Hstep.
  - exists s. split; auto. replace (i + N.of_nat 0) with i by lia. auto.
  - destruct (Hstep i s) as (s1 & E & H1); auto; try lia.
    cbn [for_up]. rewrite E. cbn [bind].
    destruct (IH (i + 1) s1 H1) as (s' & E' & H').
    + intros; apply Hstep; auto; lia.
    + exists s'. split; auto. replace (i + N.of_nat (Datatypes.S n)) with (i + 1 + N.of_nat n) by lia. auto.
Qed.

Lemma for_n_inv {S} (I : N -> S -> Prop) n body s :
  I 0 s ->
  (forall j t, j < n -> I j t -> exists t', body j t = Done t' /\ I (j + 1) t') ->
  exists s', for_n n body s = Done s' /\ I n s'.
Proof.
  intros H0 Hs. unfold for_n.
  destruct (for_up_inv I body (N.to_nat n) 0 s H0) as (s' & E & H).
  - intros; apply Hs; auto; lia.
  - exists s'. split; auto. replace (0 + N.of_nat (N.to_nat n)) with n in H by lia. auto.
Qed.

(** Functional form: a loop whose body never fails is an iteration. *)
Fixpoint iter_up {S} (n : nat) (i : N) (f : N -> S -> S) (s : S) : S :=
  match n with
  | O => s
  | Datatypes.S m => iter_up m (i + 1) f (f i s)
  end.

Lemma for_up_iter {S} (f : N -> S -> S) body (P : N -> S -> Prop) :
  forall n i s,
    P i s ->
    (forall j t, i <= j -> j < i + N.of_nat n -> P j t ->
       body j t = Done (f j t) /\ P (j + 1) (f j t)) ->
    for_up n i body s = Done (iter_up n i f s).
Proof.
  induction n as [|n IH]; intros i s Hi Hstep; auto.
  cbn [for_up iter_up]. destruct (Hstep i s) as (E & H1); auto; try lia.
  rewrite E. cbn [bind]. apply IH; auto. intros; apply Hstep; auto; lia.
Qed.

Lemma for_up_ext {S} (f g : N -> S -> outcome S) n i s :
  (forall j t, f j t = g j t) -> for_up n i f s = for_up n i g s.
Proof.
  intros H; revert i s; induction n; intros; cbn; auto.
  rewrite H. destruct (g i s); cbn; auto.
Qed.

Lemma for_up_app {S} (body : N -> S -> outcome S) n m i s :
  for_up (n + m) i body s =
  (s' <- for_up n i body s ;; for_up m (i + N.of_nat n) body s').
Proof.
  revert i s; induction n; intros; cbn.
  - replace (i + N.of_nat 0) with i by lia. auto.
  - destruct (body i s); cbn; auto. rewrite IHn.
    replace (i + 1 + N.of_nat n) with (i + N.of_nat (Datatypes.S n)) by lia. auto.
Qed.

Lemma loop_fuel_mono {S R} (body : S -> outcome (step S R)) f g s r :
  (f <= g)%nat -> loop_fuel f body s = Done r -> loop_fuel g body s = Done r.
Proof.
  revert g s; induction f; intros g s H E; cbn in E; try discriminate.
  destruct g; try lia. cbn. destruct (body s) as [st| |]; cbn in *; try discriminate.
  destruct st; auto. apply IHf; auto; lia.
Qed.

(** ** Byte order *)

Lemma le_bytes_length n x : length (le_bytes n x) = n.
Proof. revert x; induction n; intros; cbn; auto. Qed.
Lemma be_bytes_length n x : length (be_bytes n x) = n.
Proof. unfold be_bytes. rewrite rev_length. apply le_bytes_length. Qed.

Lemma le_bytes_bytes n x : bytes (le_bytes n x).
Proof.
  revert x; induction n; intros; cbn; constructor; auto.
  - apply (trunc_lt 8).
  - apply IHn.
Qed.
Lemma be_bytes_bytes n x : bytes (be_bytes n x).
Proof. apply Forall_rev, le_bytes_bytes. Qed.

Lemma le_value_app l m : le_value (l ++ m) = le_value l + 256 ^ lenN l * le_value m.
Proof.
  induction l; cbn [app le_value].
  - change (256 ^ lenN []) with 1. lia.
  - rewrite IHl, lenN_cons, N.pow_add_r, N.pow_1_r. lia.
Qed.

Lemma le_value_lt l : bytes l -> le_value l < 256 ^ lenN l.
Proof.
  induction 1; cbn [le_value].
  - change (256 ^ lenN []) with 1. lia.
  - rewrite lenN_cons, N.pow_add_r, N.pow_1_r.
    unfold isw in H. change (2 ^ 8) with 256 in H. lia.
Qed.

Lemma le_bytes_value n x : le_value (le_bytes n x) = x mod 256 ^ N.of_nat n.
Proof.
  revert x; induction n; intros x; cbn [le_bytes le_value].
  - change (256 ^ N.of_nat 0) with 1. rewrite N.mod_1_r. auto.
  - rewrite IHn, trunc_mod, N.shiftr_div_pow2. change (2 ^ 8) with 256.
    replace (N.of_nat (S n)) with (1 + N.of_nat n) by lia.
    rewrite N.pow_add_r, N.pow_1_r.
    rewrite (N.mod_mul_r x 256 (256 ^ N.of_nat n)); auto; try apply N.pow_nonzero; lia.
Qed.

Lemma le_value_bytes l : bytes l -> le_bytes (length l) (le_value l) = l.
Proof.
  induction 1; cbn [length le_bytes le_value]; auto.
  unfold isw in H. change (2 ^ 8) with 256 in H.
  rewrite trunc_mod, N.shiftr_div_pow2. change (2 ^ 8) with 256.
  replace (x + 256 * le_value l) with (x + le_value l * 256) by lia.
  rewrite N.mod_add, N.div_add, N.mod_small, N.div_small, N.add_0_l by lia.
  f_equal; auto.
Qed.

Lemma be_bytes_value n x : be_value (be_bytes n x) = x mod 256 ^ N.of_nat n.
Proof. unfold be_value, be_bytes. rewrite rev_involutive. apply le_bytes_value. Qed.

Lemma be_value_bytes l : bytes l -> be_bytes (length l) (be_value l) = l.
Proof.
  intros H. unfold be_value, be_bytes. rewrite <- (rev_length l), le_value_bytes.
  apply rev_involutive. apply Forall_rev; auto.
Qed.

Lemma be_value_lt l : bytes l -> be_value l < 256 ^ lenN l.
Proof.
  intros. unfold be_value. pose proof (le_value_lt (rev l) (Forall_rev H)).
  unfold lenN in *. rewrite rev_length in H0. auto.
Qed.

Lemma pow256 n : 256 ^ n = 2 ^ (8 * n).
Proof. rewrite N.pow_mul_r. auto. Qed.

(** ** Tabulated lists *)

Lemma tab_length {A} n (g : N -> A) : length (tab n g) = N.to_nat n.
Proof. unfold tab. rewrite map_length, seq_length. auto. Qed.
Lemma lenN_tab {A} n (g : N -> A) : lenN (tab n g) = n.
Proof. unfold lenN. rewrite tab_length. lia. Qed.

Lemma nth_tab {A} n (g : N -> A) i d :
  (i < N.to_nat n)%nat -> nth i (tab n g) d = g (N.of_nat i).
Proof.
  intros. unfold tab.
  rewrite nth_indep with (d' := (fun i => g (N.of_nat i)) 0%nat)
    by (rewrite map_length, seq_length; auto).
  rewrite (map_nth (fun i => g (N.of_nat i))), seq_nth by auto. auto.
Qed.

Lemma idx_tab {A} n (g : N -> A) i : i < n -> idx (tab n g) i = Done (g i).
Proof.
  intros. rewrite (idx_Done _ _ (g i)) by (rewrite lenN_tab; auto).
  rewrite nth_tab by lia. f_equal. f_equal. lia.
Qed.

Lemma tab_ext {A} n (f g : N -> A) : (forall i, i < n -> f i = g i) -> tab n f = tab n g.
Proof.
  intros H. unfold tab. apply map_ext_in. intros i Hi. apply in_seq in Hi. apply H. lia.
Qed.

Lemma list_eq_tab {A} (l : list A) n d (g : N -> A) :
  lenN l = n -> (forall i, i < n -> nth (N.to_nat i) l d = g i) -> l = tab n g.
Proof.
  intros HL H. apply (list_eq_nth _ _ d).
  - rewrite tab_length. unfold lenN in HL. lia.
  - intros i Hi. rewrite nth_tab by (unfold lenN in HL; lia).
    rewrite <- H by (unfold lenN in HL; lia). f_equal. lia.
Qed.

Lemma words_tab w n g : (forall i, i < n -> g i < 2 ^ w) -> words w (tab n g).
Proof.
  intros H. apply Forall_forall. intros x Hx. unfold tab in Hx. apply in_map_iff in Hx.
  destruct Hx as (i & <- & Hi). apply in_seq in Hi. apply H. lia.
Qed.

Lemma map_tab {A B} (f : A -> B) n g : map f (tab n g) = tab n (fun i => f (g i)).
Proof. unfold tab. rewrite map_map. auto. Qed.

Lemma tab_self {A} (l : list A) d : l = tab (lenN l) (fun i => nth (N.to_nat i) l d).
Proof. apply (list_eq_tab _ _ d); auto. Qed.

Lemma tab_succ {A} n (g : N -> A) : tab (n + 1) g = tab n g ++ [g n].
Proof.
  unfold tab. replace (N.to_nat (n + 1)) with (N.to_nat n + 1)%nat by lia.
  rewrite seq_app, map_app. cbn [seq map]. repeat f_equal; lia.
Qed.

Lemma tab_app {A} n m (g : N -> A) : tab (n + m) g = tab n g ++ tab m (fun i => g (n + i)).
Proof.
  unfold tab. rewrite N2Nat.inj_add, seq_app, map_app. f_equal.
  rewrite <- (map_id (seq 0 (N.to_nat m))).
  rewrite <- (Nat.add_0_r (0 + N.to_nat n)).
  assert (G : forall k j len, map (fun i => g (N.of_nat i)) (seq (j + k) len) =
             map (fun i => g (N.of_nat j + N.of_nat i)) (seq k len)).
  { intros k j len; revert k; induction len; intros; auto. cbn [seq map].
    f_equal. f_equal; lia. rewrite <- IHlen. f_equal. f_equal. lia. }
  rewrite G, map_id. apply map_ext. intros. f_equal. lia.
Qed.

(** A loop that assigns [g i] to element [i] of a list of length [n] produces [tab n g]. *)
Lemma for_fill {A} (n : N) (body : N -> list A -> outcome (list A)) (g : N -> A) l0 d :
  lenN l0 = n ->
  (forall j t, j < n -> lenN t = n ->
     (forall k, k < j -> nth (N.to_nat k) t d = g k) ->
     (forall k, j <= k -> nth (N.to_nat k) t d = nth (N.to_nat k) l0 d) ->
     body j t = upd t j (g j)) ->
  for_n n body l0 = Done (tab n g).
Proof.
  intros HL H.
  destruct (for_n_inv (fun j t => lenN t = n /\
     (forall k, k < j -> nth (N.to_nat k) t d = g k) /\
     (forall k, j <= k -> nth (N.to_nat k) t d = nth (N.to_nat k) l0 d)) n body l0)
    as (s & E & Hs).
  - repeat split; auto. intros; lia.
  - intros j t Hj (HL' & H1 & H2). rewrite H by auto.
    rewrite upd_Done by lia. eexists; split; [reflexivity|]. unfold lenN in *.
    repeat split.
    + rewrite set_nth_length. auto.
    + intros k Hk. rewrite nth_set_nth by lia.
      destruct (Nat.eqb_spec (N.to_nat j) (N.to_nat k)).
      * assert (j = k) by lia. subst; auto.
      * apply H1; lia.
    + intros k Hk. rewrite nth_set_nth by lia.
      destruct (Nat.eqb_spec (N.to_nat j) (N.to_nat k)); try lia. apply H2; lia.
  - rewrite E. f_equal. destruct Hs as (HL' & H1 & _). apply (list_eq_tab _ _ d); auto.
Qed.

(** Apply the loop rule to the first [for_n] in the goal with invariant [I]. *)
Tactic Notation "loop_inv" constr(I) "as" ident(s') ident(E) ident(H) :=
  match goal with
  | |- context [for_n ?n ?b ?s] =>
      let L := fresh "L" in
      assert (L : exists s', for_n n b s = Done s' /\ I n s');
      [ apply (for_n_inv I n b s) | destruct L as (s' & E & H); cbv beta in H; rewrite E; cbn [bind] ]
  end.
