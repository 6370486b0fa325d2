(** C50, C51, C61: HeavyHash. *)
From Coq Require Import NArith ZArith Arith List Lia Bool ZifyBool ZifyNat ZifyN.
From Coq Require Import Floats.SpecFloat.
From Verif Require Import Base BaseFacts CryptoModel CryptoSpec CryptoProofs DagSpec PropsDagContent AutoProofs
  HeavyModel HeavySpec HeavyProofs.
Import ListNotations.
Open Scope N_scope.
Ltac Zify.zify_post_hook ::= Z.div_mod_to_equations.

(** Candidate [t] of a hash passes the rank test. *)
Definition accepted submul (hash : list N) (t : N) : Prop :=
  calculateRank submul (matrix_of (candidate (seed_state hash) t)) = Done 64.

(** ** C50 *)

(** On the hash of 32 zero bytes no number of iterations is enough: Compute never returns, whatever
    the arithmetic, the timestamp and the nonce. *)
Theorem C50_zero_hash_never_returns submul cshake fuel timestamp nonce :
  Compute submul cshake fuel (repeat 0 32) timestamp nonce = OutOfFuel.
Proof.
  unfold Compute. change (lenN (repeat 0 32) =? 32) with true. cbn [negb].
  rewrite heavyHash_head.
  - change (seeds (repeat 0 32)) with (mkX 0 0 0 0). rewrite <- newMatrix_search, newMatrix_zero. reflexivity.
  - reflexivity.
  - apply Forall_forall. intros x X. apply repeat_spec in X. subst. reflexivity.
Qed.
Print Assumptions C50_zero_hash_never_returns.
Theorem C50_terminates_refuted :
  ~ (forall submul cshake hash timestamp nonce, (forall s, hash_ok 32 (fun b => cshake b s)) ->
      length hash = 32%nat -> bytes hash ->
      exists fuel r, Compute submul cshake fuel hash timestamp nonce = Done r).
Proof.
  intros C. destruct (C (fun a _ _ => a) (fun b _ => firstn 32 (toy_hash b)) (repeat 0 32) 0%Z 0) as (fuel & r & E).
  - intros s b. destruct (toy_hash_ok b) as (L & B). split; [rewrite firstn_length, L; reflexivity|].
    apply Forall_firstn_. auto.
  - reflexivity.
  - apply Forall_forall. intros x X. apply repeat_spec in X. subst. reflexivity.
  - rewrite C50_zero_hash_never_returns in E. discriminate.
Qed.
Print Assumptions C50_terminates_refuted.

(** For any hash it returns exactly when some candidate passes the rank test; it never panics. *)
Lemma held_candidate hash t : held (seeds hash) (t + 1) = matrix_of (candidate (seed_state hash) t).
Proof. unfold held. destruct (N.eqb_spec (t + 1) 0); [lia|]. replace (t + 1 - 1) with t by lia. reflexivity. Qed.
Theorem C50_returns_iff submul cshake hash timestamp nonce :
  (forall s, hash_ok 32 (fun b => cshake b s)) -> length hash = 32%nat -> bytes hash ->
  ((exists fuel r, Compute submul cshake fuel hash timestamp nonce = Done r) <-> exists t, accepted submul hash t) /\
  (forall fuel, Compute submul cshake fuel hash timestamp nonce <> Panic).
Proof.
  intros HC L B. unfold Compute, lenN. rewrite L. change (N.of_nat 32 =? 32) with true. cbn [negb].
  pose proof (seeds_valid hash B) as V.
  split; [split|].
  - intros (fuel & r & E). rewrite heavyHash_head in E by auto.
    destruct (search submul (seeds hash) fuel 0) as [m| |] eqn:S; try discriminate.
    destruct (search_sound submul (seeds hash) V fuel 0 m S) as (u & _ & _ & F & _).
    destruct (N.eq_dec u 0) as [->|]; [elim (zero_not_full submul (seeds hash) F)|].
    exists (u - 1). unfold accepted. rewrite <- held_candidate. replace (u - 1 + 1) with u by lia. exact F.
  - intros (t & A).
    assert (F : full submul (seeds hash) (t + 1)) by (unfold full; rewrite held_candidate; exact A).
    assert (M : exists u, full submul (seeds hash) u /\ forall v, v < u -> ~ full submul (seeds hash) v).
    { clear A. revert F. generalize (t + 1) as n. clear t. intros n. induction n as [n IH] using (well_founded_induction N.lt_wf_0).
      intros F.
      assert (D : (exists v, v < n /\ full submul (seeds hash) v) \/ (forall v, v < n -> ~ full submul (seeds hash) v)).
      { clear IH F. induction n using N.peano_ind; [right; lia|].
        destruct IHn as [(v & X & Y)|N].
        - left. exists v. split; [lia|auto].
        - destruct (full_dec submul (seeds hash) n); [left; exists n; split; [lia|auto]|right].
          intros v X. destruct (N.eq_dec v n) as [->|]; auto. apply N. lia. }
      destruct D as [(v & X & Y)|N]; [exact (IH v X Y)|]. exists n. auto. }
    destruct M as (u & FU & MU). exists (S (N.to_nat u)).
    rewrite heavyHash_head by auto.
    rewrite (search_complete submul (seeds hash) V _ 0 u); auto; try lia. cbn [bind].
    destruct (N.eq_dec u 0) as [->|]; [elim (zero_not_full submul (seeds hash) FU)|].
    replace u with (u - 1 + 1) by lia. rewrite held_candidate.
    rewrite heavyHash_tail by (auto using candidate_lt). cbn [bind]. eauto.
  - intros fuel. rewrite heavyHash_head by auto.
    destruct (search submul (seeds hash) fuel 0) as [m| |] eqn:S; try discriminate.
    + destruct (search_sound submul (seeds hash) V fuel 0 m S) as (u & _ & -> & F & _).
      destruct (N.eq_dec u 0) as [->|]; [elim (zero_not_full submul (seeds hash) F)|].
      replace u with (u - 1 + 1) by lia. rewrite held_candidate. cbn [bind].
      rewrite heavyHash_tail by (auto using candidate_lt). discriminate.
    + elim (search_no_panic submul (seeds hash) V fuel 0 S).
Qed.
Print Assumptions C50_returns_iff.
(** Only the zero hash seeds the generator with the state it cannot leave. *)
Theorem C50_only_zero_hash_stuck hash n :
  length hash = 32%nat -> bytes hash ->
  N.iter n xo_step (seed_state hash) = (0, 0, 0, 0) -> hash = repeat 0 32.
Proof.
  intros L B E. pose proof (seeds_valid hash B) as V.
  assert (Z : seeds hash = x_zero).
  { destruct (xnext_iter (seeds hash) n V) as (_ & T). change (xtup (seeds hash)) with (seed_state hash) in T.
    rewrite E in T. assert (Y : N.iter n xnext (seeds hash) = x_zero).
    { destruct (N.iter n xnext (seeds hash)). unfold xtup in T. cbn in T. injection T as -> -> -> ->. reflexivity. }
    clear T E. revert Y. induction n using N.peano_ind; auto. rewrite N.iter_succ. intros Y. apply IHn.
    apply Next_to_zero; [apply xnext_iter; auto|exact Y]. }
  assert (G : forall k, (k < 4)%nat -> firstn 8 (skipn (8 * k) hash) = repeat 0 8).
  { intros k K. set (l := firstn 8 (skipn (8 * k) hash)).
    assert (BL : bytes l) by (apply Forall_firstn_, Forall_skipn_; auto).
    assert (LL : length l = 8%nat) by (unfold l; rewrite firstn_length, skipn_length; lia).
    assert (W : seed_word hash k = 0).
    { unfold seeds, x_zero in Z. injection Z as A0 A1 A2 A3.
      destruct k as [|[|[|[|]]]]; auto. lia. }
    unfold seed_word in W. fold l in W.
    rewrite <- (le_value_bytes l BL), W, LL. reflexivity. }
  pose proof (G 0%nat ltac:(lia)) as G0. pose proof (G 1%nat ltac:(lia)) as G1.
  pose proof (G 2%nat ltac:(lia)) as G2. pose proof (G 3%nat ltac:(lia)) as G3. clear - L G0 G1 G2 G3.
  do 32 (destruct hash as [|? hash]; [discriminate|]). destruct hash; [|discriminate].
  cbn [Nat.mul Nat.add skipn firstn repeat] in *.
  injection G0 as -> -> -> -> -> -> -> ->. injection G1 as -> -> -> -> -> -> -> ->.
  injection G2 as -> -> -> -> -> -> -> ->. injection G3 as -> -> -> -> -> -> -> ->. reflexivity.
Qed.
Print Assumptions C50_only_zero_hash_stuck.
(** The hypothesis of [C50_only_zero_hash_stuck] at the zero hash, and a nonzero state. *)
Example C50_instance :
  N.iter 5 xo_step (seed_state (repeat 0 32)) = (0, 0, 0, 0) /\
  seed_state (1 :: repeat 0 31) = (1, 0, 0, 0) /\ xo_step (1, 0, 0, 0) = (1, 1, 1, 0).
Proof. repeat split; vm_compute; reflexivity. Qed.

(** ** C51 *)

(** Whenever Compute returns, it returns the digest of the specification for the first candidate
    that passes the rank test. *)
Theorem C51_digest submul cshake fuel hash timestamp nonce r :
  (forall s, hash_ok 32 (fun b => cshake b s)) -> length hash = 32%nat -> bytes hash ->
  Compute submul cshake fuel hash timestamp nonce = Done r ->
  exists t, accepted submul hash t /\ (forall u, u < t -> ~ accepted submul hash u) /\
    r = Some (heavy_spec cshake pow_name heavy_name (candidate (seed_state hash) t) hash timestamp nonce).
Proof.
  intros HC L B. unfold Compute, lenN. rewrite L. change (N.of_nat 32 =? 32) with true. cbn [negb].
  pose proof (seeds_valid hash B) as V. rewrite heavyHash_head by auto.
  destruct (search submul (seeds hash) fuel 0) as [m| |] eqn:S; try discriminate.
  destruct (search_sound submul (seeds hash) V fuel 0 m S) as (u & _ & -> & F & M).
  destruct (N.eq_dec u 0) as [->|]; [elim (zero_not_full submul (seeds hash) F)|].
  replace u with (u - 1 + 1) in * by lia. rewrite held_candidate. cbn [bind].
  rewrite heavyHash_tail by (auto using candidate_lt). cbn [bind]. intros E. injection E as <-.
  exists (u - 1). split; [|split].
  - unfold accepted. rewrite <- held_candidate. exact F.
  - intros v X A. apply (M (v + 1)); [lia|lia|]. unfold full. rewrite held_candidate. exact A.
  - reflexivity.
Qed.
Print Assumptions C51_digest.
(** The 16-bit sums of the product do not wrap and every product fits four bits. *)
Theorem C51_product_exact s t i b :
  i < 64 -> bytes b ->
  dot (candidate s t i) (nibble b) <= 14400 /\ dot (candidate s t i) (nibble b) / 2 ^ 10 < 16.
Proof.
  intros I B.
  assert (X : dot (candidate s t i) (nibble b) <= 14400).
  { apply dot_bound; [intros; apply candidate_lt|intros; apply nibble_lt; auto]. }
  split; [exact X|]. change (2 ^ 10) with 1024. lia.
Qed.
Print Assumptions C51_product_exact.
(** Other lengths are refused. *)
Theorem C51_hash_length submul cshake fuel hash timestamp nonce :
  length hash <> 32%nat -> Compute submul cshake fuel hash timestamp nonce = Done None.
Proof. intros L. unfold Compute, lenN. destruct (N.eqb_spec (N.of_nat (length hash)) 32); [lia|reflexivity]. Qed.
Print Assumptions C51_hash_length.
(** An instance of the specification's pieces; the repository's test vector is replayed in
    VecHeavy.v, where Compute returns after one candidate. *)
Example C51_instance :
  dot (fun j => j mod 16) (nibble (repeat 171 32)) = 32 * 10 * 7 + 32 * 11 * 8 /\
  candidate (1, 2, 3, 4) 0 0 0 = 1 /\ candidate (1, 2, 3, 4) 0 0 5 = 8.
Proof. repeat split; vm_compute; reflexivity. Qed.

(** ** C61 *)

(** The rows of [M] are linearly dependent over the integers. *)
Definition zsum (f : N -> Z) : Z := fold_right Z.add 0%Z (tab 64 f).
Definition dependent (M : N -> N -> N) : Prop :=
  exists x : N -> Z, (exists i, i < 64 /\ x i <> 0%Z) /\
    forall j, j < 64 -> zsum (fun i => (x i * Z.of_N (M i j))%Z) = 0%Z.

(** [a - b * c] with both operations rounded, and fused: rounded once. *)
Definition unfused (a b c : float64) : float64 := fsub a (fmul b c).
Definition parts (x : float64) : option (Z * Z) :=
  match x with
  | S754_zero _ => Some (0, 0)%Z
  | S754_finite s m e => Some ((if s then Z.neg m else Z.pos m), e)
  | _ => None
  end.
Definition fused (a b c : float64) : float64 :=
  match parts a, parts b, parts c with
  | Some (ma, ea), Some (mb, eb), Some (mc, ec) =>
      let e := Z.min ea (eb + ec) in
      binary_normalize 53 1024 (ma * 2 ^ (ea - e) - mb * mc * 2 ^ (eb + ec - e)) e false
  | _, _, _ => S754_nan
  end.

(** A block in the upper left corner of the identity matrix. *)
Definition block (n : N) (B : list (list N)) (i j : N) : N :=
  if (i <? n) && (j <? n) then nth (N.to_nat j) (nth (N.to_nat i) B []) 0 else if i =? j then 1 else 0.
Definition steep : N -> N -> N := block 9
  [[15;1;0;0;0;0;0;0;0]; [0;15;1;0;0;0;0;0;0]; [0;0;15;1;0;0;0;0;0]; [0;0;0;15;1;0;0;0;0];
   [0;0;0;0;15;1;0;0;0]; [0;0;0;0;0;15;1;0;0]; [0;0;0;0;0;0;15;1;0]; [0;0;0;0;0;0;0;15;1];
   [1;0;0;0;0;0;0;0;0]].
Definition flat : N -> N -> N := block 8
  [[13;1;0;0;0;0;0;2]; [0;13;1;0;0;0;0;4]; [0;0;13;1;0;0;0;3]; [0;0;0;13;1;0;0;4];
   [0;0;0;0;13;1;0;0]; [0;0;0;0;0;13;1;0]; [1;0;0;0;0;0;0;5]; [1;0;0;0;0;13;1;5]].
Lemma block_lt n B i j : Forall (Forall (fun x => x < 16)) B -> block n B i j < 16.
Proof.
  intros F. unfold block. destruct ((i <? n) && (j <? n)).
  - destruct (nth_in_or_default (N.to_nat i) B []) as [X|X].
    + rewrite Forall_forall in F. specialize (F _ X). rewrite Forall_forall in F.
      destruct (nth_in_or_default (N.to_nat j) (nth (N.to_nat i) B []) 0) as [Y|Y]; [auto|rewrite Y; lia].
    + rewrite X. destruct (N.to_nat j); cbn; lia.
  - destruct (i =? j); lia.
Qed.
Lemma fold_zero_ (l : list Z) : (forall x, In x l -> x = 0%Z) -> fold_right Z.add 0%Z l = 0%Z.
Proof. induction l; intros H; cbn [fold_right]; auto. rewrite IHl by (intros; apply H; cbn; auto). rewrite (H a) by (cbn; auto). auto. Qed.
Lemma fold_zapp (l m : list Z) : fold_right Z.add 0%Z (l ++ m) = (fold_right Z.add 0 l + fold_right Z.add 0 m)%Z.
Proof. induction l; cbn [app fold_right]; lia. Qed.
Lemma zsum_low f n : n <= 64 -> (forall i, n <= i -> i < 64 -> f i = 0%Z) ->
  zsum f = fold_right Z.add 0%Z (tab n f).
Proof.
  intros L H. unfold zsum. replace 64 with (n + (64 - n)) by lia. rewrite tab_app, fold_zapp.
  rewrite (fold_zero_ (tab (64 - n) _)); [lia|]. intros y Y. apply In_tab in Y. destruct Y as (i & I & ->).
  apply H; lia.
Qed.
Lemma zsum_unit f j : j < 64 -> (forall k, k < 64 -> k <> j -> f k = 0%Z) -> zsum f = f j.
Proof.
  intros J H. rewrite (zsum_low f (j + 1)) by (try lia; intros; apply H; lia).
  rewrite tab_succ, fold_zapp. rewrite fold_zero_.
  - cbn [fold_right]. lia.
  - intros y Y. apply In_tab in Y. destruct Y as (i & I & ->). apply H; lia.
Qed.
Lemma steep_independent : ~ dependent steep.
Proof.
  intros (x & (i & I & X) & D).
  assert (Hi : forall j, 9 <= j -> j < 64 -> x j = 0%Z).
  { intros j A B. specialize (D j B). rewrite (zsum_unit _ j) in D; auto.
    - unfold steep, block in D. destruct (N.ltb_spec j 9); [lia|]. rewrite andb_false_r, N.eqb_refl in D. cbn in D. lia.
    - intros k K N. unfold steep, block. destruct (N.ltb_spec j 9); [lia|]. rewrite andb_false_r.
      destruct (N.eqb_spec k j); [contradiction|]. cbn. lia. }
  assert (Lo : forall j, j < 9 -> fold_right Z.add 0%Z (tab 9 (fun i => (x i * Z.of_N (steep i j))%Z)) = 0%Z).
  { intros j J. etransitivity; [|exact (D j ltac:(lia))]. symmetry. apply zsum_low; [lia|]. intros k K1 K2.
    rewrite Hi by auto. lia. }
  clear D.
  pose proof (Lo 0 eq_refl) as D0. pose proof (Lo 1 eq_refl) as D1. pose proof (Lo 2 eq_refl) as D2.
  pose proof (Lo 3 eq_refl) as D3. pose proof (Lo 4 eq_refl) as D4. pose proof (Lo 5 eq_refl) as D5.
  pose proof (Lo 6 eq_refl) as D6. pose proof (Lo 7 eq_refl) as D7. pose proof (Lo 8 eq_refl) as D8. clear Lo.
  unfold tab in *. change (N.to_nat 9) with 9%nat in *. cbn [seq map fold_right] in *.
  repeat match goal with H : context [Z.of_N (steep ?i ?j)] |- _ =>
    let v := eval vm_compute in (Z.of_N (steep i j)) in change (Z.of_N (steep i j)) with v in H end.
  repeat match goal with H : context [x (N.of_nat ?n)] |- _ =>
    let v := eval vm_compute in (N.of_nat n) in change (N.of_nat n) with v in H end.
  assert (forall k, k < 9 -> x k = 0%Z).
  { intros k K. assert (C : k = 0 \/ k = 1 \/ k = 2 \/ k = 3 \/ k = 4 \/ k = 5 \/ k = 6 \/ k = 7 \/ k = 8) by lia.
    clear Hi X. destruct C as [->|[->|[->|[->|[->|[->|[->|[->| ->]]]]]]]]; lia. }
  destruct (N.ltb_spec i 9); auto.
Qed.
Lemma flat_dependent : dependent flat.
Proof.
  exists (fun i => if N.eqb i 5 then 1 else if N.eqb i 6 then 1 else if N.eqb i 7 then -1 else 0)%Z. split.
  - exists 5. split; [lia|discriminate].
  - assert (C : forallb (fun j => Z.eqb (zsum (fun i => ((if N.eqb i 5 then 1 else if N.eqb i 6 then 1 else if N.eqb i 7 then -1 else 0)
        * Z.of_N (flat i (N.of_nat j)))%Z)) 0%Z) (seq 0 64) = true) by (vm_compute; reflexivity).
    rewrite forallb_forall in C. intros j J. specialize (C (N.to_nat j) ltac:(apply in_seq; lia)).
    rewrite N2Nat.id in C. apply Z.eqb_eq. exact C.
Qed.

(** The rank test is not the rank.  There are matrices of 4-bit entries with independent rows that it
    rejects, and matrices with dependent rows that it accepts. *)
Theorem C61_rank_test_exact_refuted :
  (exists M, (forall i j, M i j < 16) /\ ~ dependent M /\ calculateRank unfused (matrix_of M) = Done 63) /\
  (exists M, (forall i j, M i j < 16) /\ dependent M /\ calculateRank unfused (matrix_of M) = Done 64).
Proof.
  split.
  - exists steep. split; [|split].
    + intros. apply block_lt. repeat constructor.
    + exact steep_independent.
    + vm_compute. reflexivity.
  - exists flat. split; [|split].
    + intros. apply block_lt. repeat constructor.
    + exact flat_dependent.
    + vm_compute. reflexivity.
Qed.
Print Assumptions C61_rank_test_exact_refuted.
(** Its verdict depends on whether the compiler fuses the multiplication and the subtraction, so
    that two architectures may disagree on the first accepted matrix. *)
Theorem C61_architecture_independent_refuted :
  ~ (forall M, (forall i j, M i j < 16) ->
      calculateRank unfused (matrix_of M) = calculateRank fused (matrix_of M)).
Proof.
  intros C. specialize (C flat).
  assert (U : calculateRank unfused (matrix_of flat) = Done 64) by (vm_compute; reflexivity).
  assert (F : calculateRank fused (matrix_of flat) = Done 63) by (vm_compute; reflexivity).
  rewrite U, F in C. discriminate C. intros. apply block_lt. repeat constructor.
Qed.
Print Assumptions C61_architecture_independent_refuted.
(** What does hold: it always returns a number up to 64. *)
Theorem C61_rank_test_total submul M : exists r, calculateRank submul (matrix_of M) = Done r /\ r <= 64.
Proof. apply calculateRank_ok. apply square_matrix_of. Qed.
Print Assumptions C61_rank_test_total.
Example C61_instance :
  calculateRank unfused (matrix_of (block 0 [])) = Done 64 /\
  calculateRank fused (matrix_of (block 2 [[3; 5]; [6; 10]])) = Done 63 /\
  calculateRank unfused (matrix_of (block 2 [[3; 5]; [6; 10]])) = Done 63.
Proof. split; [|split]; vm_compute; reflexivity. Qed.
