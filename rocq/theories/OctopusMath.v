(** The arithmetic behind Octopus: the multiplicative group modulo p = 1032193. *)
From Coq Require Import NArith ZArith Arith List Bool Lia ZifyBool ZifyN ZifyNat Znumtheory.
From Verif Require Import Base BaseFacts Trial OctopusModel OctopusSpec.
Import ListNotations.
Open Scope N_scope.

(** ** Divisibility *)
Lemma coprime_mul m a b : N.gcd m a = 1 -> N.gcd m b = 1 -> N.gcd m (a * b) = 1.
Proof.
  intros A B. apply N.divide_1_r.
  assert (D1 : N.divide (N.gcd m (a * b)) m) by apply N.gcd_divide_l.
  assert (D2 : N.divide (N.gcd m (a * b)) (a * b)) by apply N.gcd_divide_r.
  set (d := N.gcd m (a * b)) in *. clearbody d.
  assert (C : N.gcd d a = 1).
  { apply N.divide_1_r. rewrite <- A. apply N.gcd_greatest.
    - eapply N.divide_trans; [apply N.gcd_divide_l|auto].
    - apply N.gcd_divide_r. }
  rewrite <- B. apply N.gcd_greatest; auto.
  apply (N.gauss d a b); auto.
Qed.
Lemma coprime_divisor m a d : N.gcd m a = 1 -> N.divide d m -> N.gcd d a = 1.
Proof.
  intros A D. apply N.divide_1_r. rewrite <- A. apply N.gcd_greatest.
  - eapply N.divide_trans; [apply N.gcd_divide_l|auto].
  - apply N.gcd_divide_r.
Qed.
Lemma coprime_divisor_r m a d : N.gcd m a = 1 -> N.divide d a -> N.gcd m d = 1.
Proof. rewrite (N.gcd_comm m a), (N.gcd_comm m d). apply coprime_divisor. Qed.

Lemma small_prime_gcd q m : (q = 2 \/ q = 3 \/ q = 7) -> ~ N.divide q m -> N.gcd m q = 1.
Proof.
  intros Q ND.
  assert (D : N.divide (N.gcd m q) q) by apply N.gcd_divide_r.
  assert (D' : N.divide (N.gcd m q) m) by apply N.gcd_divide_l.
  set (d := N.gcd m q) in *. clearbody d.
  assert (d <= q) by (apply N.divide_pos_le; auto; lia).
  assert (d <> q) by (intros ->; auto).
  destruct D as [z Z]. assert (d <> 0) by (intros ->; lia).
  assert (d = 1 \/ d = 2 \/ d = 3 \/ d = 4 \/ d = 5 \/ d = 6) as C by lia.
  destruct C as [->|C]; auto. exfalso. lia.
Qed.

(** ** The prime *)
Lemma p_prime : prime (Z.of_N p).
Proof.
  apply (prime_by_divisors primes 12300); [apply primes_cover|unfold p; lia|unfold p; lia|].
  intros d Hd L.
  assert (C : forallb (fun d => negb (p mod d =? 0) || (p <? d * d)) primes = true) by (vm_compute; reflexivity).
  rewrite forallb_forall in C. specialize (C d Hd). lia.
Qed.
Lemma p_pos : p <> 0. Proof. discriminate. Qed.

Lemma gcd_p x : x mod p <> 0 -> N.gcd x p = 1.
Proof.
  intros H.
  assert (D : N.divide (N.gcd x p) p) by apply N.gcd_divide_r.
  assert (D' : N.divide (N.gcd x p) x) by apply N.gcd_divide_l.
  set (d := N.gcd x p) in *. clearbody d.
  assert (L : d <= p) by (apply N.divide_pos_le; auto; reflexivity).
  destruct D as [z Z].
  assert (d <> 0) by (intros ->; rewrite N.mul_0_r in Z; discriminate).
  assert (d <> p).
  { intros ->. apply H. apply N.mod_divide; [discriminate|auto]. }
  destruct (N.eq_dec d 1) as [|N1]; auto. exfalso.
  pose proof p_prime as P. apply prime_alt in P. destruct P as [_ P].
  apply (P (Z.of_N d)); [lia|]. exists (Z.of_N z). lia.
Qed.

Lemma mod_eq_divide x y : y <= x -> (x mod p = y mod p <-> N.divide p (x - y)).
Proof.
  intros L. split.
  - intros E. exists (x / p - y / p).
    pose proof (N.div_mod x p p_pos) as X. pose proof (N.div_mod y p p_pos) as Y.
    pose proof (N.div_le_mono y x p p_pos L) as Q.
    rewrite N.mul_sub_distr_r. rewrite X at 1. rewrite Y at 1. rewrite E.
    rewrite (N.mul_comm p), (N.mul_comm p). set (u := x / p * p). set (v := y / p * p).
    clearbody u v. clear. lia.
  - intros [z Z]. replace x with (y + z * p) by lia. apply N.mod_add. apply p_pos.
Qed.
Lemma cancel_p x y z : x mod p <> 0 -> (x * y) mod p = (x * z) mod p -> y mod p = z mod p.
Proof.
  intros H.
  assert (W : forall y z, z <= y -> (x * y) mod p = (x * z) mod p -> y mod p = z mod p).
  { clear y z. intros y z L E. apply mod_eq_divide; auto.
    apply mod_eq_divide in E; [|apply N.mul_le_mono_l; auto].
    apply (N.gauss p x); [|rewrite N.gcd_comm; apply gcd_p; auto].
    replace (x * (y - z)) with (x * y - x * z) by nia. auto. }
  intros E. destruct (N.le_ge_cases z y); auto. symmetry. apply W; auto.
Qed.

Lemma pow_mod_l a n : (a mod p) ^ n mod p = a ^ n mod p.
Proof.
  induction n using N.peano_ind; auto.
  rewrite !N.pow_succ_r'.
  rewrite N.mul_mod, IHn, N.mod_mod, <- N.mul_mod; try apply p_pos. auto.
Qed.
Lemma pow_one_mod a n k : a ^ n mod p = 1 -> a ^ (n * k) mod p = 1.
Proof. intros E. rewrite N.pow_mul_r, <- pow_mod_l, E, N.pow_1_l. reflexivity. Qed.

(** ** powerMod *)
Definition power_body : N * N * N -> outcome (step (N * N * N) N) :=
  fun '(result, a, n) =>
    if 0 <? n then
      let result := if n mod 2 =? 1 then mulw 64 result a mod powMod else result in
      Done (Continue (result, mulw 64 a a mod powMod, N.shiftr n 1))
    else Done (Break result).
Lemma powerMod_loop fuel r a n : (N.size_nat n < fuel)%nat -> r < p -> a < p ->
  loop_fuel fuel power_body (r, a, n) = Done ((r * a ^ n) mod p).
Proof.
  revert r a n; induction fuel; intros r a n F R A; [lia|].
  cbn [loop_fuel]. unfold power_body at 1.
  destruct (N.ltb_spec 0 n).
  2:{ assert (n = 0) by lia. subst n. cbn [bind]. rewrite N.pow_0_r, N.mul_1_r, N.mod_small; auto. }
  cbn [bind].
  change powMod with p.
  assert (M : forall x y, x < p -> y < p -> mulw 64 x y mod p = (x * y) mod p).
  { intros x y X Y. unfold mulw. rewrite trunc_small; auto. unfold p in *. nia. }
  rewrite !M; auto.
  assert (E : forall r', r' < p -> loop_fuel fuel power_body (r', (a * a) mod p, N.shiftr n 1) = Done ((r' * ((a * a) mod p) ^ N.shiftr n 1) mod p)).
  { intros r' R'. apply IHfuel; auto; [|apply N.mod_lt, p_pos].
    rewrite <- N.div2_spec. destruct n as [|[q|q|]]; cbn in *; lia. }
  assert (SQ : forall r', (r' * ((a * a) mod p) ^ N.shiftr n 1) mod p = (r' * a ^ (2 * (n / 2))) mod p).
  { intros r'. rewrite N.shiftr_div_pow2, N.pow_1_r.
    rewrite <- N.mul_mod_idemp_r, pow_mod_l, N.mul_mod_idemp_r; try apply p_pos.
    rewrite N.pow_mul_r. replace (a ^ 2) with (a * a) by (rewrite N.pow_2_r; auto). auto. }
  assert (D : n = 2 * (n / 2) + n mod 2) by (apply N.div_mod; discriminate).
  assert (B : n mod 2 < 2) by (apply N.mod_lt; discriminate).
  destruct (N.eqb_spec (n mod 2) 1) as [O|O].
  - rewrite E by (apply N.mod_lt, p_pos). rewrite SQ. f_equal.
    rewrite N.mul_mod_idemp_l; [|apply p_pos]. f_equal.
    replace (a ^ n) with (a ^ (2 * (n / 2) + 1)) by (f_equal; lia).
    rewrite N.pow_add_r, N.pow_1_r. nia.
  - rewrite E by auto. rewrite SQ. f_equal. f_equal. f_equal. f_equal. lia.
Qed.
Lemma powerMod_spec fuel a n : (64 <= fuel)%nat -> n < 2 ^ 63 -> a < p -> powerMod fuel a n = Done (a ^ n mod p).
Proof.
  intros F Hn A. unfold powerMod. fold power_body.
  rewrite powerMod_loop; auto.
  - rewrite N.mul_1_l. auto.
  - assert (N.size_nat n <= 63)%nat; [|lia].
    destruct n as [|q]; [cbn; lia|].
    pose proof (N.size_le (N.pos q)) as S.
    assert (N.size (N.pos q) <= 63).
    { rewrite N.size_log2 by lia. pose proof (N.log2_lt_pow2 (N.pos q) 63 ltac:(lia)). lia. }
    assert (E : N.of_nat (N.size_nat (N.pos q)) = N.size (N.pos q)).
    { cbn. clear. induction q; cbn; try rewrite Nat2N.inj_succ, IHq; auto; lia. }
    lia.
  - reflexivity.
Qed.

(** ** 11 is a primitive root *)
Lemma pow11_pm1 : 11 ^ (p - 1) mod p = 1.
Proof.
  assert (E : powerMod 64 11 (p - 1) = Done 1) by (vm_compute; reflexivity).
  rewrite powerMod_spec in E; [congruence|lia|reflexivity|reflexivity].
Qed.
Lemma pow11_sub q : In q [2; 3; 7] -> 11 ^ ((p - 1) / q) mod p <> 1.
Proof.
  intros H E.
  assert (C : powerMod 64 11 ((p - 1) / q) = Done 1).
  { rewrite powerMod_spec; [congruence|lia| |reflexivity].
    destruct H as [<-|[<-|[<-|[]]]]; reflexivity. }
  destruct H as [<-|[<-|[<-|[]]]]; clear E; vm_compute in C; discriminate C.
Qed.
Lemma pow_nonzero a k : a mod p <> 0 -> a ^ k mod p <> 0.
Proof.
  intros A. induction k using N.peano_ind; [discriminate|].
  rewrite N.pow_succ_r'. intros E. apply IHk.
  rewrite (cancel_p a (a ^ k) 0); auto. rewrite N.mul_0_r. auto.
Qed.
Lemma pow11_nonzero k : 11 ^ k mod p <> 0.
Proof. apply pow_nonzero. discriminate. Qed.

Lemma pow_gcd a k n : a mod p <> 0 -> k <> 0 -> a ^ k mod p = 1 -> a ^ n mod p = 1 -> a ^ (N.gcd k n) mod p = 1.
Proof.
  intros A K E1 E2.
  destruct (N.gcd_bezout_pos k n ltac:(lia)) as (x & y & B).
  apply (pow_one_mod _ _ x) in E1. apply (pow_one_mod _ _ y) in E2.
  rewrite (N.mul_comm k x), B, N.pow_add_r in E1.
  rewrite <- N.mul_mod_idemp_r in E1 by apply p_pos.
  replace (y * n) with (n * y) in E1 by lia. rewrite E2, N.mul_1_r in E1. auto.
Qed.

Lemma order_divides k : 11 ^ k mod p = 1 -> N.divide (p - 1) k.
Proof.
  intros E. destruct (N.eq_dec k 0) as [->|K]; [exists 0; auto|].
  pose proof (pow_gcd 11 k (p - 1) ltac:(discriminate) K E pow11_pm1) as G.
  assert (D1 : N.divide (N.gcd k (p - 1)) k) by apply N.gcd_divide_l.
  assert (D2 : N.divide (N.gcd k (p - 1)) (p - 1)) by apply N.gcd_divide_r.
  set (g := N.gcd k (p - 1)) in *. clearbody g.
  destruct D2 as [m M].
  assert (W : forall q, In q [2; 3; 7] -> N.gcd m q = 1).
  { intros q Q. apply small_prime_gcd; [cbn in Q; lia|].
    intros [z Z]. apply (pow11_sub q Q).
    replace ((p - 1) / q) with (g * z); [apply pow_one_mod; auto|].
    rewrite M, Z. replace (z * q * g) with (g * z * q) by lia.
    rewrite N.div_mul; auto. cbn in Q; lia. }
  assert (C : N.gcd m (p - 1) = 1).
  { apply (coprime_divisor_r m (42 ^ 14)).
    - assert (C42 : N.gcd m 42 = 1) by (apply (coprime_mul m 2 21); [|apply (coprime_mul m 3 7)]; apply W; cbn; auto).
      assert (P : forall n, N.gcd m (42 ^ n) = 1).
      { induction n using N.peano_ind; [apply N.gcd_1_r|]. rewrite N.pow_succ_r'. apply coprime_mul; auto. }
      apply P.
    - exists (42 ^ 14 / (p - 1)). vm_compute. reflexivity. }
  assert (m = 1).
  { assert (E' : N.gcd m (p - 1) = m).
    { rewrite M. rewrite <- (N.mul_1_r m) at 1. rewrite N.gcd_mul_mono_l, N.gcd_1_l. lia. }
    congruence. }
  subst m. rewrite M, N.mul_1_l. auto.
Qed.

Lemma pow11_eq i j : i <= j -> 11 ^ i mod p = 11 ^ j mod p -> N.divide (p - 1) (j - i).
Proof.
  intros L E. apply order_divides.
  replace j with (i + (j - i)) in E by lia. rewrite N.pow_add_r in E.
  symmetry in E. rewrite <- (N.mul_1_r (11 ^ i)) in E at 2.
  apply cancel_p in E; [|apply pow11_nonzero]. rewrite E. reflexivity.
Qed.
Lemma pow11_inj i j : i < p - 1 -> j < p - 1 -> 11 ^ i mod p = 11 ^ j mod p -> i = j.
Proof.
  assert (W : forall i j, i <= j -> j < p - 1 -> 11 ^ i mod p = 11 ^ j mod p -> i = j).
  { clear i j. intros i j L J E. destruct (pow11_eq i j L E) as [z Z].
    destruct (N.eq_dec z 0) as [->|]; nia. }
  intros I J E. destruct (N.le_ge_cases i j); [apply W; auto|symmetry; apply W; auto].
Qed.

Lemma discrete_log y : 1 <= y -> y < p -> exists k, k < p - 1 /\ 11 ^ k mod p = y.
Proof.
  intros Y1 Y2.
  assert (G : forall n : nat, N.of_nat n = p - 1 -> exists k, k < p - 1 /\ 11 ^ k mod p = y).
  { intros n En.
    set (l := map (fun k => 11 ^ N.of_nat k mod p) (seq 0 n)).
    set (l' := map N.of_nat (seq 1 n)).
    assert (I : incl l' l).
    { apply NoDup_length_incl.
      - unfold l. assert (ND : NoDup (seq 0 n)) by apply seq_NoDup.
        assert (B : forall x, In x (seq 0 n) -> N.of_nat x < p - 1) by (intros x Hx; apply in_seq in Hx; lia).
        revert ND B. generalize (seq 0 n). clear. induction l as [|x t IH]; intros ND B; cbn [map]; constructor.
        + intros Hx. apply in_map_iff in Hx as (x' & E & Hx'). inversion ND; subst.
          assert (x' = x); [|subst; auto].
          apply Nat2N.inj, pow11_inj; auto; apply B; [right|left]; auto.
        + inversion ND; subst. apply IH; auto. intros x' Hx'. apply B. right; auto.
      - unfold l, l'. rewrite !map_length, !seq_length. auto.
      - intros x Hx. unfold l in Hx. apply in_map_iff in Hx as (k & <- & Hk).
        pose proof (pow11_nonzero (N.of_nat k)). pose proof (N.mod_lt (11 ^ N.of_nat k) p p_pos).
        set (v := 11 ^ N.of_nat k mod p) in *. clearbody v.
        unfold l'. apply in_map_iff. exists (N.to_nat v). split; [lia|]. apply in_seq. lia. }
    assert (Hy : In y l') by (unfold l'; apply in_map_iff; exists (N.to_nat y); split; [lia|apply in_seq; lia]).
    specialize (I y Hy). unfold l in I. apply in_map_iff in I as (k & E & Hk).
    exists (N.of_nat k). apply in_seq in Hk. split; auto. lia. }
  apply (G (N.to_nat (p - 1))). apply N2Nat.id.
Qed.

Lemma generator_pow e : N.gcd e (p - 1) = 1 -> generator (11 ^ e mod p).
Proof.
  intros C y Y1 Y2. destruct (discrete_log y Y1 Y2) as (k & K & E).
  assert (E0 : 0 < e).
  { destruct e; [|lia]. rewrite N.gcd_0_l in C. discriminate. }
  destruct (N.gcd_bezout_pos e (p - 1) E0) as (s & t & B). rewrite C in B.
  exists (s * k). rewrite pow_mod_l, <- N.pow_mul_r.
  replace (e * (s * k)) with ((p - 1) * (t * k) + k) by nia.
  rewrite N.pow_add_r, <- N.mul_mod_idemp_l, pow_one_mod; [|apply pow11_pm1|apply p_pos].
  rewrite N.mul_1_l. auto.
Qed.

(** ** The unit part *)
Lemma in_upto n d : In d (upto n) <-> 1 <= d /\ d <= n.
Proof.
  unfold upto. rewrite in_map_iff. split.
  - intros (k & <- & H). apply in_seq in H. lia.
  - intros [A B]. exists (N.to_nat d). split; [lia|]. apply in_seq. lia.
Qed.
Lemma fold_max_in l : fold_right N.max 1 l = 1 \/ In (fold_right N.max 1 l) l.
Proof.
  induction l as [|x t IH]; cbn [fold_right]; auto.
  destruct (N.max_spec x (fold_right N.max 1 t)) as [[_ ->]|[_ ->]]; cbn; auto.
  destruct IH; auto.
Qed.
Lemma fold_max_ge l d : In d l -> d <= fold_right N.max 1 l.
Proof. induction l as [|x t IH]; cbn; intros []; subst; try specialize (IH H); lia. Qed.

Definition unit_candidate e d := N.divide d e /\ N.gcd d (p - 1) = 1.
Lemma unit_filter e d : 1 <= e ->
  In d (filter (fun d => (e mod d =? 0) && (N.gcd d (p - 1) =? 1)) (upto e)) <-> unit_candidate e d.
Proof.
  intros E. rewrite filter_In, in_upto, andb_true_iff, !N.eqb_eq. unfold unit_candidate. split.
  - intros ((A & B) & C & D). split; auto. apply N.mod_divide; auto. lia.
  - intros (A & B). assert (d <= e) by (apply N.divide_pos_le; auto; lia).
    assert (d <> 0) by (intros ->; destruct A; lia).
    repeat split; auto; try lia. apply N.mod_divide; auto.
Qed.
Lemma unit_part_max e : 1 <= e ->
  unit_candidate e (unit_part e) /\ forall d, unit_candidate e d -> d <= unit_part e.
Proof.
  intros E. unfold unit_part. split.
  - match goal with |- context [fold_right N.max 1 ?l] => destruct (fold_max_in l) as [H|H] end.
    + rewrite H. split; [apply N.divide_1_l|apply N.gcd_1_l].
    + apply unit_filter in H; auto.
  - intros d Hd. apply fold_max_ge. apply unit_filter; auto.
Qed.
Lemma unit_part_unique e u : 1 <= e -> unit_candidate e u ->
  (forall d, unit_candidate e d -> N.divide d u) -> unit_part e = u.
Proof.
  intros E C M. destruct (unit_part_max e E) as (A & B).
  apply N.le_antisymm; [|apply B; auto].
  apply N.divide_pos_le; auto. destruct C as [[z Z] _]. destruct u; lia.
Qed.
Lemma unit_part_self e : 1 <= e -> N.gcd e (p - 1) = 1 -> unit_part e = e.
Proof. intros E G. apply unit_part_unique; auto; [split; auto; apply N.divide_refl|]. intros d [D _]. auto. Qed.

(** ** gcd *)
Lemma gcd_spec fuel : forall k a b, b < 2 ^ N.of_nat k -> (2 * k < fuel)%nat -> gcd fuel a b = Done (N.gcd a b).
Proof.
  induction fuel as [fuel IH] using lt_wf_ind. intros k a b B F.
  destruct fuel as [|fuel]; [lia|]. cbn [gcd].
  destruct (N.eqb_spec b 0) as [->|NZ]; [rewrite N.gcd_0_r; auto|].
  rewrite N.gcd_comm, <- N.gcd_mod, N.gcd_comm by auto.
  destruct k as [|k]; [change (2 ^ N.of_nat 0) with 1 in B; lia|].
  pose proof (N.mod_lt a b NZ) as L.
  destruct fuel as [|fuel]; [lia|]. cbn [gcd].
  destruct (N.eqb_spec (a mod b) 0) as [->|NZ']; [rewrite N.gcd_0_r; auto|].
  rewrite (N.gcd_comm b), <- (N.gcd_mod b), N.gcd_comm by auto.
  apply (IH fuel ltac:(lia) k).
  - rewrite Nat2N.inj_succ, N.pow_succ_r' in B.
    set (r := a mod b) in *. clearbody r.
    pose proof (N.mod_lt b r NZ'). pose proof (N.div_mod b r NZ').
    assert (1 <= b / r) by (apply N.div_le_lower_bound; lia). nia.
  - lia.
Qed.
Lemma gcd_p1 fuel e : (64 <= fuel)%nat -> gcd fuel e (p - 1) = Done (N.gcd e (p - 1)).
Proof. intros F. apply (gcd_spec fuel 20); [reflexivity|lia]. Qed.

(** ** remap *)
Lemma unit_loop fuel0 fuel e0 e : (64 <= fuel0)%nat -> 1 <= e0 -> 1 <= e -> (N.size_nat e < fuel)%nat ->
  N.divide e e0 -> (forall d, unit_candidate e0 d -> N.divide d e) ->
  loop_fuel fuel (fun e =>
      g <- gcd fuel0 e (powMod - 1) ;;
      if g =? 1 then Done (Break e)
      else e <- divc e g ;; Done (Continue e)) e = Done (unit_part e0).
Proof.
  intros F E0. revert e; induction fuel; intros e E S D M; [lia|].
  cbn [loop_fuel]. change powMod with p. rewrite gcd_p1 by auto. cbn [bind].
  destruct (N.eqb_spec (N.gcd e (p - 1)) 1) as [G|G].
  - cbn [bind]. f_equal. symmetry. apply unit_part_unique; auto. split; auto.
  - assert (D1 : N.divide (N.gcd e (p - 1)) e) by apply N.gcd_divide_l.
    assert (D2 : N.divide (N.gcd e (p - 1)) (p - 1)) by apply N.gcd_divide_r.
    set (g := N.gcd e (p - 1)) in *. clearbody g.
    destruct D1 as [z Z].
    assert (g <> 0) by (intros ->; lia).
    unfold divc. destruct (N.eqb_spec g 0); [lia|]. cbn [bind].
    assert (Q : e / g = z) by (rewrite Z; apply N.div_mul; auto).
    rewrite Q.
    apply IHfuel.
    + destruct z; lia.
    + assert (2 * z <= e) by nia.
      assert (SZ : forall a b, 1 <= a -> 2 * a <= b -> (N.size_nat a < N.size_nat b)%nat).
      { clear. intros a b A L.
        assert (E : forall n, 1 <= n -> N.of_nat (N.size_nat n) = N.log2 n + 1).
        { intros n Hn. destruct n as [|q]; [lia|]. rewrite N.add_1_r, <- N.size_log2 by lia.
          cbn. clear. induction q; cbn; try rewrite Nat2N.inj_succ, IHq; auto; lia. }
        pose proof (E a A). pose proof (E b ltac:(lia)).
        pose proof (N.log2_le_mono (2 * a) b L). rewrite N.log2_double in *; lia. }
      specialize (SZ z e). destruct z; [lia|]. specialize (SZ ltac:(lia) ltac:(lia)). lia.
    + eapply N.divide_trans; [|exact D]. exists g. lia.
    + intros d Hd. pose proof (M d Hd) as X. rewrite Z in X.
      apply (N.gauss d g); [rewrite N.mul_comm; auto|].
      destruct Hd as [_ C]. apply (coprime_divisor_r _ _ _ C D2).
Qed.

Lemma exponent_range h : 1 <= h mod (p - 2) + 1 /\ h mod (p - 2) + 1 <= p - 2.
Proof. pose proof (N.mod_lt h (p - 2) ltac:(discriminate)). lia. Qed.
Lemma unit_part_range e : 1 <= e -> 1 <= unit_part e /\ unit_part e <= e /\ N.gcd (unit_part e) (p - 1) = 1.
Proof.
  intros E. destruct (unit_part_max e E) as ((A & B) & _).
  assert (unit_part e <= e) by (apply N.divide_pos_le; auto; lia).
  assert (unit_part e <> 0) by (intros X; rewrite X in A; destruct A; lia).
  repeat split; auto. lia.
Qed.
Lemma size_nat_lt n k : n < 2 ^ N.of_nat k -> (N.size_nat n <= k)%nat.
Proof.
  intros L. destruct n as [|q]; [cbn; lia|].
  assert (E : N.of_nat (N.size_nat (N.pos q)) = N.size (N.pos q)).
  { cbn. clear. induction q; cbn; try rewrite Nat2N.inj_succ, IHq; auto; lia. }
  rewrite N.size_log2 in E by lia.
  pose proof (proj1 (N.log2_lt_pow2 (N.pos q) (N.of_nat k) ltac:(lia)) L). lia.
Qed.

Lemma remap_spec fuel h : (64 <= fuel)%nat -> remap fuel h = Done (coefficient h).
Proof.
  intros F. unfold remap, coefficient.
  pose proof (exponent_range h) as [R1 R2].
  change powMod with p.
  assert (A : addw 64 (h mod (p - 2)) 1 = h mod (p - 2) + 1).
  { unfold addw. apply trunc_small. unfold p in *. lia. }
  rewrite A. set (e := h mod (p - 2) + 1) in *. clearbody e.
  change p with powMod at 1. rewrite (unit_loop fuel fuel e e); auto.
  - cbn [bind]. rewrite powerMod_spec; auto; [|reflexivity].
    pose proof (unit_part_range e R1) as (U1 & U2 & _). unfold p in *. lia.
  - assert (e < 2 ^ N.of_nat 20) by (change (2 ^ N.of_nat 20) with 1048576; unfold p in *; lia).
    pose proof (size_nat_lt e 20 H). lia.
  - apply N.divide_refl.
  - intros d [D _]. auto.
Qed.

Lemma coefficient_range h : 1 <= coefficient h /\ coefficient h < p.
Proof.
  unfold coefficient. pose proof (pow11_nonzero (unit_part (h mod (p - 2) + 1))).
  pose proof (N.mod_lt (11 ^ unit_part (h mod (p - 2) + 1)) p p_pos). lia.
Qed.
Lemma coefficient_generator h : generator (coefficient h).
Proof.
  unfold coefficient. apply generator_pow. pose proof (exponent_range h) as [R1 _].
  apply (unit_part_range _ R1).
Qed.
Lemma coefficient_eq g h : coefficient g = coefficient h ->
  unit_part (g mod (p - 2) + 1) = unit_part (h mod (p - 2) + 1).
Proof.
  intros E. apply pow11_inj; auto.
  - pose proof (exponent_range g) as [R1 R2]. pose proof (unit_part_range _ R1). lia.
  - pose proof (exponent_range h) as [R1 R2]. pose proof (unit_part_range _ R1). lia.
Qed.

(** ** computeC *)
Lemma neighbours_differ e : 1 <= e -> N.divide 5 e \/ N.divide 5 (e + 1) -> unit_part e <> unit_part (e + 1).
Proof.
  intros E D X.
  assert (G5 : N.gcd 5 (p - 1) = 1) by (vm_compute; reflexivity).
  assert (W : forall a, 1 <= a -> N.divide 5 a -> N.divide 5 (unit_part a)).
  { intros a A DA. destruct (unit_part_max a A) as ((U1 & U2) & U3).
    destruct (N.eq_dec (unit_part a mod 5) 0) as [|NZ]; [apply N.mod_divide; auto; discriminate|].
    exfalso.
    assert (C : N.gcd (unit_part a) 5 = 1).
    { assert (D5 : N.divide (N.gcd (unit_part a) 5) 5) by apply N.gcd_divide_r.
      assert (DU : N.divide (N.gcd (unit_part a) 5) (unit_part a)) by apply N.gcd_divide_l.
      set (d := N.gcd (unit_part a) 5) in *. clearbody d.
      assert (d <= 5) by (apply N.divide_pos_le; auto; lia).
      assert (d <> 5) by (intros ->; apply NZ; apply N.mod_divide; auto; discriminate).
      destruct D5 as [z Z]. assert (d = 0 \/ d = 1 \/ d = 2 \/ d = 3 \/ d = 4) by lia. lia. }
    assert (M : unit_candidate a (5 * unit_part a)).
    { split.
      - destruct U1 as [z Z]. rewrite Z in DA.
        assert (D5 : N.divide 5 z).
        { apply (N.gauss 5 (unit_part a)); [rewrite N.mul_comm; auto|rewrite N.gcd_comm; auto]. }
        destruct D5 as [y Y]. exists y. rewrite Z at 1. lia.
      - rewrite N.gcd_comm. apply coprime_mul; rewrite N.gcd_comm; auto. }
    specialize (U3 _ M). pose proof (unit_part_range a A). lia. }
  assert (B1 : N.divide 5 (unit_part e)) by (destruct D; [apply W; auto|rewrite X; apply W; auto; lia]).
  assert (B2 : N.divide 5 (unit_part (e + 1))) by (rewrite <- X; auto).
  assert (F1 : N.divide 5 e) by (eapply N.divide_trans; [exact B1|apply (unit_part_max e E)]).
  assert (F2 : N.divide 5 (e + 1)) by (eapply N.divide_trans; [exact B2|apply (unit_part_max (e + 1)); lia]).
  destruct F1, F2. lia.
Qed.

Lemma exponent_step h : h < 2 ^ 64 ->
  (h + 1) mod 2 ^ 64 mod (p - 2) + 1 = h mod (p - 2) + 1 + 1 \/
  unit_part (h mod (p - 2) + 1) <> unit_part ((h + 1) mod 2 ^ 64 mod (p - 2) + 1).
Proof.
  intros H.
  destruct (N.eq_dec h (2 ^ 64 - 1)) as [->|NE].
  - right. change ((2 ^ 64 - 1) mod (p - 2) + 1) with 963097.
    change ((2 ^ 64 - 1 + 1) mod 2 ^ 64 mod (p - 2) + 1) with 1.
    rewrite (unit_part_self 963097), (unit_part_self 1); [discriminate| | | |]; vm_compute; try reflexivity; discriminate.
  - rewrite (N.mod_small (h + 1)) by lia.
    pose proof (exponent_range h) as [R1 R2].
    rewrite <- (N.add_mod_idemp_l h 1) by discriminate.
    destruct (N.eq_dec (h mod (p - 2)) 1032190) as [X|X].
    + right. rewrite X. change ((1032190 + 1) mod (p - 2) + 1) with 1. change (1032190 + 1) with 1032191.
      rewrite (unit_part_self 1032191), (unit_part_self 1); [discriminate| | | |]; vm_compute; try reflexivity; discriminate.
    + left. change (p - 2) with 1032191 in *. rewrite (N.mod_small (h mod 1032191 + 1)); lia.
Qed.

(** Among five consecutive words two have different coefficients. *)
Lemma five_words h : h < 2 ^ 64 -> exists k, k < 4 /\ coefficient ((h + k) mod 2 ^ 64) <> coefficient ((h + (k + 1)) mod 2 ^ 64).
Proof.
  intros H. set (g := fun k => (h + k) mod 2 ^ 64).
  set (e := fun k => g k mod (p - 2) + 1).
  assert (S : forall k, e (k + 1) = e k + 1 \/ unit_part (e k) <> unit_part (e (k + 1))).
  { intros k. assert (HG : g k < 2 ^ 64) by (unfold g; apply N.mod_lt; discriminate).
    pose proof (exponent_step (g k) HG) as X.
    assert (G : g (k + 1) = (g k + 1) mod 2 ^ 64).
    { unfold g. rewrite N.add_mod_idemp_l by discriminate. f_equal. lia. }
    unfold e. rewrite G. auto. }
  assert (Q : exists k, k < 4 /\ unit_part (e k) <> unit_part (e (k + 1))).
  { assert (R0 : 1 <= e 0) by (unfold e; lia).
    destruct (S 0) as [S0|]; [|exists 0; split; [reflexivity|auto]].
    destruct (S 1) as [S1|]; [|exists 1; split; [reflexivity|auto]].
    destruct (S 2) as [S2|]; [|exists 2; split; [reflexivity|auto]].
    destruct (S 3) as [S3|]; [|exists 3; split; [reflexivity|auto]].
    change (0 + 1) with 1 in S0. change (1 + 1) with 2 in S1. change (2 + 1) with 3 in S2. change (3 + 1) with 4 in S3.
    pose proof (N.div_mod (e 0) 5 ltac:(discriminate)) as DM.
    pose proof (N.mod_lt (e 0) 5 ltac:(discriminate)) as ML.
    set (z := e 0 / 5) in *. set (r := e 0 mod 5) in *. clearbody z r.
    assert (C : r = 0 \/ r = 1 \/ r = 2 \/ r = 3 \/ r = 4) by lia.
    assert (NB : forall k, e (k + 1) = e k + 1 -> 1 <= e k -> N.divide 5 (e k) \/ N.divide 5 (e (k + 1)) ->
      unit_part (e k) <> unit_part (e (k + 1))).
    { intros k Ek Rk D. rewrite Ek. apply neighbours_differ; auto. rewrite <- Ek. auto. }
    destruct C as [C|[C|[C|[C|C]]]].
    - exists 0. split; [reflexivity|]. apply (NB 0); auto. left. exists z. lia.
    - exists 3. split; [reflexivity|]. apply (NB 3); auto; [lia|]. right. exists (z + 1). change (3 + 1) with 4. lia.
    - exists 2. split; [reflexivity|]. apply (NB 2); auto; [lia|]. right. exists (z + 1). change (2 + 1) with 3. lia.
    - exists 1. split; [reflexivity|]. apply (NB 1); auto; [lia|]. right. exists (z + 1). change (1 + 1) with 2. lia.
    - exists 0. split; [reflexivity|]. apply (NB 0); auto. right. exists (z + 1). change (0 + 1) with 1. lia. }
  destruct Q as (k & K & Q). exists k. split; auto. intros X. apply Q. apply coefficient_eq. exact X.
Qed.

Definition degenerate_b (a b c : N) : bool := (b * b) mod p =? (4 * a * c) mod p.
Lemma degenerate_unique a b c c' : 1 <= a -> a < p -> c < p -> c' < p ->
  degenerate a b c -> degenerate a b c' -> c = c'.
Proof.
  unfold degenerate. intros A1 A2 C C' D D'. rewrite D in D'.
  apply cancel_p in D'.
  - rewrite !N.mod_small in D'; auto.
  - intros X. assert (F : a mod p = 0 mod p).
    { apply (cancel_p 4); [discriminate|]. rewrite X, N.mul_0_r. reflexivity. }
    rewrite !N.mod_small in F; [subst a; apply A1; reflexivity|reflexivity|auto].
Qed.

(** The search, from the [k]-th word on, when the first [j] are the only ones that fail. *)
Lemma computeC_loop fuel0 a b h k : (64 <= fuel0)%nat -> a < p -> b < p -> h < 2 ^ 64 ->
  ~ degenerate a b (coefficient ((h + N.of_nat k) mod 2 ^ 64)) ->
  (forall j, (j < k)%nat -> degenerate a b (coefficient ((h + N.of_nat j) mod 2 ^ 64))) ->
  forall i fuel, (i <= k)%nat -> (k - i < fuel)%nat ->
  loop_fuel fuel (fun h =>
    c <- remap fuel0 h ;;
    if negb (mulw 64 b b mod powMod =? mulw 64 (mulw 64 4 a) c mod powMod)
    then Done (Break c)
    else Done (Continue (addw 64 h 1))) ((h + N.of_nat i) mod 2 ^ 64) = Done (coefficient ((h + N.of_nat k) mod 2 ^ 64)).
Proof.
  intros F A B H ND D i fuel. revert i; induction fuel; intros i I Hf; [lia|].
  cbn [loop_fuel]. rewrite remap_spec by auto. cbn [bind].
  set (c := coefficient ((h + N.of_nat i) mod 2 ^ 64)).
  assert (C : c < p) by apply coefficient_range.
  assert (M : (mulw 64 b b mod powMod =? mulw 64 (mulw 64 4 a) c mod powMod) = degenerate_b a b c).
  { change powMod with p. unfold degenerate_b, mulw.
    assert (T : forall x, x < 2 ^ 64 -> trunc 64 x = x) by (intros; apply trunc_small; auto).
    rewrite (T (4 * a)), !T; auto; unfold p in *; nia. }
  rewrite M. unfold degenerate_b. destruct (N.eqb_spec ((b * b) mod p) ((4 * a * c) mod p)) as [X|X]; cbn [negb bind].
  - assert (i <> k) by (intros ->; apply ND; exact X).
    replace (addw 64 ((h + N.of_nat i) mod 2 ^ 64) 1) with ((h + N.of_nat (S i)) mod 2 ^ 64).
    + apply IHfuel; clear - H0 I Hf; lia.
    + unfold addw. rewrite trunc_mod. rewrite N.add_mod_idemp_l by discriminate. f_equal. lia.
  - f_equal. unfold c. destruct (Nat.eq_dec i k) as [->|]; auto. exfalso. apply X. apply D. lia.
Qed.

Lemma degenerate_dec a b c : {degenerate a b c} + {~ degenerate a b c}.
Proof. unfold degenerate. apply N.eq_dec. Qed.

Lemma least_nondegenerate a b h : 1 <= a -> a < p -> h < 2 ^ 64 ->
  exists k, (k <= 4)%nat /\ ~ degenerate a b (coefficient ((h + N.of_nat k) mod 2 ^ 64)) /\
    forall j, (j < k)%nat -> degenerate a b (coefficient ((h + N.of_nat j) mod 2 ^ 64)).
Proof.
  intros A1 A2 H.
  set (P := fun k => degenerate a b (coefficient ((h + N.of_nat k) mod 2 ^ 64))).
  assert (L : forall n, (exists k, (k < n)%nat /\ ~ P k /\ forall j, (j < k)%nat -> P j) \/ forall j, (j < n)%nat -> P j).
  { induction n as [|n [(k & K1 & K2)|N]].
    - right. lia.
    - left. exists k. split; auto.
    - destruct (degenerate_dec a b (coefficient ((h + N.of_nat n) mod 2 ^ 64))) as [D|D].
      + right. intros j Hj. destruct (Nat.eq_dec j n) as [->|]; auto. apply N. lia.
      + left. exists n. split; auto. }
  destruct (L 5%nat) as [(k & K1 & K2)|AllD]; [exists k; split; auto; lia|exfalso].
  destruct (five_words h H) as (k & K & NE). apply NE.
  pose proof (AllD (N.to_nat k) ltac:(lia)) as D1. pose proof (AllD (N.to_nat (k + 1)) ltac:(lia)) as D2.
  unfold P in D1, D2. rewrite N2Nat.id in D1, D2.
  apply (degenerate_unique a b); auto; apply coefficient_range.
Qed.

Lemma computeC_spec fuel a b h : (64 <= fuel)%nat -> 1 <= a -> a < p -> b < p -> h < 2 ^ 64 ->
  exists k, k <= 4 /\ computeC fuel a b h = Done (coefficient ((h + k) mod 2 ^ 64)) /\
    ~ degenerate a b (coefficient ((h + k) mod 2 ^ 64)) /\
    forall j, j < k -> degenerate a b (coefficient ((h + j) mod 2 ^ 64)).
Proof.
  intros F A1 A2 B H. destruct (least_nondegenerate a b h A1 A2 H) as (k & K & ND & D).
  exists (N.of_nat k). split; [lia|]. split; [|split; auto].
  - pose proof (computeC_loop fuel a b h k F A2 B H ND D 0 fuel ltac:(lia) ltac:(lia)) as X.
    change (N.of_nat 0) with 0 in X. rewrite N.add_0_r, (N.mod_small h) in X by auto. exact X.
  - intros j Hj. specialize (D (N.to_nat j) ltac:(lia)). rewrite N2Nat.id in D. auto.
Qed.
