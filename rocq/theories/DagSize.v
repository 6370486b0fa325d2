(** Proofs about epochs, seeds, sizes and the table generator. *)
From Coq Require Import NArith ZArith List Bool Lia ZifyBool ZifyN ZifyNat Znumtheory.
From Verif Require Import Base BaseFacts CryptoModel DagModel DagSpec Trial.
Import ListNotations.
Open Scope N_scope.

(** ** C08 *)

Lemma CalcEpoch_spec d h e :
  0 < cf_epoch_length d ->
  (CalcEpoch d h = Done e <-> e * cf_epoch_length d <= h /\ h < (e + 1) * cf_epoch_length d).
Proof.
  intros H. unfold CalcEpoch, divc.
  destruct (N.eqb_spec (cf_epoch_length d) 0); [lia|].
  remember (cf_epoch_length d) as L. split.
  - intros E. injection E as <-. pose proof (N.div_mod h L ltac:(lia)).
    pose proof (N.mod_lt h L ltac:(lia)). nia.
  - intros [H1 H2]. f_equal. symmetry. apply (N.div_unique h L e (h - e * L)); lia.
Qed.

Lemma CalcEpoch_mono d h h' e e' :
  CalcEpoch d h = Done e -> CalcEpoch d h' = Done e' -> h <= h' -> e <= e'.
Proof.
  unfold CalcEpoch, divc. destruct (N.eqb_spec (cf_epoch_length d) 0); [discriminate|].
  intros [= <-] [= <-] H. apply N.div_le_mono; auto.
Qed.

Lemma CalcEpoch_step d h e e' :
  CalcEpoch d h = Done e -> CalcEpoch d (h + 1) = Done e' -> e' = e \/ e' = e + 1.
Proof.
  intros A B. destruct (N.eq_dec (cf_epoch_length d) 0) as [Z|Z].
  - unfold CalcEpoch, divc in A. rewrite Z in A. discriminate.
  - apply CalcEpoch_spec in A; [|lia]. apply CalcEpoch_spec in B; [|lia]. nia.
Qed.

(** ** C09 *)

Lemma hash_into_whole H k buf data :
  hash_ok k H -> length buf = k -> hash_into H (N.of_nat k) buf 0 data = Done (H data).
Proof.
  intros HH HL. destruct (HH data) as [L _].
  unfold hash_into, slice_from. rewrite slice_Done by lia. cbn [bind].
  change (N.to_nat 0) with 0%nat. cbn [skipn].
  assert (E : lenN (firstn (N.to_nat (lenN buf - 0)) buf) = N.of_nat k).
  { unfold lenN. rewrite firstn_length. lia. }
  rewrite E. rewrite N.leb_refl. unfold copy_at.
  destruct (N.leb_spec 0 (lenN buf)); [|lia]. f_equal. unfold overwrite.
  change (N.to_nat 0) with 0%nat. cbn [firstn app Nat.add]. rewrite Nat.sub_0_r.
  rewrite HL, firstn_all2 by lia. rewrite skipn_all2 by lia. apply app_nil_r.
Qed.

Lemma seed_chain_length H n : hash_ok 32 H -> length (seed_chain H n) = 32%nat.
Proof. intros HH. destruct n; cbn; auto. apply HH. Qed.

Lemma SeedHash_spec keccak256 d height :
  hash_ok 32 keccak256 -> 0 < cf_seed_epoch_length d ->
  height / cf_seed_epoch_length d < 2 ^ 63 ->
  SeedHash keccak256 d height =
  Done (seed_chain keccak256 (N.to_nat (height / cf_seed_epoch_length d))).
Proof.
  intros HH HL HB. unfold SeedHash.
  destruct (N.ltb_spec height (cf_seed_epoch_length d)).
  - rewrite N.div_small by auto. reflexivity.
  - unfold divc. destruct (N.eqb_spec (cf_seed_epoch_length d) 0); [lia|]. cbn [bind].
    unfold int_bound. destruct (N.ltb_spec (height / cf_seed_epoch_length d) (2 ^ 63)); [|lia].
    remember (height / cf_seed_epoch_length d) as k.
    match goal with |- for_n _ ?b _ = _ =>
      destruct (for_n_inv (fun i s => s = seed_chain keccak256 (N.to_nat i)) k b (zeros 32))
        as (s' & E & Hs) end.
    + reflexivity.
    + intros j t Hj ->. eexists. split.
      * apply (hash_into_whole keccak256 32); auto. apply seed_chain_length; auto.
      * rewrite N2Nat.inj_add. change (N.to_nat 1) with 1%nat. rewrite Nat.add_1_r. reflexivity.
    + rewrite E, Hs. auto.
Qed.

(** ** C11 *)

Lemma size_loop_spec pp unit :
  primality_test pp -> 0 < unit ->
  forall fuel q, N.odd q = true -> 3 <= q -> q * unit < 2 ^ 64 -> (N.to_nat q <= fuel)%nat ->
  exists p, size_loop pp unit fuel (q * unit) = Done (p * unit) /\
    p <= q /\ N.odd p = true /\ 3 <= p /\ prime (Z.of_N p) /\
    forall r, p < r -> r <= q -> N.odd r = true -> ~ prime (Z.of_N r).
Proof.
  intros PP HU. induction fuel; intros q O Q W F; [lia|].
  unfold size_loop. cbn [loop_fuel]. unfold divc at 1.
  destruct (N.eqb_spec unit 0); [lia|]. cbn [bind].
  rewrite N.div_mul by lia.
  assert (q < 2 ^ 64) by nia.
  destruct (pp q) eqn:E.
  - exists q. cbn [bind]. apply PP in E; auto.
    split; [auto|]. split; [lia|]. split; [auto|]. split; [auto|]. split; [auto|].
    intros; lia.
  - cbn [bind].
    assert (Q3 : q <> 3).
    { intros ->. assert (pp 3 = true); [|congruence]. apply PP; auto. apply prime_3. }
    assert (Q5 : 5 <= q).
    { destruct (N.eq_dec q 4); [subst; discriminate|]. lia. }
    assert (ES : subw 64 (q * unit) (mulw 64 2 unit) = (q - 2) * unit).
    { unfold subw, mulw. rewrite (trunc_small 64 (2 * unit)) by nia.
      rewrite trunc_mod. replace (q * unit + 2 ^ 64 - 2 * unit) with ((q - 2) * unit + 1 * 2 ^ 64) by nia.
      rewrite N.mod_add by apply pow2_nz. apply N.mod_small. nia. }
    rewrite ES.
    destruct (IHfuel (q - 2)) as (p & E1 & E2 & E3 & E4 & E5 & E6).
    + rewrite N.odd_sub by lia. rewrite O. reflexivity.
    + lia.
    + nia.
    + lia.
    + exists p. split; [exact E1|]. split; [lia|]. split; [auto|]. split; [auto|]. split; [auto|].
      intros r R1 R2 R3. destruct (N.eq_dec r q).
      * subst r. intro P. apply PP in P; auto. congruence.
      * apply E6; auto. destruct (N.eq_dec r (q - 1)); [|lia].
        subst r. rewrite N.odd_sub, O in R3 by lia. discriminate.
Qed.

(** The numbers of units allowed by [candidate] for an even nominal count. *)
Lemma candidate_units m unit s :
  0 < unit -> candidate (2 * m * unit) unit s ->
  exists r, s = r * unit /\ N.odd r = true /\ r <= 2 * m - 1.
Proof.
  intros HU [k E]. exists (2 * m - (2 * k + 1)).
  assert (2 * k + 1 <= 2 * m) by nia.
  split; [nia|]. split; [|lia].
  rewrite N.odd_sub by lia. rewrite N.odd_mul. cbn [N.odd andb xorb].
  rewrite N.add_comm, N.odd_add_mul_2. reflexivity.
Qed.

Lemma units_candidate m unit r :
  N.odd r = true -> r <= 2 * m - 1 -> 0 < m -> candidate (2 * m * unit) unit (r * unit).
Proof.
  intros O R M. apply N.odd_spec in O. destruct O as [j ->].
  exists (m - 1 - j). nia.
Qed.

Lemma prime_size_units m unit p :
  0 < unit -> 0 < m -> N.odd p = true -> p <= 2 * m - 1 -> prime (Z.of_N p) ->
  (forall r, p < r -> r <= 2 * m - 1 -> N.odd r = true -> ~ prime (Z.of_N r)) ->
  prime_size (2 * m * unit) unit (p * unit).
Proof.
  intros HU HM O P PR M. split; [apply units_candidate; auto|]. split; [exists p; auto|].
  split; [rewrite N.div_mul by lia; auto|].
  intros s' C L. destruct (candidate_units m unit s' HU C) as (r & -> & R1 & R2).
  rewrite N.div_mul by lia. apply M; auto. nia.
Qed.

Lemma prime_size_unique nominal unit s s' :
  prime_size nominal unit s -> prime_size nominal unit s' -> s = s'.
Proof.
  intros (A1 & A2 & A3 & A4) (B1 & B2 & B3 & B4).
  destruct (N.lt_trichotomy s s') as [L|[L|L]]; auto; exfalso.
  - exact (A4 s' B1 L B3).
  - exact (B4 s A1 L A3).
Qed.

Lemma calc_size_spec pp fuel unit init growth epoch a b :
  primality_test pp -> 0 < unit -> init = 2 * a * unit -> growth = 2 * b * unit ->
  4 * unit <= init + growth * epoch -> init + growth * epoch < 2 ^ 64 ->
  (N.to_nat ((init + growth * epoch) / unit) <= fuel)%nat ->
  exists s, size_loop pp unit fuel (subw 64 (addw 64 init (mulw 64 growth epoch)) unit) = Done s /\
    prime_size (init + growth * epoch) unit s.
Proof.
  intros PP HU -> -> L B F.
  set (m := a + b * epoch).
  assert (E : 2 * a * unit + 2 * b * unit * epoch = 2 * m * unit) by (unfold m; lia).
  rewrite E in *. clearbody m.
  assert (M : 2 <= m) by nia.
  assert (ES : subw 64 (addw 64 (2 * a * unit) (mulw 64 (2 * b * unit) epoch)) unit = (2 * m - 1) * unit).
  { unfold addw, mulw. rewrite trunc_add_r, E, trunc_small by auto.
    unfold subw. rewrite trunc_mod.
    replace (2 * m * unit + 2 ^ 64 - unit) with ((2 * m - 1) * unit + 1 * 2 ^ 64) by nia.
    rewrite N.mod_add by apply pow2_nz. apply N.mod_small. nia. }
  rewrite ES. rewrite N.div_mul in F by lia.
  destruct (size_loop_spec pp unit PP HU fuel (2 * m - 1)) as (p & E1 & E2 & E3 & E4 & E5 & E6).
  - rewrite N.odd_sub by lia. rewrite N.odd_mul. reflexivity.
  - lia.
  - nia.
  - lia.
  - exists (p * unit). split; auto. apply prime_size_units; auto; lia.
Qed.

(** ** C10: from a checked table to sizes *)

Lemma table_prime_size unit B0 G limit t certs a b :
  0 < unit -> 0 < G -> limit + 2 <= B0 -> B0 + G * lenN t < 12300 * 12300 ->
  B0 + 1 = 2 * a -> G = 2 * b -> check_table unit B0 G limit t certs = true ->
  forall e, e < lenN t ->
  prime_size (2 * a * unit + 2 * b * unit * e) unit (nth (N.to_nat e) t 0).
Proof.
  intros HU HG HL HB EB EG H e He.
  destruct (check_table_sound unit B0 G limit t certs HG HL HB H e He) as (r & k & R1 & R2 & R3 & R4).
  rewrite R1.
  replace (2 * a * unit + 2 * b * unit * e) with (2 * (a + b * e) * unit) by ring.
  assert (EE : B0 + G * e + 1 = 2 * (a + b * e)).
  { rewrite EG. replace (2 * (a + b * e)) with (2 * a + 2 * b * e) by ring. lia. }
  clear EG EB HB. remember (B0 + G * e) as Be. remember (a + b * e) as m.
  assert (Hr : r = 2 * (m - 1 - k) + 1) by lia.
  assert (O : N.odd r = true).
  { rewrite Hr, N.add_comm, N.odd_add_mul_2. reflexivity. }
  apply prime_size_units; auto; try lia.
  intros x X1 X2 X3. apply N.odd_spec in X3. destruct X3 as [j ->].
  replace (2 * j + 1) with (Be - 2 * (m - 1 - j)) by lia.
  apply R4. lia.
Qed.
