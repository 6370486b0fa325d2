(** C32-C35: Octopus. *)
From Coq Require Import NArith ZArith Arith List Lia Bool ZifyBool ZifyNat ZifyN Znumtheory.
From Verif Require Import Base BaseFacts CryptoModel CryptoSpec CryptoProofs DagSpec DagContent PropsDagContent
  OctopusModel OctopusSpec OctopusMath OctopusProofs.
Import ListNotations.
Open Scope N_scope.

(** C32.  For every header word the derivation of a coefficient terminates (64 iterations are
    enough for each of its loops, whatever the bound), gives 11 to the largest divisor coprime to
    p - 1, lies in 1 .. p - 1 and generates the whole group modulo the prime p. *)
Theorem C32_coefficients fuel h :
  (64 <= fuel)%nat ->
  exists g, remap fuel h = Done g /\ g = coefficient h /\ 1 <= g /\ g < p /\
    (forall y, 1 <= y -> y < p -> exists k, g ^ k mod p = y).
Proof.
  intros F. exists (coefficient h). split; [apply remap_spec; auto|]. split; auto.
  split; [apply coefficient_range|]. split; [apply coefficient_range|]. apply coefficient_generator.
Qed.
Print Assumptions C32_coefficients.

Theorem C32_modulus_prime : prime (Z.of_N p).
Proof. exact p_prime. Qed.
Print Assumptions C32_modulus_prime.

(** The helpers of the derivation compute modular powers and greatest common divisors. *)
Theorem C32_power_and_gcd fuel a n k x y :
  (64 <= fuel)%nat -> n < 2 ^ 63 -> a < p -> y < 2 ^ N.of_nat k -> (2 * k < fuel)%nat ->
  powerMod fuel a n = Done (a ^ n mod p) /\ gcd fuel x y = Done (N.gcd x y).
Proof. intros. split; [apply powerMod_spec; auto|apply (gcd_spec fuel k); auto]. Qed.
Print Assumptions C32_power_and_gcd.

(** 42 = 2 * 3 * 7 has no part coprime to p - 1 = 2^14 * 3^2 * 7; 210 keeps its factor 5. *)
Example C32_instance :
  remap 64 41 = Done 11 /\ remap 64 209 = Done (11 ^ 5) /\
  remap 64 (2 ^ 64 - 1) = powerMod 64 11 963097 /\ unit_part 963097 = 963097.
Proof.
  split; [vm_compute; reflexivity|]. split; [vm_compute; reflexivity|]. split; [vm_compute; reflexivity|].
  apply unit_part_self; [discriminate|vm_compute; reflexivity].
Qed.

(** C33.  The search for the third coefficient stops after at most four retries, at the first
    word from [h] on (modulo 2^64) whose coefficient does not make the quadratic degenerate. *)
Theorem C33_search fuel a b h :
  (64 <= fuel)%nat -> 1 <= a -> a < p -> b < p -> h < 2 ^ 64 ->
  exists k, k <= 4 /\ computeC fuel a b h = Done (coefficient ((h + k) mod 2 ^ 64)) /\
    (b * b) mod p <> (4 * a * coefficient ((h + k) mod 2 ^ 64)) mod p /\
    forall j, j < k -> (b * b) mod p = (4 * a * coefficient ((h + j) mod 2 ^ 64)) mod p.
Proof. intros. apply computeC_spec; auto. Qed.
Print Assumptions C33_search.

(** A case that needs a retry: a = 11, b = 11^5, and the word 247720 gives the one bad c. *)
Example C33_instance :
  remap 64 247720 = Done 362768 /\ (161051 * 161051) mod p = (4 * 11 * 362768) mod p /\
  remap 64 247721 = computeC 64 11 161051 247720 /\ computeC 64 11 161051 247720 <> Done 362768.
Proof. vm_compute. repeat split; discriminate. Qed.

(** C34.  The stages before the dataset accesses: the coefficients come from SipHash, and each
    of the 32 results is the exact value of the polynomial, on unbounded integers, at
    a w^2m + b w^m + c with m = nonce mod 32 + 32 i; the results are combined with FNV-1. *)
Theorem C34_evaluation a b c w v0 v1 v2 v3 nonce :
  a < p -> b < p -> c < p -> w < p -> nonce < 2 ^ 64 ->
  v0 < 2 ^ 64 -> v1 < 2 ^ 64 -> v2 < 2 ^ 64 -> v3 < 2 ^ 64 ->
  (d <- coefficients v0 v1 v2 v3 nonce ;;
   ' ps <- startPowers w nonce ;;
   let '(wpow, w2pow, wpowFull, w2powFull) := ps in
   evaluate a b c d wpow w2pow wpowFull w2powFull) =
  let values := tab 32 (fun i => poly_value (sip_coefficient (v0, v1, v2, v3) nonce) (eval_point a b c w nonce i)) in
  Done (values, fold_left fnv64 values 0).
Proof.
  intros A B C W Hn H0 H1 H2 H3.
  rewrite coefficients_spec by (cbv [sip_valid]; auto). cbn [bind].
  rewrite startPowers_spec by auto. cbn [bind].
  pose proof (evaluate_spec a b c w nonce (sip_coefficient (v0, v1, v2, v3) nonce) A B C W
    (sip_coefficient_lt (v0, v1, v2, v3) nonce)) as E. cbv zeta in E. exact E.
Qed.
Print Assumptions C34_evaluation.

(** The polynomial value of the specification on a small polynomial: 3 + 2x + x^2 at 5 and at p. *)
Example C34_instance :
  poly_value (fun k => if k =? 0 then 3 else if k =? 1 then 2 else if k =? 2 then 1 else 0) 5 = 38 /\
  eval_point 11 161051 1331 11 33 0 = (11 * 121 + 161051 * 11 + 1331) mod p.
Proof.
  split; [|vm_compute; reflexivity].
  unfold poly_value.
  assert (Z : forall n s, (2 < s)%nat -> sum (map (fun k => (if N.of_nat k =? 0 then 3 else if N.of_nat k =? 1 then 2
     else if N.of_nat k =? 2 then 1 else 0) * 5 ^ N.of_nat k) (seq s n)) = 0).
  { induction n; intros s Hs; cbn [seq map sum fold_right]; auto.
    unfold sum in IHn. rewrite IHn by lia.
    destruct (N.eqb_spec (N.of_nat s) 0); [lia|]. destruct (N.eqb_spec (N.of_nat s) 1); [lia|].
    destruct (N.eqb_spec (N.of_nat s) 2); [lia|]. lia. }
  assert (N3 : exists n, N.to_nat 1024 = (3 + n)%nat) by (exists 1021%nat; lia).
  destruct N3 as (n & N3). rewrite N3. clear N3.
  cbn [seq Nat.add map]. unfold sum in *. cbn [fold_right]. rewrite Z by lia. reflexivity.
Qed.

(** C35.  The digest of a 32-byte hash.  [lookup] only has to answer for the items of the whole
    pages of the dataset.  The constant coefficient is the one of C33. *)
Theorem C35_digest fuel H512 H256 hash nonce size lookup item :
  hash_ok 64 H512 ->
  (64 <= fuel)%nat -> length hash = 32%nat -> bytes hash -> nonce < 2 ^ 64 -> 256 <= size -> size <= 2 ^ 38 ->
  (forall i, i < 4 * (size / 256) -> lookup i = Done (item i) /\ length (item i) = 16%nat /\ words 32 (item i)) ->
  exists k, k <= 4 /\
    let a := coefficient (word64 hash 0) in
    let b := coefficient (word64 hash 1) in
    let c j := coefficient ((word64 hash 2 + j) mod 2 ^ 64) in
    (forall j, j < k -> degenerate a b (c j)) /\ ~ degenerate a b (c k) /\
    octopus fuel H512 H256 hash nonce size lookup =
    Done (octopus_spec H512 H256 hash (c k) nonce (size / 256) item).
Proof. intros HH. intros. apply octopus_refines; auto. Qed.
Print Assumptions C35_digest.

(** A dataset smaller than one page makes it divide by zero. *)
Theorem C35_empty_dataset_panics fuel H512 H256 hash nonce size lookup :
  hash_ok 64 H512 ->
  (64 <= fuel)%nat -> length hash = 32%nat -> bytes hash -> nonce < 2 ^ 64 -> size < 256 ->
  octopus fuel H512 H256 hash nonce size lookup = Panic.
Proof. intros. apply octopus_no_pages; auto. Qed.
Print Assumptions C35_empty_dataset_panics.

(** Three pages of a toy dataset. *)
Definition octo_item (i : N) : list N := tab 16 (fun j => (i * 1640531527 + j * 40503 + 7) mod 2 ^ 32).
Definition octo_lookup (i : N) : outcome (list N) := if i <? 12 then Done (octo_item i) else Panic.
Example C35_instance :
  exists c, octopus 64 toy_hash toy_hash (repeat 17 32) 123456789 800 octo_lookup =
    Done (octopus_spec toy_hash toy_hash (repeat 17 32) c 123456789 3 octo_item).
Proof.
  destruct (C35_digest 64 toy_hash toy_hash (repeat 17 32) 123456789 800 octo_lookup octo_item)
    as (k & _ & _ & _ & E); eauto.
  - exact toy_hash_ok.
  - apply Forall_forall. intros x Hx. apply repeat_spec in Hx. subst. reflexivity.
  - lia.
  - lia.
  - lia.
  - intros i Hi. change (4 * (800 / 256)) with 12 in Hi. unfold octo_lookup.
    destruct (N.ltb_spec i 12); [|lia]. split; [reflexivity|]. split; [reflexivity|].
    apply words_tab. intros. apply N.mod_lt. lia.
Qed.
