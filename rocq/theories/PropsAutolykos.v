(** C52-C54: Autolykos v2. *)
From Coq Require Import NArith ZArith Arith List Lia Bool ZifyBool ZifyNat ZifyN.
From Verif Require Import Base BaseFacts CryptoModel CryptoProofs DagSpec PropsDagContent AutoModel AutoSpec AutoProofs.
Import ListNotations.
Open Scope N_scope.
Ltac Zify.zify_post_hook ::= Z.div_mod_to_equations.

(** ** C52 *)

(** The size computed for the Ergo base is the one of the schedule, computed without 32-bit
    wraparound; it never decreases; it is the base before height 614400 and 2143944600 from height
    4198400 on. *)
Theorem C52_table_size height :
  calcN (snd newErgo) height = Done (table_size (2 ^ 26) height) /\
  2 ^ 26 <= table_size (2 ^ 26) height /\ table_size (2 ^ 26) height <= 2143944600 /\
  (height < 614400 -> table_size (2 ^ 26) height = 2 ^ 26) /\
  (4198400 <= height -> table_size (2 ^ 26) height = 2143944600) /\
  (forall height', height <= height' -> table_size (2 ^ 26) height <= table_size (2 ^ 26) height').
Proof.
  split; [change (snd newErgo) with (2 ^ 26); apply ergo_calcN|]. split; [apply ergo_bound|]. split; [apply ergo_bound|].
  split; [|split].
  - intros L. unfold table_size, periods. destruct (N.ltb_spec height 614400); [reflexivity|lia].
  - intros L. unfold table_size. rewrite periods_final, ergo_final by lia. reflexivity.
  - intros h' L. apply iter_grow_mono; [lia|]. apply periods_mono; auto.
Qed.
Print Assumptions C52_table_size.
(** One step of the schedule: within a period the computed size is constant, at its end it grows. *)
Theorem C52_growth height :
  614400 <= height -> height + 51200 <= 4198400 ->
  exists n, calcN (snd newErgo) height = Done n /\
    calcN (snd newErgo) (height + 51200) = Done (n / 100 * 105) /\
    (forall d, height mod 51200 + d < 51200 -> calcN (snd newErgo) (height + d) = Done n).
Proof.
  intros A B. exists (table_size (2 ^ 26) height). change (snd newErgo) with (2 ^ 26).
  split; [apply ergo_calcN|]. rewrite ergo_calcN. split.
  - f_equal. unfold table_size. replace (periods (height + 51200)) with (N.succ (periods height)).
    + rewrite N.iter_succ. auto.
    + unfold periods. destruct (N.ltb_spec height 614400), (N.ltb_spec (height + 51200) 614400); lia.
  - intros d D. rewrite ergo_calcN. unfold table_size. do 2 f_equal. unfold periods.
    destruct (N.ltb_spec height 614400), (N.ltb_spec (height + d) 614400); lia.
Qed.
Print Assumptions C52_growth.
(** Just below height 614400 the size has its base value, there it takes the first step. *)
Theorem C52_first_step height :
  (height < 614400 -> calcN (snd newErgo) height = Done (2 ^ 26)) /\
  (614400 <= height < 665600 -> calcN (snd newErgo) height = Done (2 ^ 26 / 100 * 105)).
Proof.
  change (snd newErgo) with (2 ^ 26). rewrite ergo_calcN. unfold table_size. split; intros L.
  - replace (periods height) with 0; [reflexivity|].
    unfold periods. destruct (N.ltb_spec height 614400); lia.
  - replace (periods height) with 1; [reflexivity|].
    unfold periods. destruct (N.ltb_spec height 614400); lia.
Qed.
Print Assumptions C52_first_step.
Example C52_instance :
  calcN (2 ^ 26) 614399 = Done 67108864 /\ calcN (2 ^ 26) 614400 = Done 70464240 /\
  calcN (2 ^ 26) 1051200 = Done 104107290 /\ calcN (2 ^ 26) 4198400 = Done 2143944600 /\
  calcN (2 ^ 26) (2 ^ 64 - 1) = Done 2143944600.
Proof. repeat split; vm_compute; reflexivity. Qed.

(** ** C53 *)

(** Compute of the Ergo client returns, for every 32-byte message, height and nonce and every 32-byte
    hash function, the hash of the shortest big-endian encoding of the sum of the 32 indexed
    elements; all indices are below the table size. *)
Theorem C53_digest H msg height nonce :
  hash_ok 32 H -> length msg = 32%nat ->
  let size := table_size (2 ^ 26) height in
  let sum := auto_sum H 32 msg nonce height size in
  (exists b, Compute H newErgo msg height nonce = Done (Some (H b)) /\
    bytes b /\ be_value b = sum /\ hd 1 b <> 0) /\
  sum <= 32 * 2 ^ 248 /\
  (forall i, In i (auto_indexes H 32 msg nonce height size) -> i < size).
Proof.
  intros HH LM size sum.
  pose proof (ergo_bound height) as B. fold size in B.
  assert (E : Compute H newErgo msg height nonce = Done (Some (H (big_bytes sum)))).
  { unfold Compute, lenN. rewrite LM. change (N.of_nat 32 =? 32) with true. cbn [negb].
    change (fst newErgo) with 32. change (snd newErgo) with (2 ^ 26).
    rewrite (compute_spec H HH 32 (2 ^ 26) msg nonce height size); try lia; [reflexivity|apply ergo_calcN]. }
  split; [|split].
  - exists (big_bytes sum). split; [exact E|]. apply big_bytes_spec.
  - apply auto_sum_lt. auto.
  - intros i Hi. unfold auto_indexes in Hi. apply In_tab in Hi. destruct Hi as (j & _ & ->).
    apply N.mod_lt. lia.
Qed.
Print Assumptions C53_digest.

(** It is the digest of the published definition whenever the sum has 32 bytes. *)
Theorem C53_standard_digest H msg height nonce :
  hash_ok 32 H -> length msg = 32%nat ->
  let size := table_size (2 ^ 26) height in
  2 ^ 248 <= auto_sum H 32 msg nonce height size ->
  Compute H newErgo msg height nonce = Done (Some (auto_spec H 32 msg nonce height size)).
Proof.
  intros HH LM size L. pose proof (ergo_bound height) as B. fold size in B.
  unfold Compute, lenN. rewrite LM. change (N.of_nat 32 =? 32) with true. cbn [negb].
  change (fst newErgo) with 32. change (snd newErgo) with (2 ^ 26).
  rewrite (compute_spec H HH 32 (2 ^ 26) msg nonce height size); try lia; [|apply ergo_calcN].
  cbn [bind]. unfold auto_spec. rewrite big_bytes_32; auto.
  eapply N.le_lt_trans; [apply auto_sum_lt; auto|]. reflexivity.
Qed.
Print Assumptions C53_standard_digest.

(** A smaller sum is hashed as fewer than 32 bytes, so that the digest is that of another string. *)
Theorem C53_short_sum H msg height nonce :
  hash_ok 32 H -> length msg = 32%nat ->
  let sum := auto_sum H 32 msg nonce height (table_size (2 ^ 26) height) in
  sum < 2 ^ 248 ->
  exists b, Compute H newErgo msg height nonce = Done (Some (H b)) /\ (length b < 32)%nat.
Proof.
  intros HH LM sum L.
  destruct (C53_digest H msg height nonce HH LM) as ((b & E & BB & V & Z) & _).
  exists b. split; auto. fold sum in V. destruct (le_lt_dec 32 (length b)) as [C|C]; auto. exfalso.
  destruct b as [|x t]; [cbn in C; lia|]. cbn [hd] in Z. rewrite be_value_cons in V.
  assert (31 <= lenN t) by (unfold lenN; cbn [length] in C; lia).
  assert (256 ^ 31 <= 256 ^ lenN t) by (apply N.pow_le_mono_r; lia).
  assert (1 * 256 ^ lenN t <= x * 256 ^ lenN t) by (apply N.mul_le_mono_r; lia).
  change (256 ^ 31) with (2 ^ 248) in *. lia.
Qed.
Print Assumptions C53_short_sum.
Definition short_hash (b : list N) : list N := if (length b =? 32)%nat then repeat 1 32 else repeat 0 32.
Lemma short_hash_ok : hash_ok 32 short_hash.
Proof.
  intros b. unfold short_hash. destruct (length b =? 32)%nat; (split; [reflexivity|]);
    apply Forall_forall; intros x Hx; apply repeat_spec in Hx; subst; reflexivity.
Qed.
Lemma short_sum k msg nonce height size : auto_sum short_hash k msg nonce height size = 0.
Proof.
  unfold auto_sum. induction (auto_indexes short_hash k msg nonce height size) as [|i l IH]; [reflexivity|].
  cbn [map fold_right]. rewrite IH. unfold element, short_hash.
  rewrite !app_length, !big_endian_length, pad_M_length.
  change (4 + (4 + 8 * 1024) =? 32)%nat with false. reflexivity.
Qed.
Theorem C53_padding_refuted :
  ~ (forall H msg height nonce, hash_ok 32 H -> length msg = 32%nat ->
      Compute H newErgo msg height nonce =
      Done (Some (auto_spec H 32 msg nonce height (table_size (2 ^ 26) height)))).
Proof.
  intros C. specialize (C short_hash (repeat 5 32) 7 9 short_hash_ok eq_refl).
  destruct (C53_digest short_hash (repeat 5 32) 7 9 short_hash_ok eq_refl) as ((b & E & _ & V & Z) & _).
  rewrite short_sum in V. unfold auto_spec in C. rewrite short_sum in C. rewrite C in E.
  destruct b as [|x t].
  - discriminate E.
  - cbn [hd] in Z. rewrite be_value_cons in V. pose proof (N.pow_nonzero 256 (lenN t)). nia.
Qed.
Print Assumptions C53_padding_refuted.

(** Messages of any other length are refused. *)
Theorem C53_message_length H k n msg height nonce :
  length msg <> 32%nat -> Compute H (newClient k n) msg height nonce = Done None.
Proof. intros L. unfold Compute, lenN. destruct (N.eqb_spec (N.of_nat (length msg)) 32); [lia|reflexivity]. Qed.
Print Assumptions C53_message_length.

Definition auto_toy (b : list N) : list N := map (fun x => 200 + x mod 50) (firstn 32 (toy_hash b)).
Lemma auto_toy_ok : hash_ok 32 auto_toy.
Proof.
  intros b. destruct (toy_hash_ok b) as (L & B). unfold auto_toy. split.
  - rewrite map_length, firstn_length, L. reflexivity.
  - apply Forall_map. apply Forall_forall. intros x _. unfold isw. lia.
Qed.
Lemma auto_toy_sum k msg nonce height size :
  k * (200 * 256 ^ 30) <= auto_sum auto_toy k msg nonce height size.
Proof.
  unfold auto_sum, auto_indexes.
  assert (L : lenN (tab k (auto_index auto_toy (auto_seed auto_toy msg nonce height size) size)) = k)
    by apply lenN_tab.
  set (l := tab _ _) in *. clearbody l. subst k. unfold lenN.
  induction l as [|x t IH]; cbn [map fold_right length]; [lia|].
  assert (E : 200 * 256 ^ 30 <= be_value (element auto_toy height x)).
  { unfold element. set (b := big_endian 4 x ++ _). clearbody b. clear IH t.
    destruct (toy_hash_ok b) as (L & _). unfold auto_toy. destruct (toy_hash b) as [|u [|v r]]; try discriminate.
    change (firstn 32 (u :: v :: r)) with (u :: v :: firstn 30 r). cbn [map tl]. rewrite be_value_cons. unfold lenN. rewrite map_length, firstn_length.
    cbn [length] in L. replace (Nat.min 30 (length r)) with 30%nat by lia. change (N.of_nat 30) with 30.
    assert (200 * 256 ^ 30 <= (200 + v mod 50) * 256 ^ 30) by (apply N.mul_le_mono_r; lia). lia. }
  lia.
Qed.
Example C53_instance msg height nonce : length msg = 32%nat ->
  2 ^ 248 <= auto_sum auto_toy 32 msg nonce height (table_size (2 ^ 26) height) /\
  Compute auto_toy newErgo msg height nonce =
  Done (Some (auto_spec auto_toy 32 msg nonce height (table_size (2 ^ 26) height))).
Proof.
  intros LM.
  assert (L : 2 ^ 248 <= auto_sum auto_toy 32 msg nonce height (table_size (2 ^ 26) height)).
  { eapply N.le_trans; [|apply auto_toy_sum]. apply N.leb_le. reflexivity. }
  split; [exact L|]. apply (C53_standard_digest auto_toy msg height nonce auto_toy_ok LM). exact L.
Qed.
(** The hypothesis of [C53_short_sum] is met too. *)
Example C53_short_instance : auto_sum short_hash 32 (repeat 5 32) 9 7 (table_size (2 ^ 26) 7) < 2 ^ 248.
Proof. rewrite short_sum. reflexivity. Qed.

(** ** C54 *)

(** For a client with arbitrary parameters, 32-byte messages make Compute panic exactly when more
    than 61 indices are wanted or the table size is zero, and the size is zero exactly for heights up
    to 4198400 with a base of 2^32 or more, or with a base below 2^7 once the growth has begun. *)
Theorem C54_panics_iff H k n msg height nonce :
  hash_ok 32 H -> length msg = 32%nat ->
  (Compute H (newClient k n) msg height nonce = Panic <->
   61 < k \/ (height <= 4198400 /\ (32 <= n \/ (n <= 6 /\ 614400 <= height)))).
Proof.
  intros HH LM.
  unfold Compute, lenN. rewrite LM. change (N.of_nat 32 =? 32) with true. cbn [negb newClient fst snd].
  destruct (calcN_zero n height) as (s & C & S & Z). unfold no_table in Z.
  destruct (N.eq_dec s 0) as [->|NZ].
  - rewrite compute_panics_n by auto. cbn [bind]. split; [intros _|reflexivity].
    assert (X : no_table n height = true) by (apply Z; auto). unfold no_table in X. lia.
  - assert (X : no_table n height <> true) by tauto. unfold no_table in X.
    assert (SL : s <= 2 ^ 32) by (apply N.lt_le_incl; exact S).
    destruct (N.leb_spec k 61).
    + rewrite (compute_spec H HH k _ msg nonce height s C NZ SL ltac:(assumption)). cbn [bind].
      split; [discriminate|]. intros Y. exfalso. lia.
    + rewrite (compute_panics_k H HH k _ msg nonce height s C NZ SL ltac:(assumption)). cbn [bind]. split; auto.
Qed.
Print Assumptions C54_panics_iff.
Theorem C54_never_panics_refuted :
  ~ (forall H k n msg height nonce, hash_ok 32 H -> length msg = 32%nat ->
      Compute H (newClient k n) msg height nonce <> Panic).
Proof.
  intros C. refine (C auto_toy 62 26 (repeat 0 32) 0 0 auto_toy_ok eq_refl _).
  apply C54_panics_iff; [exact auto_toy_ok|reflexivity|]. left. reflexivity.
Qed.
Print Assumptions C54_never_panics_refuted.
(** It never panics for the Ergo client. *)
Theorem C54_ergo_never_panics H msg height nonce :
  hash_ok 32 H -> exists r, Compute H newErgo msg height nonce = Done r.
Proof.
  intros HH. destruct (Nat.eq_dec (length msg) 32) as [L|L].
  - destruct (C53_digest H msg height nonce HH L) as ((b & E & _) & _). eauto.
  - exists None. apply C53_message_length. auto.
Qed.
Print Assumptions C54_ergo_never_panics.
Example C54_instance :
  Compute auto_toy (newClient 61 7) (repeat 0 32) 4198400 0 <> Panic /\
  Compute auto_toy (newClient 61 6) (repeat 0 32) 614400 0 = Panic /\
  Compute auto_toy (newClient 32 32) (repeat 0 32) 0 0 = Panic.
Proof.
  split; [|split].
  - intros C. apply C54_panics_iff in C; [lia|exact auto_toy_ok|reflexivity].
  - apply C54_panics_iff; [exact auto_toy_ok|reflexivity|lia].
  - apply C54_panics_iff; [exact auto_toy_ok|reflexivity|lia].
Qed.
