(** Output sizes of the executable hashes: they meet the hypotheses the theorems put on them. *)
From Coq Require Import Arith NArith List Lia ZifyNat ZifyN.
From Verif Require Import Base BaseFacts KeccakSpec Hashes.
Import ListNotations.
Open Scope N_scope.

Lemma state_bytes_length A : length (state_bytes A) = (8 * length A)%nat.
Proof.
  induction A as [|a A IH]; auto. unfold state_bytes in *. cbn [flat_map]. rewrite app_length, IH, le_bytes_length. cbn [length]. lia.
Qed.
Lemma state_bytes_bytes A : bytes (state_bytes A).
Proof.
  induction A as [|a A IH]; [constructor|]. unfold state_bytes in *. cbn [flat_map].
  apply Forall_app. split; auto. apply le_bytes_bytes.
Qed.

Lemma b2_loop_length fuel : forall h b t, length h = 8%nat -> length (b2_loop fuel h b t) = 8%nat.
Proof.
  induction fuel as [|f IH]; intros h b t H; auto. cbn [b2_loop]. destruct (Nat.leb _ _).
  - unfold b2_compress. rewrite map_length, seq_length. auto.
  - apply IH. unfold b2_compress. rewrite map_length, seq_length. auto.
Qed.
Lemma blake2b_length outlen person b : (outlen <= 64)%nat -> length (blake2b outlen person b) = outlen.
Proof.
  intros H. unfold blake2b. rewrite firstn_length, state_bytes_length, b2_loop_length. lia.
  rewrite map_length, combine_length. reflexivity.
Qed.
Lemma blake2b_bytes outlen person b : bytes (blake2b outlen person b).
Proof. apply Forall_firstn, state_bytes_bytes. Qed.

Lemma keccak_round_length A rc : length (keccak_round A rc) = 25%nat.
Proof.
  unfold keccak_round. set (B := chi 64 _). assert (L : length B = 25%nat) by reflexivity.
  destruct B; auto.
Qed.
Lemma keccak_f_length A : length (keccak_f1600 A) = 25%nat.
Proof.
  unfold keccak_f1600. unfold rc1600. cbn [fold_left]. apply keccak_round_length.
Qed.
Lemma absorb_length fuel rate : forall A b, length A = 25%nat -> length (absorb fuel rate A b) = 25%nat.
Proof.
  induction fuel as [|f IH]; intros A b H; auto. cbn [absorb]. destruct b; auto using keccak_f_length.
Qed.
Lemma squeeze_length fuel rate : (0 < rate <= 200)%nat -> forall A n, length A = 25%nat -> (n < fuel)%nat -> length (squeeze fuel rate A n) = n.
Proof.
  intros HR. induction fuel as [|f IH]; intros A n HA Hn; [lia|]. cbn [squeeze].
  destruct (Nat.leb_spec n rate).
  - rewrite firstn_length, state_bytes_length, HA. lia.
  - rewrite app_length, firstn_length, state_bytes_length, HA, IH by (try apply keccak_f_length; lia). lia.
Qed.
Lemma squeeze_bytes fuel rate : forall A n, bytes (squeeze fuel rate A n).
Proof.
  induction fuel as [|f IH]; intros A n; [constructor|]. cbn [squeeze].
  destruct (Nat.leb _ _); [apply Forall_firstn, state_bytes_bytes|].
  apply Forall_app; split; [apply Forall_firstn, state_bytes_bytes|apply IH].
Qed.
Lemma sponge_length rate ds n b : (0 < rate <= 200)%nat -> length (sponge rate ds n b) = n.
Proof. intros H. unfold sponge. apply squeeze_length; auto. apply absorb_length. reflexivity. Qed.
Lemma sponge_bytes rate ds n b : bytes (sponge rate ds n b).
Proof. apply squeeze_bytes. Qed.
Lemma keccak256_length b : length (keccak256 b) = 32%nat.
Proof. apply sponge_length. lia. Qed.
Lemma keccak512_length b : length (keccak512 b) = 64%nat.
Proof. apply sponge_length. lia. Qed.
Lemma keccak256_bytes b : bytes (keccak256 b).
Proof. apply sponge_bytes. Qed.
Lemma keccak512_bytes b : bytes (keccak512 b).
Proof. apply sponge_bytes. Qed.
Lemma cshake256_length s n b : length (cshake256 s n b) = n.
Proof. unfold cshake256, shake256. destruct s; apply sponge_length; lia. Qed.
Lemma cshake256_bytes s n b : bytes (cshake256 s n b).
Proof. unfold cshake256, shake256. destruct s; apply sponge_bytes. Qed.
