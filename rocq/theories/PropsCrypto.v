(** Property theorems C01, C03 - C07. *)
From Coq Require Import NArith List Bool.
From Verif Require Import Base KeccakModel KeccakSpec KeccakProofs CryptoModel CryptoSpec CryptoProofs.
Import ListNotations.
Open Scope N_scope.

(** C01: words -> bytes -> words is the identity; the bytes are the positional digits. *)
Theorem C01_words_to_bytes_and_back :
  forall arr o, words 32 arr ->
  exists b, Uint32ArrayToBytes arr o = Done b /\ bytes b /\ lenN b = 4 * lenN arr /\
    (forall i j, i < lenN arr -> j < 4 ->
       nth (N.to_nat (4 * i + j)) b 0 = digit o 4 (nth (N.to_nat i) arr 0) j) /\
    BytesToUint32Array b o = Done arr.
Proof. exact words_to_bytes_full. Qed.
Print Assumptions C01_words_to_bytes_and_back.

(** C01: bytes -> words -> bytes is the identity when the length is a multiple of four. *)
Theorem C01_bytes_to_words_and_back :
  forall b o, bytes b -> lenN b mod 4 = 0 ->
  exists arr, BytesToUint32Array b o = Done arr /\ words 32 arr /\ 4 * lenN arr = lenN b /\
    Uint32ArrayToBytes arr o = Done b.
Proof. exact bytes_roundtrip. Qed.
Print Assumptions C01_bytes_to_words_and_back.

(** C01: the scalar encoders. *)
Theorem C01_scalar_encoders :
  forall v o,
  Uint32ToBytes v o = Done (tab 4 (digit o 4 v)) /\
  Uint64ToBytes v o = Done (tab 8 (digit o 8 v)).
Proof. exact scalar_bytes. Qed.
Print Assumptions C01_scalar_encoders.

(** C01: a byte slice whose length is not a multiple of four converts without panic, the
    incomplete last word being dropped. *)
Theorem C01_partial_word_dropped :
  forall b o, exists arr, BytesToUint32Array b o = Done arr /\ lenN arr = lenN b / 4.
Proof. exact bytes_to_words_total. Qed.
Print Assumptions C01_partial_word_dropped.

Example C01_instance :
  words 32 [0x01020304; 0xfffffffe] /\
  Uint32ArrayToBytes [0x01020304; 0xfffffffe] BigEndian = Done [1; 2; 3; 4; 255; 255; 255; 254] /\
  Uint32ArrayToBytes [0x01020304; 0xfffffffe] LittleEndian = Done [4; 3; 2; 1; 254; 255; 255; 255] /\
  BytesToUint32Array [4; 3; 2; 1; 9] LittleEndian = Done [0x01020304].
Proof. repeat split; try reflexivity. repeat constructor. Qed.

(** C03 *)
Theorem C03_keccakf800_is_keccak_f :
  forall st, length st = 25%nat -> words 32 st ->
  KeccakF800 st = Done (keccak_f 32 st).
Proof. exact (fun st L W => KeccakF800_refines st (conj L W)). Qed.
Print Assumptions C03_keccakf800_is_keccak_f.

(** C04 *)
Theorem C04_keccakf800_bijective :
  (forall st, length st = 25%nat -> words 32 st ->
     exists t, KeccakF800 st = Done t /\ length t = 25%nat /\ words 32 t) /\
  (forall t, length t = 25%nat -> words 32 t ->
     exists! st, (length st = 25%nat /\ words 32 st) /\ KeccakF800 st = Done t).
Proof. exact KeccakF800_unique_preimage. Qed.
Print Assumptions C04_keccakf800_bijective.

Example C03_C04_instance :
  let st := map N.of_nat (seq 0 25) in
  length st = 25%nat /\ words 32 st /\
  exists t, KeccakF800 st = Done t /\ keccak_f800_inv t = st /\ t <> st.
Proof.
  cbv zeta. split; [reflexivity|]. split.
  - repeat constructor.
  - eexists. split; [vm_compute; reflexivity|]. split; [vm_compute; reflexivity|discriminate].
Qed.

(** C05 *)
Theorem C05_siphash_conforms :
  forall k m, valid_sip k -> m < 2 ^ 64 ->
  tup (Hash24 k m) = sip_compress 2 4 (tup k) m /\
  tup (Hash48 k m) = sip_compress 4 8 (tup k) m /\
  XorLanes k = sip_out (tup k).
Proof. exact siphash_conforms. Qed.
Print Assumptions C05_siphash_conforms.

Theorem C05_nodes :
  forall mask k edge side, valid_sip k ->
  SipNode24 mask k edge side = cuckoo_node mask (tup k) edge side /\
  SipNode24Legacy mask k edge side = cuckoo_node_rot mask (tup k) edge side /\
  SipNode24 mask k edge side <= mask /\
  SipNode24Legacy mask k edge side <= mask.
Proof. exact nodes_conform. Qed.
Print Assumptions C05_nodes.

Theorem C05_block :
  forall k edge, valid_sip k -> edge < 2 ^ 64 ->
  SipBlock48 k edge = Done (cuckaroo_block (tup k) edge).
Proof. exact SipBlock48_spec. Qed.
Print Assumptions C05_block.

(** siphash_test.go, and the hypotheses are met. *)
Example C05_instance :
  valid_sip (mkSip 1 2 3 4) /\
  XorLanes (Hash24 (mkSip 1 2 3 4) 10) = 928382149599306901 /\
  XorLanes (Hash24 (mkSip 1 2 3 4) 111) = 10524991083049122233 /\
  XorLanes (Hash24 (mkSip 9 7 6 7) 12) = 1305683875471634734 /\
  XorLanes (Hash24 (mkSip 9 7 6 7) 10) = 11589833042187638814 /\
  sip_out (sip_compress 2 4 (9, 7, 6, 7) 10) = 11589833042187638814.
Proof. repeat split; vm_compute; reflexivity. Qed.

(** C06 *)
Theorem C06_xoshiro_conforms :
  forall h, valid_x h ->
  fst (Next h) = xo_output (xtup h) /\ xtup (snd (Next h)) = xo_step (xtup h) /\
  fst (Next h) < 2 ^ 64 /\ valid_x (snd (Next h)).
Proof. exact xoshiro_conforms. Qed.
Print Assumptions C06_xoshiro_conforms.

Theorem C06_xoshiro_reversible :
  forall t, valid_x t -> exists! s, valid_x s /\ snd (Next s) = t.
Proof. exact Next_bijective. Qed.
Print Assumptions C06_xoshiro_reversible.

Theorem C06_zero_state_is_isolated :
  (forall n, N.iter n (fun s => snd (Next s)) (mkX 0 0 0 0) = mkX 0 0 0 0) /\
  fst (Next (mkX 0 0 0 0)) = 0 /\
  (forall h n, valid_x h -> N.iter n (fun s => snd (Next s)) h = mkX 0 0 0 0 -> h = mkX 0 0 0 0).
Proof. exact zero_isolated. Qed.
Print Assumptions C06_zero_state_is_isolated.

(** xoshiro_test.go *)
Fixpoint outputs (n : nat) (h : xoshiro) : list N :=
  match n with O => [] | S m => let '(v, h') := Next h in v :: outputs m h' end.
Example C06_instance :
  valid_x (mkX 124123 591204 959691 959109) /\
  outputs 12 (mkX 124123 591204 959691 959109) =
  [ 0x00000843b001e4db; 0x000003219d80c14a; 0x44be2003275edbad; 0x0e040b0682d9cf5b;
    0xae50d583e48813b7; 0x868e6c5267cb9e0e; 0x278a90e35d6235c9; 0xe0fbdb62d8981ac2;
    0xe9f929070cec215b; 0x933060e9112c0026; 0x8e3c312c503989f4; 0x0cb10bc24b1fbeca ] /\
  outputs 12 (mkX 0 0 0 1) =
  [ 0x0000000000800000; 0x0000000000800011; 0x0002200000800011; 0x0002200044000020;
    0x00022000448008a1; 0x01102100802208a0; 0x0114002284200880; 0x0402896644a64095;
    0x8a14a0a244acc891; 0x8c88ba4680b20495; 0x8b48b35586484291; 0x09d8608086e66cd5 ].
Proof. repeat split; vm_compute; reflexivity. Qed.

(** C07: each FNV step is a bijection in each argument. *)
Theorem C07_fnv_steps_bijective :
  (forall v r, v < 2 ^ 32 -> r < 2 ^ 32 -> exists! u, u < 2 ^ 32 /\ Fnv1 u v = r) /\
  (forall u r, r < 2 ^ 32 -> exists! v, v < 2 ^ 32 /\ Fnv1 u v = r) /\
  (forall v r, v < 2 ^ 32 -> r < 2 ^ 32 -> exists! u, u < 2 ^ 32 /\ Fnv1a u v = r) /\
  (forall u r, u < 2 ^ 32 -> r < 2 ^ 32 -> exists! v, v < 2 ^ 32 /\ Fnv1a u v = r) /\
  (forall v r, v < 2 ^ 64 -> r < 2 ^ 64 -> exists! u, u < 2 ^ 64 /\ Fnv1Uint64 u v = r) /\
  (forall u r, r < 2 ^ 64 -> exists! v, v < 2 ^ 64 /\ Fnv1Uint64 u v = r).
Proof.
  exact (conj Fnv1_bijective_u (conj Fnv1_bijective_v (conj Fnv1a_bijective_u
        (conj Fnv1a_bijective_v (conj Fnv1Uint64_bijective_u Fnv1Uint64_bijective_v))))).
Qed.
Print Assumptions C07_fnv_steps_bijective.

(** C07: the FNV values are the arithmetic ones. *)
Theorem C07_fnv_values :
  forall u v,
  Fnv1 u v = N.lxor ((u * 16777619) mod 2 ^ 32) v /\
  Fnv1a u v = (N.lxor u v * 16777619) mod 2 ^ 32 /\
  Fnv1Uint64 u v = N.lxor ((u * 16777619) mod 2 ^ 64) v.
Proof. exact fnv_values. Qed.
Print Assumptions C07_fnv_values.

Theorem C07_fnv_hash :
  forall mix data,
  (lenN mix <= lenN data ->
   exists m', FnvHash mix data = Done m' /\ lenN m' = lenN mix /\
     forall i, i < lenN mix ->
       nth (N.to_nat i) m' 0 = Fnv1 (nth (N.to_nat i) mix 0) (nth (N.to_nat i) data 0)) /\
  (lenN data < lenN mix -> FnvHash mix data = Panic).
Proof. exact fnv_hash_full. Qed.
Print Assumptions C07_fnv_hash.

(** fnv_test.go *)
Example C07_instance :
  Fnv1a 0x811C9DC5 0xDDD0A47B = 0xD37EE61A /\
  Fnv1a 0xD37EE61A 0xEE304846 = 0xDEDC7AD4 /\
  Fnv1a 0xDEDC7AD4 0 = 0xA9155BBC /\
  FnvHash [1; 2] [3; 4; 5] = Done [16777616; 33555234].
Proof. repeat split; vm_compute; reflexivity. Qed.
