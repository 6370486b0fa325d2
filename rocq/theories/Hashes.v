(** Executable versions of the external hash functions (golang.org/x/crypto/sha3,
    github.com/dchest/blake2b, crypto/sha256), written from FIPS 202 and RFC 7693.  The model takes these hashes
    as arguments and the theorems hold for any functions with the right output length; this file
    only serves to instantiate the theorems and to replay the repository's test vectors. *)
From Coq Require Import NArith List Bool.
From Verif Require Import Base KeccakSpec.
Import ListNotations.
Open Scope N_scope.

(** ** Keccak[1600] sponge *)
Definition rc1600 : list N := Eval vm_compute in map (fun i => round_constant 64 (N.of_nat i)) (seq 0 24).
Definition rho1600 : list N := Eval vm_compute in map (fun p => rho_offset (fst p) (snd p) mod 64) coords.

Definition rol64 (x s : N) : N := trunc 64 (N.lor (N.shiftl x s) (N.shiftr x (64 - s))).
Definition keccak_round (A : list N) (rc : N) : list N :=
  let C := map (col A) [0; 1; 2; 3; 4] in
  let c x := nth (N.to_nat (x mod 5)) C 0 in
  let D := map (fun x => N.lxor (c (x + 4)) (rol64 (c (x + 1)) 1)) [0; 1; 2; 3; 4] in
  let A := map (fun p => N.lxor (fst p) (snd p)) (combine A (D ++ D ++ D ++ D ++ D)) in
  let A := map (fun p => rol64 (fst p) (snd p)) (combine A rho1600) in
  let A := pi A in
  let A := chi 64 A in
  match A with [] => [] | a :: t => N.lxor a rc :: t end.
Definition keccak_f1600 (A : list N) : list N := fold_left keccak_round rc1600 A.

Fixpoint lanes_of (n : nat) (b : list N) : list N :=
  match n with O => [] | S m => le_value (firstn 8 b) :: lanes_of m (skipn 8 b) end.
Definition state_bytes (A : list N) : list N := flat_map (le_bytes 8) A.

Fixpoint absorb (fuel : nat) (rate : nat) (A : list N) (b : list N) : list N :=
  match fuel with
  | O => A
  | S f =>
      match b with
      | [] => A
      | _ => let blk := lanes_of 25 (firstn rate b ++ repeat 0 (200 - rate)) in
             absorb f rate (keccak_f1600 (map (fun p => N.lxor (fst p) (snd p)) (combine A blk)))
                    (skipn rate b)
      end
  end.
Fixpoint squeeze (fuel : nat) (rate : nat) (A : list N) (n : nat) : list N :=
  match fuel with
  | O => []
  | S f => if Nat.leb n rate then firstn n (state_bytes A)
           else firstn rate (state_bytes A) ++ squeeze f rate (keccak_f1600 A) (n - rate)
  end.
(** pad10*1 with the domain suffix [ds] *)
Definition pad101 (rate : nat) (ds : N) (b : list N) : list N :=
  let q := Nat.sub rate (Nat.modulo (length b) rate) in
  if Nat.eqb q 1 then b ++ [N.lxor ds 128] else b ++ [ds] ++ repeat 0 (q - 2) ++ [128].
Definition sponge (rate : nat) (ds : N) (outlen : nat) (b : list N) : list N :=
  let p := pad101 rate ds b in
  squeeze (S outlen) rate (absorb (length p) rate (repeat 0 25) p) outlen.

Definition keccak256 (b : list N) : list N := sponge 136 1 32 b.
Definition keccak512 (b : list N) : list N := sponge 72 1 64 b.
Definition shake256 (outlen : nat) (b : list N) : list N := sponge 136 31 outlen b.
(** cSHAKE256 with empty function name and customisation [s] (SP 800-185). *)
Definition left_encode (x : N) : list N := if x <? 256 then [1; x] else [2; x / 256; x mod 256].
Definition encode_string (s : list N) : list N := left_encode (8 * lenN s) ++ s.
Definition bytepad (w : nat) (x : list N) : list N :=
  let z := left_encode (N.of_nat w) ++ x in
  z ++ repeat 0 (Nat.modulo (w - Nat.modulo (length z) w) w).
Definition cshake256 (s : list N) (outlen : nat) (b : list N) : list N :=
  match s with
  | [] => shake256 outlen b
  | _ => sponge 136 4 outlen (bytepad 136 (encode_string [] ++ encode_string s) ++ b)
  end.

(** ** BLAKE2b (RFC 7693), with the personalisation field of the parameter block *)
Definition b2_iv : list N :=
  [0x6a09e667f3bcc908; 0xbb67ae8584caa73b; 0x3c6ef372fe94f82b; 0xa54ff53a5f1d36f1;
   0x510e527fade682d1; 0x9b05688c2b3e6c1f; 0x1f83d9abfb41bd6b; 0x5be0cd19137e2179].
Definition b2_sigma : list (list nat) :=
  [[0; 1; 2; 3; 4; 5; 6; 7; 8; 9; 10; 11; 12; 13; 14; 15];
   [14; 10; 4; 8; 9; 15; 13; 6; 1; 12; 0; 2; 11; 7; 5; 3];
   [11; 8; 12; 0; 5; 2; 15; 13; 10; 14; 3; 6; 7; 1; 9; 4];
   [7; 9; 3; 1; 13; 12; 11; 14; 2; 6; 5; 10; 4; 0; 15; 8];
   [9; 0; 5; 7; 2; 4; 10; 15; 14; 1; 11; 12; 6; 8; 3; 13];
   [2; 12; 6; 10; 0; 11; 8; 3; 4; 13; 7; 5; 15; 14; 1; 9];
   [12; 5; 1; 15; 14; 13; 4; 10; 0; 7; 6; 3; 9; 2; 8; 11];
   [13; 11; 7; 14; 12; 1; 3; 9; 5; 0; 15; 4; 8; 6; 2; 10];
   [6; 15; 14; 9; 11; 3; 0; 8; 12; 2; 13; 7; 1; 4; 10; 5];
   [10; 2; 8; 4; 7; 6; 1; 5; 15; 11; 9; 14; 3; 12; 13; 0];
   [0; 1; 2; 3; 4; 5; 6; 7; 8; 9; 10; 11; 12; 13; 14; 15];
   [14; 10; 4; 8; 9; 15; 13; 6; 1; 12; 0; 2; 11; 7; 5; 3]]%nat.
Definition ror64 (x s : N) : N := rol64 x (64 - s).
Definition b2_g (v : list N) (a b c d : nat) (x y : N) : list N :=
  let g i := nth i v 0 in
  let va := addw 64 (addw 64 (g a) (g b)) x in
  let vd := ror64 (N.lxor (g d) va) 32 in
  let vc := addw 64 (g c) vd in
  let vb := ror64 (N.lxor (g b) vc) 24 in
  let va := addw 64 (addw 64 va vb) y in
  let vd := ror64 (N.lxor vd va) 16 in
  let vc := addw 64 vc vd in
  let vb := ror64 (N.lxor vb vc) 63 in
  set_nth (set_nth (set_nth (set_nth v a va) b vb) c vc) d vd.
Definition b2_round (m v : list N) (s : list nat) : list N :=
  let w i := nth (nth i s 0%nat) m 0 in
  let v := b2_g v 0 4 8 12 (w 0%nat) (w 1%nat) in
  let v := b2_g v 1 5 9 13 (w 2%nat) (w 3%nat) in
  let v := b2_g v 2 6 10 14 (w 4%nat) (w 5%nat) in
  let v := b2_g v 3 7 11 15 (w 6%nat) (w 7%nat) in
  let v := b2_g v 0 5 10 15 (w 8%nat) (w 9%nat) in
  let v := b2_g v 1 6 11 12 (w 10%nat) (w 11%nat) in
  let v := b2_g v 2 7 8 13 (w 12%nat) (w 13%nat) in
  b2_g v 3 4 9 14 (w 14%nat) (w 15%nat).
Definition b2_compress (h blk : list N) (t : N) (last : bool) : list N :=
  let m := lanes_of 16 (blk ++ repeat 0 (128 - length blk)) in
  let v := h ++ b2_iv in
  let v := set_nth v 12 (N.lxor (nth 12 v 0) (trunc 64 t)) in
  let v := set_nth v 13 (N.lxor (nth 13 v 0) (trunc 64 (N.shiftr t 64))) in
  let v := if last then set_nth v 14 (notw 64 (nth 14 v 0)) else v in
  let v := fold_left (b2_round m) b2_sigma v in
  map (fun i => N.lxor (nth i h 0) (N.lxor (nth i v 0) (nth (i + 8) v 0))) (seq 0 8).
Fixpoint b2_loop (fuel : nat) (h b : list N) (t : N) : list N :=
  match fuel with
  | O => h
  | S f =>
      if Nat.leb (length b) 128 then b2_compress h b (t + lenN b) true
      else b2_loop f (b2_compress h (firstn 128 b) (t + 128) false) (skipn 128 b) (t + 128)
  end.
(** [person] has at most 16 bytes *)
Definition blake2b (outlen : nat) (person b : list N) : list N :=
  let param := [N.of_nat outlen; 0; 1; 1] ++ repeat 0 44 ++ person ++ repeat 0 (16 - length person) in
  let h := map (fun p => N.lxor (fst p) (snd p)) (combine b2_iv (lanes_of 8 param)) in
  firstn outlen (state_bytes (b2_loop (S (length b)) h b 0)).
Definition blake2b_256 (b : list N) : list N := blake2b 32 [] b.

(** Hexadecimal strings as bytes, to write test vectors. *)
From Coq Require Import String Ascii.
Definition hexdigit (c : ascii) : N :=
  let n := N_of_ascii c in
  if n <? 58 then n - 48 else if n <? 71 then n - 55 else n - 87.
Fixpoint hex (s : string) : list N :=
  match s with
  | String a (String b t) => 16 * hexdigit a + hexdigit b :: hex t
  | _ => []
  end.
Definition ascii_bytes (s : string) : list N := map N_of_ascii (list_ascii_of_string s).

(** Published values. *)
Example keccak256_empty :
  keccak256 [] = hex "c5d2460186f7233c927e7db2dcc703c0e500b653ca82273b7bfad8045d85a470".
Proof. vm_compute. reflexivity. Qed.
Example keccak512_empty :
  keccak512 [] = hex "0eab42de4c3ceb9235fc91acffe746b29c29a8c366b7c60e4e67c466f36a4304c00fa9caf9d87976ba469bcbe06713b435f091ef2769fb160cdab33d3670680e".
Proof. vm_compute. reflexivity. Qed.
Example shake256_empty :
  shake256 32 [] = hex "46b9dd2b0ba88d13233b3feb743eeb243fcd52ea62b81b82b50c27646ed5762f".
Proof. vm_compute. reflexivity. Qed.
Example blake2b_abc :
  blake2b 64 [] (ascii_bytes "abc") = hex "ba80a53f981c4d0d6a2797b69f12f6e94c212f14685ac4b74b12bb6fdbffa2d17d87c5392aab792dc252d5de4533cc9518d38aa8dbf1925ab92386edd4009923".
Proof. vm_compute. reflexivity. Qed.
