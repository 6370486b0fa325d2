(** ProgPoW, written from its specification (EIP-1057): a random program per period, which each
    lane runs on its own registers; unbounded integers with explicit "mod 2^32". *)
From Coq Require Import NArith List Bool.
From Verif Require Import Base CryptoSpec DagSpec.
Import ListNotations.
Open Scope N_scope.

(** ** KISS99 (Marsaglia) *)

Definition kiss := (N * N * N * N)%type.   (* z, w, jsr, jcong *)
Definition kiss_valid (k : kiss) : Prop :=
  let '(z, w, jsr, jcong) := k in z < 2 ^ 32 /\ w < 2 ^ 32 /\ jsr < 2 ^ 32 /\ jcong < 2 ^ 32.

(** Multiply with carry: low half times the multiplier plus the high half. *)
Definition mwc (m x : N) : N := m * (x mod 65536) + x / 65536.
Definition xorshift (x : N) : N :=
  let x := N.lxor x ((x * 2 ^ 17) mod 2 ^ 32) in
  let x := N.lxor x (x / 2 ^ 13) in
  N.lxor x ((x * 2 ^ 5) mod 2 ^ 32).
Definition lcg (x : N) : N := (69069 * x + 1234567) mod 2 ^ 32.
Definition kiss_step (k : kiss) : kiss :=
  let '(z, w, jsr, jcong) := k in (mwc 36969 z, mwc 18000 w, xorshift jsr, lcg jcong).
Definition kiss_out (k : kiss) : N :=
  let '(z, w, jsr, jcong) := k in
  (N.lxor ((z * 65536 + w) mod 2 ^ 32) jcong + jsr) mod 2 ^ 32.
(** Draw number [n] (from 1) of a generator. *)
Definition draw (k : kiss) (n : nat) : N := kiss_out (Nat.iter n kiss_step k).

(** ** Random operations *)

Definition fnv1a (h d : N) : N := (N.lxor h d * 16777619) mod 2 ^ 32.
Definition basis : N := 2166136261.

(** The number of elements of [l] that satisfy [f]. *)
Definition count (f : N -> bool) (l : list N) : N := N.of_nat (length (filter f l)).
Definition positions : list N := tab 32 (fun i => i).
(** Zero bits above the highest one bit; one bits. *)
Definition leading_zeros (a : N) : N := count (fun i => a <? 2 ^ i) positions.
Definition one_bits (a : N) : N := count (fun i => N.testbit a i) positions.

Definition math_op (a b r : N) : N :=
  nth (N.to_nat (r mod 11))
    [ (a + b) mod 2 ^ 32;
      (a * b) mod 2 ^ 32;
      a * b / 2 ^ 32;
      N.min a b;
      rotate 32 a (b mod 32);
      rotate 32 a ((32 - b mod 32) mod 32);
      N.land a b;
      N.lor a b;
      N.lxor a b;
      leading_zeros a + leading_zeros b;
      one_bits a + one_bits b ] 0.

Definition merge_op (a b r : N) : N :=
  let x := (r / 65536) mod 31 + 1 in
  nth (N.to_nat (r mod 4))
    [ (a * 33 + b) mod 2 ^ 32;
      (N.lxor a b * 33) mod 2 ^ 32;
      N.lxor (rotate 32 a x) b;
      N.lxor (rotate 32 a (32 - x)) b ] 0.

(** ** The program of a period *)

Definition exchange (l : list N) (i j : nat) : list N :=
  map (fun k => if Nat.eqb k i then nth j l 0 else if Nat.eqb k j then nth i l 0 else nth k l 0)
    (seq 0 (length l)).

(** Fisher-Yates on two sequences at once, for i = n, n-1, ..., 2: a draw for the destination
    sequence, then one for the source sequence. *)
Fixpoint shuffle (i : nat) (k : kiss) (dst src : list N) : list N * list N * kiss :=
  match i with
  | O | S O => (dst, src, k)
  | S j =>
      let k1 := kiss_step k in
      let k2 := kiss_step k1 in
      shuffle j k2 (exchange dst j (N.to_nat (kiss_out k1 mod N.of_nat i)))
                   (exchange src j (N.to_nat (kiss_out k2 mod N.of_nat i)))
  end.

Definition period_rng (seed : N) : kiss :=
  let lo := seed mod 2 ^ 32 in
  let hi := (seed / 2 ^ 32) mod 2 ^ 32 in
  let z := fnv1a basis lo in
  let w := fnv1a z hi in
  let jsr := fnv1a w lo in
  let jcong := fnv1a jsr hi in
  (z, w, jsr, jcong).

Inductive op : Type :=
| CacheLoad (src dst sel : N)                  (* merge L1[src] into dst *)
| Arith (src1 src2 sel1 dst sel2 : N).         (* merge math(src1, src2) into dst *)

(** Generator of a program: the random numbers and how many registers were taken from the two
    shuffled sequences. *)
Record gen := mkGen { g_rng : kiss; g_src : nat; g_dst : nat }.

Section Program.
Variables (regs cache_ops math_ops : N).
Variables (src dst : list N).   (* the shuffled sequences *)
Definition src_at (n : nat) : N := nth (Nat.modulo n (N.to_nat regs)) src 0.
Definition dst_at (n : nat) : N := nth (Nat.modulo n (N.to_nat regs)) dst 0.

Definition gen_cache (g : gen) : op * gen :=
  let k1 := kiss_step (g_rng g) in
  (CacheLoad (src_at (g_src g)) (dst_at (g_dst g)) (kiss_out k1),
   mkGen k1 (S (g_src g)) (S (g_dst g))).

(** Two different source registers from one random number below regs * (regs - 1). *)
Definition two_sources (v : N) : N * N :=
  let s1 := v mod regs in
  let s2 := v / regs in
  (s1, if s2 <? s1 then s2 else s2 + 1).

Definition gen_math (g : gen) : op * gen :=
  let k1 := kiss_step (g_rng g) in
  let k2 := kiss_step k1 in
  let k3 := kiss_step k2 in
  let '(s1, s2) := two_sources (kiss_out k1 mod (regs * (regs - 1))) in
  (Arith s1 s2 (kiss_out k2) (dst_at (g_dst g)) (kiss_out k3),
   mkGen k3 (g_src g) (S (g_dst g))).

Definition gen_step (i : N) (g : gen) : list op * gen :=
  let '(o1, g1) := if i <? cache_ops then let '(o, g') := gen_cache g in ([o], g') else ([], g) in
  let '(o2, g2) := if i <? math_ops then let '(o, g') := gen_math g1 in ([o], g') else ([], g1) in
  (o1 ++ o2, g2).

(** The first [n] iterations. *)
Fixpoint program (g : gen) (n : nat) : list op * gen :=
  match n with
  | O => ([], g)
  | S m =>
      let '(ops, g1) := program g m in
      let '(o, g2) := gen_step (N.of_nat m) g1 in
      (ops ++ o, g2)
  end.

(** The [n] registers and selectors used to merge the dataset words: register 0 first. *)
Fixpoint dag_merges (g : gen) (n : nat) : list (N * N) * gen :=
  match n with
  | O => ([], g)
  | S m =>
      let '(l, g1) := dag_merges g m in
      let k1 := kiss_step (g_rng g1) in
      match m with
      | O => (l ++ [(0, kiss_out k1)], mkGen k1 (g_src g1) (g_dst g1))
      | S _ => (l ++ [(dst_at (g_dst g1), kiss_out k1)], mkGen k1 (g_src g1) (S (g_dst g1)))
      end
  end.
End Program.

(** ** Lanes *)

Definition set_reg (rs : list N) (i v : N) : list N :=
  map (fun k => if N.of_nat k =? i then v else nth k rs 0) (seq 0 (length rs)).
Definition reg (rs : list N) (i : N) : N := nth (N.to_nat i) rs 0.

Definition run_op (l1 : list N) (cache_words : N) (rs : list N) (o : op) : list N :=
  match o with
  | CacheLoad src dst sel =>
      set_reg rs dst (merge_op (reg rs dst) (reg l1 (reg rs src mod cache_words)) sel)
  | Arith s1 s2 sel1 dst sel2 =>
      set_reg rs dst (merge_op (reg rs dst) (math_op (reg rs s1) (reg rs s2) sel1) sel2)
  end.
Definition run_merge (rs : list N) (m : (N * N) * N) : list N :=
  let '((dst, sel), word) := m in set_reg rs dst (merge_op (reg rs dst) word sel).

(** Initial registers of a lane. *)
Definition lane_rng (seed lane : N) : kiss :=
  let z := fnv1a basis (seed mod 2 ^ 32) in
  let w := fnv1a z ((seed / 2 ^ 32) mod 2 ^ 32) in
  let jsr := fnv1a w lane in
  (z, w, jsr, fnv1a jsr lane).
Definition lane_init (seed lane regs : N) : list N := tab regs (fun i => draw (lane_rng seed lane) (S (N.to_nat i))).

(** ** The hash *)

Section Hash.
Variables (period lanes regs rounds cache_ops math_ops cache_words : N).
Variable l1 : list N.
Variable pages : N.                (* pages of 64 words (256 bytes) in the dataset *)
Variable page : N -> list N.

Definition progpow_round (number : N) (r : N) (mix : list (list N)) : list (list N) :=
  let '(dst, src, k) := shuffle (N.to_nat regs) (period_rng number) (tab regs (fun i => i)) (tab regs (fun i => i)) in
  let '(ops, g) := program regs cache_ops math_ops src dst (mkGen k 0 0) (N.to_nat (N.max cache_ops math_ops)) in
  let item := page (reg (nth (N.to_nat (r mod lanes)) mix []) 0 mod pages) in
  let wpl := N.to_nat (64 / lanes) in
  let '(merges, _) := dag_merges regs dst g wpl in
  tab lanes (fun l =>
    let share := firstn wpl (skipn (wpl * N.to_nat (N.lxor l r mod lanes)) item) in
    fold_left run_merge (combine merges share)
      (fold_left (run_op l1 cache_words) ops (nth (N.to_nat l) mix []))).

Fixpoint progpow_mix (number seed : N) (r : nat) : list (list N) :=
  match r with
  | O => tab lanes (fun l => lane_init seed l regs)
  | S q => progpow_round number (N.of_nat q) (progpow_mix number seed q)
  end.

Definition lane_hash (rs : list N) : N := fold_left fnv1a rs basis.
(** Word [i] of the result folds the lanes i, i+8, i+16, ... *)
Definition progpow_hash (height seed : N) : list N :=
  let hs := map lane_hash (progpow_mix (height / period) seed (N.to_nat rounds)) in
  tab 8 (fun i => fold_left fnv1a
    (map (fun l => nth l hs 0) (filter (fun l => N.of_nat l mod 8 =? i) (seq 0 (N.to_nat lanes)))) basis).
End Hash.

(** ** The proof-of-work functions built on it *)

(** A Keccak-f[800] state of 25 words absorbs the header hash (8 words), the nonce (low word
    first) and 15 words of padding; the first two words of the result seed the hash.  A second
    state absorbs the first 8 words of the first, the 8 words of the mix and 9 words of padding. *)
Section Pow.
Variable f800 : list N -> list N.
Variables (seed_pad digest_pad : list N).
Variable mix : N -> list N.        (* the 8 words of the mix for a 64-bit seed *)

Definition pow_seed (header : list N) (nonce : N) : list N :=
  f800 (le_words 8 header ++ [nonce mod 2 ^ 32; nonce / 2 ^ 32] ++ seed_pad).
Definition pow_spec (header : list N) (nonce : N) : list N * list N :=
  let s := pow_seed header nonce in
  let m := mix (nth 0 s 0 + 2 ^ 32 * nth 1 s 0) in
  (words_bytes m, words_bytes (firstn 8 (f800 (firstn 8 s ++ m ++ digest_pad)))).
End Pow.

(** "rAVENCOINKAWPOW" *)
Definition kawpow_text : list N := [114; 65; 86; 69; 78; 67; 79; 73; 78; 75; 65; 87; 80; 79; 87].
Definition kawpow_seed_pad : list N := kawpow_text.
Definition kawpow_digest_pad : list N := firstn 9 kawpow_text.
(** Firopow pads like Keccak: a one after the data and 0x80008081 in the last rate word. *)
Definition firopow_seed_pad : list N := [1; 0; 0; 0; 0; 0; 0; 0; 0x80008081; 0; 0; 0; 0; 0; 0].
Definition firopow_digest_pad : list N := [0; 1; 0; 0; 0; 0; 0; 0; 0x80008081].
Definition plain_seed_pad : list N := repeat 0 15.
Definition plain_digest_pad : list N := repeat 0 9.

(** The mix of the three: 16 lanes of 32 registers, 64 rounds, 11 cache reads and 18 math
    operations per round, 4096 cached words; the period is 3, 1 and 10 blocks. *)
Definition standard_mix (period height : N) (l1 : list N) (pages : N) (page : N -> list N) (seed : N) : list N :=
  progpow_hash period 16 32 64 11 18 4096 l1 pages page height seed.
