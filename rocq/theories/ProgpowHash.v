(** The round, the hash and the three proof-of-work functions equal the specification. *)
From Coq Require Import NArith ZArith List Lia Bool ZifyBool ZifyNat ZifyN Arith Permutation.
From Verif Require Import Base BaseFacts KeccakModel KeccakSpec KeccakProofs CryptoModel CryptoSpec CryptoProofs
  DagSpec DagContent EthashProofs ProgpowModel ProgpowSpec ProgpowOps ProgpowProofs.
Import ListNotations.
Open Scope N_scope.
Ltac Zify.zify_post_hook ::= Z.div_mod_to_equations.

(** Parameters for which nothing wraps or divides by zero. *)
Record cfg_ok (cfg : pconfig) (l1 : list N) : Prop := {
  co_regs : 2 <= RegisterCount cfg /\ RegisterCount cfg < 2 ^ 16;
  co_lanes : 1 <= LaneCount cfg /\ LaneCount cfg < 2 ^ 32;
  co_cache : 1 <= CacheBytes cfg / 4 /\ CacheBytes cfg / 4 <= lenN l1 /\ words 32 l1;
  co_ops : RoundCacheAccesses cfg < 2 ^ 30 /\ RoundMathOperations cfg < 2 ^ 30;
  co_rounds : RoundCount cfg < 2 ^ 32;
  co_period : 1 <= PeriodLength cfg
}.

Lemma fnv1a_lt a b : fnv1a a b < 2 ^ 32.
Proof. apply N.mod_lt. lia. Qed.

Section Hash.
Variable cfg : pconfig.
Variable l1 : list N.
Hypothesis OK : cfg_ok cfg l1.
Notation R := (RegisterCount cfg).
Notation L := (LaneCount cfg).
Variable size : N.
Variable lookup : N -> outcome (list N).
Variable page : N -> list N.
Hypothesis Hsize : 256 <= size /\ size / 256 < 2 ^ 32.
Hypothesis Hlookup : forall i, i < size / 256 ->
  lookup i = Done (page i) /\ length (page i) = 64%nat /\ words 32 (page i).

Notation ROUND := (progpow_round L R (RoundCacheAccesses cfg) (RoundMathOperations cfg) (CacheBytes cfg / 4) l1 (size / 256) page).
Notation MIX := (progpow_mix L R (RoundCacheAccesses cfg) (RoundMathOperations cfg) (CacheBytes cfg / 4) l1 (size / 256) page).

Lemma round_refines number r M : r < 2 ^ 32 -> lanes_ok cfg M ->
  round cfg number r M size lookup l1 = Done (ROUND number r M) /\ lanes_ok cfg (ROUND number r M).
Proof.
  intros Hr LO. destruct OK as [HR HL HC (HO1 & HO2) HRC HP].
  assert (P16 : 2 ^ 16 = 65536) by reflexivity. assert (P32 : 2 ^ 32 = 4294967296) by reflexivity.
  assert (P30 : 2 ^ 30 = 1073741824) by reflexivity. assert (P31 : 2 ^ 31 = 2147483648) by reflexivity.
  unfold round, progpow_round.
  replace (u32 R) with R by (symmetry; apply trunc_small; lia).
  replace (u32 L) with L by (symmetry; apply trunc_small; lia).
  pose proof (initMixRngState_spec number R ltac:(lia)) as IS. unfold ids in IS at 1 2.
  destruct (shuffle (N.to_nat R) (period_rng number) (tab R (fun i => i)) (tab R (fun i => i))) as ((dst, src), k).
  destruct IS as (rr & E1 & K1 & V1 & PD & PS). rewrite E1. cbn [bind]. clear E1.
  replace (2 * 128) with 256 by reflexivity.
  replace (u32 (size / 256)) with (size / 256) by (symmetry; apply trunc_small; lia).
  set (pages := size / 256) in *. assert (Pg : 1 <= pages) by (unfold pages; lia).
  unfold modc at 1. destruct (N.eqb_spec L 0) as [?|_]; [lia|]. cbn [bind].
  assert (RL : r mod L < L) by (apply N.mod_lt; lia).
  rewrite (idx_Done M _ []) by (destruct LO; lia). cbn [bind].
  destruct (proj2 LO _ RL) as (RW1 & RW2). set (row := nth (N.to_nat (r mod L)) M []) in *.
  rewrite (idx_Done row _ 0) by lia. cbn [bind]. fold (reg row 0).
  unfold modc. destruct (N.eqb_spec pages 0) as [?|_]; [lia|]. cbn [bind].
  set (ix := reg row 0 mod pages). assert (IX : ix < pages) by (apply N.mod_lt; lia).
  destruct (Hlookup ix IX) as (EL & LI & WI). rewrite EL. cbn [bind]. set (item := page ix) in *.
  unfold divc. destruct (N.eqb_spec L 0) as [?|_]; [lia|]. cbn [bind].
  replace (lenN item) with 64 by (unfold lenN; rewrite LI; reflexivity).
  replace (maxInt (RoundCacheAccesses cfg) (RoundMathOperations cfg)) with (N.max (RoundCacheAccesses cfg) (RoundMathOperations cfg)).
  2:{ unfold maxInt. destruct (N.ltb_spec (RoundMathOperations cfg) (RoundCacheAccesses cfg)); lia. }
  set (mx := N.max _ _). assert (Hmx : mx < 2 ^ 30) by (unfold mx; lia).
  set (s0 := mkRng R 0 0 src dst rr). set (g0 := mkGen k 0 0).
  assert (R0 : rel cfg src dst s0 g0) by (constructor; auto).
  pose proof (program_loop cfg l1 HR HL HC src dst PS PD s0 g0 M mx R0 ltac:(split; auto) LO Hmx) as PL.
  destruct (program R (RoundCacheAccesses cfg) (RoundMathOperations cfg) src dst g0 (N.to_nat mx)) as (ops, g).
  destruct PL as (OO & GB & s & E2 & R2).
  match goal with |- context [for_n mx ?b (s0, M)] => match type of E2 with _ = ?rhs =>
    assert (E2' : for_n mx b (s0, M) = rhs) by exact E2; rewrite E2' end end. cbn [bind]. clear E2 E2'.
  assert (Q64 : 64 / L <= 64) by (apply N.div_le_upper_bound; nia).
  pose proof (dagPattern_ok cfg l1 HR HL HC src dst PD s g (64 / L) _ R2 GB ltac:(lia) ltac:(lia)) as DP.
  destruct (dag_merges R dst g (N.to_nat (64 / L))) as (ms, g').
  destruct DP as (LM & OM & s' & E3 & _). rewrite E3. cbn [bind]. clear E3.
  set (M1 := tab L (fun l => fold_left (run_op l1 (CacheBytes cfg / 4)) ops (nth (N.to_nat l) M []))).
  assert (LO1 : lanes_ok cfg M1).
  { apply (lanes_tab cfg l1 HR HL HC). intros l Hl. apply (run_ops_ok cfg l1 HR HL HC); auto. apply LO; auto. }
  pose proof (dagMerge_ok cfg l1 HR HL HC r item ms M1 Hr LI WI LO1 LM OM) as (E4 & LO2).
  rewrite E4. split.
  - f_equal. apply tab_ext. intros l Hl. unfold M1. rewrite nth_tab by lia. rewrite N2Nat.id. reflexivity.
  - apply (lanes_tab cfg l1 HR HL HC). intros l Hl. specialize (LO2 l Hl). unfold M1 in LO2. rewrite nth_tab in LO2 by lia.
    rewrite N2Nat.id in LO2. exact LO2.
Qed.


Lemma initMix_spec seed : initMix seed L R = Done (tab L (fun l => lane_init seed l R)).
Proof.
  destruct OK as [HR HL HC HO HRC HP]. assert (P32 : 2 ^ 32 = 4294967296) by reflexivity.
  unfold initMix. apply (for_fill L _ _ _ []).
  { unfold lenN. rewrite repeat_length. lia. }
  intros l t Hl Lt _ _. rewrite !Fnv1a_fnv1a, u32_mod, u32_hi.
  replace (u32 l) with l by (symmetry; apply trunc_small; lia).
  set (z := fnv1a fnvOffsetBasis (seed mod 2 ^ 32)).
  set (w := fnv1a z ((seed / 2 ^ 32) mod 2 ^ 32)).
  set (k0 := mkKiss z w (fnv1a w l) (fnv1a (fnv1a w l) l)).
  assert (EK : kt k0 = lane_rng seed l) by reflexivity.
  assert (VK : valid_k k0).
  { unfold valid_k. cbn. unfold z, w. repeat split; apply fnv1a_lt. }
  match goal with |- context [for_n R ?b _] => set (body := b) end.
  destruct (for_n_inv (fun i st => let '(rw, k) := st in
      length rw = N.to_nat R /\ valid_k k /\ kt k = Nat.iter (N.to_nat i) kiss_step (lane_rng seed l) /\
      firstn (N.to_nat i) rw = tab i (fun i => draw (lane_rng seed l) (S (N.to_nat i)))) R body (zeros R, k0)) as ((rw, k) & E & H).
  - split; [apply repeat_length|]. split; [auto|]. split; [auto|]. reflexivity.
  - intros i (rw, k) Hi (LR & VR & KR & FR). unfold body.
    destruct (next_spec k VR) as (N1 & N2 & N3). destruct (next k) as (v, k'). cbn [fst snd] in *.
    rewrite upd_Done by (unfold lenN; lia). cbn [bind]. eexists. split; [reflexivity|]. cbv beta.
    replace (N.to_nat (i + 1)) with (S (N.to_nat i)) by lia.
    rewrite set_nth_length. split; [auto|]. split; [auto|]. split; [rewrite N2, KR; reflexivity|].
    rewrite firstn_set_last by lia. rewrite FR, tab_succ. f_equal. f_equal. unfold draw. rewrite N1, KR. reflexivity.
  - rewrite E. cbn [bind fst]. destruct H as (A & _ & _ & D). rewrite firstn_all2 in D by lia. subst rw. reflexivity.
Qed.

Lemma kiss_iter_out k n : draw k (S n) < 2 ^ 32.
Proof. apply kiss_out_lt. Qed.
Lemma init_lanes_ok seed : lanes_ok cfg (tab L (fun l => lane_init seed l R)).
Proof.
  destruct OK as [HR HL HC HO HRC HP].
  apply (lanes_tab cfg l1 HR HL HC). intros l Hl. split; [apply lenN_tab|]. apply words_tab. intros i Hi. apply kiss_out_lt.
Qed.

Lemma progpow_mix_ok number seed n : N.of_nat n <= 2 ^ 32 -> lanes_ok cfg (MIX number seed n).
Proof.
  induction n; intros H; cbn [progpow_mix]; [apply init_lanes_ok|].
  apply round_refines; [lia|apply IHn; lia].
Qed.

Lemma mixHash_fold (hs : list N) :
  lenN hs = L ->
  for_n L (fun l mixHash =>
      h <- idx mixHash (l mod 8) ;;
      v <- idx hs l ;;
      upd mixHash (l mod 8) (Fnv1a h v)) (repeat fnvOffsetBasis 8) =
  Done (tab 8 (fun i => fold_left fnv1a
    (map (fun l => nth l hs 0) (filter (fun l => N.of_nat l mod 8 =? i) (seq 0 (N.to_nat L)))) basis)).
Proof.
  intros LH.
  set (F := fun n i => fold_left fnv1a (map (fun l => nth l hs 0) (filter (fun l => N.of_nat l mod 8 =? i) (seq 0 n))) basis).
  match goal with |- for_n L ?b _ = _ => set (body := b) end.
  destruct (for_n_inv (fun n m => m = tab 8 (F (N.to_nat n))) L body (repeat fnvOffsetBasis 8)) as (m & E & ->).
  - reflexivity.
  - intros l m Hl ->. unfold body.
    assert (M8 : l mod 8 < 8) by (apply N.mod_lt; lia).
    rewrite (idx_Done (tab 8 _) _ 0) by (rewrite lenN_tab; auto). cbn [bind].
    rewrite (idx_Done hs _ 0) by lia. cbn [bind].
    rewrite upd_Done by (rewrite lenN_tab; auto). eexists. split; [reflexivity|].
    apply (list_eq_tab _ _ 0); [unfold lenN; rewrite set_nth_length, tab_length; reflexivity|].
    intros i Hi. rewrite nth_set_nth by (rewrite tab_length; lia).
    replace (N.to_nat (l + 1)) with (S (N.to_nat l)) by lia. rewrite !nth_tab, !N2Nat.id by lia. unfold F.
    rewrite seq_S, filter_app, map_app, fold_left_app. cbn [Nat.add filter]. rewrite N2Nat.id.
    destruct (Nat.eqb_spec (N.to_nat (l mod 8)) (N.to_nat i)); destruct (N.eqb_spec (l mod 8) i); try lia.
    + cbn [map fold_left]. rewrite Fnv1a_fnv1a. subst i. reflexivity.
    + cbn [map fold_left]. reflexivity.
  - rewrite E. reflexivity.
Qed.

Lemma laneHash_loop M : lanes_ok cfg M ->
  for_n L (fun l laneHash =>
      laneHash <- upd laneHash l fnvOffsetBasis ;;
      for_n R (fun i laneHash =>
        h <- idx laneHash l ;;
        row <- idx M l ;;
        v <- idx row i ;;
        upd laneHash l (Fnv1a h v)) laneHash) (zeros L) = Done (map lane_hash M).
Proof.
  intros LO.
  assert (EM : map lane_hash M = tab L (fun l => lane_hash (nth (N.to_nat l) M []))).
  { rewrite (lanes_self cfg M LO) at 1. apply map_tab. }
  rewrite EM. apply (for_fill L _ _ _ 0).
  { unfold lenN, zeros. rewrite repeat_length. lia. }
  intros l t Hl Lt _ _. rewrite !upd_Done by lia. cbn [bind].
  destruct (proj2 LO l Hl) as (LR & WR).
  match goal with |- for_n R ?b _ = _ => set (body := b) end.
  destruct (for_n_inv (fun i h => h = set_nth t (N.to_nat l) (fold_left fnv1a (firstn (N.to_nat i) (nth (N.to_nat l) M [])) basis))
     R body (set_nth t (N.to_nat l) fnvOffsetBasis)) as (h & E & ->).
  - reflexivity.
  - intros i h Hi ->. unfold body.
    rewrite (idx_Done (set_nth _ _ _) _ 0) by (unfold lenN in *; rewrite set_nth_length; lia). cbn [bind].
    rewrite (idx_Done M _ []) by (destruct LO; lia). cbn [bind].
    rewrite (idx_Done (nth _ M []) _ 0) by lia. cbn [bind].
    rewrite upd_Done by (unfold lenN in *; rewrite set_nth_length; lia).
    eexists. split; [reflexivity|]. rewrite set_nth_twice. f_equal.
    rewrite nth_set_nth by (unfold lenN in *; lia). rewrite Nat.eqb_refl.
    replace (N.to_nat (i + 1)) with (S (N.to_nat i)) by lia.
    rewrite (firstn_succ_snoc (nth (N.to_nat l) M []) (N.to_nat i) (nth (N.to_nat i) (nth (N.to_nat l) M []) 0))
      by (apply nth_error_nth'; unfold lenN in *; lia).
    rewrite fold_left_app, Fnv1a_fnv1a. reflexivity.
  - rewrite E. f_equal. f_equal. unfold lane_hash. rewrite firstn_all2 by (unfold lenN in *; lia). reflexivity.
Qed.

Notation SPEC := (progpow_hash (PeriodLength cfg) L R (RoundCount cfg) (RoundCacheAccesses cfg) (RoundMathOperations cfg)
     (CacheBytes cfg / 4) l1 (size / 256) page).

Theorem Hash_refines height seed :
  Hash cfg height seed size lookup l1 = Done (words_bytes (SPEC height seed)) /\
  length (SPEC height seed) = 8%nat /\ words 32 (SPEC height seed).
Proof.
  split.
  - destruct OK as [HR HL HC HO HRC HP]. unfold Hash. rewrite initMix_spec. cbn [bind].
    unfold divc. destruct (N.eqb_spec (PeriodLength cfg) 0) as [?|_]; [lia|]. cbn [bind].
    set (number := height / PeriodLength cfg).
    loop_inv (fun i m => m = MIX number seed (N.to_nat i)) as m E Em.
    { reflexivity. }
    { intros i m Hi ->. replace (N.to_nat (i + 1)) with (S (N.to_nat i)) by lia. cbn [progpow_mix].
      eexists. split; [|reflexivity]. rewrite N2Nat.id.
      replace (u32 i) with i by (symmetry; apply trunc_small; lia).
      apply round_refines; [lia|apply progpow_mix_ok; lia]. }
    subst m. clear E.
    assert (LO : lanes_ok cfg (MIX number seed (N.to_nat (RoundCount cfg)))) by (apply progpow_mix_ok; lia).
    rewrite laneHash_loop by auto. cbn [bind].
    rewrite (for_fill 8 _ (fun _ => fnvOffsetBasis) (zeros 8) 0); [|reflexivity|reflexivity]. cbn [bind].
    change (tab 8 (fun _ => fnvOffsetBasis)) with (repeat fnvOffsetBasis 8).
    rewrite mixHash_fold by (unfold lenN; rewrite map_length; apply LO). cbn [bind].
    rewrite Uint32ArrayToBytes_spec, words_bytes_concat. reflexivity.
  - split; [apply tab_length|]. apply words_tab. intros i _.
    generalize (map (fun l => nth l (map lane_hash (MIX (height / PeriodLength cfg) seed (N.to_nat (RoundCount cfg)))) 0)
      (filter (fun l => N.of_nat l mod 8 =? i) (seq 0 (N.to_nat L)))). intros l.
    assert (G : forall l a, a < 2 ^ 32 -> fold_left fnv1a l a < 2 ^ 32).
    { clear. induction l; intros; cbn; auto. apply IHl. apply fnv1a_lt. }
    apply G. reflexivity.
Qed.
End Hash.

(** ** The sponge *)

Lemma le_u32_words8 hash i : length hash = 32%nat -> i < 8 ->
  (s <- slice hash (i * 4) (i * 4 + 4) ;; le_u32 s) = Done (nth (N.to_nat i) (le_words 8 hash) 0).
Proof.
  intros LH Hi. rewrite slice_Done by (unfold lenN; lia). cbn [bind]. unfold le_u32.
  assert (E : lenN (firstn (N.to_nat (i * 4 + 4 - i * 4)) (skipn (N.to_nat (i * 4)) hash)) = 4).
  { unfold lenN. rewrite firstn_length, skipn_length. lia. }
  rewrite E. cbn [N.leb N.compare Pos.compare Pos.compare_cont].
  rewrite nth_le_words by lia. f_equal. f_equal.
  replace (N.to_nat (i * 4 + 4 - i * 4)) with 4%nat by lia.
  replace (N.to_nat (i * 4)) with (4 * N.to_nat i)%nat by lia.
  rewrite firstn_firstn. reflexivity.
Qed.

Lemma set_nth_mid {A} (a : list A) x t n v : length a = n -> set_nth (a ++ x :: t) n v = a ++ v :: t.
Proof. intros <-. induction a; cbn; f_equal; auto. Qed.

Lemma absorb_header_spec hash nonce : length hash = 32%nat -> nonce < 2 ^ 64 ->
  absorb_header hash nonce = Done (le_words 8 hash ++ [nonce mod 2 ^ 32; nonce / 2 ^ 32] ++ repeat 0 15).
Proof.
  intros LH Hn. unfold absorb_header.
  set (W := le_words 8 hash). assert (LW : length W = 8%nat) by apply le_words_length.
  loop_inv (fun i s => s = firstn (N.to_nat i) W ++ repeat 0 (25 - N.to_nat i)%nat) as s E Es.
  - reflexivity.
  - intros i s Hi ->. pose proof (le_u32_words8 hash i LH Hi) as X.
    destruct (slice hash (i * 4) (i * 4 + 4)) as [b| |]; cbn [bind] in X |- *; try discriminate. rewrite X. cbn [bind].
    rewrite upd_Done by (unfold lenN; rewrite app_length, firstn_length, repeat_length; lia).
    eexists. split; [reflexivity|]. replace (N.to_nat (i + 1)) with (S (N.to_nat i)) by lia.
    rewrite (firstn_succ_snoc W (N.to_nat i) (nth (N.to_nat i) W 0)) by (apply nth_error_nth'; lia).
    replace (25 - N.to_nat i)%nat with (S (25 - S (N.to_nat i))) by lia. cbn [repeat].
    rewrite <- app_assoc. cbn [app]. fold W.
    apply set_nth_mid. rewrite firstn_length. lia.
  - subst s. rewrite firstn_all2 by (rewrite LW; cbn; lia).
    destruct W as [|w0 [|w1 [|w2 [|w3 [|w4 [|w5 [|w6 [|w7 [|]]]]]]]]]; try discriminate LW.
    rewrite u32_hi, u32_mod. rewrite (N.mod_small (nonce / 2 ^ 32)) by (apply N.div_lt_upper_bound; [lia|exact Hn]).
    reflexivity.
Qed.

Lemma le_bytes_le_words mix : words 32 mix -> length mix = 8%nat ->
  length (words_bytes mix) = 32%nat /\ le_words 8 (words_bytes mix) = mix.
Proof.
  intros W L. split; [|apply le_words_words_bytes; auto].
  rewrite words_bytes_concat. do 9 (destruct mix as [|? mix]; try discriminate L). reflexivity.
Qed.

Lemma absorb_mix_spec seed mix : length seed = 25%nat -> length mix = 8%nat -> words 32 mix ->
  absorb_mix seed (words_bytes mix) = Done (firstn 8 seed ++ mix ++ repeat 0 9).
Proof.
  intros LS LM WM. destruct (le_bytes_le_words mix WM LM) as (LB & EB).
  unfold absorb_mix.
  loop_inv (fun i s => s = firstn (N.to_nat i) seed ++ repeat 0 (8 - N.to_nat i)%nat ++ firstn (N.to_nat i) mix ++ repeat 0 (17 - N.to_nat i)%nat) as s E Es.
  - reflexivity.
  - intros i s Hi ->.
    rewrite (idx_Done seed _ 0) by (unfold lenN; lia). cbn [bind].
    rewrite upd_Done by (unfold lenN; rewrite !app_length, !firstn_length, !repeat_length; lia). cbn [bind].
    pose proof (le_u32_words8 (words_bytes mix) i LB Hi) as X.
    destruct (slice (words_bytes mix) (i * 4) (i * 4 + 4)) as [b| |]; cbn [bind] in X |- *; try discriminate. rewrite X, EB. cbn [bind].
    rewrite upd_Done by (unfold lenN; rewrite set_nth_length, !app_length, !firstn_length, !repeat_length; lia).
    eexists. split; [reflexivity|]. replace (N.to_nat (i + 1)) with (S (N.to_nat i)) by lia.
    rewrite (firstn_succ_snoc seed (N.to_nat i) (nth (N.to_nat i) seed 0)) by (apply nth_error_nth'; lia).
    rewrite (firstn_succ_snoc mix (N.to_nat i) (nth (N.to_nat i) mix 0)) by (apply nth_error_nth'; lia).
    replace (8 - N.to_nat i)%nat with (S (8 - S (N.to_nat i))) by lia.
    replace (17 - N.to_nat i)%nat with (S (17 - S (N.to_nat i))) by lia. cbn [repeat]. cbn [app].
    rewrite (set_nth_mid (firstn (N.to_nat i) seed)) by (rewrite firstn_length; lia).
    set (a := firstn (N.to_nat i) seed). set (z := repeat 0 (8 - S (N.to_nat i))). set (c := firstn (N.to_nat i) mix).
    set (t := repeat 0 (17 - S (N.to_nat i))).
    set (x := nth (N.to_nat i) seed 0). set (y := nth (N.to_nat i) mix 0).
    replace (a ++ x :: (z ++ c ++ 0 :: t)) with ((a ++ x :: z ++ c) ++ 0 :: t)
      by (rewrite <- app_assoc; cbn [app]; rewrite <- app_assoc; reflexivity).
    replace (a ++ (x :: z) ++ c ++ 0 :: t) with ((a ++ x :: z ++ c) ++ 0 :: t)
      by (rewrite <- app_assoc; cbn [app]; rewrite <- app_assoc; reflexivity).
    rewrite set_nth_mid.
    2:{ rewrite app_length. cbn [length]. rewrite app_length. unfold a, z, c.
        rewrite !firstn_length, repeat_length. lia. }
    rewrite <- !app_assoc. cbn [app]. rewrite <- !app_assoc. reflexivity.
  - subst s. change (N.to_nat 8) with 8%nat. rewrite (firstn_all2 mix) by lia. reflexivity.
Qed.

Lemma seed_head_spec s : length s = 25%nat -> words 32 s ->
  seed_head s = Done (nth 0 s 0 + 2 ^ 32 * nth 1 s 0).
Proof.
  intros L W. unfold seed_head. rewrite !(idx_Done s _ 0) by (unfold lenN; lia). cbn [bind].
  change (N.to_nat 0) with 0%nat. change (N.to_nat 1) with 1%nat.
  assert (A := words_nth 32 s 0 W). assert (B := words_nth 32 s 1 W).
  assert (P32 : 2 ^ 32 = 4294967296) by reflexivity. assert (P64 : 2 ^ 64 = 4294967296 * 4294967296) by reflexivity.
  unfold addw, shlw. rewrite N.shiftl_mul_pow2.
  rewrite (trunc_small 64 (_ * _)) by lia. rewrite trunc_small by lia. f_equal. lia.
Qed.

Lemma squeeze_digest_spec s : length s = 25%nat -> squeeze_digest s = Done (words_bytes (firstn 8 s)).
Proof.
  intros L. unfold squeeze_digest. rewrite slice_Done by (unfold lenN; lia). cbn [bind].
  rewrite Uint32ArrayToBytes_spec, words_bytes_concat. reflexivity.
Qed.

(** The three functions, for any way of padding the two states. *)
Section Pow.
Variables (pad1 pad2 : list N -> outcome (list N)) (seed_pad digest_pad : list N).
Hypothesis P1 : forall l, length l = 10%nat -> pad1 (l ++ repeat 0 15) = Done (l ++ seed_pad).
Hypothesis P2 : forall l, length l = 16%nat -> pad2 (l ++ repeat 0 9) = Done (l ++ digest_pad).
Hypothesis S1 : length seed_pad = 15%nat /\ words 32 seed_pad.
Hypothesis S2 : length digest_pad = 9%nat /\ words 32 digest_pad.
Variable mixfun : N -> outcome (list N).
Variable mix : N -> list N.
Hypothesis HM : forall s, mixfun s = Done (words_bytes (mix s)) /\ length (mix s) = 8%nat /\ words 32 (mix s).

Lemma pow_refines hash nonce : length hash = 32%nat -> bytes hash -> nonce < 2 ^ 64 ->
  (' x <- (seed <- absorb_header hash nonce ;;
           seed <- pad1 seed ;;
           seed <- KeccakF800 seed ;;
           head <- seed_head seed ;;
           Done (seed, head)) ;;
   let '(seed, seedHead) := x in
   mixHash <- mixfun seedHead ;;
   digest <- (state <- absorb_mix seed mixHash ;;
              state <- pad2 state ;;
              state <- KeccakF800 state ;;
              squeeze_digest state) ;;
   Done (mixHash, digest)) =
  Done (pow_spec (keccak_f 32) seed_pad digest_pad mix hash nonce) /\
  length (fst (pow_spec (keccak_f 32) seed_pad digest_pad mix hash nonce)) = 32%nat /\
  length (snd (pow_spec (keccak_f 32) seed_pad digest_pad mix hash nonce)) = 32%nat.
Proof.
  intros LH BH Hn. rewrite absorb_header_spec by auto. cbn [bind].
  assert (P32 : 2 ^ 32 = 4294967296) by reflexivity. assert (P64 : 2 ^ 64 = 4294967296 * 4294967296) by reflexivity.
  rewrite app_assoc, P1 by (rewrite app_length, le_words_length; reflexivity). cbn [bind].
  assert (ST : state25 ((le_words 8 hash ++ [nonce mod 2 ^ 32; nonce / 2 ^ 32]) ++ seed_pad)).
  { split.
    - rewrite !app_length, le_words_length. cbn [length]. destruct S1 as (-> & _). reflexivity.
    - apply words_app. split; [|apply S1]. apply words_app. split; [apply le_words_words; auto|].
      constructor; [apply N.mod_lt; lia|constructor; [|constructor]].
      apply N.div_lt_upper_bound; lia. }
  rewrite KeccakF800_refines by exact ST. cbn [bind].
  assert (SK := keccak_f_state _ ST). rewrite <- app_assoc in SK |- *.
  unfold pow_spec. fold (pow_seed (keccak_f 32) seed_pad hash nonce) in SK |- *.
  set (s := pow_seed (keccak_f 32) seed_pad hash nonce) in *. clearbody s. destruct SK as (LS & WS).
  rewrite seed_head_spec by auto. cbn [bind]. set (hd := nth 0 s 0 + _).
  destruct (HM hd) as (EM & LM & WM). rewrite EM. cbn [bind].
  rewrite absorb_mix_spec by auto. cbn [bind].
  rewrite app_assoc, P2 by (rewrite app_length, firstn_length; lia). cbn [bind]. rewrite <- app_assoc.
  assert (ST2 : state25 (firstn 8 s ++ mix hd ++ digest_pad)).
  { split.
    - rewrite !app_length, firstn_length, LM. destruct S2 as (-> & _). rewrite LS. reflexivity.
    - apply words_app. split; [apply Forall_firstn; auto|]. apply words_app. split; [auto|apply S2]. }
  rewrite KeccakF800_refines by exact ST2. cbn [bind].
  destruct (keccak_f_state _ ST2) as (LF & WF).
  rewrite squeeze_digest_spec by auto. cbn [bind]. split; [reflexivity|]. cbn [fst snd]. split.
  - apply le_bytes_le_words; auto.
  - apply le_bytes_le_words; [apply Forall_firstn; auto|]. rewrite firstn_length. lia.
Qed.
End Pow.
