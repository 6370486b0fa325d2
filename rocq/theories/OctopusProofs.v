(** Octopus equals its specification. *)
From Coq Require Import NArith ZArith Arith List Bool Lia ZifyBool ZifyN ZifyNat.
From Verif Require Import Base BaseFacts CryptoModel CryptoSpec CryptoProofs DagSpec Chunks DagContent
  EthashSpec EthashProofs OctopusModel OctopusSpec OctopusMath.
Import ListNotations.
Open Scope N_scope.
Ltac Zify.zify_post_hook ::= Z.div_mod_to_equations.

Lemma mulw_p x y : x < p -> y < p -> mulw 64 x y mod p = (x * y) mod p.
Proof. intros X Y. unfold mulw. rewrite trunc_small; auto. unfold p in *. nia. Qed.
Lemma mod_p_lt x : x mod p < p.
Proof. apply N.mod_lt, p_pos. Qed.

(** ** Coefficients *)
Lemma coefficients_spec v0 v1 v2 v3 nonce :
  sip_valid (v0, v1, v2, v3) -> nonce < 2 ^ 64 ->
  coefficients v0 v1 v2 v3 nonce = Done (tab 1024 (sip_coefficient (v0, v1, v2, v3) nonce)).
Proof.
  intros V Hn. unfold coefficients.
  change powWarpSize with 32. change powDataPerThread with 32. change powN with 1024.
  set (g := sip_coefficient (v0, v1, v2, v3) nonce).
  loop_inv (fun i d => lenN d = 1024 /\ forall k, k < 1024 -> k mod 32 < i -> nth (N.to_nat k) d 0 = g k) as d E I.
  - split; [reflexivity|]. intros; lia.
  - intros i d Hi (L & I).
    assert (MSG : addw 64 (mulw 64 (nonce / 32) 32) i = 32 * (nonce / 32) + i).
    { assert (mulw 64 (nonce / 32) 32 = 32 * (nonce / 32)) as -> by (unfold mulw; rewrite trunc_small; lia).
      unfold addw. apply trunc_small. change (2 ^ 64) with 18446744073709551616 in *. lia. }
    rewrite MSG.
    destruct (Hash24_spec (mkSip v0 v1 v2 v3) (32 * (nonce / 32) + i)) as (T & TV).
    { exact V. }
    { change (2 ^ 64) with 18446744073709551616 in *. lia. }
    change (tup (mkSip v0 v1 v2 v3)) with (v0, v1, v2, v3) in T.
    set (h0 := Hash24 (mkSip v0 v1 v2 v3) (32 * (nonce / 32) + i)) in *. clearbody h0.
    loop_inv (fun j (st : list N * sip) => lenN (fst st) = 1024 /\
        tup (snd st) = N.iter j sipround (tup h0) /\ valid_sip (snd st) /\
        forall k, k < 1024 -> (k mod 32 < i \/ (k mod 32 = i /\ k / 32 < j)) -> nth (N.to_nat k) (fst st) 0 = g k) as st E I2.
    + cbn [fst snd]. split; auto. split; [reflexivity|]. split; auto. intros k Hk [?|?]; [auto|lia].
    + intros j (d', h) Hj (L' & T' & V' & I'). cbn [fst snd] in *.
      destruct (SipRound_spec h V') as (T2 & V2).
      rewrite upd_Done by lia. cbn [bind].
      eexists; split; [reflexivity|]. cbn [fst snd].
      split; [unfold lenN in *; rewrite set_nth_length; auto|].
      split; [rewrite T2, T', N.add_1_r, N.iter_succ; auto|]. split; auto.
      intros k Hk HK. rewrite nth_set_nth by (unfold lenN in *; lia).
      destruct (Nat.eqb_spec (N.to_nat (j * 32 + i)) (N.to_nat k)) as [Eq|NE].
      * assert (K : k = j * 32 + i) by lia. unfold g, sip_coefficient.
        replace (k mod 32) with i by lia. replace (k / 32) with j by lia.
        rewrite <- T. rewrite N.add_1_r, N.iter_succ, <- T', <- T2.
        rewrite XorLanes_spec. change 0xffffffff with (N.ones 32). rewrite N.land_ones.
        unfold u32. apply trunc_small. change powMod with p. eapply N.lt_le_trans; [apply mod_p_lt|discriminate].
      * apply I'; auto. destruct HK as [?|[? ?]]; [auto|]. right. split; auto.
        clear - H NE H0; lia.
    + cbn [bind]. eexists; split; [reflexivity|]. destruct I2 as (L2 & _ & _ & I2).
      split; auto. intros k Hk HK. apply I2; auto. destruct (N.eq_dec (k mod 32) i); [right|left]; clear - n e Hk HK || clear - n Hk HK || clear - e Hk HK; lia.
  - f_equal. apply (list_eq_tab _ _ 0); [apply I|]. intros i Hi. apply I; clear - Hi; lia.
Qed.

(** ** Powers *)
Lemma pow_step a n x : a < p -> x = a ^ n mod p -> mulw 64 x a mod p = a ^ (n + 1) mod p.
Proof.
  intros A ->. rewrite mulw_p by (auto; apply mod_p_lt).
  rewrite N.mul_mod_idemp_l by apply p_pos. rewrite N.add_1_r, N.pow_succ_r'. f_equal. lia.
Qed.
Lemma startPowers_spec w nonce : w < p ->
  startPowers w nonce = Done (w ^ (nonce mod 32) mod p, w ^ (2 * (nonce mod 32)) mod p, w ^ 32 mod p, w ^ 64 mod p).
Proof.
  intros W. unfold startPowers. change powWarpSize with 32. change powMod with p.
  rewrite (mulw_p w w) by auto.
  assert (W2 : (w * w) mod p < p) by apply mod_p_lt.
  assert (SQ : forall n, ((w * w) mod p) ^ n mod p = w ^ (2 * n) mod p).
  { intros n. rewrite pow_mod_l, N.pow_mul_r, N.pow_2_r. auto. }
  set (m := nonce mod 32). assert (Hm : m < 32) by (apply N.mod_lt; discriminate). clearbody m.
  loop_inv (fun i (st : N * N) => fst st = w ^ i mod p /\ snd st = ((w * w) mod p) ^ i mod p) as st E I.
  { split; reflexivity. }
  { intros j (x, y) Hj (X & Y). cbn [fst snd] in *. eexists; split; [reflexivity|]. cbn [fst snd].
    split; apply pow_step; auto. }
  destruct st as (x, y). cbn [fst snd] in I. destruct I as (-> & ->).
  destruct (for_up_inv (fun i (st : N * N) => fst st = w ^ i mod p /\ snd st = ((w * w) mod p) ^ i mod p)
    (fun (_ : N) (st : N * N) => let '(wpow, w2pow) := st in
      Done (mulw 64 wpow w mod p, mulw 64 w2pow ((w * w) mod p) mod p)) (N.to_nat (32 - m)) m
      (w ^ m mod p, ((w * w) mod p) ^ m mod p)) as (st & E2 & I2).
  { split; reflexivity. }
  { intros j (x, y) _ Hj (X & Y). cbn [fst snd] in *. eexists; split; [reflexivity|]. cbn [fst snd].
    split; apply pow_step; auto. }
  rewrite E2. cbn [bind]. destruct st as (x, y). cbn [fst snd] in I2.
  replace (m + N.of_nat (N.to_nat (32 - m))) with 32 in I2 by (clear - Hm; lia). destruct I2 as (-> & ->).
  rewrite !SQ. reflexivity.
Qed.

(** ** Horner *)
Definition horner (x : N) (l : list N) : N := fold_right (fun c acc => c + x * acc) 0 l.
Lemma horner_sum coeff x n s :
  horner x (map coeff (map N.of_nat (seq s n))) =
  sum (map (fun k => coeff (N.of_nat (s + k)) * x ^ N.of_nat k) (seq 0 n)).
Proof.
  revert s; induction n; intros s; [reflexivity|].
  cbn [seq map horner fold_right sum]. rewrite Nat.add_0_r. change (N.of_nat 0) with 0.
  rewrite N.pow_0_r, N.mul_1_r. f_equal.
  fold (horner x (map coeff (map N.of_nat (seq (S s) n)))). rewrite IHn.
  rewrite <- seq_shift, map_map.
  assert (E : forall l, x * sum (map (fun k => coeff (N.of_nat (S s + k)) * x ^ N.of_nat k) l) =
    fold_right N.add 0 (map (fun k => coeff (N.of_nat (s + S k)) * x ^ N.of_nat (S k)) l)).
  { induction l as [|k t IH]; cbn [map sum fold_right]; [lia|].
    unfold sum in *. rewrite N.mul_add_distr_l, IH. f_equal.
    replace (s + S k)%nat with (S s + k)%nat by lia. rewrite (Nat2N.inj_succ k), N.pow_succ_r'. lia. }
  apply E.
Qed.

Lemma skipn_nth_cons {A} (l : list A) n d : (n < length l)%nat -> skipn n l = nth n l d :: skipn (S n) l.
Proof.
  revert l; induction n; intros [|a t] H; cbn [length] in H; try lia; [reflexivity|].
  cbn [skipn nth]. rewrite IHn by lia. reflexivity.
Qed.

Lemma horner_loop d x : length d = 1024%nat -> x < p -> (forall k, k < 1024 -> nth (N.to_nat k) d 0 < 2 ^ 32) ->
  for_n 1024 (fun j pv => v <- idx d (1024 - j - 1) ;; Done (addw 64 (mulw 64 pv x) v mod p)) 0 = Done (horner x d mod p).
Proof.
  intros L X B.
  loop_inv (fun j pv => pv = horner x (skipn (N.to_nat (1024 - j)) d) mod p) as pv E I.
  - rewrite skipn_all2 by lia. reflexivity.
  - intros j pv Hj ->. rewrite (idx_Done _ _ 0) by (unfold lenN; lia). cbn [bind].
    eexists; split; [reflexivity|].
    rewrite (skipn_nth_cons _ (N.to_nat (1024 - (j + 1))) 0) by lia.
    replace (S (N.to_nat (1024 - (j + 1)))) with (N.to_nat (1024 - j)) by lia.
    replace (1024 - (j + 1)) with (1024 - j - 1) by lia.
    cbn [horner fold_right]. fold (horner x (skipn (N.to_nat (1024 - j)) d)).
    set (h := horner x _). specialize (B (1024 - j - 1) ltac:(lia)).
    set (v := nth _ d 0) in *. clearbody h v.
    pose proof (mod_p_lt h) as Hh.
    assert (M : mulw 64 (h mod p) x = (h mod p) * x) by (unfold mulw; apply trunc_small; unfold p in *; nia).
    rewrite M. unfold addw. rewrite trunc_small by (unfold p in *; nia).
    rewrite N.add_comm. rewrite <- (N.add_mod_idemp_r v), <- (N.add_mod_idemp_r v (x * h)) by apply p_pos.
    rewrite N.mul_mod_idemp_l by apply p_pos. do 2 f_equal. f_equal. lia.
  - subst pv. reflexivity.
Qed.

Lemma fnv64_spec u v : Fnv1Uint64 u v = fnv64 u v.
Proof. unfold Fnv1Uint64, fnv64, mulw. rewrite trunc_mod. reflexivity. Qed.

Lemma fold_left_tab_succ {A} (f : A -> N -> A) n g a :
  fold_left f (tab (n + 1) g) a = f (fold_left f (tab n g) a) (g n).
Proof. rewrite tab_succ, fold_left_app. reflexivity. Qed.

Lemma poly_value_lt c x : poly_value c x < p.
Proof. apply mod_p_lt. Qed.
Lemma sip_coefficient_lt key nonce k : sip_coefficient key nonce k < p.
Proof. apply mod_p_lt. Qed.

Lemma evaluate_spec a b c w nonce coeff :
  a < p -> b < p -> c < p -> w < p -> (forall k, coeff k < p) ->
  let m := nonce mod 32 in
  let values := tab 32 (fun i => poly_value coeff (eval_point a b c w nonce i)) in
  evaluate a b c (tab 1024 coeff) (w ^ m mod p) (w ^ (2 * m) mod p) (w ^ 32 mod p) (w ^ 64 mod p)
  = Done (values, fold_left fnv64 values 0).
Proof.
  intros A B C W CO m values. unfold evaluate.
  change powDataPerThread with 32. change powN with 1024. change powMod with p.
  set (g := fun i => poly_value coeff (eval_point a b c w nonce i)) in *.
  loop_inv (fun i (st : N * N * list N * N) => let '(wpow, w2pow, resBuf, result) := st in
      (i < 32 -> wpow = w ^ (m + 32 * i) mod p /\ w2pow = w ^ (2 * (m + 32 * i)) mod p) /\
      lenN resBuf = 32 /\ (forall k, k < i -> nth (N.to_nat k) resBuf 0 = g k) /\
      result = fold_left fnv64 (tab i g) 0) as st E I.
  - rewrite N.mul_0_r, N.add_0_r. repeat split; auto. intros; lia.
  - intros i (((wpow, w2pow), resBuf), result) Hi (P & L & F & R).
    destruct (P Hi) as (P1 & P2). cbv beta iota.
    assert (WL : wpow < p) by (rewrite P1; apply mod_p_lt).
    assert (WL2 : w2pow < p) by (rewrite P2; apply mod_p_lt).
    assert (X : addw 64 (addw 64 (mulw 64 a w2pow) (mulw 64 b wpow)) c mod p = eval_point a b c w nonce i).
    { unfold eval_point. fold m. unfold mulw, addw.
      assert (T : forall z, z < 2 ^ 64 -> trunc 64 z = z) by (intros; apply trunc_small; auto).
      rewrite (T (a * w2pow)), (T (b * wpow)), (T (a * w2pow + b * wpow)), T by (clear - A B C WL WL2; unfold p in *; nia).
      rewrite P1, P2.
      rewrite <- N.add_mod_idemp_l, (N.add_mod (a * _)) by apply p_pos.
      rewrite !N.mul_mod_idemp_r by apply p_pos.
      rewrite <- N.add_mod, N.add_mod_idemp_l by apply p_pos. reflexivity. }
    rewrite X. clear X.
    set (x := eval_point a b c w nonce i).
    assert (HL : for_n 1024 (fun j pv => v <- idx (tab 1024 coeff) (1024 - j - 1) ;; Done (addw 64 (mulw 64 pv x) v mod p)) 0 = Done (g i)).
    { rewrite horner_loop.
      - f_equal. unfold g, poly_value. fold x. f_equal. unfold tab. rewrite <- map_map.
        rewrite (horner_sum coeff x (N.to_nat 1024) 0). reflexivity.
      - apply tab_length.
      - unfold x, eval_point. apply mod_p_lt.
      - intros k Hk. rewrite nth_tab by lia. rewrite N2Nat.id. specialize (CO k). clear - CO. unfold p in CO. lia. }
    rewrite HL. cbn [bind]. rewrite upd_Done by (clear - L Hi; lia). cbn [bind].
    assert (GL : g i < p) by exact (poly_value_lt _ _).
    assert (U : u32 (g i) = g i) by (apply trunc_small; clear - GL; unfold p in GL; lia). rewrite U, fnv64_spec.
    assert (R' : fnv64 result (g i) = fold_left fnv64 (tab (i + 1) g) 0) by (rewrite fold_left_tab_succ, R; auto).
    assert (F' : forall k, k < i + 1 -> nth (N.to_nat k) (set_nth resBuf (N.to_nat i) (g i)) 0 = g k).
    { intros k Hk. rewrite nth_set_nth by (clear - L Hi; unfold lenN in *; lia).
      destruct (Nat.eqb_spec (N.to_nat i) (N.to_nat k)) as [Eq|NE]; [f_equal; clear - Eq; lia|apply F; clear - Hk NE; lia]. }
    assert (L' : lenN (set_nth resBuf (N.to_nat i) (g i)) = 32) by (unfold lenN in *; rewrite set_nth_length; auto).
    destruct (N.ltb_spec (i + 1) 32).
    + eexists; split; [reflexivity|]. split; [|auto]. intros _. split.
      * rewrite mulw_p by (auto; apply mod_p_lt). rewrite P1, <- N.mul_mod, <- N.pow_add_r by apply p_pos.
        f_equal. f_equal. clear. lia.
      * rewrite mulw_p by (auto; apply mod_p_lt). rewrite P2, <- N.mul_mod, <- N.pow_add_r by apply p_pos.
        f_equal. f_equal. clear. lia.
    + eexists; split; [reflexivity|]. split; [clear - H; lia|auto].
  - destruct st as (((wpow, w2pow), resBuf), result). destruct I as (_ & L & F & R).
    assert (resBuf = values) by (apply (list_eq_tab _ _ 0); auto). subst. reflexivity.
Qed.

(** ** Dataset accesses *)
Lemma octopus_mix_ok half values pages item i :
  length half = 64%nat -> bytes half -> 0 < pages ->
  (forall k, k < 4 * pages -> length (item k) = 16%nat /\ words 32 (item k)) ->
  length (octopus_mix half values pages item i) = 64%nat /\ words 32 (octopus_mix half values pages item i).
Proof.
  intros L B P I. induction i as [|i (IL & IW)]; cbn [octopus_mix].
  - rewrite !app_length, !le_words_length. split; auto.
    repeat (apply words_app; split); apply le_words_words; auto.
  - set (q := _ mod pages).
    assert (Hq : q < pages) by (apply N.mod_lt; lia). clearbody q.
    destruct (I (4 * q) ltac:(lia)) as (L1 & W1). destruct (I (4 * q + 1) ltac:(lia)) as (L2 & W2).
    destruct (I (4 * q + 2) ltac:(lia)) as (L3 & W3). destruct (I (4 * q + 3) ltac:(lia)) as (L4 & W4).
    split.
    + rewrite map_length, combine_length, !app_length, IL, L1, L2, L3, L4. auto.
    + apply Forall_forall. intros x Hx. apply in_map_iff in Hx. destruct Hx as ((u & v) & <- & Hx).
      apply in_combine_r in Hx. apply fnv_lt.
      assert (W : words 32 (item (4 * q) ++ item (4 * q + 1) ++ item (4 * q + 2) ++ item (4 * q + 3)))
        by (repeat (apply words_app; split); auto).
      unfold words in W. rewrite Forall_forall in W. apply W; auto.
Qed.

(** Four items in a row. *)
Lemma nth_page item q n l : n < 4 -> l < 16 ->
  (forall k, k < 4 -> length (item (4 * q + k)) = 16%nat) ->
  nth (N.to_nat (16 * n + l)) (item (4 * q) ++ item (4 * q + 1) ++ item (4 * q + 2) ++ item (4 * q + 3)) 0 =
  nth (N.to_nat l) (item (4 * q + n)) 0.
Proof.
  intros Hn Hl L.
  pose proof (L 0 ltac:(lia)) as L0. rewrite N.add_0_r in L0.
  pose proof (L 1 ltac:(lia)). pose proof (L 2 ltac:(lia)). pose proof (L 3 ltac:(lia)).
  assert (C : n = 0 \/ n = 1 \/ n = 2 \/ n = 3) by lia.
  destruct C as [-> | [-> | [-> | ->]]].
  - rewrite app_nth1 by lia. rewrite N.add_0_r. f_equal. 
  - rewrite app_nth2, app_nth1 by lia. f_equal. lia.
  - rewrite app_nth2, app_nth2, app_nth1 by lia. f_equal. lia.
  - rewrite app_nth2, app_nth2, app_nth2 by lia. f_equal. lia.
Qed.

Lemma accesses_spec half values pages item lookup :
  length half = 64%nat -> bytes half -> 0 < pages -> pages <= 2 ^ 30 -> lenN values = 32 ->
  (forall i, i < 4 * pages -> lookup i = Done (item i) /\ length (item i) = 16%nat /\ words 32 (item i)) ->
  accesses (le_value (firstn 4 half)) pages values lookup (octopus_mix half values pages item 0) =
  Done (octopus_mix half values pages item 32).
Proof.
  intros LH BH P1 P2 LV LK. unfold accesses.
  change powAccesses with 32. change mixWords with 64. change mixNodes with 4.
  set (MX := octopus_mix half values pages item).
  assert (MO : forall i, length (MX i) = 64%nat /\ words 32 (MX i)).
  { intros i. apply octopus_mix_ok; auto. intros k Hk. destruct (LK k Hk) as (_ & X). exact X. }
  loop_inv (fun (i : N) (mix : list N) => mix = MX (N.to_nat i)) as mix E I.
  - reflexivity.
  - intros i mix Hi ->. destruct (MO (N.to_nat i)) as (ML & MW).
    rewrite (idx_Done values _ 0) by lia. cbn [bind].
    rewrite (idx_Done (MX (N.to_nat i)) _ 0) by (unfold lenN; lia). cbn [bind].
    unfold modc. destruct (N.eqb_spec pages 0) as [?|_]; [lia|]. cbn [bind].
    assert (UI : u32 i = i) by (apply trunc_small; lia). rewrite UI, Fnv1_fnv.
    replace (i mod 64) with i by lia.
    set (q := fnv _ _ mod pages).
    assert (Hq : q < pages) by (apply N.mod_lt; lia).
    assert (S : MX (S (N.to_nat i)) = map (fun '(a, b) => fnv a b)
        (combine (MX (N.to_nat i)) (item (4 * q) ++ item (4 * q + 1) ++ item (4 * q + 2) ++ item (4 * q + 3)))).
    { unfold MX. cbn [octopus_mix]. fold MX. rewrite N2Nat.id. reflexivity. }
    set (row := item (4 * q) ++ item (4 * q + 1) ++ item (4 * q + 2) ++ item (4 * q + 3)) in *.
    clearbody q.
    assert (LI : forall k, k < 4 -> length (item (4 * q + k)) = 16%nat).
    { intros k Hk. apply (LK (4 * q + k)). lia. }
    assert (RL : length row = 64%nat).
    { unfold row. rewrite !app_length. rewrite <- (N.add_0_r (4 * q)) at 1.
      rewrite !LI by lia. reflexivity. }
    assert (NP : forall n l, n < 4 -> l < 16 -> nth (N.to_nat (16 * n + l)) row 0 = nth (N.to_nat l) (item (4 * q + n)) 0).
    { intros n l Hn Hl. apply nth_page; auto. }
    clearbody row.
    set (M := MX (N.to_nat i)) in *.
    loop_inv (fun (n : N) (mix : list N) => length mix = 64%nat /\
       (forall k, k < 16 * n -> nth (N.to_nat k) mix 0 = fnv (nth (N.to_nat k) M 0) (nth (N.to_nat k) row 0)) /\
       (forall k, 16 * n <= k -> nth (N.to_nat k) mix 0 = nth (N.to_nat k) M 0)) as mix E I.
    + split; auto. split; auto. intros; lia.
    + intros n mix Hn (L & I1 & I2).
      assert (UN : u32 n = n) by (apply trunc_small; lia). rewrite UN.
      assert (IX : addw 32 (mulw 32 q 4) n = 4 * q + n).
      { assert (mulw 32 q 4 = 4 * q) as -> by (unfold mulw; rewrite trunc_small; lia).
        unfold addw. apply trunc_small. lia. }
      rewrite IX. destruct (LK (4 * q + n) ltac:(lia)) as (-> & LT & _). cbn [bind].
      rewrite slice_Done by (unfold lenN; lia). cbn [bind].
      assert (LS : lenN (firstn (N.to_nat ((n + 1) * 4 * 4 - n * 4 * 4)) (skipn (N.to_nat (n * 4 * 4)) mix)) = 16).
      { unfold lenN. rewrite firstn_length, skipn_length. lia. }
      rewrite LS.
      destruct (for_n_inv (fun l m => length m = 64%nat /\
         (forall k, k < 16 * n + l -> nth (N.to_nat k) m 0 = fnv (nth (N.to_nat k) M 0) (nth (N.to_nat k) row 0)) /\
         (forall k, 16 * n + l <= k -> nth (N.to_nat k) m 0 = nth (N.to_nat k) M 0)) 16
         (fun l mix => a <- idx mix (n * 4 * 4 + l) ;; t <- idx (item (4 * q + n)) l ;; upd mix (n * 4 * 4 + l) (Fnv1 a t)) mix)
        as (m & E2 & J).
      * rewrite N.add_0_r. auto.
      * intros l m Hl (Lm & J1 & J2). rewrite (idx_Done m _ 0) by (unfold lenN; lia). cbn [bind].
        rewrite (idx_Done (item (4 * q + n)) _ 0) by (unfold lenN; lia). cbn [bind].
        rewrite upd_Done by (unfold lenN; lia). eexists; split; [reflexivity|].
        split; [rewrite set_nth_length; auto|].
        split; intros k Hk; rewrite nth_set_nth by lia;
          destruct (Nat.eqb_spec (N.to_nat (n * 4 * 4 + l)) (N.to_nat k)) as [Eq|NE]; try lia.
        -- assert (k = 16 * n + l) by lia. subst k. rewrite NP by lia. rewrite Fnv1_fnv.
           replace (n * 4 * 4 + l) with (16 * n + l) by lia. rewrite J2 by lia. reflexivity.
        -- apply J1. lia.
        -- apply J2. lia.
      * exists m. split; [exact E2|]. replace (16 * n + 16) with (16 * (n + 1)) in J by lia. exact J.
    + destruct I as (L & I1 & _). eexists; split; [reflexivity|].
      replace (N.to_nat (i + 1)) with (Datatypes.S (N.to_nat i)) by lia. rewrite S.
      apply (list_eq_nth _ _ 0).
      * rewrite map_length, combine_length. lia.
      * intros k Hk. rewrite nth_map2 by lia.
        specialize (I1 (N.of_nat k) ltac:(lia)). rewrite Nat2N.id in I1. auto.
  - subst mix. reflexivity.
Qed.

(** ** Compression *)
Lemma compress_spec mix : length mix = 64%nat -> compress mix = Done (octopus_compress mix).
Proof.
  intros L. unfold compress.
  assert (FL : length (fold_words mix) = 16%nat) by (apply fold_words_length; auto).
  rewrite (for_fill 8 _ (fun i => nth (N.to_nat i) (octopus_compress mix) 0) _ 0); [|reflexivity|].
  - f_equal. symmetry. apply (list_eq_tab _ _ 0); auto.
    unfold octopus_compress, lenN. rewrite map_length, combine_length, firstn_length, skipn_length, FL. reflexivity.
  - intros i t Hi LT _ _.
    rewrite !(idx_Done mix _ 0) by (unfold lenN; lia). cbn [bind].
    f_equal. unfold octopus_compress.
    rewrite nth_map2 by (rewrite ?firstn_length, ?skipn_length, FL; lia).
    rewrite nth_firstn by lia. rewrite nth_skipn.
    rewrite !(nth_fold_words 16) by lia.
    assert (F : forall u v, N.lxor (mulw 32 u FnvPrime) v = fnv u v) by (intros; rewrite <- Fnv1_fnv; reflexivity).
    rewrite !F.
    replace (N.to_nat (i * 4 + 0)) with (4 * N.to_nat i)%nat by lia.
    replace (N.to_nat (i * 4 + 1)) with (4 * N.to_nat i + 1)%nat by lia.
    replace (N.to_nat (i * 4 + 2)) with (4 * N.to_nat i + 2)%nat by lia.
    replace (N.to_nat (i * 4 + 3)) with (4 * N.to_nat i + 3)%nat by lia.
    replace (N.to_nat ((8 + i) * 4 + 0)) with (4 * (8 + N.to_nat i))%nat by lia.
    replace (N.to_nat ((8 + i) * 4 + 1)) with (4 * (8 + N.to_nat i) + 1)%nat by lia.
    replace (N.to_nat ((8 + i) * 4 + 2)) with (4 * (8 + N.to_nat i) + 2)%nat by lia.
    replace (N.to_nat ((8 + i) * 4 + 3)) with (4 * (8 + N.to_nat i) + 3)%nat by lia.
    reflexivity.
Qed.

(** ** The digest *)
Lemma slice_word64 hash i : length hash = 32%nat -> i < 4 ->
  (b <- slice hash (8 * i) (8 * i + 8) ;; le_u64 b) = Done (word64 hash (N.to_nat i)).
Proof.
  intros L Hi. rewrite slice_Done by (unfold lenN; lia). cbn [bind]. unfold le_u64, word64.
  replace (N.to_nat (8 * i + 8 - 8 * i)) with 8%nat by lia.
  replace (N.to_nat (8 * i)) with (8 * N.to_nat i)%nat by lia.
  assert (LF : length (firstn 8 (skipn (8 * N.to_nat i) hash)) = 8%nat) by (rewrite firstn_length, skipn_length; lia).
  unfold lenN. rewrite LF. change (8 <=? N.of_nat 8) with true. cbv iota.
  rewrite firstn_firstn. reflexivity.
Qed.
Lemma hash_words hash : length hash = 32%nat -> exists b0 b1 b2 b3,
  slice hash 0 8 = Done b0 /\ slice hash 8 16 = Done b1 /\ slice hash 16 24 = Done b2 /\ slice hash 24 32 = Done b3 /\
  le_u64 b0 = Done (word64 hash 0) /\ le_u64 b1 = Done (word64 hash 1) /\
  le_u64 b2 = Done (word64 hash 2) /\ le_u64 b3 = Done (word64 hash 3).
Proof.
  intros LH.
  pose proof (slice_word64 hash 0 LH eq_refl) as W0. pose proof (slice_word64 hash 1 LH eq_refl) as W1.
  pose proof (slice_word64 hash 2 LH eq_refl) as W2. pose proof (slice_word64 hash 3 LH eq_refl) as W3.
  change (8 * 0) with 0 in W0. change (0 + 8) with 8 in W0. change (N.to_nat 0) with 0%nat in W0.
  change (8 * 1) with 8 in W1. change (8 + 8) with 16 in W1. change (N.to_nat 1) with 1%nat in W1.
  change (8 * 2) with 16 in W2. change (16 + 8) with 24 in W2. change (N.to_nat 2) with 2%nat in W2.
  change (8 * 3) with 24 in W3. change (24 + 8) with 32 in W3. change (N.to_nat 3) with 3%nat in W3.
  destruct (slice hash 0 8) as [b0| |]; cbn [bind] in W0; try discriminate W0.
  destruct (slice hash 8 16) as [b1| |]; cbn [bind] in W1; try discriminate W1.
  destruct (slice hash 16 24) as [b2| |]; cbn [bind] in W2; try discriminate W2.
  destruct (slice hash 24 32) as [b3| |]; cbn [bind] in W3; try discriminate W3.
  exists b0, b1, b2, b3. repeat (split; [reflexivity|]).
  split; [exact W0|]. split; [exact W1|]. split; [exact W2|exact W3].
Qed.
Lemma word64_lt hash i : bytes hash -> word64 hash i < 2 ^ 64.
Proof.
  intros B. unfold word64. set (b := firstn 8 (skipn (8 * i) hash)).
  assert (BB : bytes b) by (apply Forall_firstn, Forall_skipn; auto).
  pose proof (le_value_lt b BB) as H. 
  assert (length b <= 8)%nat by (unfold b; rewrite firstn_length; lia).
  assert (256 ^ N.of_nat (length b) <= 256 ^ 8) by (apply N.pow_le_mono_r; lia).
  change (256 ^ 8) with (2 ^ 64) in *. unfold lenN in H. eapply N.lt_le_trans; eauto.
Qed.

Lemma four_copies half : length half = 64%nat ->
  tab (lenN (half ++ half ++ half ++ half) / 4)
      (fun i => dec32 LittleEndian (firstn 4 (skipn (N.to_nat (4 * i)) (half ++ half ++ half ++ half)))) =
  le_words 16 half ++ le_words 16 half ++ le_words 16 half ++ le_words 16 half.
Proof.
  intros SL.
  assert (L4 : length (half ++ half ++ half ++ half) = 256%nat) by (rewrite !app_length, SL; reflexivity).
  unfold lenN. rewrite L4. change (N.of_nat 256 / 4) with 64.
    symmetry. apply (list_eq_tab _ _ 0).
    - unfold lenN. rewrite !app_length, !le_words_length. reflexivity.
    - intros i Hi. cbn [dec32].
      assert (SK : forall r n, skipn (64 + n) (half ++ r) = skipn n r).
      { intros r n. rewrite skipn_app, SL, skipn_all2 by (clear - SL; lia). cbn [app]. f_equal. clear. lia. }
      assert (FS : forall r n, (n < 16)%nat -> firstn 4 (skipn (4 * n) (half ++ r)) = firstn 4 (skipn (4 * n) half)).
      { intros r n Hnn. rewrite skipn_app, SL. replace (4 * n - 64)%nat with 0%nat by lia. cbn [skipn].
        rewrite firstn_app, skipn_length, SL. replace (4 - (64 - 4 * n))%nat with 0%nat by lia.
        cbn [firstn]. apply app_nil_r. }
      assert (GEN : forall q n, (n < 16)%nat -> N.to_nat i = (16 * q + n)%nat -> (q < 4)%nat ->
        nth (N.to_nat i) (le_words 16 half ++ le_words 16 half ++ le_words 16 half ++ le_words 16 half) 0 =
        le_value (firstn 4 (skipn (4 * n) half)) /\
        firstn 4 (skipn (N.to_nat (4 * i)) (half ++ half ++ half ++ half)) = firstn 4 (skipn (4 * n) half)).
      { intros q n Hnn Ei Hq. replace (N.to_nat (4 * i)) with (4 * N.to_nat i)%nat by lia. rewrite Ei.
        pose proof (le_words_length 16 half) as LL.
        destruct q as [|[|[|[|q]]]]; [| | | |lia].
        - change (16 * 0 + n)%nat with n. split; [|apply FS; auto].
          rewrite app_nth1 by lia. apply nth_le_words; auto.
        - change (16 * 1 + n)%nat with (16 + n)%nat. split.
          + rewrite app_nth2, app_nth1 by lia. rewrite LL. replace (16 + n - 16)%nat with n by lia. apply nth_le_words; auto.
          + replace (4 * (16 + n))%nat with (64 + 4 * n)%nat by lia. rewrite SK. apply FS; auto.
        - change (16 * 2 + n)%nat with (32 + n)%nat. split.
          + rewrite !app_nth2, app_nth1 by lia. rewrite LL. replace (32 + n - 16 - 16)%nat with n by lia. apply nth_le_words; auto.
          + replace (4 * (32 + n))%nat with (64 + (64 + 4 * n))%nat by lia. rewrite !SK. apply FS; auto.
        - change (16 * 3 + n)%nat with (48 + n)%nat. split.
          + rewrite !app_nth2 by lia. rewrite LL. replace (48 + n - 16 - 16 - 16)%nat with n by lia. apply nth_le_words; auto.
          + replace (4 * (48 + n))%nat with (64 + (64 + (64 + 4 * n)))%nat by lia. rewrite !SK. rewrite <- (app_nil_r half) at 1. apply FS; auto. }
      destruct (GEN (Nat.div (N.to_nat i) 16) (Nat.modulo (N.to_nat i) 16)) as (G1 & G2);
        [apply Nat.mod_upper_bound; discriminate|apply Nat.div_mod; discriminate|apply Nat.div_lt_upper_bound; lia|].
      rewrite G1, G2. reflexivity. 
Qed.

Lemma half_mix_input hash result : length hash = 32%nat ->
  halfMixInput hash result = Done (hash ++ le_bytes 8 result).
Proof.
  intros LH. unfold halfMixInput.
  assert (LH' : lenN hash = 32) by (unfold lenN; rewrite LH; auto). rewrite LH'.
  unfold copy_at at 1. change (0 <=? lenN (zeros nodeBytes)) with true. cbn [bind].
  assert (S : overwrite (zeros nodeBytes) (N.to_nat 0) hash = hash ++ zeros 32).
  { unfold overwrite. change (N.to_nat 0) with 0%nat. cbn [firstn app Nat.add]. rewrite LH.
    rewrite firstn_all2 by (rewrite LH; apply Nat.leb_le; reflexivity). reflexivity. }
  rewrite S. clear S.
  unfold slice_from at 1. rewrite lenN_app. change (lenN (zeros 32)) with 32.
  rewrite slice_Done by (rewrite ?lenN_app, ?LH'; change (lenN (zeros 32)) with 32; lia). cbn [bind].
  rewrite LH'. rewrite skipn_app, skipn_all2 by (change (N.to_nat 32) with 32%nat; lia).
  rewrite LH. change (N.to_nat 32 - 32)%nat with 0%nat. cbn [skipn app].
  change (firstn (N.to_nat (32 + 32 - 32)) (zeros 32)) with (zeros 32).
  unfold put_uint64. change (8 <=? lenN (zeros 32)) with true. cbv iota.
  unfold copy_at at 1. change (0 <=? lenN (zeros 32)) with true. cbn [bind].
  assert (S : overwrite (zeros 32) (N.to_nat 0) (le_bytes 8 result) = le_bytes 8 result ++ zeros 24) by reflexivity.
  rewrite S. clear S.
  unfold copy_at at 1. rewrite lenN_app, LH'. change (lenN (zeros 32)) with 32. change (32 <=? 32 + 32) with true. cbn [bind].
  assert (S : overwrite (hash ++ zeros 32) (N.to_nat 32) (le_bytes 8 result ++ zeros 24) = (hash ++ le_bytes 8 result) ++ zeros 24).
  { unfold overwrite. change (N.to_nat 32) with 32%nat. rewrite firstn_app, LH, Nat.sub_diag.
    rewrite firstn_all2 by lia. cbn [firstn]. rewrite app_nil_r, <- app_assoc. f_equal.
    rewrite !app_length, LH, le_bytes_length. change (length (zeros 32)) with 32%nat.
    rewrite firstn_all2 by (rewrite app_length, le_bytes_length; change (length (zeros 24)) with 24%nat; lia).
    rewrite skipn_all2 by (rewrite app_length, LH; change (length (zeros 24)) with 24%nat; change (length (zeros 32)) with 32%nat; lia). apply app_nil_r. }
  rewrite S. clear S.
  assert (LP : length (hash ++ le_bytes 8 result) = 40%nat) by (rewrite app_length, LH, le_bytes_length; auto).
  rewrite slice_Done by (clear - LP; unfold lenN; rewrite ?(app_length (hash ++ _)); lia).
  cbn [bind]. change (N.to_nat (32 + 8 - 0)) with 40%nat. change (N.to_nat 0) with 0%nat. cbn [skipn].
  rewrite firstn_app, LP, Nat.sub_diag, firstn_all2 by lia. cbn [firstn]. rewrite app_nil_r.
  reflexivity.
Qed.

Definition octopus_values (hash : list N) (c nonce : N) : list N :=
  tab 32 (fun i => poly_value (sip_coefficient (word64 hash 0, word64 hash 1, word64 hash 2, word64 hash 3) nonce)
    (eval_point (coefficient (word64 hash 0)) (coefficient (word64 hash 1)) c (coefficient (word64 hash 3)) nonce i)).

Lemma polynomial_spec fuel hash nonce :
  (64 <= fuel)%nat -> length hash = 32%nat -> bytes hash -> nonce < 2 ^ 64 ->
  exists k, k <= 4 /\
    (forall j, j < k -> degenerate (coefficient (word64 hash 0)) (coefficient (word64 hash 1)) (coefficient ((word64 hash 2 + j) mod 2 ^ 64))) /\
    ~ degenerate (coefficient (word64 hash 0)) (coefficient (word64 hash 1)) (coefficient ((word64 hash 2 + k) mod 2 ^ 64)) /\
    let values := octopus_values hash (coefficient ((word64 hash 2 + k) mod 2 ^ 64)) nonce in
    polynomial fuel hash nonce = Done (values, fold_left fnv64 values 0).
Proof.
  intros F LH BH Hn.
  destruct (computeC_spec fuel (coefficient (word64 hash 0)) (coefficient (word64 hash 1)) (word64 hash 2) F
    (proj1 (coefficient_range _)) (proj2 (coefficient_range _)) (proj2 (coefficient_range _)) (word64_lt hash 2 BH))
    as (k & K & CC & ND & D).
  exists k. split; [exact K|]. split; [exact D|]. split; [exact ND|]. cbv zeta. clear ND D.
  unfold polynomial.
  destruct (hash_words hash LH) as (b0 & b1 & b2 & b3 & E0 & E1 & E2 & E3 & R0 & R1 & R2 & R3).
  rewrite E0. cbn [bind]. rewrite R0. cbn [bind]. rewrite E1. cbn [bind]. rewrite R1. cbn [bind].
  rewrite E2. cbn [bind]. rewrite R2. cbn [bind]. rewrite E3. cbn [bind]. rewrite R3. cbn [bind].
  clear b0 b1 b2 b3 E0 E1 E2 E3 R0 R1 R2 R3.
  rewrite !remap_spec by auto. cbn [bind]. rewrite CC. cbn [bind]. clear CC.
  rewrite coefficients_spec; auto.
  2:{ unfold sip_valid. repeat split; apply word64_lt; auto. }
  cbn [bind]. rewrite startPowers_spec by apply coefficient_range. cbn [bind].
  set (key := (word64 hash 0, word64 hash 1, word64 hash 2, word64 hash 3)).
  exact (evaluate_spec (coefficient (word64 hash 0)) (coefficient (word64 hash 1))
    (coefficient ((word64 hash 2 + k) mod 2 ^ 64)) (coefficient (word64 hash 3)) nonce (sip_coefficient key nonce)
    (proj2 (coefficient_range _)) (proj2 (coefficient_range _)) (proj2 (coefficient_range _)) (proj2 (coefficient_range _))
    (sip_coefficient_lt key nonce)).
Qed.

Section DagPart.
Variable H256 : list N -> list N.

Lemma dagPart_head half values size lookup : length half = 64%nat ->
  dagPart H256 half values size lookup =
  (mixUWords <- accesses (le_value (firstn 4 half)) (u32 (size / (4 * mixWords))) values lookup
     (le_words 16 half ++ le_words 16 half ++ le_words 16 half ++ le_words 16 half) ;;
   compressWords <- compress mixUWords ;;
   Done (H256 (half ++ words_bytes compressWords))).
Proof.
  intros SL. unfold dagPart.
  rewrite slice_Done by (clear - SL; unfold lenN; lia). cbn [bind].
  change (N.to_nat (4 - 0)) with 4%nat. change (N.to_nat 0) with 0%nat. cbn [skipn].
  assert (HD : le_u32 (firstn 4 half) = Done (le_value (firstn 4 half))).
  { unfold le_u32, lenN. rewrite firstn_length, SL. cbn [Nat.min]. rewrite firstn_firstn. reflexivity. }
  rewrite HD. cbn [bind]. clear HD.
  rewrite BytesToUint32Array_spec. cbn [bind].
  assert (L4 : length (half ++ half ++ half ++ half) = 256%nat) by (rewrite !app_length, SL; reflexivity).
  rewrite (four_copies half SL).
  destruct (accesses _ _ values lookup _) as [m| |]; cbn [bind]; auto.
  destruct (compress m) as [cw| |]; cbn [bind]; auto.
  rewrite Uint32ArrayToBytes_spec. cbn [bind].
  rewrite slice_Done by (clear - L4; unfold lenN, nodeBytes; lia). cbn [bind].
  change (N.to_nat (nodeBytes - 0)) with 64%nat. change (N.to_nat 0) with 0%nat. cbn [skipn].
  rewrite firstn_app, SL, Nat.sub_diag, firstn_all2 by lia. cbn [firstn]. rewrite app_nil_r.
  f_equal. f_equal. f_equal. unfold words_bytes. rewrite flat_map_concat_map. reflexivity.
Qed.

Lemma dagPart_spec half values size lookup item : length half = 64%nat -> bytes half -> lenN values = 32 ->
  256 <= size -> size <= 2 ^ 38 ->
  (forall i, i < 4 * (size / 256) -> lookup i = Done (item i) /\ length (item i) = 16%nat /\ words 32 (item i)) ->
  dagPart H256 half values size lookup =
  Done (H256 (half ++ words_bytes (octopus_compress (octopus_mix half values (size / 256) item 32)))).
Proof.
  intros SL SB LV S1 S2 LK. rewrite dagPart_head by auto.
  change (le_words 16 half ++ _) with (octopus_mix half values (size / 256) item 0).
  assert (R : u32 (size / (4 * mixWords)) = size / 256).
  { change (4 * mixWords) with 256. apply trunc_small. change (2 ^ 38) with (2 ^ 30 * 256) in S2. lia. }
  rewrite R. clear R.
  assert (PB : size / 256 <= 2 ^ 30) by (change (2 ^ 38) with (2 ^ 30 * 256) in S2; lia).
  assert (P0 : 0 < size / 256) by lia.
  rewrite accesses_spec; auto. cbn [bind].
  destruct (octopus_mix_ok half values (size / 256) item 32 SL SB P0) as (ML & MW).
  { intros j Hj. apply (LK j Hj). }
  rewrite compress_spec by auto. reflexivity.
Qed.

Lemma dagPart_no_pages half values size lookup : length half = 64%nat -> lenN values = 32 -> size < 256 ->
  dagPart H256 half values size lookup = Panic.
Proof.
  intros SL LV S1. rewrite dagPart_head by auto.
  assert (R : u32 (size / (4 * mixWords)) = 0).
  { change (4 * mixWords) with 256. rewrite N.div_small by auto. reflexivity. }
  rewrite R. unfold accesses. change powAccesses with 32. unfold for_n. change (N.to_nat 32) with (S 31). cbn [for_up].
  rewrite (idx_Done values _ 0) by (rewrite LV; reflexivity). cbn [bind].
  rewrite (idx_Done _ _ 0) by (unfold lenN; rewrite !app_length, !le_words_length; reflexivity). cbn [bind].
  reflexivity.
Qed.
End DagPart.

Section Digest.
Variable H512 H256 : list N -> list N.
Hypothesis HH : hash_ok 64 H512.

Theorem octopus_refines fuel hash nonce size lookup item :
  (64 <= fuel)%nat -> length hash = 32%nat -> bytes hash -> nonce < 2 ^ 64 -> 256 <= size -> size <= 2 ^ 38 ->
  (forall i, i < 4 * (size / 256) -> lookup i = Done (item i) /\ length (item i) = 16%nat /\ words 32 (item i)) ->
  exists k, k <= 4 /\
    let a := coefficient (word64 hash 0) in
    let b := coefficient (word64 hash 1) in
    let c j := coefficient ((word64 hash 2 + j) mod 2 ^ 64) in
    (forall j, j < k -> degenerate a b (c j)) /\ ~ degenerate a b (c k) /\
    octopus fuel H512 H256 hash nonce size lookup =
    Done (octopus_spec H512 H256 hash (c k) nonce (size / 256) item).
Proof.
  intros F LH BH Hn S1 S2 LK.
  destruct (polynomial_spec fuel hash nonce F LH BH Hn) as (k & K & D & ND & E).
  exists k. split; [exact K|]. cbv zeta in *. split; [exact D|]. split; [exact ND|]. clear D ND.
  unfold octopus. rewrite E. cbn [bind]. rewrite half_mix_input by auto. cbn [bind].
  unfold octopus_spec. cbv zeta.
  fold (octopus_values hash (coefficient ((word64 hash 2 + k) mod 2 ^ 64)) nonce).
  assert (LV : lenN (octopus_values hash (coefficient ((word64 hash 2 + k) mod 2 ^ 64)) nonce) = 32) by apply lenN_tab.
  set (values := octopus_values _ _ _) in *. clearbody values.
  destruct (HH (hash ++ le_bytes 8 (fold_left fnv64 values 0))) as (SL & SB).
  apply dagPart_spec; auto.
Qed.

Lemma octopus_no_pages fuel hash nonce size lookup :
  (64 <= fuel)%nat -> length hash = 32%nat -> bytes hash -> nonce < 2 ^ 64 -> size < 256 ->
  octopus fuel H512 H256 hash nonce size lookup = Panic.
Proof.
  intros F LH BH Hn S1.
  destruct (polynomial_spec fuel hash nonce F LH BH Hn) as (k & K & D & ND & E).
  unfold octopus. rewrite E. cbn [bind]. rewrite half_mix_input by auto. cbn [bind].
  destruct (HH (hash ++ le_bytes 8 (fold_left fnv64 (octopus_values hash (coefficient ((word64 hash 2 + k) mod 2 ^ 64)) nonce) 0))) as (SL & SB).
  apply dagPart_no_pages; [exact SL|apply lenN_tab|exact S1].
Qed.
End Digest.
