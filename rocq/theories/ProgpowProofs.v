(** The ProgPoW hash of the model equals the specification. *)
From Coq Require Import NArith ZArith List Lia Bool ZifyBool ZifyNat ZifyN Arith Permutation FinFun.
From Verif Require Import Base BaseFacts CryptoModel CryptoSpec CryptoProofs DagSpec DagContent ProgpowModel ProgpowSpec ProgpowOps.
Import ListNotations.
Open Scope N_scope.
Ltac Zify.zify_post_hook ::= Z.div_mod_to_equations.

(** ** Sequences *)

Lemma exchange_length l i j : length (exchange l i j) = length l.
Proof. unfold exchange. rewrite map_length, seq_length. auto. Qed.

Lemma nth_exchange l i j k : (k < length l)%nat ->
  nth k (exchange l i j) 0 = if Nat.eqb k i then nth j l 0 else if Nat.eqb k j then nth i l 0 else nth k l 0.
Proof.
  intros H. unfold exchange.
  set (f := fun k => if Nat.eqb k i then nth j l 0 else if Nat.eqb k j then nth i l 0 else nth k l 0).
  rewrite nth_indep with (d' := f 0%nat) by (rewrite map_length, seq_length; auto).
  rewrite map_nth, seq_nth by auto. reflexivity.
Qed.

Lemma exchange_perm l i j : (i < length l)%nat -> (j < length l)%nat -> Permutation l (exchange l i j).
Proof.
  intros Hi Hj. apply (Permutation_nth l (exchange l i j) 0). cbv zeta.
  split; [apply exchange_length|].
  exists (fun k => if Nat.eqb k i then j else if Nat.eqb k j then i else k).
  split; [|split].
  - intros k Hk. destruct (Nat.eqb_spec k i), (Nat.eqb_spec k j); auto.
  - intros x y Hx Hy.
    destruct (Nat.eqb_spec x i), (Nat.eqb_spec x j), (Nat.eqb_spec y i), (Nat.eqb_spec y j); lia.
  - intros k Hk. rewrite nth_exchange by auto. destruct (Nat.eqb_spec k i), (Nat.eqb_spec k j); auto.
Qed.

Lemma swap_spec l i j : i < lenN l -> j < lenN l ->
  swap l i j = Done (exchange l (N.to_nat i) (N.to_nat j)).
Proof.
  intros Hi Hj. unfold swap. rewrite !(idx_Done l _ 0) by auto. cbn [bind].
  rewrite upd_Done by auto. cbn [bind].
  rewrite upd_Done by (unfold lenN in *; rewrite set_nth_length; auto). f_equal. unfold lenN in *.
  apply (list_eq_nth _ _ 0); [rewrite !set_nth_length, exchange_length; auto|].
  intros k Hk. rewrite !set_nth_length in Hk.
  rewrite nth_exchange by auto.
  rewrite nth_set_nth by (rewrite set_nth_length; lia). rewrite nth_set_nth by lia.
  destruct (Nat.eqb_spec (N.to_nat j) k), (Nat.eqb_spec (N.to_nat i) k),
    (Nat.eqb_spec k (N.to_nat i)), (Nat.eqb_spec k (N.to_nat j)); try lia; subst; auto.
  congruence.
Qed.

Lemma shuffle_perm n : forall k dst src, (n <= length dst)%nat -> (n <= length src)%nat ->
  let '(d, s, _) := shuffle n k dst src in Permutation dst d /\ Permutation src s.
Proof.
  induction n as [|n IH]; intros k dst src Hd Hs; [cbn; auto|].
  destruct n as [|m]; [cbn; auto|].
  cbn [shuffle]. set (a := N.to_nat _). set (b := N.to_nat _).
  assert (Ha : (a < S (S m))%nat) by (unfold a; lia). assert (Hb : (b < S (S m))%nat) by (unfold b; lia).
  specialize (IH (kiss_step (kiss_step k)) (exchange dst (S m) a) (exchange src (S m) b)).
  rewrite !exchange_length in IH. specialize (IH ltac:(lia) ltac:(lia)).
  destruct (shuffle (S m) (kiss_step (kiss_step k)) (exchange dst (S m) a) (exchange src (S m) b)) as ((d, s), k') eqn:E.
  cbn [shuffle] in E. rewrite E. destruct IH as (P1 & P2).
  split; (eapply perm_trans; [apply exchange_perm|]; [| |eassumption]; lia).
Qed.

Lemma period_rng_valid seed : kiss_valid (period_rng seed).
Proof. unfold period_rng. cbn [kiss_valid]. repeat split; apply N.mod_lt; discriminate. Qed.

Lemma Fnv1a_fnv1a a b : Fnv1a a b = fnv1a a b.
Proof. destruct (fnv_values a b) as (_ & E & _). exact E. Qed.
Lemma u32_mod x : u32 x = x mod 2 ^ 32.
Proof. apply trunc_mod. Qed.
Lemma u32_hi x : u32 (N.shiftr x 32) = (x / 2 ^ 32) mod 2 ^ 32.
Proof. unfold u32. rewrite trunc_mod, N.shiftr_div_pow2. reflexivity. Qed.

Lemma kiss99_eta k : mkKiss (fst (fst (fst (kt k)))) (snd (fst (fst (kt k)))) (snd (fst (kt k))) (snd (kt k)) = k.
Proof. destruct k; reflexivity. Qed.

Definition ids (n : N) : list N := tab n (fun i => i).

Theorem initMixRngState_spec seed sz :
  sz < 2 ^ 32 ->
  let '(dst, src, k) := shuffle (N.to_nat sz) (period_rng seed) (ids sz) (ids sz) in
  exists r, initMixRngState seed sz = Done (mkRng sz 0 0 src dst r) /\ kt r = k /\ valid_k r /\
    Permutation (ids sz) dst /\ Permutation (ids sz) src.
Proof.
  intros Hsz. unfold initMixRngState.
  rewrite !Fnv1a_fnv1a, !u32_mod, N.shiftr_div_pow2.
  change (fnv1a fnvOffsetBasis (seed mod 2 ^ 32)) with (fnv1a basis (seed mod 2 ^ 32)).
  set (r0 := mkKiss _ _ _ _).
  assert (K0 : kt r0 = period_rng seed) by reflexivity.
  assert (V0 : valid_k r0) by (unfold valid_k; rewrite K0; apply period_rng_valid).
  loop_inv (fun (i : N) (st : list N * list N) => lenN (fst st) = sz /\ lenN (snd st) = sz /\
     forall k, k < i -> nth (N.to_nat k) (fst st) 0 = k /\ nth (N.to_nat k) (snd st) 0 = k) as st E1 I1.
  { cbn [fst snd]. rewrite lenN_zeros. repeat split; auto; lia. }
  { intros i (s, d) Hi (L1 & L2 & H). cbn [fst snd] in *. rewrite !upd_Done by lia. cbn [bind]. eexists; split; [reflexivity|]. cbn [fst snd].
    unfold lenN in *. rewrite !set_nth_length. split; auto. split; auto.
    intros k Hk. rewrite !nth_set_nth by lia.
    destruct (Nat.eqb_spec (N.to_nat i) (N.to_nat k)); [split; lia|apply H; lia]. }
  destruct st as (s0, d0). cbn [fst snd] in I1. destruct I1 as (L1 & L2 & H1).
  assert (S0 : s0 = ids sz) by (apply (list_eq_tab _ _ 0); auto; intros; apply H1; auto).
  assert (D0 : d0 = ids sz) by (apply (list_eq_tab _ _ 0); auto; intros; apply H1; auto).
  subst s0 d0. clear E1 H1 L1 L2.
  pose proof (shuffle_perm (N.to_nat sz) (period_rng seed) (ids sz) (ids sz)) as SP.
  unfold ids in SP at 1 2. rewrite !tab_length in SP. specialize (SP ltac:(lia) ltac:(lia)).
  loop_inv (fun (q : N) (st : list N * list N * kiss99) => let '(s, d, r) := st in
     valid_k r /\ lenN s = sz /\ lenN d = sz /\
     shuffle (N.to_nat (sz - q)) (kt r) d s = shuffle (N.to_nat sz) (period_rng seed) (ids sz) (ids sz)) as st E2 I2.
  { split; auto. split; [apply lenN_tab|]. split; [apply lenN_tab|].
    rewrite N.sub_0_r, K0. reflexivity. }
  { intros q ((s, d), r) Hq (V & L1 & L2 & SH).
    pose proof (next_spec r V) as (N1 & N2 & N3). destruct (next r) as (v, r') eqn:En. cbn [fst snd] in N1, N2, N3.
    pose proof (next_spec r' N3) as (N4 & N5 & N6). destruct (next r') as (v', r'') eqn:En'. cbn [fst snd] in N4, N5, N6.
    unfold modc. destruct (N.eqb_spec (sz - q) 0) as [?|_]; [lia|]. cbn [bind].
    rewrite swap_spec by lia. cbn [bind]. rewrite swap_spec by lia. cbn [bind].
    eexists; split; [reflexivity|]. cbv beta iota.
    split; auto. split; [unfold lenN in *; rewrite exchange_length; auto|].
    split; [unfold lenN in *; rewrite exchange_length; auto|].
    rewrite <- SH. assert (E : N.to_nat (sz - q) = S (S (N.to_nat (sz - q - 2)))) by lia. rewrite E.
    cbn [shuffle]. replace (N.to_nat (sz - (q + 1))) with (S (N.to_nat (sz - q - 2))) by lia.
    rewrite N5, N4, N2, N1.
    replace (N.to_nat (sz - q - 1)) with (S (N.to_nat (sz - q - 2))) by lia.
    replace (N.of_nat (S (S (N.to_nat (sz - q - 2))))) with (sz - q) by lia. reflexivity. }
  destruct st as ((s, d), r). destruct I2 as (V & L1 & L2 & SH).
  assert (EN : shuffle (N.to_nat (sz - (sz - 1))) (kt r) d s = (d, s, kt r)).
  { destruct (N.eq_dec sz 0) as [->|NZ]; [reflexivity|].
    replace (N.to_nat (sz - (sz - 1))) with 1%nat by lia. reflexivity. }
  rewrite <- SH, EN. rewrite <- SH, EN in SP. exists r. auto.
Qed.

Lemma firstn_set_last {A} (l : list A) n v : (n < length l)%nat -> firstn (S n) (set_nth l n v) = firstn n l ++ [v].
Proof.
  revert n; induction l; intros n H; cbn in H; [lia|]. destruct n; cbn [set_nth firstn app]; [auto|].
  f_equal. apply IHl. lia.
Qed.

(** ** Generator states *)

Section Round.
Variable cfg : pconfig.
Notation R := (RegisterCount cfg).
Notation L := (LaneCount cfg).
Notation words_cached := (CacheBytes cfg / 4).
Variable l1 : list N.
Hypothesis HR : 2 <= R /\ R < 2 ^ 16.
Hypothesis HL : 1 <= L /\ L < 2 ^ 32.
Hypothesis HC : 1 <= words_cached /\ words_cached <= lenN l1 /\ words 32 l1.

Variables src dst : list N.
Hypothesis Hsrc : Permutation (ids R) src.
Hypothesis Hdst : Permutation (ids R) dst.

Lemma ids_length n : length (ids n) = N.to_nat n.
Proof. apply tab_length. Qed.
Lemma in_ids n x : In x (ids n) <-> x < n.
Proof.
  unfold ids, tab. rewrite in_map_iff. split.
  - intros (i & <- & H). apply in_seq in H. lia.
  - intros H. exists (N.to_nat x). split; [lia|]. apply in_seq. lia.
Qed.

Lemma seq_length_R s : Permutation (ids R) s -> length s = N.to_nat R.
Proof. intros P. rewrite <- (Permutation_length P). apply ids_length. Qed.
Lemma seq_at_lt s n : Permutation (ids R) s -> nth (Nat.modulo n (N.to_nat R)) s 0 < R.
Proof.
  intros P. apply in_ids. apply (Permutation_in _ (Permutation_sym P)). apply nth_In.
  rewrite seq_length_R by auto. apply Nat.mod_upper_bound. lia.
Qed.

Record rel (s : mixRngState) (g : gen) : Prop := {
  rl_eq : s = mkRng R (N.of_nat (g_src g)) (N.of_nat (g_dst g)) src dst (rng s);
  rl_kt : kt (rng s) = g_rng g;
  rl_valid : valid_k (rng s)
}.

Lemma nextSrc_ok s g : rel s g -> N.of_nat (g_src g) + 1 < 2 ^ 32 ->
  exists s', nextSrc s = Done (src_at R src (g_src g), s') /\ rel s' (mkGen (g_rng g) (S (g_src g)) (g_dst g)).
Proof.
  intros [E K V] B. rewrite E. unfold nextSrc. cbn [ProgpowModel.size srcCounter dstCounter srcSequence dstSequence rng].
  unfold modc. destruct (N.eqb_spec R 0) as [?|_]; [lia|]. cbn [bind].
  rewrite (idx_Done _ _ 0) by (unfold lenN; rewrite seq_length_R by auto; lia). cbn [bind].
  eexists. split.
  - f_equal. f_equal. unfold src_at. f_equal. rewrite N2Nat.inj_mod, Nat2N.id. reflexivity.
  - constructor; cbn [rng g_rng g_src g_dst]; auto. f_equal. unfold addw. rewrite trunc_small by auto. lia.
Qed.
Lemma nextDst_ok s g : rel s g -> N.of_nat (g_dst g) + 1 < 2 ^ 32 ->
  exists s', nextDst s = Done (dst_at R dst (g_dst g), s') /\ rel s' (mkGen (g_rng g) (g_src g) (S (g_dst g))).
Proof.
  intros [E K V] B. rewrite E. unfold nextDst. cbn [ProgpowModel.size srcCounter dstCounter srcSequence dstSequence rng].
  unfold modc. destruct (N.eqb_spec R 0) as [?|_]; [lia|]. cbn [bind].
  rewrite (idx_Done _ _ 0) by (unfold lenN; rewrite seq_length_R by auto; lia). cbn [bind].
  eexists. split.
  - f_equal. f_equal. unfold dst_at. f_equal. rewrite N2Nat.inj_mod, Nat2N.id. reflexivity.
  - constructor; cbn [rng g_rng g_src g_dst]; auto. f_equal. unfold addw. rewrite trunc_small by auto. lia.
Qed.
Lemma nextRng_ok s g : rel s g ->
  exists s', nextRng s = (kiss_out (kiss_step (g_rng g)), s') /\ rel s' (mkGen (kiss_step (g_rng g)) (g_src g) (g_dst g)).
Proof.
  intros [E K V]. destruct (next_spec (rng s) V) as (N1 & N2 & N3).
  unfold nextRng. destruct (next (rng s)) as (v, k) eqn:En. cbn [fst snd] in *.
  eexists. split; [rewrite <- K, <- N1; reflexivity|].
  constructor; cbn [rng g_rng g_src g_dst]; auto; [|congruence].
  rewrite E at 1 2 3 4 5. reflexivity.
Qed.

(** ** Registers *)

Lemma In_firstn {A} n (l : list A) x : In x (firstn n l) -> In x l.
Proof. intros H. rewrite <- (firstn_skipn n l). apply in_or_app. auto. Qed.
Lemma In_skipn {A} n (l : list A) x : In x (skipn n l) -> In x l.
Proof. intros H. rewrite <- (firstn_skipn n l). apply in_or_app. auto. Qed.


Lemma set_reg_set_nth rs i v : i < lenN rs -> set_reg rs i v = set_nth rs (N.to_nat i) v.
Proof.
  intros H. unfold lenN in H. apply (list_eq_nth _ _ 0).
  - unfold set_reg. rewrite map_length, seq_length, set_nth_length. auto.
  - intros k Hk. unfold set_reg in Hk |- *. rewrite map_length, seq_length in Hk.
    set (f := fun k => if N.of_nat k =? i then v else nth k rs 0).
    rewrite nth_indep with (d' := f 0%nat) by (rewrite map_length, seq_length; auto).
    rewrite map_nth, seq_nth by auto. unfold f. cbn [Nat.add]. rewrite nth_set_nth by lia.
    destruct (N.eqb_spec (N.of_nat k) i), (Nat.eqb_spec (N.to_nat i) k); auto; lia.
Qed.

Definition row_ok (rs : list N) : Prop := lenN rs = R /\ words 32 rs.
Definition lanes_ok (M : list (list N)) : Prop := lenN M = L /\ forall l, l < L -> row_ok (nth (N.to_nat l) M []).

Lemma reg_lt rs i : words 32 rs -> reg rs i < 2 ^ 32.
Proof. intros. apply words_nth; auto. Qed.
Lemma set_reg_ok rs i v : row_ok rs -> i < R -> v < 2 ^ 32 -> row_ok (set_reg rs i v).
Proof.
  intros (A & B) Hi Hv. rewrite set_reg_set_nth by lia. split.
  - unfold lenN in *. rewrite set_nth_length. auto.
  - apply words_set_nth; auto.
Qed.

Definition op_ok (o : op) : Prop :=
  match o with
  | CacheLoad s d sel => s < R /\ d < R /\ sel < 2 ^ 32
  | Arith s1 s2 sel1 d sel2 => s1 < R /\ s2 < R /\ d < R /\ sel1 < 2 ^ 32 /\ sel2 < 2 ^ 32
  end.
Notation runop := (run_op l1 words_cached).

Lemma run_op_ok rs o : row_ok rs -> op_ok o -> row_ok (runop rs o).
Proof.
  intros RO OO. assert (W := proj2 RO). destruct o; cbn [run_op op_ok] in *; apply set_reg_ok; auto; try tauto;
    apply merge_op_lt; try apply reg_lt; auto; try apply HC. apply math_op_lt; apply reg_lt; auto.
Qed.

Lemma lanes_tab g : (forall l, l < L -> row_ok (g l)) -> lanes_ok (tab L g).
Proof.
  intros H. split; [apply lenN_tab|]. intros l Hl. rewrite nth_tab by lia. rewrite N2Nat.id. auto.
Qed.

Lemma cacheAccess_ok s g M : rel s g -> lanes_ok M -> N.of_nat (g_src g) + 1 < 2 ^ 32 -> N.of_nat (g_dst g) + 1 < 2 ^ 32 ->
  let '(o, g') := gen_cache R src dst g in
  op_ok o /\ exists s', cacheAccess cfg l1 s M = Done (s', tab L (fun l => runop (nth (N.to_nat l) M []) o)) /\ rel s' g'.
Proof.
  intros RL (ML & MR) B1 B2. cbn [gen_cache].
  destruct (nextSrc_ok s g RL B1) as (s1 & E1 & R1).
  destruct (nextDst_ok s1 _ R1) as (s2 & E2 & R2); [exact B2|]. cbn [g_rng g_src g_dst] in *.
  destruct (nextRng_ok s2 _ R2) as (s3 & E3 & R3). cbn [g_rng g_src g_dst] in *.
  assert (S1 : src_at R src (g_src g) < R) by (apply seq_at_lt; auto).
  assert (S2 : dst_at R dst (g_dst g) < R) by (apply seq_at_lt; auto).
  assert (S3 : kiss_out (kiss_step (g_rng g)) < 2 ^ 32) by apply kiss_out_lt.
  unfold cacheAccess. rewrite E1. cbn [bind]. rewrite E2. cbn [bind]. rewrite E3.
  set (a := src_at _ _ _) in *. set (b := dst_at _ _ _) in *. set (c := kiss_out _) in *. clearbody a b c.
  split; [cbn; auto|]. exists s3. split; auto.
  rewrite (for_fill L _ (fun l => runop (nth (N.to_nat l) M []) (CacheLoad a b c)) M []); auto.
  intros l t Hl Lt _ H2. rewrite (idx_Done t _ []) by lia. cbn [bind]. rewrite H2 by lia.
  destruct (MR l Hl) as (LR & WR). set (rs := nth (N.to_nat l) M []) in *.
  rewrite !(idx_Done rs _ 0) by lia. cbn [bind]. unfold modc.
  destruct (N.eqb_spec words_cached 0) as [?|_]; [lia|]. cbn [bind].
  fold (reg rs a). fold (reg rs b).
  rewrite (idx_Done l1 _ 0) by (destruct HC as (C1 & C2 & _); eapply N.lt_le_trans; [apply N.mod_lt; lia|auto]).
  cbn [bind]. fold (reg l1 (reg rs a mod words_cached)).
  rewrite upd_Done by lia. cbn [bind]. f_equal. cbn [run_op]. rewrite set_reg_set_nth by lia.
  rewrite randomMerge_spec; auto; apply reg_lt; auto. apply HC.
Qed.

Lemma two_sources_ok v : v < R * (R - 1) ->
  let '(s1, s2) := two_sources R v in
  s1 < R /\ s2 < R /\ s1 <> s2.
Proof.
  clear - HR. intros H. unfold two_sources.
  assert (D : v / R < R - 1) by (apply N.div_lt_upper_bound; lia).
  assert (M : v mod R < R) by (apply N.mod_lt; lia).
  destruct (N.ltb_spec (v / R) (v mod R)); lia.
Qed.

Lemma mathSources_spec v : mathSources cfg v = Done (two_sources R (v mod (R * (R - 1)))).
Proof.
  clear - HR.
  assert (P16 : 2 ^ 16 = 65536) by reflexivity. assert (P32 : 2 ^ 32 = 4294967296) by reflexivity.
  assert (RB : R * (R - 1) < 2 ^ 32) by nia.
  assert (RP : 0 < R * (R - 1)) by nia.
  set (w := v mod (R * (R - 1))).
  assert (Hv : w < R * (R - 1)) by (apply N.mod_lt; lia).
  assert (U1 : u32 R = R) by (apply trunc_small; lia).
  assert (U2 : u32 (R - 1) = R - 1) by (apply trunc_small; lia).
  assert (U3 : mulw 32 R (R - 1) = R * (R - 1)) by (apply trunc_small; lia).
  assert (D : w / R < R - 1) by (apply N.div_lt_upper_bound; lia).
  unfold mathSources. rewrite U1, U2, U3. unfold modc at 1.
  destruct (N.eqb_spec (R * (R - 1)) 0) as [?|_]; [lia|]. cbn [bind]. fold w.
  unfold modc, divc. destruct (N.eqb_spec R 0) as [?|_]; [lia|]. cbn [bind]. unfold two_sources. f_equal. f_equal.
  destruct (N.leb_spec (w mod R) (w / R)), (N.ltb_spec (w / R) (w mod R)); try lia. apply trunc_small. lia.
Qed.

Lemma mathOperation_ok s g M : rel s g -> lanes_ok M -> N.of_nat (g_dst g) + 1 < 2 ^ 32 ->
  let '(o, g') := gen_math R dst g in
  op_ok o /\ exists s', mathOperation cfg s M = Done (s', tab L (fun l => runop (nth (N.to_nat l) M []) o)) /\ rel s' g'.
Proof.
  intros RL (ML & MR) B2. unfold gen_math.
  destruct (nextRng_ok s g RL) as (s1 & E1 & R1). cbn [g_rng g_src g_dst] in *.
  destruct (nextRng_ok s1 _ R1) as (s2 & E2 & R2). cbn [g_rng g_src g_dst] in *.
  destruct (nextDst_ok s2 _ R2) as (s3 & E3 & R3); [exact B2|]. cbn [g_rng g_src g_dst] in *.
  destruct (nextRng_ok s3 _ R3) as (s4 & E4 & R4). cbn [g_rng g_src g_dst] in *.
  assert (S2 : dst_at R dst (g_dst g) < R) by (apply seq_at_lt; auto).
  set (k1 := kiss_step (g_rng g)) in *. set (k2 := kiss_step k1) in *. set (k3 := kiss_step k2) in *.
  set (v := kiss_out k1 mod (R * (R - 1))).
  assert (Hv : v < R * (R - 1)) by (apply N.mod_lt; nia).
  pose proof (two_sources_ok v Hv) as TS.
  unfold mathOperation. rewrite E1, mathSources_spec. fold v. cbn [bind].
  destruct (two_sources R v) as (p, q). rewrite E2, E3. cbn [bind]. rewrite E4.
  assert (A1 := kiss_out_lt k2). assert (A2 := kiss_out_lt k3).
  set (c1 := kiss_out k2) in *. set (c2 := kiss_out k3) in *.
  set (b := dst_at _ _ _) in *. clearbody c1 c2 b. destruct TS as (T1 & T2 & _).
  split; [cbn; auto|]. exists s4. split; auto.
  rewrite (for_fill L _ (fun l => runop (nth (N.to_nat l) M []) (Arith p q c1 b c2)) M []); auto.
  intros l t Hl Lt _ H2. rewrite (idx_Done t _ []) by lia. cbn [bind]. rewrite H2 by lia.
  destruct (MR l Hl) as (LR & WR). set (rs := nth (N.to_nat l) M []) in *.
  rewrite !(idx_Done rs _ 0) by lia. cbn [bind].
  fold (reg rs p). fold (reg rs q). fold (reg rs b).
  rewrite upd_Done by lia. cbn [bind]. f_equal. cbn [run_op]. rewrite set_reg_set_nth by lia.
  assert (X1 := reg_lt rs p WR). assert (X2 := reg_lt rs q WR).
  rewrite randomMath_spec by auto. rewrite randomMerge_spec; auto; [apply reg_lt; auto|apply math_op_lt; auto].
Qed.

(** ** The program of a period *)

Definition gen_bound (g : gen) (b : nat) : Prop := (g_src g <= b)%nat /\ (g_dst g <= b)%nat.

Lemma tab_tab_lanes (f g : list N -> list N) M :
  tab L (fun l => f (nth (N.to_nat l) (tab L (fun l => g (nth (N.to_nat l) M []))) [])) =
  tab L (fun l => f (g (nth (N.to_nat l) M []))).
Proof. apply tab_ext. intros i Hi. rewrite nth_tab by lia. rewrite N2Nat.id. auto. Qed.

Lemma lanes_self M : lanes_ok M -> M = tab L (fun l => nth (N.to_nat l) M []).
Proof. intros (ML & _). apply (list_eq_tab _ _ []); auto. Qed.

Definition ops_ok := Forall op_ok.
Lemma run_ops_ok ops rs : ops_ok ops -> row_ok rs -> row_ok (fold_left runop ops rs).
Proof. revert rs; induction ops; intros rs H Hr; cbn; auto. inversion H; subst. apply IHops; auto using run_op_ok. Qed.

Notation PROG := (program R (RoundCacheAccesses cfg) (RoundMathOperations cfg) src dst).

Lemma program_loop s0 g0 M n : rel s0 g0 -> gen_bound g0 0 -> lanes_ok M -> n < 2 ^ 30 ->
  let '(ops, g) := PROG g0 (N.to_nat n) in
  ops_ok ops /\ gen_bound g (2 * N.to_nat n) /\
  exists s, for_n n (fun i st =>
      let '(state, mix) := st in
      ' st <- (if i <? RoundCacheAccesses cfg then cacheAccess cfg l1 state mix else Done (state, mix)) ;;
      let '(state, mix) := st in
      (if i <? RoundMathOperations cfg then mathOperation cfg state mix else Done (state, mix))) (s0, M)
    = Done (s, tab L (fun l => fold_left runop ops (nth (N.to_nat l) M []))) /\ rel s g.
Proof.
  intros RL GB LO Hn.
  match goal with |- let '(_, _) := _ in _ /\ _ /\ exists s, for_n n ?b _ = _ /\ _ => set (body := b) end.
  assert (P30 : 2 ^ 30 = 1073741824) by reflexivity. assert (P32 : 2 ^ 32 = 4294967296) by reflexivity.
  destruct (for_n_inv (fun i st => let '(ops, g) := PROG g0 (N.to_nat i) in
     ops_ok ops /\ gen_bound g (2 * N.to_nat i) /\ rel (fst st) g /\
     snd st = tab L (fun l => fold_left runop ops (nth (N.to_nat l) M []))) n body (s0, M)) as (st & E & H).
  - cbn [N.to_nat program fst snd fold_left]. split; [constructor|]. split; [auto|]. split; [auto|]. apply lanes_self; auto.
  - intros j (s, mix) Hj I. replace (N.to_nat (j + 1)) with (S (N.to_nat j)) by lia. cbn [program].
    destruct (PROG g0 (N.to_nat j)) as (ops, g) eqn:EP. destruct I as (OK & (B1 & B2) & RL' & EM). cbn [fst snd] in *.
    rewrite N2Nat.id. subst mix. unfold body, gen_step.
    set (M1 := tab L (fun l => fold_left runop ops (nth (N.to_nat l) M []))).
    assert (LO1 : lanes_ok M1) by (apply lanes_tab; intros l Hl; apply run_ops_ok; auto; apply LO; auto).
    (* the cache access *)
    assert (C : let '(o1, g1) := if j <? RoundCacheAccesses cfg then let '(o, g') := gen_cache R src dst g in ([o], g') else ([], g) in
      ops_ok o1 /\ gen_bound g1 (2 * N.to_nat j + 1) /\
      exists s1, (if j <? RoundCacheAccesses cfg then cacheAccess cfg l1 s M1 else Done (s, M1)) =
         Done (s1, tab L (fun l => fold_left runop (ops ++ o1) (nth (N.to_nat l) M []))) /\ rel s1 g1).
    { destruct (N.ltb_spec j (RoundCacheAccesses cfg)).
      - pose proof (cacheAccess_ok s g M1 RL' LO1) as X. cbn [gen_cache] in X. destruct X as (OO & s1 & E1 & R1); try lia.
        cbn [gen_cache]. split; [constructor; auto; constructor|]. split; [split; cbn; lia|].
        exists s1. split; auto. rewrite E1. f_equal. f_equal. unfold M1.
        rewrite (tab_tab_lanes (fun r => runop r _) (fun r => fold_left runop ops r)).
        apply tab_ext. intros i Hi. rewrite fold_left_app. reflexivity.
      - split; [constructor|]. split; [split; lia|]. exists s. rewrite app_nil_r. auto. }
    destruct (if j <? RoundCacheAccesses cfg then _ else _) as (o1, g1) in C |- *.
    destruct C as (OK1 & (C1 & C2) & s1 & E1 & R1). rewrite E1. cbn [bind]. clear E1.
    set (M2 := tab L (fun l => fold_left runop (ops ++ o1) (nth (N.to_nat l) M []))).
    assert (OK12 : ops_ok (ops ++ o1)) by (apply Forall_app; auto).
    assert (LO2 : lanes_ok M2) by (apply lanes_tab; intros l Hl; apply run_ops_ok; auto; apply LO; auto).
    assert (C : let '(o2, g2) := if j <? RoundMathOperations cfg then let '(o, g') := gen_math R dst g1 in ([o], g') else ([], g1) in
      ops_ok o2 /\ gen_bound g2 (2 * N.to_nat j + 2) /\
      exists s2, (if j <? RoundMathOperations cfg then mathOperation cfg s1 M2 else Done (s1, M2)) =
         Done (s2, tab L (fun l => fold_left runop ((ops ++ o1) ++ o2) (nth (N.to_nat l) M []))) /\ rel s2 g2).
    { destruct (N.ltb_spec j (RoundMathOperations cfg)).
      - pose proof (mathOperation_ok s1 g1 M2 R1 LO2) as X.
        assert (GG : gen_bound (snd (gen_math R dst g1)) (2 * N.to_nat j + 2)).
        { unfold gen_math. destruct (two_sources _ _). split; cbn; lia. }
        destruct (gen_math R dst g1) as (o, g2). destruct X as (OO & s2 & E2 & R2); try lia.
        split; [constructor; auto; constructor|]. split; [exact GG|].
        exists s2. split; auto. rewrite E2. f_equal. f_equal. unfold M2.
        rewrite (tab_tab_lanes (fun r => runop r _) (fun r => fold_left runop (ops ++ o1) r)).
        apply tab_ext. intros i Hi. rewrite (fold_left_app _ (ops ++ o1)). reflexivity.
      - split; [constructor|]. split; [split; lia|]. exists s1. rewrite (app_nil_r (ops ++ o1)). auto. }
    destruct (if j <? RoundMathOperations cfg then _ else _) as (o2, g2) in C |- *.
    destruct C as (OK2 & (D1 & D2) & s2 & E2 & R2).
    eexists. split; [exact E2|]. cbn [fst snd]. split; [|split; [split; lia|split; [exact R2|rewrite app_assoc; reflexivity]]].
    rewrite app_assoc. apply Forall_app; auto.
  - destruct (PROG g0 (N.to_nat n)) as (ops, g). destruct H as (A & B & C & D). destruct st as (s, mix). cbn [fst snd] in *.
    subst mix. eauto.
Qed.

(** ** The dataset words *)

Definition merge_ok (m : N * N) : Prop := fst m < R /\ snd m < 2 ^ 32.

Lemma dagPattern_ok s g n b : rel s g -> gen_bound g b -> n < 2 ^ 30 -> N.of_nat b < 2 ^ 31 ->
  let '(ms, g') := dag_merges R dst g (N.to_nat n) in
  length ms = N.to_nat n /\ Forall merge_ok ms /\
  exists s', dagPattern n s = Done (s', map fst ms, map snd ms) /\ rel s' g'.
Proof.
  intros RL (B1 & B2) Hn Hb. unfold dagPattern.
  match goal with |- let '(_, _) := _ in _ /\ _ /\ exists s, for_n n ?b _ = _ /\ _ => set (body := b) end.
  assert (P30 : 2 ^ 30 = 1073741824) by reflexivity. assert (P32 : 2 ^ 32 = 4294967296) by reflexivity.
  assert (P31 : 2 ^ 31 = 2147483648) by reflexivity.
  destruct (for_n_inv (fun i st => let '(ms, g') := dag_merges R dst g (N.to_nat i) in
     let '(s', dsts, sels) := st in
     length ms = N.to_nat i /\ Forall merge_ok ms /\ gen_bound g' (b + N.to_nat i) /\ rel s' g' /\
     length dsts = N.to_nat n /\ length sels = N.to_nat n /\
     firstn (N.to_nat i) dsts = map fst ms /\ firstn (N.to_nat i) sels = map snd ms) n body
     (s, zeros n, zeros n)) as (st & E & H).
  - cbn [N.to_nat dag_merges]. split; [auto|]. split; [constructor|]. split; [split; lia|]. split; [auto|].
    unfold zeros. rewrite !repeat_length. auto.
  - intros j ((s1, dsts), sels) Hj I. replace (N.to_nat (j + 1)) with (S (N.to_nat j)) by lia. cbn [dag_merges].
    destruct (dag_merges R dst g (N.to_nat j)) as (ms, g1). destruct I as (LM & OM & (C1 & C2) & R1 & LD & LS & FD & FS).
    unfold body. destruct (N.eqb_spec j 0) as [Z|NZ].
    + subst j. rewrite upd_Done by (unfold lenN; lia). cbn [bind]. change (N.to_nat 0) with 0%nat in *.
      destruct (nextRng_ok s1 g1 R1) as (s2 & E2 & R2). rewrite E2. rewrite upd_Done by (unfold lenN; lia). cbn [bind].
      eexists. split; [reflexivity|]. rewrite app_length, !set_nth_length. cbn [length].
      split; [lia|]. split. { apply Forall_app. split; auto. constructor; [split; cbn; [lia|apply kiss_out_lt]|constructor]. }
      split; [split; cbn; lia|]. split; [auto|]. split; [auto|]. split; [auto|].
      change (N.to_nat 0) with 0%nat. rewrite !firstn_set_last by lia. rewrite FD, FS, !map_app. split; reflexivity.
    + destruct (nextDst_ok s1 g1 R1) as (s2 & E2 & R2); [lia|]. rewrite E2. cbn [bind].
      rewrite upd_Done by (unfold lenN; lia). cbn [bind].
      destruct (nextRng_ok s2 _ R2) as (s3 & E3 & R3). rewrite E3. rewrite upd_Done by (unfold lenN; lia). cbn [bind].
      cbn [g_rng g_src g_dst] in *. destruct (N.to_nat j) as [|j'] eqn:Ej; [lia|].
      eexists. split; [reflexivity|]. rewrite app_length, !set_nth_length. cbn [length].
      split; [lia|]. split. { apply Forall_app. split; auto. constructor; [split; cbn; [apply seq_at_lt; auto|apply kiss_out_lt]|constructor]. }
      split; [split; cbn; lia|]. split; [auto|]. split; [auto|]. split; [auto|].
      rewrite !firstn_set_last by lia. rewrite FD, FS, !map_app. split; reflexivity.
  - destruct (dag_merges R dst g (N.to_nat n)) as (ms, g'). destruct st as ((s', dsts), sels).
    destruct H as (A & B & C & D & F & G & I & J). rewrite !firstn_all2 in I, J by lia. subst. eauto.
Qed.

Lemma run_merge_ok rs m w : row_ok rs -> merge_ok m -> w < 2 ^ 32 -> row_ok (run_merge rs (m, w)).
Proof.
  intros RO (A & B) Hw. destruct m as (d, sel). cbn [run_merge fst snd] in *. apply set_reg_ok; auto.
  apply merge_op_lt; auto. apply reg_lt, RO.
Qed.
Lemma run_merges_ok l rs : row_ok rs -> Forall (fun m => merge_ok (fst m) /\ snd m < 2 ^ 32) l -> row_ok (fold_left run_merge l rs).
Proof.
  revert rs; induction l as [|(m, w) l IH]; intros rs RO H; cbn [fold_left]; auto. inversion H; subst.
  apply IH; auto. apply run_merge_ok; tauto.
Qed.

Lemma set_nth_twice {A} (l : list A) n a b : set_nth (set_nth l n a) n b = set_nth l n b.
Proof. revert n; induction l; intros [|n]; cbn; auto. f_equal. auto. Qed.
Lemma set_nth_same {A} (l : list A) n d : set_nth l n (nth n l d) = l.
Proof. revert n; induction l; intros [|n]; cbn; auto. f_equal. auto. Qed.

Lemma dagMerge_ok r item ms M :
  r < 2 ^ 32 -> length item = 64%nat -> words 32 item -> lanes_ok M ->
  length ms = N.to_nat (64 / L) -> Forall merge_ok ms ->
  let wpl := N.to_nat (64 / L) in
  let share l := firstn wpl (skipn (wpl * N.to_nat (N.lxor l r mod L)) item) in
  dagMerge cfg r (64 / L) item (map fst ms) (map snd ms) M =
  Done (tab L (fun l => fold_left run_merge (combine ms (share l)) (nth (N.to_nat l) M []))) /\
  (forall l, l < L -> row_ok (fold_left run_merge (combine ms (share l)) (nth (N.to_nat l) M []))).
Proof.
  intros Hr LI WI LO LM OM wpl share.
  assert (P32 : 2 ^ 32 = 4294967296) by reflexivity.
  assert (LB : 64 / L * L <= 64) by (rewrite N.mul_comm; apply N.mul_div_le; lia).
  assert (Q64 : 64 / L <= 64) by nia.
  assert (LN : forall l, N.lxor l r mod L < L) by (intros; apply N.mod_lt; lia).
  assert (SL : forall l, length (share l) = wpl).
  { intros l. unfold share. rewrite firstn_length, skipn_length, LI. specialize (LN l). unfold wpl. nia. }
  assert (CO : forall l, Forall (fun m => merge_ok (fst m) /\ snd m < 2 ^ 32) (combine ms (share l))).
  { intros l. apply Forall_forall. intros (m, w) HI. cbn [fst snd]. split.
    - apply in_combine_l in HI. eapply Forall_forall in OM; eauto.
    - apply in_combine_r in HI. unfold share in HI.
      apply In_firstn in HI. apply In_skipn in HI. unfold words in WI. rewrite Forall_forall in WI. apply WI; auto. }
  split.
  2:{ intros l Hl. apply run_merges_ok; auto. apply LO; auto. }
  unfold dagMerge. apply (for_fill L _ _ M []); [apply LO|].
  intros l t Hl Lt _ H2. unfold modc.
  replace (u32 L) with L by (symmetry; apply trunc_small; lia).
  replace (u32 l) with l by (symmetry; apply trunc_small; lia).
  replace (u32 (64 / L)) with (64 / L) by (symmetry; apply trunc_small; lia).
  destruct (N.eqb_spec L 0) as [?|_]; [lia|]. cbn [bind].
  set (lane := N.lxor l r mod L) in *. specialize (LN l). fold lane in LN.
  assert (LW : lane * (64 / L) <= 64 - 64 / L) by nia.
  replace (mulw 32 lane (64 / L)) with (lane * (64 / L)) by (unfold mulw; rewrite trunc_small; lia).
  rewrite upd_Done by lia.
  set (C := combine ms (share l)).
  assert (LC : length C = wpl) by (unfold C; rewrite combine_length, LM, SL; unfold wpl; lia).
  match goal with |- for_n _ ?b _ = _ => set (body := b) end.
  destruct (for_n_inv (fun i m => m = set_nth t (N.to_nat l) (fold_left run_merge (firstn (N.to_nat i) C) (nth (N.to_nat l) t [])))
     (64 / L) body t) as (m & E & Em).
  - cbn [N.to_nat firstn fold_left]. symmetry. apply set_nth_same.
  - intros i m Hi ->. unfold body.
    set (row := fold_left run_merge (firstn (N.to_nat i) C) (nth (N.to_nat l) t [])).
    assert (RO : row_ok row).
    { apply run_merges_ok; [rewrite H2 by lia; apply LO; auto|].
      specialize (CO l). fold C in CO. rewrite <- (firstn_skipn (N.to_nat i) C) in CO. apply Forall_app in CO. tauto. }
    set (k := nth (N.to_nat i) C ((0, 0), 0)).
    assert (EK : k = (nth (N.to_nat i) ms (0, 0), nth (N.to_nat i) (share l) 0)).
    { unfold k, C. apply combine_nth. rewrite LM, SL. auto. }
    replace (addw 32 (lane * (64 / L)) (u32 i)) with (lane * (64 / L) + i)
      by (unfold addw, u32; rewrite (trunc_small 32 i) by lia; rewrite trunc_small; lia).
    rewrite (idx_Done item _ 0) by (unfold lenN; lia). cbn [bind].
    rewrite !(idx_Done (map _ ms) _ 0) by (unfold lenN; rewrite map_length; lia). cbn [bind].
    replace (nth (N.to_nat i) (map fst ms) 0) with (fst (fst k)) by (rewrite EK; symmetry; exact (map_nth fst ms (0, 0) _)).
    replace (nth (N.to_nat i) (map snd ms) 0) with (snd (fst k)) by (rewrite EK; symmetry; exact (map_nth snd ms (0, 0) _)).
    replace (nth (N.to_nat (lane * (64 / L) + i)) item 0) with (snd k).
    2:{ rewrite EK. cbn [snd]. unfold share. rewrite nth_firstn, nth_skipn by lia. fold lane. f_equal. unfold wpl. lia. }
    assert (KO : merge_ok (fst k) /\ snd k < 2 ^ 32).
    { specialize (CO l). fold C in CO. rewrite Forall_forall in CO. apply CO. apply nth_In. lia. }
    rewrite (idx_Done (set_nth t _ _) _ []) by (unfold lenN in *; rewrite set_nth_length; lia). cbn [bind].
    rewrite nth_set_nth by (unfold lenN in *; lia). rewrite Nat.eqb_refl.
    destruct KO as ((K1 & K2) & K3). destruct RO as (RO1 & RO2).
    rewrite (idx_Done row _ 0) by lia. cbn [bind]. fold (reg row (fst (fst k))).
    rewrite upd_Done by lia. cbn [bind].
    rewrite upd_Done by (unfold lenN in *; rewrite set_nth_length; lia).
    eexists. split; [reflexivity|]. rewrite set_nth_twice. f_equal.
    replace (N.to_nat (i + 1)) with (S (N.to_nat i)) by lia.
    rewrite (firstn_succ_snoc C (N.to_nat i) k).
    2:{ unfold k. apply nth_error_nth'. lia. }
    rewrite fold_left_app. cbn [fold_left]. fold row. destruct k as ((d, sel), w). cbn [run_merge fst snd].
    rewrite set_reg_set_nth by (cbn [fst] in *; lia). rewrite randomMerge_spec; auto. apply reg_lt; auto.
  - rewrite E, Em. f_equal. f_equal. rewrite firstn_all2 by (fold wpl; lia). rewrite H2 by lia. reflexivity.
Qed.
End Round.
