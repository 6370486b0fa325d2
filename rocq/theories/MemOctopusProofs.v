(** Proofs about MemOctopus.v. *)
From Coq Require Import NArith ZArith Arith List Bool Lia ZifyBool ZifyN ZifyNat.
From Verif Require Import Base BaseFacts CryptoModel OctopusModel MemModel MemProofs MemAppend MemDagProofs MemProgpow MemProgpowProofs MemOctopus.
Import ListNotations.
Open Scope N_scope.
Ltac Zify.zify_post_hook ::= Z.div_mod_to_equations.

(** ** Discipline *)
Lemma safe_coefficients me v0 v1 v2 v3 nonce d : writable me d -> safe me (p_coefficients v0 v1 v2 v3 nonce d) (fun _ => True).
Proof.
  intros W. unfold p_coefficients. cbv zeta. apply (safe_for_n _ _ _ _ (fun _ => True)); [exact I|]. intros j s _.
  eapply safe_bind; [|intros; exact I]. apply (safe_for_n _ _ _ _ (fun _ => True)); [exact I|]. intros. safe_go.
Qed.
Lemma safe_evaluate me a b c d w w2 wf w2f : readable me d -> safe me (p_evaluate a b c d w w2 wf w2f) (fun x => writable me (fst x)).
Proof.
  intros R. unfold p_evaluate. eapply safe_bind; [apply safe_make|]. intros rb W.
  eapply safe_bind with (Q := fun _ => True); [|intros [[? ?] ?] _; exact W].
  apply (safe_for_n _ _ _ _ (fun _ => True)); [exact I|]. intros j [[? ?] ?] _.
  eapply safe_bind with (Q := fun _ => True); [apply (safe_for_n _ _ _ _ (fun _ => True)); [exact I|]; intros; safe_go|]. intros pv _.
  eapply safe_bind; [apply safe_set; exact W|]. intros _ _. cbv zeta. destruct (_ <? _); exact I.
Qed.
Lemma safe_polynomial me fuel hash nonce : readable me hash -> safe me (p_polynomial fuel hash nonce) (fun x => writable me (fst x)).
Proof.
  intros R. unfold p_polynomial. do 4 (eapply safe_bind; [safe_go|]; intros ? ?; eapply safe_bind; [safe_go|]; intros ? ?).
  eapply safe_bind; [apply safe_make|]. intros d W. do 4 (eapply safe_bind; [apply safe_pure|]; intros ? ?).
  eapply safe_bind; [apply safe_coefficients; exact W|]. intros _ _. eapply safe_bind; [apply safe_pure|]. intros [[[? ?] ?] ?] _.
  apply safe_evaluate. apply writable_readable. exact W.
Qed.
Lemma safe_octopus me fuel keccak512 keccak256 room hash nonce size lookup : readable me hash ->
  (forall i, safe me (lookup i) (writable me)) ->
  safe me (p_octopus fuel keccak512 keccak256 room hash nonce size lookup) (writable me).
Proof.
  intros R LK. unfold p_octopus. eapply safe_bind; [apply safe_polynomial; exact R|]. intros (rb, res) WR. cbn [fst] in WR.
  eapply safe_bind; [unfold p_halfMixInput; safe_go|]. intros pre WP.
  eapply safe_bind; [apply safe_hash_new_len, writable_readable; exact WP|]. intros hm (WH & LH).
  unfold p_dagPart. eapply safe_bind with (Q := writable me).
  { unfold pfor_n. cbn [N.to_nat pfor Pos.to_nat Pos.iter_op Nat.add].
    eapply safe_bind; [apply safe_append_nil; [reflexivity|reflexivity|apply writable_readable; exact WH|rewrite LH; discriminate]|].
    intros s1 W1. do 3 (eapply safe_bind; [apply safe_append; [eassumption|apply writable_readable; exact WH]|]; intros ? ?). cbn [safe]. assumption. }
  intros mix WM. eapply safe_bind; [safe_go|]. intros first WF. eapply safe_bind; [safe_go|]. intros fv _.
  eapply safe_bind; [apply safe_ToWords, writable_readable; exact WM|]. intros mw WW.
  eapply safe_bind with (Q := fun _ => True).
  { unfold p_accesses. apply (safe_for_n _ _ _ _ (fun _ => True)); [exact I|]. intros j [] _.
    eapply safe_bind; [safe_go|]. intros r _. eapply safe_bind; [safe_go|]. intros v _. eapply safe_bind; [apply safe_pure|]. intros ix _.
    apply (safe_for_n _ _ _ _ (fun _ => True)); [exact I|]. intros k [] _. eapply safe_bind; [apply LK|]. intros tn WT. safe_go. }
  intros _ _. eapply safe_bind with (Q := writable me); [unfold p_compress; safe_go|]. intros cw WC. eapply safe_bind; [apply safe_ToBytes, writable_readable; exact WC|]. intros cb WB.
  safe_go.
Qed.

(** ** The models on lists *)
Lemma sim_coefficients me v0 v1 v2 v3 nonce d m n : has m d (zeros powN) -> 
  sim me (p_coefficients v0 v1 v2 v3 nonce d) m n (coefficients v0 v1 v2 v3 nonce) (fun _ x m' n' => has m' d x /\ others m m' d /\ n' = n).
Proof.
  intros H. unfold p_coefficients, coefficients. cbv zeta.
  apply (sim_for_n me powWarpSize _ _ tt (zeros powN) m n (fun _ (_ : unit) x m' n' => has m' d x /\ others m m' d /\ n' = n)).
  - split; [exact H|]. split; [apply others_refl|reflexivity].
  - intros i [] x m1 n1 Hi (H1 & O1 & ->). eapply sim_bind.
    { apply (sim_for_n me powDataPerThread _ _ _ (x, _) m1 n (fun _ h st m' n' => h = snd st /\ has m' d (fst st) /\ others m m' d /\ n' = n)).
      - cbn [fst snd]. auto.
      - intros j h (y, h') m2 n2 Hj (-> & H2 & O2 & ->). cbn [fst snd] in *.
        eapply sim_bind; [apply sim_set; exact H2|]. intros [] y3 m3 n3 (H3 & _ & O3 & ->). apply sim_ret. cbn [fst snd].
        split; [reflexivity|]. split; [exact H3|]. split; [eapply others_trans; eauto|reflexivity]. }
    intros h (y, h') m2 n2 (-> & H2 & O2 & ->). apply sim_ret. cbn [fst snd] in *. auto.
Qed.
Lemma sim_evaluate me a b c d dx w w2 wf w2f m n : has m d dx -> old me n d ->
  sim me (p_evaluate a b c d w w2 wf w2f) m n (evaluate a b c dx w w2 wf w2f) (fun p q m' n' =>
    has m' (fst p) (fst q) /\ snd p = snd q /\ s_loc (fst p) = (me, n) /\ kept me n m m' /\ n' = n + 1).
Proof.
  intros H O. unfold p_evaluate, evaluate. apply sim_make. intros rb m1 E1 N1 H1 K1.
  eapply sim_bind.
  { apply (sim_for_n me powDataPerThread _ _ (w, w2, 0) (w, w2, zeros powDataPerThread, 0) m1 (n + 1) (fun _ st st' m' n' =>
      let '(a1, a2, a3) := st in let '(b1, b2, x, b3) := st' in a1 = b1 /\ a2 = b2 /\ a3 = b3 /\ has m' rb x /\ others m1 m' rb /\ n' = n + 1)).
    - parts; auto. apply others_refl.
    - intros i [[a1 a2] a3] [[[b1 b2] x] b3] m2 n2 Hi (-> & -> & -> & H2 & O2 & ->).
      eapply sim_bind.
      { apply (sim_for_n me powN _ _ 0 0 m2 (n + 1) (fun _ pv pv' m' n' => pv = pv' /\ m' = m2 /\ n' = n + 1)).
        - auto.
        - intros j pv ? ? ? Hj (<- & -> & ->). assert (HD : has m2 d dx) by frame. sget. apply sim_ret. auto. }
      intros pv ? ? ? (<- & -> & ->).
      eapply sim_bind; [apply sim_set; exact H2|]. intros [] y3 m3 n3 (H3 & _ & O3 & ->). cbv zeta.
      assert (O13 : others m1 m3 rb) by (eapply others_trans; eauto).
      destruct (i + 1 <? powDataPerThread); apply sim_ret; parts; auto. }
  intros [[a1 a2] a3] [[[b1 b2] x] b3] m2 n2 (-> & -> & -> & H2 & O2 & ->). apply sim_ret. cbn [fst snd].
  parts; auto; [subst rb; reflexivity|]. intros l OL. rewrite O2 by apart. apply K1. exact OL.
Qed.
Lemma sim_polynomial me fuel hash h nonce m n : has m hash h -> lenN h = 32 -> owner (s_loc hash) <> me ->
  sim me (p_polynomial fuel hash nonce) m n (polynomial fuel h nonce) (fun p q m' n' =>
    has m' (fst p) (fst q) /\ snd p = snd q /\ s_loc (fst p) = (me, n + 1) /\ kept me n m m' /\ n' = n + 2).
Proof.
  intros H LH OW. unfold p_polynomial, polynomial.
  do 4 (eapply sim_bind; [apply sim_cut_at; [exact H|left; lia]|]; intros ? ? ? ? (? & _ & _ & -> & ->);
        eapply sim_bind; [apply sim_get64_le; eassumption|]; intros ? ? ? ? (-> & -> & ->)).
  apply sim_make. intros d m1 E1 N1 HD1 K1.
  do 4 (apply sim_pure; intros ? _).
  eapply sim_bind; [apply sim_coefficients; exact HD1|]. intros [] x m2 n2 (HX2 & O2 & ->).
  apply sim_pure. intros [[[w w2] wf] w2f] _.
  eapply sim_weaken; [apply sim_evaluate; [exact HX2|locs]|]. intros p q m3 n3 (HY3 & E & L & K3 & ->).
  parts; auto; [|lia]. intros l OL. rewrite K3 by lia. rewrite O2 by apart. apply K1. exact OL.
Qed.
Lemma sim_halfMixInput me hash h result m n : has m hash h -> lenN h = 32 -> owner (s_loc hash) <> me ->
  sim me (p_halfMixInput hash result) m n (halfMixInput h result) (fun s x m' n' =>
    has m' s x /\ s_loc s = (me, n) /\ kept me n m m' /\ n' = n + 1).
Proof.
  intros H LH OW. unfold p_halfMixInput, halfMixInput. cbv zeta. pose proof H as (L & _). rewrite L.
  apply sim_make. intros hm m1 E1 N1 H1 K1.
  eapply sim_bind; [apply sim_copy; [exact H1|frame]|]. intros [] b2 m2 n2 (H2 & L2 & O2 & ->).
  rewrite put64_model. apply sim_assoc. eapply sim_bind; [apply sim_put64_at; exact H2|]. intros [] b3 m3 n3 (H3 & L3 & O3 & ->).
  assert (LZ : lenN b3 = nodeBytes) by (rewrite L3, L2; apply zeros_lenN).
  eapply sim_weaken; [apply sim_cut_at; [exact H3|left; rewrite LZ, LH; unfold nodeBytes; lia]|].
  intros s x ? ? (HS & ES & _ & -> & ->). parts; auto; [rewrite ES; subst hm; reflexivity|].
  intros l OL. rewrite O3, O2 by apart. apply K1. exact OL.
Qed.
Lemma sim_ToWords me buf o x m n : has m buf x -> old me n buf -> 
  sim me (p_BytesToUint32Array buf o) m n (BytesToUint32Array x o) (fun s y m' n' =>
    has m' s y /\ s = mkSl (me, n) 0 (lenN y) (lenN y) /\ lenN y = lenN x / 4 /\ kept me n m m' /\ n' = n + 1).
Proof.
  intros H O. pose proof H as (L & _). unfold p_BytesToUint32Array, BytesToUint32Array. cbv zeta. rewrite L.
  apply sim_make. intros arr m1 E1 N1 H1 K1.
  rewrite <- (bind_done (for_n _ _ _)). eapply sim_bind.
  { apply (sim_for_n me (lenN x / 4) _ _ tt (zeros (lenN x / 4)) m1 (n + 1) (fun _ (_ : unit) y m' n' =>
      has m' arr y /\ lenN y = lenN x / 4 /\ kept me n m m' /\ n' = n + 1)).
    - split; [exact H1|]. split; [apply zeros_lenN|]. split; [exact K1|reflexivity].
    - intros j [] y m2 n2 J (H2 & LY & K2 & ->).
      eapply sim_bind; [apply sim_cut_at; [frame|left; lia]|]. intros t tx ? ? (HT & ET & _ & -> & ->).
      eapply sim_bind; [apply sim_get32; exact HT|]. intros ? v ? ? (-> & -> & ->).
      eapply sim_weaken; [apply sim_set; exact H2|].
      intros [] y3 m3 n3 (H3 & L3 & O3 & ->). split; [exact H3|]. split; [lia|]. split; [|reflexivity].
      intros l OL. rewrite O3 by apart. apply K2. exact OL. }
  intros [] y m2 n2 (H2 & LY & K2 & ->). apply sim_ret. parts; auto. subst arr. rewrite LY. reflexivity.
Qed.
Lemma sim_compress me w x m n : has m w x -> old me n w ->
  sim me (p_compress w) m n (compress x) (fun s y m' n' => has m' s y /\ s_loc s = (me, n) /\ lenN y = 8 /\ kept me n m m' /\ n' = n + 1).
Proof.
  intros H O. unfold p_compress, compress. apply sim_make. intros out m1 E1 N1 H1 K1.
  rewrite <- (bind_done (for_n _ _ _)). eapply sim_bind.
  { apply (sim_for_n me 8 _ _ tt (zeros 8) m1 (n + 1) (fun _ (_ : unit) y m' n' => has m' out y /\ lenN y = 8 /\ kept me n m m' /\ n' = n + 1)).
    - parts; auto.
    - intros j [] y m2 n2 J (H2 & LY & K2 & ->). cbv zeta. do 8 sget.
      eapply sim_weaken; [apply sim_set; exact H2|]. intros [] y3 m3 n3 (H3 & L3 & O3 & ->). split; [exact H3|]. split; [lia|]. split; [|reflexivity].
      intros l OL. rewrite O3 by apart. apply K2. exact OL. }
  intros [] y m2 n2 (H2 & LY & K2 & ->). apply sim_ret. parts; auto. subst out. reflexivity.
Qed.

Lemma get_cut s a b c l : l < b - a -> b <= s_len s -> get (mkSl (s_loc s) (s_off s + a) (b - a) c) l = get s (a + l).
Proof.
  intros H B. unfold get. cbn [s_len s_loc s_off]. replace (l <? b - a) with true by lia. replace (a + l <? s_len s) with true by lia.
  rewrite N.add_assoc. reflexivity.
Qed.

Section Octopus.
Variables (me : N) (st : sl) (ok : memory -> Prop) (lookup : N -> prog sl) (model : N -> outcome (list N)).
Hypothesis WS : writable me st.
Hypothesis OKK : forall m m', (forall l, owner l <> me -> m' l = m l) -> ok m -> ok m'.
Hypothesis LK : forall i m n, ok m -> state m st -> old me n st -> sim me (lookup i) m n (model i) (looked me st m n).

Lemma sim_accesses fv pages rb rbx mix mx m n : has m rb rbx -> has m mix mx -> s_cap mix = s_len mix ->
  writable me rb -> writable me mix -> s_loc rb <> s_loc mix -> s_loc st <> s_loc rb -> s_loc st <> s_loc mix ->
  serial (s_loc rb) < n -> serial (s_loc mix) < n -> serial (s_loc st) < n ->
  state m st -> ok m ->
  sim me (p_accesses fv pages rb lookup mix) m n (accesses fv pages rbx model mx) (fun _ mx' m' n' =>
    has m' mix mx' /\ n <= n' /\ forall l, l <> s_loc mix -> l <> s_loc st -> owner l <> me \/ serial l < n -> m' l = m l).
Proof.
  intros HR HM CAP WR WM NE1 NE2 NE3 S1 S2 S3 ST OK. unfold p_accesses, accesses.
  set (Inv := fun (mx' : list N) (m' : memory) (n' : N) => has m' mix mx' /\ state m' st /\ ok m' /\ n <= n' /\
    forall l, l <> s_loc mix -> l <> s_loc st -> owner l <> me \/ serial l < n -> m' l = m l).
  assert (I0 : Inv mx m n) by (unfold Inv; parts; auto; lia).
  eapply sim_weaken.
  { apply (sim_for_n me powAccesses _ _ tt mx m n (fun _ (_ : unit) y m' n' => Inv y m' n')); [exact I0|].
    intros i [] y m1 n1 Hi (H1 & ST1 & OK1 & LE1 & K1).
    assert (HR1 : has m1 rb rbx) by (apply (has_same m); [apply K1; auto|exact HR]).
    sget. sget. apply sim_pure. intros ix _.
    apply (sim_for_n me mixNodes _ _ tt y m1 n1 (fun _ (_ : unit) y m' n' => Inv y m' n')); [unfold Inv; parts; auto|].
    intros k [] z m2 n2 Hk (H2 & ST2 & OK2 & LE2 & K2).
    eapply sim_bind; [apply LK; [exact OK2|exact ST2|right; lia]|]. intros tn tx m3 n3 (H3 & N3 & C3 & ST3 & LE3 & K3).
    assert (H23 : has m3 mix z) by (apply (has_same m2); [apply K3; [auto|right; lia]|exact H2]).
    assert (OK3 : ok m3) by (eapply OKK; [|exact OK2]; intros l O; apply K3; [intros ->; apply O; exact WS|auto]).
    pose proof H23 as (LZ & _). unfold cut_at, slice. rewrite CAP, LZ.
    destruct ((k * mixNodes * 4 <=? (k + 1) * mixNodes * 4) && ((k + 1) * mixNodes * 4 <=? lenN z)) eqn:B; [|exact I]. cbn [pbind bind].
    cbn [s_len]. set (a := k * mixNodes * 4) in *. set (e := (k + 1) * mixNodes * 4) in *.
    replace (lenN (firstn (N.to_nat (e - a)) (skipn (N.to_nat a) z))) with (e - a)
      by (unfold lenN in *; rewrite firstn_length, skipn_length; lia).
    rewrite <- LZ.
    eapply sim_weaken.
    { apply (sim_for_n me (e - a) _ _ tt z m3 n3 (fun _ (_ : unit) y m' n' => has m' mix y /\ others m3 m' mix /\ n' = n3)).
      { split; [exact H23|]. split; [apply others_refl|reflexivity]. }
      intros l [] u m4 n4 Hl (H4 & O4 & ->).
      rewrite get_cut by lia. sget.
      assert (HT : has m4 tn tx).
      { apply (has_same m3); [|exact H3]. apply O4. intros E. unfold new in N3. rewrite E in N3. lia. }
      sget. eapply sim_weaken; [apply sim_set; exact H4|]. intros [] u5 m5 n5 (H5 & _ & O5 & ->).
      split; [exact H5|]. split; [eapply others_trans; eauto|reflexivity]. }
    intros [] u m4 n4 (H4 & O4 & ->). unfold Inv. parts; auto.
    - destruct ST3 as (v3 & ST3). exists v3. apply (has_same m3); [apply O4; exact NE3|exact ST3].
    - eapply OKK; [|exact OK3]. intros l O. apply O4. intros ->. apply O. exact WM.
    - lia.
    - intros l A1 A2 A3. rewrite O4 by exact A1. rewrite K3 by (auto; lia). apply K2; auto. }
  intros [] y m' n' (H1 & ST1 & OK1 & LE1 & K1). auto.
Qed.

Lemma sim_dagPart keccak256 room hm hmx rb rbx size m n : (forall x, lenN (keccak256 x) = 32) -> (forall k, k <= room k) ->
  has m hm hmx -> lenN hmx = 64 -> s_cap hm = s_len hm -> has m rb rbx -> writable me hm -> writable me rb ->
  serial (s_loc hm) < n -> serial (s_loc rb) < n -> serial (s_loc st) < n -> s_loc st <> s_loc rb -> s_loc st <> s_loc hm -> s_loc hm <> s_loc rb ->
  state m st -> ok m ->
  sim me (p_dagPart keccak256 room hm rb size lookup) m n (dagPart keccak256 hmx rbx size model) (fun s x m' n' =>
    has m' s x /\ new me n n' s).
Proof.
  intros HK RM HH LH CH HR WH WR SH SR SS NE1 NE2 NE3 ST OK. unfold p_dagPart, dagPart. cbv zeta.
  (* the four appends *)
  apply (sim_left me _ _ m n tt _ (fun mix (_ : unit) m' n' => has m' mix (hmx ++ hmx ++ hmx ++ hmx) /\ new me n n' mix /\ kept me n m m' /\ n <= n')).
  { unfold pfor_n. cbn [N.to_nat pfor Pos.to_nat Pos.iter_op Nat.add].
    eapply sim_left.
    { apply (sim_append_any me room nil_sl hm m n [] hmx RM); [|exact HH].
      unfold has. cbn. split; [reflexivity|]. split; [lia|]. split; [lia|]. intros i Hi. apply N.nlt_0_r in Hi. destruct Hi. }
    intros s1 m1 n1 (H1 & D1). cbn [app] in H1.
    assert (D1' : new me n n1 s1 /\ kept me n m m1 /\ n <= n1).
    { destruct D1 as [(_ & _ & _ & C1)|D1]; [|exact D1]. exfalso. destruct H1 as (A1 & A2 & _). cbn in C1. lia. }
    clear D1. destruct D1' as (N1 & K1 & LE1).
    assert (STEP : forall s x m1 n1, has m1 s x -> new me n n1 s -> kept me n m m1 -> n <= n1 ->
      sim me (append room s hm) m1 n1 (Done tt) (fun s' _ m' n' => has m' s' (x ++ hmx) /\ new me n n' s' /\ kept me n m m' /\ n <= n')).
    { clear s1 m1 n1 H1 N1 K1 LE1. intros s x m1 n1 H1 N1 K1 LE1. eapply sim_weaken; [apply sim_append_any; [exact RM|exact H1|frame]|].
      intros s' _ m' n' (H2 & [(E & O & -> & _)|(N2 & K2 & LE2)]).
      - split; [exact H2|]. split; [unfold new in *; rewrite E; exact N1|]. split; [|exact LE1].
        intros l OL. rewrite O by (intros ->; unfold new in N1; lia). apply K1. exact OL.
      - split; [exact H2|]. split; [unfold new in *; lia|]. split; [|lia]. intros l OL. rewrite K2 by lia. apply K1. exact OL. }
    eapply sim_left; [eapply STEP; eassumption|]. intros s2 m2 n2 (H2 & N2 & K2 & LE2).
    eapply sim_left; [eapply STEP; eassumption|]. intros s3 m3 n3 (H3 & N3 & K3 & LE3).
    eapply sim_left; [eapply STEP; eassumption|]. intros s4 m4 n4 (H4 & N4 & K4 & LE4).
    apply sim_ret. rewrite <- !app_assoc in H4. auto. }
  intros mix m1 n1 (H1 & N1 & K1 & LE1).
  assert (LM : lenN (hmx ++ hmx ++ hmx ++ hmx) = 256) by (unfold lenN in *; rewrite !app_length; lia).
  eapply sim_bind; [apply sim_cut_at; [frame|right; exact CH]|]. intros fs fx ? ? (HF & _ & _ & -> & ->). sget32.
  eapply sim_bind; [apply sim_ToWords; [exact H1|locs]|]. intros mw mx m2 n2 (H2 & E2 & L2 & K2 & ->).
  eapply sim_bind.
  { apply (sim_accesses _ _ rb rbx mw mx m2 (n1 + 1)); auto.
    - apply (has_same m1); [apply K2; right; lia|]. apply (has_same m); [apply K1; right; lia|exact HR].
    - subst mw. reflexivity.
    - subst mw. reflexivity.
    - subst mw. cbn [s_loc]. intros E. rewrite E in SR. cbn [serial snd] in SR. lia.
    - subst mw. cbn [s_loc]. intros E. rewrite E in SS. cbn [serial snd] in SS. lia.
    - lia.
    - subst mw. cbn [s_loc serial snd]. lia.
    - lia.
    - destruct ST as (v0 & ST). exists v0. apply (has_same m1); [apply K2; right; lia|]. apply (has_same m); [apply K1; right; lia|exact ST].
    - eapply OKK; [|exact OK]. intros l O. rewrite K2 by auto. apply K1. auto. }
  intros [] my m3 n3 (H3 & LE3 & K3).
  eapply sim_bind; [apply sim_compress; [exact H3|subst mw; right; cbn [s_loc serial snd]; lia]|]. intros cw cx m4 n4 (H4 & E4 & L4 & K4 & ->).
  eapply sim_bind; [apply sim_ToBytes; [exact H4|right; rewrite E4; cbn [serial snd]; lia]|]. intros cb cbx m5 n5 (H5 & E5 & L5 & K5 & ->).
  assert (H15 : has m5 mix (hmx ++ hmx ++ hmx ++ hmx)).
  { unfold new in N1. apply (has_same m1); [|exact H1]. rewrite K5 by lia. rewrite K4 by lia. rewrite K3; [apply K2; lia| | |].
    - subst mw. cbn [s_loc]. intros E. rewrite E in N1. cbn [owner serial fst snd] in N1. lia.
    - intros E. rewrite E in N1. lia.
    - lia. }
  eapply sim_bind; [apply sim_cut_at; [exact H15|left; rewrite LM; unfold nodeBytes; lia]|]. intros nd ndx ? ? (HN & EN & _ & -> & ->).
  eapply sim_left; [apply sim_append_any; [exact RM|exact HN|exact H5]|]. intros ap m6 n6 (H6 & D6).
  assert (LE6 : n <= n6) by (destruct D6 as [(_ & _ & -> & _)|(_ & _ & ?)]; lia).
  assert (X := sim_hash_new me keccak256 32 ap (ndx ++ cbx) m6 n6 H6 (HK _)). unfold sim in *.
  destruct (run me (hash_new keccak256 32 ap) m6 n6) as [[[s7| |] m7] n7]; auto.
  destruct X as (H7 & N7 & _). split; [exact H7|]. unfold new in *. lia.
Qed.

Lemma sim_octopus fuel keccak512 keccak256 room hash h nonce size m n : (forall x, lenN (keccak512 x) = 64) -> (forall x, lenN (keccak256 x) = 32) -> (forall k, k <= room k) ->
  has m hash h -> lenN h = 32 -> owner (s_loc hash) <> me -> serial (s_loc st) < n -> state m st -> ok m ->
  sim me (p_octopus fuel keccak512 keccak256 room hash nonce size lookup) m n (octopus fuel keccak512 keccak256 h nonce size model) (fun s x m' n' =>
    has m' s x /\ owner (s_loc s) = me).
Proof.
  intros HK HK' RM HH LH OH SS ST OK. unfold p_octopus, octopus.
  eapply sim_bind; [apply sim_polynomial; auto; exact HH|]. intros (rb, res) (rbx, res') m1 n1 (H1 & E & E1 & K1 & ->). cbn [fst snd] in *. subst res'.
  assert (HH1 : has m1 hash h) by (apply (has_same m); [apply K1; auto|exact HH]).
  eapply sim_bind; [apply sim_halfMixInput; [exact HH1|exact LH|exact OH]|]. intros pre px m2 n2 (H2 & E2 & K2 & ->).
  eapply sim_left; [apply sim_hash_new; [exact H2|apply HK]|]. intros hm m3 n3 (H3 & N3 & _ & C3 & K3 & LE3).
  eapply sim_weaken.
  { apply (sim_dagPart keccak256 room hm (keccak512 px) rb rbx size m3 n3 HK' RM H3); auto.
    - apply (has_same m1); [|exact H1]. rewrite K3, K2; [reflexivity| |]; right; rewrite E1; cbn [serial snd]; lia.
    - apply N3.
    - unfold writable. rewrite E1. reflexivity.
    - unfold new in N3. lia.
    - rewrite E1. cbn [serial snd]. lia.
    - lia.
    - intros E. rewrite E, E1 in SS. cbn [serial snd] in SS. lia.
    - intros E. unfold new in N3. rewrite <- E in N3. lia.
    - intros E. unfold new in N3. rewrite E, E1 in N3. cbn [serial snd] in N3. lia.
    - destruct ST as (v0 & ST). exists v0. apply (has_same m); [|exact ST]. rewrite K3, K2, K1; [reflexivity| | |]; right; lia.
    - eapply OKK; [|exact OK]. intros l O. rewrite K3, K2, K1; auto. }
  intros s x m4 n4 (H4 & N4). split; [exact H4|]. apply N4.
Qed.
End Octopus.
