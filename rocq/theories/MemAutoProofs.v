(** Proofs about MemAuto.v. *)
From Coq Require Import NArith ZArith Arith List Bool Lia ZifyBool ZifyN ZifyNat.
From Verif Require Import Base BaseFacts CryptoModel AutoModel MemModel MemProofs MemAppend MemProgpowProofs MemHeavyProofs MemAuto.
Import ListNotations.
Open Scope N_scope.
Ltac Zify.zify_post_hook ::= Z.div_mod_to_equations.

(** A new slice: only new arrays were touched. *)
Definition builds (me : N) (m : memory) (n : N) (s : sl) (l : list N) (m' : memory) (n' : N) : Prop :=
  has m' s l /\ new me n n' s /\ kept me n m m' /\ n <= n'.

Lemma safe_make_cap me k c : safe me (make_cap k c) (writable me).
Proof. cbn. auto. Qed.
Lemma sim_make_cap {C D} me k c (f : sl -> prog C) m n (o : outcome D) Post : k <= c ->
  (forall s m', s = mkSl (me, n) 0 k c -> new me n (n + 1) s -> has m' s (zeros k) -> kept me n m m' ->
     sim me (f s) m' (n + 1) o Post) ->
  sim me (pbind (make_cap k c) f) m n o Post.
Proof.
  intros LE F. unfold sim. cbn [make_cap pbind run].
  apply (F (mkSl (me, n) 0 k c) (mset m (me, n) (zeros c)) eq_refl).
  - unfold new. cbn. lia.
  - pose proof (has_cut _ _ _ 0 k (has_fresh me n c m)) as X. cbn [s_loc s_off s_cap] in X. rewrite !N.sub_0_r, N.add_0_r in X.
    replace (firstn (N.to_nat k) (skipn (N.to_nat 0) (zeros c))) with (zeros k) in X.
    + apply X; [lia|rewrite zeros_lenN; lia].
    + change (N.to_nat 0) with 0%nat. cbn [skipn]. unfold zeros. apply list_eq_nth. intros i. rewrite nth_error_firstn_if.
      destruct (Nat.ltb_spec i (N.to_nat k)) as [Hi|Hi].
      * rewrite !nth_error_repeat by lia. reflexivity.
      * apply nth_error_None. rewrite repeat_length. lia.
  - apply kept_mset; [apply kept_refl|reflexivity|cbn; lia].
Qed.

Lemma sim_Uint32ToBytes me v o m n :
  sim me (p_Uint32ToBytes v o) m n (Uint32ToBytes v o) (builds me m n).
Proof.
  unfold p_Uint32ToBytes, Uint32ToBytes. apply sim_make. intros d m1 E1 N1 H1 K1. rewrite put32_model_0, <- (bind_done (put_at _ _ _)).
  eapply sim_bind; [apply sim_put32; exact H1|]. intros [] y m2 n2 (H2 & L2 & O2 & ->). apply sim_ret.
  split; [exact H2|]. split; [exact N1|]. split; [|lia]. intros l OL. rewrite O2 by apart. apply K1. exact OL.
Qed.
Lemma sim_Uint64ToBytes me v o m n :
  sim me (p_Uint64ToBytes v o) m n (Uint64ToBytes v o) (builds me m n).
Proof.
  unfold p_Uint64ToBytes, Uint64ToBytes. apply sim_make. intros d m1 E1 N1 H1 K1. rewrite put64_model_0, <- (bind_done (put_at _ _ _)).
  eapply sim_bind; [apply sim_put64; exact H1|]. intros [] y m2 n2 (H2 & L2 & O2 & ->). apply sim_ret.
  split; [exact H2|]. split; [exact N1|]. split; [|lia]. intros l OL. rewrite O2 by apart. apply K1. exact OL.
Qed.

Section Auto.
Variable blake2b256 : list N -> list N.
Variable room : N -> N.
Hypothesis HB : forall x, lenN (blake2b256 x) = 32.
Hypothesis RM : forall k, k <= room k.

Lemma safe_U32 me v o : safe me (p_Uint32ToBytes v o) (writable me).
Proof. unfold p_Uint32ToBytes. safe_go. Qed.
Lemma safe_U64 me v o : safe me (p_Uint64ToBytes v o) (writable me).
Proof. unfold p_Uint64ToBytes. safe_go. Qed.
Lemma safe_concat me a b : readable me a -> readable me b -> safe me (p_concatBytes room a b) (writable me).
Proof.
  intros RA RB. unfold p_concatBytes. eapply safe_bind; [apply safe_make_cap|]. intros c W.
  eapply safe_bind; [apply safe_copy; assumption|]. intros _ _. apply safe_append; assumption.
Qed.
Lemma safe_genIndexes me seed k n : readable me seed -> safe me (p_genIndexes blake2b256 room seed k n) (writable me).
Proof.
  intros R. unfold p_genIndexes. eapply safe_bind; [apply safe_hash_new; exact R|]. intros h W.
  eapply safe_bind; [apply safe_append; [exact W|apply writable_readable; exact W]|]. intros e WE.
  eapply safe_bind; [apply safe_make|]. intros ix WI. eapply safe_bind with (Q := fun _ => True); [|intros; exact WI].
  apply (safe_for_n _ _ _ _ (fun _ => True)); [exact I|]. intros j [] _. eapply safe_bind; [apply safe_cut_r, writable_readable; exact WE|].
  intros b RB. eapply safe_bind; [apply safe_get32; exact RB|]. intros v _. eapply safe_bind; [apply safe_pure|]. intros x _. apply safe_set. exact WI.
Qed.
Lemma safe_setBytes me b : readable me b -> safe me (setBytes b) (fun _ => True).
Proof. intros R. unfold setBytes. eapply safe_bind; [apply safe_read; exact R|]. cbn. auto. Qed.
Lemma safe_bigBytes me x : safe me (bigBytes x) (writable me).
Proof.
  unfold bigBytes. cbv zeta. eapply safe_bind; [apply safe_make|]. intros r W. eapply safe_bind; [apply safe_stores; exact W|]. intros _ _. exact W.
Qed.
Lemma safe_compute me k nBase msg nonce height : readable me msg ->
  safe me (p_compute blake2b256 room k nBase msg nonce height) (writable me).
Proof.
  intros R. unfold p_compute.
  eapply safe_bind with (Q := writable me); [unfold p_generateM; safe_go|]. intros mm WM.
  eapply safe_bind; [apply safe_U32|]. intros h WH. eapply safe_bind; [apply safe_U64|]. intros nb WN.
  eapply safe_bind; [apply safe_pure|]. intros n _.
  eapply safe_bind; [apply safe_concat; rd|]. intros fm WF. eapply safe_bind; [apply safe_hash_new; rd|]. intros mh WMH.
  eapply safe_bind; [apply safe_cut_r; rd|]. intros b RB. eapply safe_bind; [apply safe_setBytes; exact RB|]. intros p8 _.
  eapply safe_bind; [apply safe_pure|]. intros r _. eapply safe_bind; [apply safe_U32|]. intros i WI.
  eapply safe_bind; [apply safe_concat; rd|]. intros hm WHM. eapply safe_bind; [apply safe_concat; rd|]. intros ihm WIHM.
  eapply safe_bind; [apply safe_hash_new; rd|]. intros f1 WF1. eapply safe_bind; [apply safe_cut_r; rd|]. intros f RF.
  eapply safe_bind; [apply safe_concat; rd|]. intros mn WMN. eapply safe_bind; [apply safe_concat; rd|]. intros seed WS.
  eapply safe_bind; [apply safe_genIndexes; rd|]. intros ix WIX.
  eapply safe_bind with (Q := fun _ => True).
  { apply (safe_for_n _ _ _ _ (fun _ => True)); [exact I|]. intros j f2 _. eapply safe_bind; [apply safe_get; rd|]. intros ixv _.
    eapply safe_bind; [apply safe_U32|]. intros e WE. eapply safe_bind; [apply safe_concat; rd|]. intros hm' WHM'.
    eapply safe_bind; [apply safe_concat; rd|]. intros el WEL. eapply safe_bind; [apply safe_hash_new; rd|]. intros eh WEH.
    eapply safe_bind; [apply safe_from_r; rd|]. intros eh' REH. eapply safe_bind; [apply safe_setBytes; exact REH|]. cbn. auto. }
  intros f2 _. eapply safe_bind; [apply safe_bigBytes|]. intros x WX. apply safe_hash_new. rd.
Qed.

Lemma sim_concat me a b x y m n : has m a x -> has m b y -> old me n a -> old me n b ->
  sim me (p_concatBytes room a b) m n (Done tt) (fun s _ => builds me m n s (x ++ y)).
Proof.
  intros HA HY OA OB. pose proof HA as (LA & _). pose proof HY as (LB & _).
  unfold p_concatBytes. apply sim_make_cap; [lia|]. intros c m1 E1 N1 H1 K1.
  rewrite LA in H1. assert (HA1 : has m1 a x) by frame.
  pose proof (sim_copy me c a m1 (n + 1) (zeros (lenN x)) x H1 HA1) as X.
  replace (copy_at (zeros (lenN x)) 0 x) with (Done x) in X.
  2:{ unfold copy_at. replace (0 <=? lenN (zeros (lenN x))) with true by lia. change (N.to_nat 0) with 0%nat. rewrite overwrite_all; [reflexivity|].
      pose proof (zeros_lenN (lenN x)) as Z. unfold lenN in *. lia. }
  eapply sim_left; [exact X|]. intros [] m2 n2 (H2 & L2 & O2 & ->). clear X.
  assert (K2 : kept me n m m2) by (intros l OL; rewrite O2 by apart; apply K1; exact OL).
  assert (HB2 : has m2 b y) by (apply (has_kept me n m m2 b y K2); [exact OB|exact HY]).
  eapply sim_weaken; [apply sim_append_any; [exact RM|exact H2|exact HB2]|].
  intros s _ m3 n3 (H3 & [(E3 & O3 & -> & _)|(N3 & K3 & LE3)]).
  - split; [exact H3|]. split; [unfold new in *; rewrite E3; lia|]. split; [|lia]. intros l OL. rewrite O3 by (intros ->; locs). apply K2. exact OL.
  - split; [exact H3|]. split; [unfold new in *; lia|]. split; [|lia]. intros l OL. rewrite K3 by lia. apply K2. exact OL.
Qed.
Lemma sim_generateM me size m n : sim me (p_generateM size) m n (generateM size) (builds me m n).
Proof.
  unfold p_generateM, generateM. apply sim_make. intros mm m1 E1 N1 H1 K1. rewrite <- (bind_done (for_n _ _ _)). eapply sim_bind.
  { apply (sim_for_n me _ _ _ tt _ m1 (n + 1) (fun _ (_ : unit) y m' n' => has m' mm y /\ lenN y = size * 8 /\ kept me n m m' /\ n' = n + 1)).
    - split; [exact H1|]. split; [apply zeros_lenN|]. auto.
    - intros j [] y m2 n2 Hj (H2 & L2 & K2 & ->).
      replace (bind (slice y (j * 8) (j * 8 + 8)) _) with (bind (put_at y (j * 8) (enc BigEndian 8 j)) Done).
      2:{ rewrite <- (put64_cut_model y (j * 8) (j * 8 + 8)) by reflexivity. destruct (slice y _ _) as [t| |]; auto. cbn [bind].
          destruct (put_uint64 _ t _) as [t'| |]; auto. cbn [bind]. apply bind_done. }
      rewrite bind_done. eapply sim_weaken; [apply sim_put64_cut; [exact H2|reflexivity|lia]|].
      intros [] y3 m3 n3 (H3 & L3 & O3 & ->). split; [exact H3|]. split; [lia|]. split; [|reflexivity].
      intros l OL. rewrite O3 by apart. apply K2. exact OL. }
  intros [] y m2 n2 (H2 & _ & K2 & ->). apply sim_ret. split; [exact H2|]. split; [exact N1|]. split; [exact K2|lia].
Qed.
Lemma sim_genIndexes me seed x k nn m n : has m seed x -> old me n seed -> k <= 61 ->
  sim me (p_genIndexes blake2b256 room seed k nn) m n (genIndexes blake2b256 x k nn) (builds me m n).
Proof.
  intros H O KK. unfold p_genIndexes, genIndexes. cbv zeta.
  eapply sim_left; [apply sim_hash_new; [exact H|apply HB]|]. intros h m1 n1 (H1 & N1 & _ & C1 & K1 & LE1).
  eapply sim_left; [apply sim_append; [exact RM|exact H1|exact H1|exact C1|rewrite HB; lia]|]. intros e m2 n2 (H2 & N2 & K2 & LE2).
  assert (L2 : lenN (blake2b256 x ++ blake2b256 x) = 64) by (pose proof (HB x) as L; unfold lenN in *; rewrite app_length; lia).
  apply sim_make. intros ix m3 E3 N3 H3 K3. rewrite <- (bind_done (for_n _ _ _)). eapply sim_bind.
  { apply (sim_for_n me _ _ _ tt _ m3 (n2 + 1) (fun _ (_ : unit) y m' n' => has m' ix y /\ kept me n2 m2 m' /\ n' = n2 + 1)); [auto|].
    intros j [] y m4 n4 Hj (H4 & K4 & ->).
    eapply sim_bind; [apply sim_cut_at; [frame|left; lia]|]. intros t tx ? ? (HT & _ & _ & -> & ->).
    eapply sim_bind; [apply (sim_get32 _ _ _ _ _ BigEndian); exact HT|]. intros ? v ? ? (-> & -> & ->).
    apply sim_pure. intros z _. eapply sim_weaken; [apply sim_set; exact H4|]. intros [] y5 m5 n5 (H5 & L5 & O5 & ->).
    split; [exact H5|]. split; [|reflexivity]. intros l OL. rewrite O5 by apart. apply K4. exact OL. }
  intros [] y m4 n4 (H4 & K4 & ->). apply sim_ret. split; [exact H4|]. split; [unfold new in *; lia|]. split; [|lia].
  intros l OL. rewrite K4 by lia. rewrite K2 by lia. apply K1. exact OL.
Qed.
Lemma sim_setBytes me b x m n : has m b x -> sim me (setBytes b) m n (Done (be_value x)) (same m n).
Proof. intros H. unfold setBytes, sim. rewrite run_bind, (run_read _ _ _ _ _ H). cbn [run]. unfold same. auto. Qed.
Lemma sim_bigBytes me x m n : sim me (bigBytes x) m n (Done tt) (fun s _ => builds me m n s (big_bytes x)).
Proof.
  unfold bigBytes. cbv zeta. set (bs := big_bytes x). apply sim_make. intros r m1 E1 N1 H1 K1.
  destruct (run_stores me r m1 (n + 1) _ 0 bs H1) as (m2 & R & HV & O2); [rewrite zeros_lenN; lia|].
  unfold sim. replace (s_off r + 0) with 0 in R by (subst r; reflexivity). rewrite run_bind, R. cbn [run].
  change (N.to_nat 0) with 0%nat in HV. rewrite overwrite_all in HV by (pose proof (zeros_lenN (lenN bs)) as Z; unfold lenN in *; lia).
  split; [exact HV|]. split; [exact N1|]. split; [|lia]. intros l OL. rewrite O2 by apart. apply K1. exact OL.
Qed.
Lemma sim_compute me k nBase msg x nonce height m n : has m msg x -> owner (s_loc msg) <> me -> k <= 61 ->
  sim me (p_compute blake2b256 room k nBase msg nonce height) m n (compute blake2b256 k nBase x nonce height) (fun s y m' n' =>
    has m' s y /\ owner (s_loc s) = me).
Proof.
  intros H OW KK. unfold p_compute, compute.
  eapply sim_bind; [apply sim_generateM|]. intros mm mx m1 n1 (H1 & N1 & K1 & LE1).
  eapply sim_bind; [apply sim_Uint32ToBytes|]. intros h hx m2 n2 (H2 & N2 & K2 & LE2).
  eapply sim_bind; [apply sim_Uint64ToBytes|]. intros nb nx m3 n3 (H3 & N3 & K3 & LE3).
  apply sim_pure. intros nn _. cbv zeta. unfold concatBytes.
  eapply sim_left; [apply (sim_concat me msg nb x nx); [frame|frame|locs|locs]|]. intros fm m4 n4 (H4 & N4 & K4 & LE4).
  eapply sim_left; [apply sim_hash_new; [exact H4|apply HB]|]. intros mh m5 n5 (H5 & N5 & _ & _ & K5 & LE5).
  eapply sim_bind; [apply sim_cut_at; [exact H5|left; rewrite HB; lia]|]. intros b bx ? ? (HB1 & _ & _ & -> & ->).
  eapply sim_left; [apply sim_setBytes; exact HB1|]. intros ? ? ? (-> & -> & ->).
  apply sim_pure. intros r _.
  eapply sim_bind; [apply sim_Uint32ToBytes|]. intros i ix m6 n6 (H6 & N6 & K6 & LE6).
  eapply sim_left; [apply (sim_concat me h mm hx mx); [frame|frame|locs|locs]|]. intros hm m7 n7 (H7 & N7 & K7 & LE7).
  eapply sim_left; [apply (sim_concat me i hm ix (hx ++ mx)); [frame|frame|locs|locs]|]. intros ihm m8 n8 (H8 & N8 & K8 & LE8).
  eapply sim_left; [apply sim_hash_new; [exact H8|apply HB]|]. intros f1 m9 n9 (H9 & N9 & _ & _ & K9 & LE9).
  eapply sim_bind; [apply sim_cut_at; [exact H9|left; rewrite HB; lia]|]. intros f fx ? ? (HF & EF & _ & -> & ->).
  assert (OF : new me n8 n9 f) by (unfold new in *; rewrite EF; exact N9).
  eapply sim_left; [apply (sim_concat me msg nb x nx); [frame|frame|locs|locs]|]. intros mn m10 n10 (H10 & N10 & K10 & LE10).
  eapply sim_left; [apply (sim_concat me f mn fx (x ++ nx)); [frame|frame|locs|locs]|]. intros seed m11 n11 (H11 & N11 & K11 & LE11).
  eapply sim_bind; [apply sim_genIndexes; [exact H11|locs|exact KK]|]. intros ixs ixx m12 n12 (H12 & N12 & K12 & LE12).
  pose proof H12 as (LIX & _). rewrite LIX.
  assert (HH : has m12 h hx) by frame. assert (HM : has m12 mm mx) by frame.
  eapply sim_bind.
  { apply (sim_for_n me _ _ _ 0 0 m12 n12 (fun _ f2 f2' m' n' => f2 = f2' /\ kept me n12 m12 m' /\ n12 <= n')).
    - split; [reflexivity|]. split; [apply kept_refl|lia].
    - intros j f2 ? m13 n13 Hj (<- & K13 & LE13). sget.
      eapply sim_bind; [apply sim_Uint32ToBytes|]. intros e ex m14 n14 (H14 & N14 & K14 & LE14).
      eapply sim_left; [apply (sim_concat me h mm hx mx); [frame|frame|locs|locs]|]. intros hm' m15 n15 (H15 & N15 & K15 & LE15).
      eapply sim_left; [apply (sim_concat me e hm' ex (hx ++ mx)); [frame|frame|locs|locs]|]. intros el m16 n16 (H16 & N16 & K16 & LE16).
      eapply sim_left; [apply sim_hash_new; [exact H16|apply HB]|]. intros eh m17 n17 (H17 & N17 & _ & _ & K17 & LE17).
      eapply sim_bind; [apply sim_cut_from; exact H17|]. intros eh' ehx ? ? (HE & _ & _ & -> & ->).
      eapply sim_left; [apply sim_setBytes; exact HE|]. intros ? ? ? (-> & -> & ->). apply sim_ret. split; [reflexivity|]. split; [|lia].
      intros l OL. rewrite K17, K16, K15, K14 by lia. apply K13. exact OL. }
  intros f2 ? m13 n13 (<- & K13 & LE13).
  eapply sim_left; [apply sim_bigBytes|]. intros bb m14 n14 (H14 & N14 & K14 & LE14).
  pose proof (sim_hash_new me blake2b256 32 bb (big_bytes f2) m14 n14 H14 (HB _)) as X. unfold sim in *.
  destruct (run me (hash_new blake2b256 32 bb) m14 n14) as [[[s7| |] m15] n15]; auto.
  destruct X as (H15 & N15 & _). split; [exact H15|]. apply N15.
Qed.
End Auto.
