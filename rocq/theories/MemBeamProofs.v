(** Proofs about MemBeam.v. *)
From Coq Require Import NArith ZArith Arith List Bool Lia ZifyBool ZifyN ZifyNat.
From Verif Require Import Base BaseFacts CryptoModel EquiModel BeamModel HeavyModel MemModel MemProofs MemAppend MemHeavy MemHeavyProofs MemAuto MemAutoProofs
  MemCuckooProofs MemEagleProofs MemTree MemTreeProofs MemBeam.
Import ListNotations.
Open Scope N_scope.
Ltac Zify.zify_post_hook ::= Z.div_mod_to_equations.

(** Swapping from both ends reverses. *)
Lemma reverse_rev (l : list N) : reverse l = Done (rev l).
Proof.
  unfold reverse.
  destruct (for_n_inv (fun i x => length x = length l /\ forall p, (p < length l)%nat ->
     nth p x 0 = if ((p <? N.to_nat i) || (length l - N.to_nat i <=? p))%nat then nth (length l - 1 - p) l 0 else nth p l 0)
     (lenN l / 2) (fun i d => let j := lenN d - 1 - i in a <- idx d i ;; b <- idx d j ;; d <- upd d i b ;; upd d j a) l) as (x & E & L & X).
  - split; [reflexivity|]. intros p Hp. replace (p <? N.to_nat 0)%nat with false by lia. replace (length l - N.to_nat 0 <=? p)%nat with false by lia. reflexivity.
  - intros i x Hi (L & X). cbv zeta. unfold lenN in *.
    rewrite (idx_Done _ _ 0) by (unfold lenN; lia). cbn [bind]. rewrite (idx_Done _ _ 0) by (unfold lenN; lia). cbn [bind].
    rewrite upd_Done by (unfold lenN; lia). cbn [bind]. rewrite upd_Done by (unfold lenN; rewrite set_nth_length; lia).
    eexists; split; [reflexivity|]. split; [rewrite !set_nth_length; exact L|]. intros p Hp.
    rewrite nth_set_nth by (rewrite set_nth_length; lia). destruct (Nat.eqb_spec (N.to_nat (N.of_nat (length x) - 1 - i)) p) as [<-|NE].
    + rewrite X by lia. replace (N.to_nat i <? N.to_nat i)%nat with false by lia. replace (length l - N.to_nat i <=? N.to_nat i)%nat with false by lia. cbn [orb].
      replace ((N.to_nat (N.of_nat (length x) - 1 - i) <? N.to_nat (i + 1)) || (length l - N.to_nat (i + 1) <=? N.to_nat (N.of_nat (length x) - 1 - i)))%nat with true by lia.
      f_equal. lia.
    + rewrite nth_set_nth by lia. destruct (Nat.eqb_spec (N.to_nat i) p) as [<-|NE'].
      * rewrite X by lia. replace ((N.to_nat (N.of_nat (length x) - 1 - i) <? N.to_nat i) || (length l - N.to_nat i <=? N.to_nat (N.of_nat (length x) - 1 - i)))%nat with false by lia.
        replace ((N.to_nat i <? N.to_nat (i + 1)) || (length l - N.to_nat (i + 1) <=? N.to_nat i))%nat with true by lia. f_equal. lia.
      * rewrite X by lia. replace ((p <? N.to_nat (i + 1)) || (length l - N.to_nat (i + 1) <=? p))%nat with ((p <? N.to_nat i) || (length l - N.to_nat i <=? p))%nat by lia. reflexivity.
  - cbv zeta in E. rewrite E. f_equal. apply (nth_ext _ _ 0 0); [rewrite rev_length; exact L|]. intros p Hp. rewrite L in Hp. rewrite X by exact Hp.
    rewrite rev_nth by exact Hp. unfold lenN.
    destruct ((p <? N.to_nat (N.of_nat (length l) / 2)) || (length l - N.to_nat (N.of_nat (length l) / 2) <=? p))%nat eqn:C.
    + f_equal. lia.
    + assert (p = (length l - S p)%nat) by lia. f_equal. lia.
Qed.

Lemma sim_learn {A B} me (p : prog A) m n (o : outcome B) Q :
  sim me p m n o Q -> sim me p m n o (fun a b m' n' => Q a b m' n' /\ o = Done b).
Proof. unfold sim. destruct (run me p m n) as [[[a| |] m'] n'], o; auto. Qed.
Lemma sim_get_at me s i l v m n : has m s l -> idx l i = Done v -> sim me (get s i) m n (Done v) (same m n).
Proof. intros H <-. apply sim_get. exact H. Qed.
Lemma sim_set_at me s i v l l' m n : has m s l -> upd l i v = Done l' -> sim me (set s i v) m n (Done l') (wrote m n s l).
Proof. intros H <-. apply sim_set. exact H. Qed.
Lemma Blake2b_size blake d p s h : (forall s p d, 0 < s <= 64 -> lenN (blake s p d) = s) -> 0 < u8 s ->
  Blake2b blake d p s = Done h -> lenN h = u8 s.
Proof.
  intros HB P. unfold Blake2b. cbv zeta. destruct (N.eqb_spec (u8 s) 0); [lia|]. destruct (N.ltb_spec 64 (u8 s)); [discriminate|]. cbn [orb].
  destruct (_ <? _); [discriminate|]. injection 1 as <-. apply HB. lia.
Qed.

Section Beam.
Variable blake : N -> list N -> list N -> list N.
Variable room : N -> N.
Variables index_mask collision_mask mix_mask : sl.
Variable me : N.
Hypothesis HB : forall s p d, 0 < s <= 64 -> lenN (blake s p d) = s.
Hypothesis RM : forall k, k <= room k.

(** ** Accesses *)
Section Safe.
Hypothesis RI : readable me index_mask.
Hypothesis RC : readable me collision_mask.
Hypothesis RX : readable me mix_mask.
Definition node_w (x : pbnode) : Prop := writable me (pb_indices x).

Lemma safe_beamIndices soln : readable me soln -> safe me (p_beamIndices index_mask soln) (writable me).
Proof.
  intros R. unfold p_beamIndices. eapply safe_bind; [apply safe_cut_r; exact R|]. intros s RS.
  eapply safe_bind with (Q := writable me).
  { unfold p_reverseBytes. eapply safe_bind; [apply safe_make|]. intros c W. eapply safe_bind; [apply safe_copy; assumption|]. intros _ _.
    eapply safe_bind with (Q := fun _ => True); [unfold p_reverse; safe_go|]. intros _ _. exact W. }
  intros r W. eapply safe_bind; [apply safe_setBytes; rd|]. intros v _. eapply safe_bind; [apply safe_make|]. intros ix WI.
  eapply safe_bind with (Q := fun _ => True); [|intros; exact WI]. apply (safe_for_n _ _ _ _ (fun _ => True)); [exact I|]. intros i st _. safe_go.
Qed.
Lemma safe_beamNode prePow index : readable me prePow -> safe me (p_beamNode prePow index) node_w.
Proof.
  intros R. unfold p_beamNode. eapply safe_bind with (Q := fun _ => True).
  { apply (safe_for_n _ _ _ _ (fun _ => True)); [exact I|]. intros i st _. cbv zeta. safe_go. }
  intros bs _. eapply safe_bind; [apply safe_make|]. intros ix W. eapply safe_bind; [apply safe_set; exact W|]. intros _ _. exact W.
Qed.
Lemma safe_beamNodes prePow indices k i : readable me prePow -> readable me indices -> safe me (p_beamNodes prePow indices k i) (Forall node_w).
Proof.
  intros R RI'. revert i. induction k; intros i; cbn [p_beamNodes]; [constructor|].
  eapply safe_bind; [apply safe_get; exact RI'|]. intros ix _. eapply safe_bind; [apply safe_beamNode; exact R|]. intros x W.
  eapply safe_bind; [apply IHk|]. intros l WL. constructor; assumption.
Qed.
Lemma safe_applyMix x r : node_w x -> safe me (p_applyMix mix_mask x r) node_w.
Proof.
  intros W. unfold p_applyMix, node_w in *. cbv zeta. eapply safe_bind with (Q := fun _ => True).
  { apply (safe_for_n _ _ _ _ (fun _ => True)); [exact I|]. intros i st _. safe_go. }
  intros tb _. eapply safe_bind with (Q := fun _ => True).
  { apply (safe_for_n _ _ _ _ (fun _ => True)); [exact I|]. intros i (st, st') _. safe_go. }
  intros ? _. exact W.
Qed.
Lemma safe_beamValidate a b : node_w a -> node_w b -> safe me (p_beamValidate collision_mask a b) (fun _ => True).
Proof.
  intros WA WB. unfold p_beamValidate, node_w in *. eapply safe_bind; [apply safe_get; exact RC|]. intros mk _. destruct (negb _); [exact I|].
  eapply safe_bind; [apply safe_get; rd|]. intros b0 _. eapply safe_bind; [apply safe_get; rd|]. intros a0 _. destruct (_ <? _); [exact I|].
  eapply safe_bind; [apply safe_distinct; rd|]. intros d _. exact I.
Qed.
Lemma safe_beamChild a b r : node_w a -> node_w b -> safe me (p_beamChild room a b r) node_w.
Proof.
  intros WA WB. unfold p_beamChild, node_w in *. cbv zeta. eapply safe_bind; [apply safe_make|]. intros rm W.
  eapply safe_bind with (Q := fun _ => True); [safe_go|]. intros _ _. eapply safe_bind; [apply safe_setBytes; rd|]. intros mb _.
  eapply safe_bind; [apply safe_joined; rd|]. intros ix WX. exact WX.
Qed.
Definition nodes_w (x : option (list pbnode)) : Prop := match x with Some l => Forall node_w l | None => True end.
Lemma safe_beamRound k : forall round rows, (length rows <= k)%nat -> Forall node_w rows -> safe me (p_beamRound room collision_mask mix_mask round rows) nodes_w.
Proof.
  clear HB RM. induction k; intros round rows LE W; (destruct rows as [|a [|b t]]; [constructor|exact I|]); [cbn in LE; lia|]. cbn [p_beamRound length] in *. cbv zeta.
  apply Forall_cons_iff in W. destruct W as (WA & W). apply Forall_cons_iff in W. destruct W as (WB & WT).
  eapply safe_bind; [apply safe_applyMix; exact WA|]. intros a' WA'. eapply safe_bind; [apply safe_applyMix; exact WB|]. intros b' WB'.
  eapply safe_bind; [apply safe_beamValidate; assumption|]. intros [[]|] _; [|exact I].
  eapply safe_bind; [apply safe_beamChild; assumption|]. intros row WR. eapply safe_bind; [apply IHk; [lia|exact WT]|].
  intros [l|] WL; [|exact I]. constructor; assumption.
Qed.
Lemma safe_beamRounds fuel : forall round rows, Forall node_w rows -> safe me (p_beamRounds room collision_mask mix_mask fuel round rows) nodes_w.
Proof.
  clear HB RM. induction fuel; intros round rows W; (destruct rows as [|a [|b t]]; [exact W|exact W|]); [exact I|]. cbn [p_beamRounds].
  eapply safe_bind; [apply (safe_beamRound (length (a :: b :: t))); [apply Nat.le_refl|exact W]|]. intros [l|] WL; [|exact I]. apply IHfuel. exact WL.
Qed.
Lemma safe_initializePrePow personal header soln : readable me personal -> readable me header -> readable me soln ->
  safe me (p_initializePrePow blake room personal header soln) (writable me).
Proof.
  intros RP RH RS. unfold p_initializePrePow. eapply safe_bind; [apply safe_suffixed2; exact RP|]. intros ps WP.
  eapply safe_bind; [apply safe_from_r; exact RS|]. intros t RT. eapply safe_bind; [apply safe_get32; exact RT|]. intros v _.
  eapply safe_bind; [apply safe_suffixed; exact RH|]. intros st WS. eapply safe_bind; [apply safe_Blake2b; rd|]. intros h WH.
  do 4 (eapply safe_bind with (Q := readable me); [apply safe_cut_r; rd|]; intros ? ?; eapply safe_bind with (Q := fun _ => True); [safe_go|]; intros ? _).
  eapply safe_bind; [apply safe_make|]. intros pp W. eapply safe_bind; [apply safe_stores; exact W|]. intros _ _. exact W.
Qed.
Lemma safe_BeamVerify personal header soln : readable me personal -> readable me header -> readable me soln ->
  safe me (p_BeamVerify blake room index_mask collision_mask mix_mask personal header soln) (fun _ => True).
Proof.
  intros RP RH RS. unfold p_BeamVerify. destruct (negb _); [exact I|]. destruct (negb _); [exact I|]. unfold p_beamVerify.
  eapply safe_bind; [apply safe_initializePrePow; assumption|]. intros pp WP. eapply safe_bind; [apply safe_beamIndices; exact RS|]. intros ix WI.
  eapply safe_bind; [apply safe_beamNodes; rd|]. intros rows WR. eapply safe_bind; [apply safe_beamRounds; exact WR|]. intros [l|] _; [|exact I].
  eapply safe_bind; [apply safe_pure|]. intros r _. exact I.
Qed.
End Safe.

(** ** Results *)
Definition masks (m : memory) : Prop :=
  has m index_mask [indexMask] /\ has m collision_mask [collisionMask] /\ has m mix_mask [mixMask].
Hypothesis OI : owner (s_loc index_mask) <> me.
Hypothesis OC : owner (s_loc collision_mask) <> me.
Hypothesis OX : owner (s_loc mix_mask) <> me.
Lemma masks_kept n m m' : kept me n m m' -> masks m -> masks m'.
Proof.
  intros K (A & B & C). split; [|split]; (apply (has_same m); [apply K; left; assumption|assumption]).
Qed.

(** A node and the node of the model. *)
Definition node_ok (n : N) (m : memory) (x : pbnode) (y : bnode) : Prop :=
  pb_bitset x = b_bitset y /\ has m (pb_indices x) (b_indices y) /\ owner (s_loc (pb_indices x)) = me /\ serial (s_loc (pb_indices x)) < n.
Lemma node_kept n n' m m' x y : kept me n m m' -> n <= n' -> node_ok n m x y -> node_ok n' m' x y.
Proof.
  intros K LE (A & B & C & D). split; [exact A|]. split; [|split; [exact C|lia]]. apply (has_same m); [apply K; right; exact D|exact B].
Qed.
Lemma nodes_kept n n' m m' x y : kept me n m m' -> n <= n' -> Forall2 (node_ok n m) x y -> Forall2 (node_ok n' m') x y.
Proof. intros K LE F. induction F; constructor; auto. eapply node_kept; eauto. Qed.
Lemma kept_step n n1 m m1 m2 : kept me n m m1 -> n <= n1 -> kept me n1 m1 m2 -> kept me n m m2.
Proof. intros A B C. eapply kept_trans; eauto. Qed.

Lemma sim_reverseBytes b x m n : has m b x -> old me n b -> sim me (p_reverseBytes b) m n (Done (rev x)) (builds me m n).
Proof.
  intros H O. pose proof H as (L & _). unfold p_reverseBytes. rewrite L. apply sim_make. intros c m1 E1 N1 H1 K1.
  eapply sim_left; [replace (zeros (lenN x)) with (zeros (lenN x + 0)) in H1 by (f_equal; lia); rewrite <- (copy_zeros x 0); apply sim_copy; [exact H1|frame]|].
  intros [] m2 n2 (H2 & L2 & O2 & ->). rewrite app_nil_r in H2.
  eapply sim_left; [rewrite <- reverse_rev; apply (sim_reverse (fun x _ => x)); exact H2|]. intros [] m3 n3 (H3 & L3 & O3 & ->).
  apply sim_ret. split; [exact H3|]. split; [exact N1|]. split; [|lia]. intros a OA. rewrite O3, O2 by apart. apply K1. exact OA.
Qed.
Lemma sim_beamIndices soln x m n : masks m -> has m soln x -> lenN x = 104 -> owner (s_loc soln) <> me ->
  sim me (p_beamIndices index_mask soln) m n (beamIndices x) (builds me m n).
Proof.
  intros MK H LX OW. unfold p_beamIndices, beamIndices. eapply sim_bind; [apply sim_cut_at; [exact H|left; lia]|].
  intros s sx ? ? (HS & ES & _ & -> & ->). cbv zeta. unfold reverseBytes.
  eapply sim_left; [apply sim_reverseBytes; [exact HS|left; congruence]|]. intros r m1 n1 (H1 & N1 & K1 & LE1).
  eapply sim_left; [apply sim_setBytes; exact H1|]. intros ? ? ? (-> & -> & ->).
  apply sim_make. intros ix m2 E2 N2 H2 K2.
  assert (MK2 : masks m2) by (eapply masks_kept; [exact K2|]; eapply masks_kept; eauto).
  eapply sim_bind.
  { apply (sim_for_n me 32 _ _ _ (zeros 32, be_value (rev sx)) m2 (n1 + 1) (fun _ st st' m' n' =>
      has m' ix (fst st') /\ st = snd st' /\ others m2 m' ix /\ n' = n1 + 1)).
    { cbn [fst snd]. split; [exact H2|]. split; [reflexivity|]. split; [apply others_refl|reflexivity]. }
    intros i st (y, st') m3 n3 Hi (H3 & E3 & O3 & ->). cbn [fst snd] in *. subst st'.
    assert (MI : has m3 index_mask [indexMask]) by (apply (has_same m2); [apply O3; intros E; locs|apply MK2]).
    eapply sim_left; [apply (sim_get_at _ _ _ [indexMask] indexMask); [exact MI|reflexivity]|]. intros ? ? ? (-> & -> & ->).
    eapply sim_bind; [apply sim_set; exact H3|]. intros [] y4 m4 n4 (H4 & L4 & O4 & ->). apply sim_ret. cbn [fst snd].
    split; [exact H4|]. split; [reflexivity|]. split; [eapply others_trans; eauto|reflexivity]. }
  intros st (y, st') m3 n3 (H3 & _ & O3 & ->). cbn [fst snd] in *. apply sim_ret.
  split; [exact H3|]. split; [locs|]. split; [|lia]. intros a OA. rewrite O3 by (intros ->; locs). rewrite K2 by (destruct OA; [auto|right; lia]).
  apply K1. exact OA.
Qed.
Definition node_made (m : memory) (n : N) (x : pbnode) (y : bnode) (m' : memory) (n' : N) : Prop :=
  node_ok n' m' x y /\ kept me n m m' /\ n <= n'.
Lemma sim_beamNode prePow pp index m n : has m prePow pp -> sim me (p_beamNode prePow index) m n (beamNode pp index) (node_made m n).
Proof.
  intros H. unfold p_beamNode, beamNode. eapply sim_bind.
  { apply (sim_for_n me 7 _ _ 0 0 m n (fun _ a b m' n' => a = b /\ m' = m /\ n' = n)); [auto|].
    intros i st ? ? ? Hi (<- & -> & ->). cbv zeta. sget. sget. sget. sget. apply sim_ret. auto. }
  intros bs ? ? ? (<- & -> & ->). apply sim_make. intros ix m1 E1 N1 H1 K1.
  eapply sim_left; [apply (sim_set_at _ _ _ _ (zeros 1) [index]); [exact H1|reflexivity]|]. intros [] m2 n2 (H2 & L2 & O2 & ->).
  apply sim_ret. split; [|split; [|lia]].
  - split; [reflexivity|]. split; [exact H2|]. cbn [pb_indices]. locs.
  - intros a OA. rewrite O2 by (intros ->; locs). apply K1. exact OA.
Qed.
Lemma sim_beamNodes prePow pp indices pre suf m n : has m prePow pp -> has m indices (pre ++ suf) -> old me n prePow -> old me n indices ->
  sim me (p_beamNodes prePow indices (length suf) (lenN pre)) m n (beamNodes pp suf) (fun x y m' n' =>
    Forall2 (node_ok n' m') x y /\ kept me n m m' /\ n <= n').
Proof.
  revert pre m n. induction suf as [|y suf IH]; intros pre m n HP HI OP OX'; cbn [length p_beamNodes beamNodes].
  - split; [constructor|]. split; [apply kept_refl|lia].
  - assert (I0 : idx (pre ++ y :: suf) (lenN pre) = Done y).
    { unfold idx. rewrite nth_error_app2 by (unfold lenN; lia). replace (N.to_nat (lenN pre) - length pre)%nat with 0%nat by (unfold lenN; lia). reflexivity. }
    eapply sim_left; [apply (sim_get_at _ _ _ _ _ _ _ HI I0)|]. intros ? ? ? (-> & -> & ->).
    eapply sim_bind; [apply sim_beamNode; exact HP|]. intros x x' m1 n1 (X1 & K1 & LE1).
    replace (lenN pre + 1) with (lenN (pre ++ [y])) by (rewrite lenN_app; reflexivity).
    eapply sim_bind; [apply IH|].
    + frame.
    + rewrite <- app_assoc. cbn [app]. apply (has_kept me n m m1); auto.
    + unfold old in *. lia.
    + unfold old in *. lia.
    + intros l l' m2 n2 (X2 & K2 & LE2). apply sim_ret. split; [|split; [eapply kept_step; eauto|lia]].
      constructor; [eapply node_kept; eauto|exact X2].
Qed.
Lemma sim_applyMix x y r m n : masks m -> node_ok n m x y ->
  sim me (p_applyMix mix_mask x r) m n (applyMix y r) (fun a b m' n' => node_ok n m a b /\ m' = m /\ n' = n).
Proof.
  intros MK (A & B & C & D). unfold p_applyMix, applyMix. cbv zeta. rewrite (proj1 B), A.
  eapply sim_bind.
  { apply (sim_for_n me _ _ _ (b_bitset y) (b_bitset y) m n (fun _ a b m' n' => a = b /\ m' = m /\ n' = n)); [auto|].
    intros i st ? ? ? Hi (<- & -> & ->). sget. apply sim_ret. auto. }
  intros tb ? ? ? (<- & -> & ->). eapply sim_bind.
  { apply (sim_for_n me 8 _ _ (0, tb) (0, tb) m n (fun _ a b m' n' => a = b /\ m' = m /\ n' = n)); [auto|].
    intros i (st, tb') ? ? ? Hi (<- & -> & ->).
    eapply sim_left; [apply (sim_get_at _ _ _ [mixMask] mixMask); [apply MK|reflexivity]|]. intros ? ? ? (-> & -> & ->). apply sim_ret. auto. }
  intros (res, tb') ? ? ? (<- & -> & ->). apply sim_ret. split; [|auto]. split; [reflexivity|]. split; [exact B|]. split; [exact C|exact D].
Qed.
Lemma sim_beamValidate a b a' b' m n : masks m -> node_ok n m a a' -> node_ok n m b b' ->
  sim me (p_beamValidate collision_mask a b) m n (beamValidate a' b') (same m n).
Proof.
  intros MK (A1 & A2 & _) (B1 & B2 & _). unfold p_beamValidate, beamValidate. rewrite A1, B1.
  eapply sim_left; [apply (sim_get_at _ _ _ [collisionMask] collisionMask); [apply MK|reflexivity]|]. intros ? ? ? (-> & -> & ->).
  destruct (negb _); [repeat split|]. sget. sget. destruct (_ <? _); [repeat split|].
  eapply sim_left; [apply (sim_distinct blake room me HB RM); eassumption|]. intros ? ? ? (-> & -> & ->). destruct (distinctIndices _ _); repeat split.
Qed.
Lemma raw_mask : for_n (workBitsSize / 8) (fun i l => upd l i 255) (zeros (workBitsSize / 8)) = Done (repeat 255 (N.to_nat (workBitsSize / 8))).
Proof. reflexivity. Qed.
Lemma sim_beamChild a b a' b' r m n : node_ok n m a a' -> node_ok n m b b' ->
  sim me (p_beamChild room a b r) m n (beamChild a' b' r) (node_made m n).
Proof.
  intros (A1 & A2 & A3 & A4) (B1 & B2 & B3 & B4). unfold p_beamChild, beamChild. cbv zeta. rewrite A1, B1.
  apply sim_make. intros rm m1 E1 N1 H1 K1.
  eapply sim_left.
  { rewrite <- raw_mask. apply (sim_over me (workBitsSize / 8) rm (fun i => set rm i 255) (fun i l => upd l i 255)); [exact H1|].
    intros j y m2 Hj H2 O2. apply sim_set. exact H2. }
  intros [] m2 n2 (H2 & O2 & ->).
  eapply sim_left; [apply sim_setBytes; exact H2|]. intros ? ? ? (-> & -> & ->).
  assert (HA : has m2 (pb_indices a) (b_indices a')) by frame. assert (HBB : has m2 (pb_indices b) (b_indices b')) by frame.
  pose proof (sim_joined blake room me HB RM (pb_indices a) (pb_indices b) _ _ m2 (n + 1) HA HBB ltac:(locs) ltac:(locs)) as J.
  destruct (idx (b_indices a') 0) as [a0| |]; cbn [bind] in *; [destruct (idx (b_indices b') 0) as [b0| |]; cbn [bind] in *|..].
  - eapply sim_left; [exact J|]. intros ix m3 n3 (H3 & N3 & K3 & LE3). apply sim_ret. split; [|split; [|lia]].
    + split; [reflexivity|]. split; [exact H3|]. cbn [pb_indices]. locs.
    + intros q OQ. rewrite K3 by (destruct OQ; [auto|right; lia]). rewrite O2 by (intros ->; locs). apply K1. exact OQ.
  - unfold sim in *. rewrite run_bind. destruct (run me (p_joined room _ _) m2 (n + 1)) as [[[s| |] ?] ?]; try contradiction; exact I.
  - unfold sim in *. rewrite run_bind. destruct (run me (p_joined room _ _) m2 (n + 1)) as [[[s| |] ?] ?]; try contradiction; exact I.
  - unfold sim in *. rewrite run_bind. destruct (run me (p_joined room _ _) m2 (n + 1)) as [[[s| |] ?] ?]; try contradiction; exact I.
  - unfold sim in *. rewrite run_bind. destruct (run me (p_joined room _ _) m2 (n + 1)) as [[[s| |] ?] ?]; try contradiction; exact I.
Qed.
Definition rows_made (m : memory) (n : N) (x : option (list pbnode)) (y : option (list bnode)) (m' : memory) (n' : N) : Prop :=
  match x, y with
  | Some x, Some y => Forall2 (node_ok n' m') x y /\ kept me n m m' /\ n <= n'
  | None, None => True
  | _, _ => False
  end.
Lemma sim_beamRound k : forall round rows rows' m n, (length rows <= k)%nat -> masks m -> Forall2 (node_ok n m) rows rows' ->
  sim me (p_beamRound room collision_mask mix_mask round rows) m n (beamRound round rows') (rows_made m n).
Proof.
  induction k; intros round rows rows' m n LE MK F; (destruct rows as [|a [|b t]]; [inversion F; subst; split; [constructor|]; split; [apply kept_refl|lia]|inversion F as [|? ? ? ? ? F']; subst; inversion F'; subst; exact I|]); [cbn in LE; lia|].
  inversion F as [|? a' ? ta' FA F']; subst. inversion F' as [|? b' ? t' FB FT]; subst. cbn [p_beamRound beamRound length] in *. cbv zeta.
  eapply sim_bind; [apply sim_applyMix; [exact MK|exact FA]|]. intros a1 a1' ? ? (FA1 & -> & ->).
  eapply sim_bind; [apply sim_applyMix; [exact MK|exact FB]|]. intros b1 b1' ? ? (FB1 & -> & ->).
  eapply sim_bind; [apply sim_beamValidate; [exact MK|exact FA1|exact FB1]|]. intros ? [[]|] ? ? (-> & -> & ->); [|exact I].
  eapply sim_bind; [apply sim_beamChild; [exact FA1|exact FB1]|]. intros row row' m1 n1 (R1 & K1 & LE1).
  eapply sim_bind; [apply IHk; [lia|eapply masks_kept; eauto|eapply nodes_kept; eauto]|].
  intros [l|] [l'|] m2 n2 X2; cbn [rows_made] in X2; try contradiction; [|exact I]. destruct X2 as (F2 & K2 & LE2).
  apply sim_ret. split; [|split; [eapply kept_step; eauto|lia]]. constructor; [eapply node_kept; eauto|exact F2].
Qed.
Lemma sim_beamRounds fuel : forall round rows rows' m n, masks m -> Forall2 (node_ok n m) rows rows' ->
  sim me (p_beamRounds room collision_mask mix_mask fuel round rows) m n (beamRounds fuel round rows') (rows_made m n).
Proof.
  induction fuel; intros round rows rows' m n MK F;
    (destruct rows as [|a [|b t]]; [inversion F; subst; split; [constructor|]; split; [apply kept_refl|lia]| |]).
  1,3: pose proof F as F0; inversion F as [|? ? ? ? ? F']; subst; inversion F'; subst; split; [exact F0|]; split; [apply kept_refl|lia].
  - inversion F as [|? ? ? ? ? F']; subst. inversion F'; subst. exact I.
  - pose proof F as F0. inversion F as [|? ? ? ? ? F']; subst. inversion F'; subst. cbn [p_beamRounds beamRounds].
    eapply sim_bind; [apply (sim_beamRound (length (a :: b :: t))); [lia|exact MK|exact F0]|].
    intros [l|] [l'|] m2 n2 X2; cbn [rows_made] in X2; try contradiction; [|exact I]. destruct X2 as (F2 & K2 & LE2).
    eapply sim_weaken; [apply IHfuel; [eapply masks_kept; eauto|exact F2]|].
    intros [x|] [x'|] m3 n3 X3; cbn [rows_made] in *; try contradiction; auto. destruct X3 as (F3 & K3 & LE3).
    split; [exact F3|]. split; [eapply kept_step; eauto|lia].
Qed.
Lemma sim_initializePrePow personal header soln px hx sx m n : has m personal px -> has m header hx -> has m soln sx ->
  owner (s_loc personal) <> me -> owner (s_loc header) <> me -> owner (s_loc soln) <> me -> lenN sx = 104 ->
  sim me (p_initializePrePow blake room personal header soln) m n (initializePrePow blake px hx sx) (builds me m n).
Proof.
  intros HP HH HS OP OH OS LS. unfold p_initializePrePow, initializePrePow. cbv zeta.
  eapply sim_left; [apply (sim_suffixed2 blake room me HB RM); [exact HP|left; exact OP]|]. intros ps m1 n1 (H1 & N1 & K1 & LE1).
  assert (HS1 : has m1 soln sx) by frame. assert (HH1 : has m1 header hx) by frame.
  eapply sim_bind; [apply sim_cut_from; exact HS1|]. intros t tx ? ? (HT & _ & _ & -> & ->).
  eapply sim_bind; [apply (sim_get32 _ _ _ _ _ LittleEndian); exact HT|]. intros ? v ? ? (-> & -> & ->).
  eapply sim_left; [apply (sim_suffixed blake room me HB RM); [exact HH1|left; exact OH]|]. intros st m2 n2 (H2 & N2 & K2 & LE2).
  assert (HP2 : has m2 ps (px ++ le_bytes 4 workBitsSize ++ le_bytes 4 numRounds)) by frame.
  eapply sim_bind; [apply sim_learn; apply (sim_Blake2b blake room me HB RM); [exact H2|exact HP2]|]. intros h hb m3 n3 (((H3 & N3 & K3 & LE3) & _) & EB).
  apply Blake2b_size in EB; [|exact HB|reflexivity]. change (u8 32) with 32 in EB.
  do 4 (eapply sim_bind; [apply sim_cut_at; [exact H3|left; lia]|]; let HC := fresh in intros ? ? ? ? (HC & _ & _ & -> & ->);
        eapply sim_bind; [apply sim_get64_le; exact HC|]; intros ? ? ? ? (-> & -> & ->); clear HC).
  apply sim_make. intros pp m4 E4 N4 H4 K4.
  match goal with |- sim _ (pbind (stores _ _ ?x) _) _ _ _ _ => destruct (run_stores me pp m4 (n3 + 1) _ 0 x H4) as (m5 & R & HV & O5); [rewrite zeros_lenN; unfold lenN; cbn [length]; lia|] end.
  unfold sim. replace (s_off pp + 0) with 0 in R by (subst pp; reflexivity). rewrite run_bind, R. cbn [run].
  split; [exact HV|]. split; [locs|]. split; [|lia]. intros q OQ. rewrite O5 by (intros ->; locs).
  rewrite K4 by (destruct OQ; [auto|right; lia]). rewrite K3 by (destruct OQ; [auto|right; lia]). rewrite K2 by (destruct OQ; [auto|right; lia]). apply K1. exact OQ.
Qed.
Lemma sim_BeamVerify personal header soln px hx sx m n : masks m -> has m personal px -> has m header hx -> has m soln sx ->
  owner (s_loc personal) <> me -> owner (s_loc header) <> me -> owner (s_loc soln) <> me ->
  sim me (p_BeamVerify blake room index_mask collision_mask mix_mask personal header soln) m n
    (BeamVerify blake (NewClient 150 5 px) hx sx) (fun a b _ _ => a = b).
Proof.
  intros MK HP HH HS OP OH OS. unfold p_BeamVerify, BeamVerify. rewrite (proj1 HH), (proj1 HS).
  destruct (N.eqb_spec (lenN hx) 40); cbn [negb]; [|reflexivity]. destruct (N.eqb_spec (lenN sx) 104) as [LS|]; cbn [negb]; [|reflexivity].
  unfold p_beamVerify, beamVerify. cbn [NewClient bc_personal].
  eapply sim_bind; [apply (sim_initializePrePow personal header soln px hx sx); assumption|]. intros pp ppx m1 n1 (H1 & N1 & K1 & LE1).
  eapply sim_bind; [apply (sim_beamIndices soln sx); [eapply masks_kept; eauto|frame|exact LS|exact OS]|]. intros ix ixx m2 n2 (H2 & N2 & K2 & LE2).
  eapply sim_bind.
  { rewrite (proj1 H2). replace (N.to_nat (lenN ixx)) with (length ixx) by (unfold lenN; lia). change 0 with (lenN (@nil N)).
    apply (sim_beamNodes pp ppx ix [] ixx); [frame|exact H2|locs|locs]. }
  intros rows rows' m3 n3 (F3 & K3 & LE3).
  eapply sim_bind.
  { assert (EL : length rows = length rows') by (clear -F3; induction F3; cbn; congruence). rewrite EL. apply sim_beamRounds; [|exact F3]. eapply masks_kept; [exact K3|]. eapply masks_kept; [exact K2|]. eapply masks_kept; eauto. }
  intros [l|] [l'|] m4 n4 X4; cbn [rows_made] in X4; try contradiction; [|reflexivity]. destruct X4 as (F4 & _).
  destruct F4 as [|x y l l' (E & _) F4]; [exact I|]. change (idx (x :: l) 0) with (Done x). change (idx (y :: l') 0) with (Done y). unfold sim. cbn [pure pbind bind run]. rewrite E. reflexivity.
Qed.
End Beam.
