(** Proofs about MemEqui.v. *)
From Coq Require Import NArith ZArith Arith List Bool Lia ZifyBool ZifyN ZifyNat.
From Verif Require Import Base BaseFacts CryptoModel EquiModel MemModel MemProofs MemAppend MemProgpow MemProgpowProofs MemOctopusProofs MemAutoProofs
  MemCuckooProofs MemEagleProofs MemTree MemTreeProofs MemBeamProofs MemEqui.
Import ListNotations.
Open Scope N_scope.
Ltac Zify.zify_post_hook ::= Z.div_mod_to_equations.

Section Equi.
Variable blake : N -> list N -> list N -> list N.
Variable room : N -> N.
Variable me : N.
Hypothesis HB : forall s p d, 0 < s <= 64 -> lenN (blake s p d) = s.
Hypothesis RM : forall k, k <= room k.

(** ** Accesses *)
Definition opt_r (x : option sl) : Prop := match x with Some s => readable me s | None => True end.
Lemma safe_expandArray input bitLen bytePad : readable me input -> safe me (p_expandArray input bitLen bytePad) opt_r.
Proof.
  intros R. unfold p_expandArray. destruct (_ <? _); [exact I|]. destruct (_ <? _); [exact I|]. cbv zeta.
  eapply safe_bind; [apply safe_pure|]. intros ol _. destruct (_ =? _); [exact R|].
  eapply safe_bind; [apply safe_make|]. intros out W. eapply safe_bind with (Q := fun _ => True).
  { apply (safe_for_n _ _ _ _ (fun _ => True)); [exact I|]. intros i ((ab, av), j) _. unfold p_expandStep.
    eapply safe_bind; [apply safe_get; exact R|]. intros b _. cbv zeta. destruct (_ <=? _); [|exact I].
    eapply safe_bind with (Q := fun _ => True); [|intros; exact I]. unfold p_expandGroup. apply (safe_for _ _ _ _ _ (fun _ => True)); [exact I|].
    intros x [] _. apply safe_set. exact W. }
  intros ? _. cbn. rd.
Qed.
Lemma safe_indicesFromMinimal n k minimal : readable me minimal -> safe me (p_indicesFromMinimal n k minimal) opt_r.
Proof.
  intros R. unfold p_indicesFromMinimal. eapply safe_bind; [apply safe_pure|]. intros c _. cbv zeta. destruct (negb _); [exact I|]. destruct (_ <? _); [exact I|].
  eapply safe_bind; [apply safe_expandArray; exact R|]. intros [s|] RS; [|exact I].
  eapply safe_bind; [apply safe_ToWords; exact RS|]. intros a W. cbn. rd.
Qed.
Lemma safe_hashBlake x p o h : readable me x -> readable me p -> safe me (p_hashBlakeWithOffset blake room x p o h) (writable me).
Proof.
  intros RX RP. unfold p_hashBlakeWithOffset. eapply safe_bind; [apply safe_suffixed; exact RX|]. intros s W. apply safe_Blake2b; rd.
Qed.
Lemma safe_generateHash fuel x p g h twist : readable me x -> readable me p -> safe me (p_generateHash blake room fuel x p g h twist) (writable me).
Proof.
  intros RX RP. unfold p_generateHash. destruct (negb _); [apply safe_hashBlake; assumption|].
  eapply safe_bind; [apply safe_make|]. intros mh W. cbv zeta. eapply safe_bind with (Q := fun _ => True).
  { unfold p_twistLoop. apply (safe_loop _ _ _ _ (fun _ => True)); [exact I|]. intros g2 _. destruct (_ <=? _); [|exact I].
    eapply safe_bind; [apply safe_hashBlake; assumption|]. intros th WT. eapply safe_bind with (Q := fun _ => True); [|intros; exact I].
    unfold p_addLanes. apply (safe_for_n _ _ _ _ (fun _ => True)); [exact I|]. intros i [] _.
    eapply safe_bind with (Q := readable me); [apply safe_cut_r; rd|]. intros s RS. safe_go. }
  intros _ _. eapply safe_bind; [apply safe_ToBytes; rd|]. intros hs WH. eapply safe_bind with (Q := fun _ => True); [|intros; exact WH].
  unfold p_maskHash. apply (safe_for_n _ _ _ _ (fun _ => True)); [exact I|]. intros i [] _. cbv zeta.
  eapply safe_bind; [apply safe_get; rd|]. intros v _. apply safe_set. exact WH.
Qed.
Definition node_r (x : pnode) : Prop := readable me (pn_hash x) /\ readable me (pn_indices x).
Definition opt_node (x : option pnode) : Prop := match x with Some s => node_r s | None => True end.
Definition opt_nodes (x : option (list pnode)) : Prop := match x with Some s => Forall node_r s | None => True end.
Lemma safe_newNode fuel n k p twist st i : readable me p -> readable me st -> safe me (p_newNode blake room fuel n k p twist st i) opt_node.
Proof.
  intros RP RS. unfold p_newNode. do 3 (eapply safe_bind; [apply safe_pure|]; intros ? _).
  eapply safe_bind; [apply safe_generateHash; assumption|]. intros h W. eapply safe_bind; [apply safe_pure|]; intros ? _. cbv zeta.
  eapply safe_bind; [apply safe_cut_r; rd|]. intros s R. eapply safe_bind; [apply safe_pure|]; intros ? _.
  eapply safe_bind; [apply safe_expandArray; exact R|]. intros [mh|] RM'; [|exact I]. eapply safe_bind; [apply safe_make|]. intros ix WI.
  eapply safe_bind; [apply safe_set; exact WI|]. intros _ _. split; [exact RM'|cbn [pn_indices]; rd].
Qed.
Lemma safe_child a b trim : node_r a -> node_r b -> safe me (p_newNodeFromChildrenRef room a b trim) node_r.
Proof.
  intros (A & A') (B & B'). unfold p_newNodeFromChildrenRef. cbv zeta. eapply safe_bind; [apply safe_make|]. intros h W.
  eapply safe_bind with (Q := fun _ => True).
  { apply (safe_for _ _ _ _ _ (fun _ => True)); [exact I|]. intros i [] _. safe_go. }
  intros _ _. eapply safe_bind; [apply safe_joined; assumption|]. intros ix WI. split; cbn [pn_hash pn_indices]; rd.
Qed.
Lemma safe_validate n k a b : node_r a -> node_r b -> safe me (p_validateSubtrees n k a b) (fun _ => True).
Proof.
  intros (A & A') (B & B'). unfold p_validateSubtrees. eapply safe_bind; [apply safe_pure|]; intros ? _.
  eapply safe_bind with (Q := fun _ => True).
  { unfold p_hasCollision. eapply safe_bind; [|intros; exact I]. apply (safe_for_break _ _ _ _ _ (fun _ => True) (fun _ => True)); [exact I|].
    intros j [] _. eapply safe_bind; [apply safe_get; exact A|]. intros x _. eapply safe_bind; [apply safe_get; exact B|]. intros y _. destruct (_ =? _); exact I. }
  intros [[]|] _; [|exact I]. eapply safe_bind; [apply safe_get; exact B'|]. intros bb _. eapply safe_bind; [apply safe_get; exact A'|]. intros aa _.
  destruct (_ <? _); [exact I|]. eapply safe_bind; [apply safe_distinct; assumption|]. intros d _. exact I.
Qed.
Lemma safe_newNodes fuel n k p twist header indices c : forall i, readable me p -> readable me header -> readable me indices ->
  safe me (p_newNodes blake room fuel n k p twist header indices c i) opt_nodes.
Proof.
  induction c; intros i RP RH RI; cbn [p_newNodes]; [constructor|].
  eapply safe_bind; [apply safe_get; exact RI|]. intros ix _. eapply safe_bind; [apply safe_newNode; assumption|]. intros [x|] X; [|exact I].
  eapply safe_bind; [apply IHc; assumption|]. intros [l|] L; [|exact I]. constructor; assumption.
Qed.
Lemma safe_nextRows n k c : forall rows, (length rows <= c)%nat -> Forall node_r rows -> safe me (p_nextRows room n k rows) opt_nodes.
Proof.
  clear HB RM. induction c; intros rows LE F; (destruct rows as [|a [|b t]]; [constructor|exact I|]); [cbn in LE; lia|]. cbn [p_nextRows length] in *.
  apply Forall_cons_iff in F. destruct F as (FA & F). apply Forall_cons_iff in F. destruct F as (FB & FT).
  eapply safe_bind; [apply safe_validate; assumption|]. intros [[]|] _; [|exact I]. eapply safe_bind; [apply safe_pure|]; intros ? _.
  eapply safe_bind; [apply safe_child; assumption|]. intros row R. eapply safe_bind; [apply IHc; [lia|exact FT]|].
  intros [l|] L; [|exact I]. constructor; assumption.
Qed.
Lemma safe_reduceRows n k fuel : forall rows, Forall node_r rows -> safe me (p_reduceRows room fuel n k rows) opt_nodes.
Proof.
  clear HB RM. induction fuel; intros rows F; (destruct rows as [|a [|b t]]; [exact F|exact F|]); [exact I|]. cbn [p_reduceRows].
  eapply safe_bind; [apply (safe_nextRows n k (length (a :: b :: t))); [apply Nat.le_refl|exact F]|]. intros [l|] L; [|exact I]. apply IHfuel. exact L.
Qed.
Lemma safe_verify fuel n k personal header soln twist : readable me personal -> readable me header -> readable me soln ->
  safe me (p_verify blake room fuel n k personal header soln twist) (fun _ => True).
Proof.
  intros RP RH RS. unfold p_verify. eapply safe_bind; [apply safe_suffixed2; exact RP|]. intros ps W.
  eapply safe_bind; [apply safe_indicesFromMinimal; exact RS|]. intros [ix|] RI; [|exact I].
  eapply safe_bind; [apply safe_newNodes; rd|]. intros [rows|] F; [|exact I].
  eapply safe_bind; [apply safe_reduceRows; exact F|]. intros [l|] L; [|exact I].
  destruct l as [|x l]; [exact I|]. change (idx (x :: l) 0) with (Done x). cbn [pure pbind]. apply Forall_cons_iff in L.
  eapply safe_bind; [apply safe_all; [apply L|intros; exact I]|]. intros z _. exact I.
Qed.

(** ** Results *)
Definition made (m : memory) (n : N) (s : sl) (l : list N) (m' : memory) (n' : N) : Prop :=
  has m' s l /\ old me n' s /\ kept me n m m' /\ n <= n'.
Definition omade (m : memory) (n : N) (x : option sl) (y : option (list N)) (m' : memory) (n' : N) : Prop :=
  match x, y with Some s, Some l => made m n s l m' n' | None, None => True | _, _ => False end.
Lemma builds_made m n s l m' n' : builds me m n s l m' n' -> made m n s l m' n'.
Proof. intros (A & B & C & D). split; [exact A|]. split; [locs|]. split; assumption. Qed.
Lemma old_later n n' s : old me n s -> n <= n' -> old me n' s.
Proof. unfold old. lia. Qed.

Lemma sim_expandArray input x bitLen bytePad m n : has m input x -> old me n input ->
  sim me (p_expandArray input bitLen bytePad) m n (expandArray x bitLen bytePad) (omade m n).
Proof.
  intros H O. pose proof H as (L & _). unfold p_expandArray, expandArray. destruct (_ <? _); [exact I|]. destruct (_ <? _); [exact I|]. cbv zeta. rewrite L.
  apply sim_pure. intros ol _. destruct (_ =? _).
  { split; [exact H|]. split; [exact O|]. split; [apply kept_refl|lia]. }
  apply sim_make. intros out m1 E1 N1 H1 K1. eapply sim_bind.
  { apply (sim_for_n me (lenN x) _ _ (0, 0, 0) (zeros ol, 0, 0, 0) m1 (n + 1) (fun _ '(ab, av, j) '(y, ab', av', j') m' n' =>
      has m' out y /\ (ab = ab' /\ av = av' /\ j = j') /\ others m1 m' out /\ n' = n + 1)).
    { split; [exact H1|]. split; [auto|]. split; [apply others_refl|reflexivity]. }
    intros i ((ab, av), j) (((y, ab'), av'), j') m2 n2 Hi (H2 & (-> & -> & ->) & O2 & ->). unfold p_expandStep, expandStep.
    eapply sim_bind; [apply sim_get; frame|]. intros ? b ? ? (-> & -> & ->). cbv zeta. destruct (_ <=? _).
    2:{ apply sim_ret. split; [exact H2|]. split; [auto|]. split; [exact O2|reflexivity]. }
    eapply sim_bind.
    { unfold p_expandGroup, expandGroup. apply (sim_for me _ _ _ _ tt y m2 (n + 1) (fun _ (_ : unit) y' m' n' => has m' out y' /\ others m2 m' out /\ n' = n + 1)).
      { split; [exact H2|]. split; [apply others_refl|reflexivity]. }
      intros q [] y3 m3 n3 _ _ (H3 & O3 & ->). cbv zeta. eapply sim_weaken; [apply sim_set; exact H3|].
      intros [] y4 m4 n4 (H4 & L4 & O4 & ->). split; [exact H4|]. split; [eapply others_trans; eauto|reflexivity]. }
    intros [] y3 m3 n3 (H3 & O3 & ->). apply sim_ret. split; [exact H3|]. split; [auto|]. split; [eapply others_trans; eauto|reflexivity]. }
  intros ((ab, av), j) (((y, ab'), av'), j') m2 n2 (H2 & _ & O2 & ->). apply sim_ret. split; [exact H2|]. split; [locs|]. split; [|lia].
  intros q OQ. rewrite O2 by (intros ->; locs). apply K1. exact OQ.
Qed.
Lemma sim_indicesFromMinimal nn kk minimal x m n : has m minimal x -> old me n minimal ->
  sim me (p_indicesFromMinimal nn kk minimal) m n (indicesFromMinimal nn kk x) (omade m n).
Proof.
  intros H O. pose proof H as (L & _). unfold p_indicesFromMinimal, indicesFromMinimal. apply sim_pure. intros c _. cbv zeta. rewrite L.
  destruct (negb _); [exact I|]. destruct (_ <? _); [exact I|].
  eapply sim_bind; [apply sim_expandArray; eassumption|]. intros [s|] [l|] m1 n1 X; cbn [omade] in X; try contradiction; [|exact I].
  destruct X as (H1 & O1 & K1 & LE1).
  eapply sim_bind; [apply sim_ToWords; eassumption|]. intros a y m2 n2 (H2 & -> & _ & K2 & ->). apply sim_ret.
  split; [exact H2|]. split; [locs|]. split; [|lia]. eapply kept_trans; eauto.
Qed.
Lemma sim_hashBlake x p xx px o h m n : has m x xx -> has m p px -> old me n x -> old me n p ->
  sim me (p_hashBlakeWithOffset blake room x p o h) m n (hashBlakeWithOffset blake xx px o h) (digest room me m n).
Proof.
  intros HX HP OX OP. unfold p_hashBlakeWithOffset, hashBlakeWithOffset.
  eapply sim_left; [apply (sim_suffixed blake room me HB RM); eassumption|]. intros st m1 n1 (H1 & N1 & K1 & LE1).
  eapply sim_weaken; [apply (sim_Blake2b blake room me HB RM); [exact H1|frame]|]. intros s l m2 n2 ((H2 & N2 & K2 & LE2) & F).
  split; [|exact F]. split; [exact H2|]. split; [locs|]. split; [eapply kept_trans; eauto|lia].
Qed.
Definition spare_room (k : N) : list N := zeros (room k - k).
Lemma full_loc s : s_loc (full s) = s_loc s.
Proof. reflexivity. Qed.
Lemma sim_addLanes th tx mh y m n : has m (full th) (tx ++ spare_room (lenN tx)) -> has m mh y -> s_loc th <> s_loc mh ->
  sim me (p_addLanes th mh) m n (addLanes spare_room tx y) (fun _ y' m' n' => has m' mh y' /\ others m m' mh /\ n' = n).
Proof.
  intros HT HM NE. unfold p_addLanes, addLanes. apply (sim_over me 16 mh); [exact HM|].
  intros j y1 m1 Hj H1 O1. rewrite cut_at_full.
  eapply sim_bind; [apply sim_cut_at; [apply (has_same m); [apply O1; exact NE|exact HT]|right; reflexivity]|]. intros s sx ? ? (HS & _ & _ & -> & ->).
  eapply sim_bind; [apply (sim_get32 _ _ _ _ _ LittleEndian); exact HS|]. intros ? v ? ? (-> & -> & ->). sget. apply sim_set. exact H1.
Qed.
Lemma sim_generateHash fuel x p xx px g h twist m n : has m x xx -> has m p px -> old me n x -> old me n p ->
  sim me (p_generateHash blake room fuel x p g h twist) m n (generateHash blake spare_room fuel xx px g h twist) (fun s y m' n' =>
    has m' (full s) y /\ new me n n' s /\ kept me n m m' /\ n <= n').
Proof.
  intros HX HP OX OP. unfold p_generateHash, generateHash. destruct (negb _).
  - eapply sim_map; [apply sim_hashBlake; eassumption|].
    intros s l m1 n1 ((H1 & N1 & K1 & LE1) & F). split; [exact F|]. split; [exact N1|]. split; assumption.
  - cbv zeta. apply sim_make. intros mh m1 E1 N1 H1 K1. eapply sim_bind.
    { unfold p_twistLoop, twistLoop.
      apply (sim_loop me fuel _ _ _ _ m1 (n + 1) (fun g2 '(g2', y) m' n' => g2 = g2' /\ has m' mh y /\ kept_but me (n + 1) mh m1 m' /\ n + 1 <= n')
               (fun _ y m' n' => has m' mh y /\ kept_but me (n + 1) mh m1 m' /\ n + 1 <= n')).
      { split; [reflexivity|]. split; [exact H1|]. split; [intros q; auto|lia]. }
      intros g2 (g2', y) m2 n2 (-> & H2 & K2 & LE2). destruct (_ <=? _).
      2:{ apply sim_ret. auto. }
      eapply sim_bind; [apply (sim_hashBlake x p xx px); [frame|frame|eapply old_later; [eassumption|lia]|eapply old_later; [eassumption|lia]]|].
      intros th tx m3 n3 ((H3 & N3 & K3 & LE3) & F3).
      eapply sim_bind; [apply sim_addLanes; [exact F3|frame|intros E; locs]|]. intros [] y4 m4 n4 (H4 & O4 & ->). apply sim_ret.
      split; [reflexivity|]. split; [exact H4|]. split; [|lia].
      intros q NQ OQ. rewrite O4 by exact NQ. rewrite K3 by (destruct OQ; [left; assumption|right; lia]). apply K2; assumption. }
    intros [] y m2 n2 (H2 & K2 & LE2).
    eapply sim_bind; [apply sim_ToBytes; [exact H2|locs]|]. intros hs hx m3 n3 (H3 & E3 & L3 & K3 & ->).
    rewrite <- (bind_done (maskHash h hx)).
    eapply sim_bind.
    { unfold p_maskHash, maskHash. apply (sim_over me (h / 16) hs); [exact H3|]. intros j y4 m4 Hj H4 O4. cbv zeta. sget. apply sim_set. exact H4. }
    intros [] y4 m4 n4 (H4 & O4 & ->). apply sim_ret. 
    split; [rewrite full_full by (rewrite E3; reflexivity); exact H4|]. assert (N3 : new me n2 (n2 + 1) hs) by (subst hs; locs). clear E3. split; [locs|]. split; [|lia].
    intros q OQ. rewrite O4 by (intros ->; locs). rewrite K3 by (destruct OQ; [left; assumption|right; lia]).
    rewrite K2 by first [intros ->; locs | (destruct OQ; [left; assumption|right; lia])]. apply K1. exact OQ.
Qed.

(** A node and the node of the model. *)
Definition equi_ok (n : N) (m : memory) (x : pnode) (y : node) : Prop :=
  (has m (pn_hash x) (n_hash y) /\ old me n (pn_hash x)) /\ has m (pn_indices x) (n_indices y) /\ old me n (pn_indices x).
Lemma equi_kept n n' m m' x y : kept me n m m' -> n <= n' -> equi_ok n m x y -> equi_ok n' m' x y.
Proof.
  intros K LE ((A & B) & C & D). split; (split; [eapply has_kept; eauto|eapply old_later; eauto]).
Qed.
Lemma equis_kept n n' m m' x y : kept me n m m' -> n <= n' -> Forall2 (equi_ok n m) x y -> Forall2 (equi_ok n' m') x y.
Proof. intros K LE F. induction F; constructor; auto. eapply equi_kept; eauto. Qed.
Definition onode (m : memory) (n : N) (x : option pnode) (y : option node) (m' : memory) (n' : N) : Prop :=
  match x, y with Some x, Some y => equi_ok n' m' x y /\ kept me n m m' /\ n <= n' | None, None => True | _, _ => False end.
Definition onodes (m : memory) (n : N) (x : option (list pnode)) (y : option (list node)) (m' : memory) (n' : N) : Prop :=
  match x, y with Some x, Some y => Forall2 (equi_ok n' m') x y /\ kept me n m m' /\ n <= n' | None, None => True | _, _ => False end.

Lemma sim_newNode fuel nn kk p px twist st sx i m n : has m p px -> has m st sx -> old me n p -> old me n st ->
  sim me (p_newNode blake room fuel nn kk p twist st i) m n (newNode blake spare_room fuel nn kk px twist sx i) (onode m n).
Proof.
  intros HP HS OP OS. unfold p_newNode, newNode. do 3 (apply sim_pure; intros ? _).
  eapply sim_bind; [apply sim_generateHash; eassumption|]. intros h hx m1 n1 (H1 & N1 & K1 & LE1).
  apply sim_pure. intros r _. cbv zeta. rewrite cut_at_full.
  eapply sim_bind; [apply sim_cut_at; [exact H1|right; reflexivity]|]. intros s x ? ? (H2 & E2 & _ & -> & ->). rewrite full_loc in E2.
  apply sim_pure. intros c _.
  eapply sim_bind; [apply sim_expandArray; [exact H2|unfold old; rewrite E2; locs]|]. intros [mh|] [y|] m3 n3 X; cbn [omade] in X; try contradiction; [|exact I].
  destruct X as (H3 & O3 & K3 & LE3). apply sim_make. intros ix m4 E4 N4 H4 K4.
  eapply sim_left; [apply (sim_set_at _ _ _ _ (zeros 1) [i]); [exact H4|reflexivity]|]. intros [] m5 n5 (H5 & L5 & O5 & ->). apply sim_ret.
  split; [|split; [|lia]].
  - split; (split; cbn [pn_hash pn_indices n_hash n_indices]).
    + frame.
    + eapply old_later; [exact O3|lia].
    + exact H5.
    + locs.
  - intros q OQ. rewrite O5 by (intros ->; locs). rewrite K4 by (destruct OQ; [left; assumption|right; lia]).
    rewrite K3 by (destruct OQ; [left; assumption|right; lia]). apply K1. exact OQ.
Qed.
Lemma sim_child a b a' b' trim m n : equi_ok n m a a' -> equi_ok n m b b' ->
  sim me (p_newNodeFromChildrenRef room a b trim) m n (newNodeFromChildrenRef a' b' trim) (fun x y m' n' =>
    equi_ok n' m' x y /\ kept me n m m' /\ n <= n').
Proof.
  intros ((A1 & A2) & A3 & A4) ((B1 & B2) & B3 & B4). unfold p_newNodeFromChildrenRef, newNodeFromChildrenRef. cbv zeta. rewrite (proj1 A1).
  apply sim_make. intros hs m1 E1 N1 H1 K1. eapply sim_bind.
  { apply (sim_for me _ _ _ _ tt _ m1 (n + 1) (fun _ (_ : unit) y m' n' => has m' hs y /\ others m1 m' hs /\ n' = n + 1)).
    { split; [exact H1|]. split; [apply others_refl|reflexivity]. }
    intros j [] y m2 n2 _ _ (H2 & O2 & ->). sget. sget. eapply sim_weaken; [apply sim_set; exact H2|].
    intros [] y3 m3 n3 (H3 & L3 & O3 & ->). split; [exact H3|]. split; [eapply others_trans; eauto|reflexivity]. }
  intros [] y m2 n2 (H2 & O2 & ->).
  assert (HA : has m2 (pn_indices a) (n_indices a')) by frame. assert (HBB : has m2 (pn_indices b) (n_indices b')) by frame.
  pose proof (sim_joined blake room me HB RM (pn_indices a) (pn_indices b) _ _ m2 (n + 1) HA HBB ltac:(locs) ltac:(locs)) as J.
  destruct (idx (n_indices a') 0) as [a0| |]; cbn [bind] in *; [destruct (idx (n_indices b') 0) as [b0| |]; cbn [bind] in *|..].
  2,3,4,5: unfold sim in *; rewrite run_bind; destruct (run me (p_joined room _ _) m2 (n + 1)) as [[[s| |] ?] ?]; try contradiction; exact I.
  eapply sim_left; [exact J|]. intros ix m3 n3 (H3 & N3 & K3 & LE3). apply sim_ret. split; [|split; [|lia]].
  - split; (split; cbn [pn_hash pn_indices n_hash n_indices]); [frame|locs|exact H3|locs].
  - intros q OQ. rewrite K3 by (destruct OQ; [left; assumption|right; lia]). rewrite O2 by (intros ->; locs). apply K1. exact OQ.
Qed.
Lemma sim_validate nn kk a b a' b' m n : equi_ok n m a a' -> equi_ok n m b b' ->
  sim me (p_validateSubtrees nn kk a b) m n (validateSubtrees nn kk a' b') (same m n).
Proof.
  intros ((A1 & _) & A3 & _) ((B1 & _) & B3 & _). unfold p_validateSubtrees, validateSubtrees. apply sim_pure. intros len _.
  eapply sim_bind with (Mid := same m n).
  { unfold p_hasCollision, hasCollision. eapply sim_bind.
    { apply (sim_for_break me _ _ _ _ tt tt m n (fun _ _ m' n' => m' = m /\ n' = n) (fun _ _ m' n' => m' = m /\ n' = n)); [auto|].
      intros j [] [] ? ? (-> & ->). sget. sget. destruct (_ =? _); apply sim_ret; auto. }
    intros [r|r] [u|u] m1 n1 X; cbn in X; try contradiction; destruct X as (-> & ->); apply sim_ret; repeat split. }
  intros ? [[]|] ? ? (-> & -> & ->); [|repeat split]. sget. sget. destruct (_ <? _); [repeat split|].
  eapply sim_left; [apply (sim_distinct blake room me HB RM); eassumption|]. intros ? ? ? (-> & -> & ->). destruct (distinctIndices _ _); repeat split.
Qed.
Lemma sim_newNodes fuel nn kk p px twist st sx indices pre suf m n : has m p px -> has m st sx -> has m indices (pre ++ suf) ->
  old me n p -> old me n st -> old me n indices ->
  sim me (p_newNodes blake room fuel nn kk p twist st indices (length suf) (lenN pre)) m n
    (newNodes blake spare_room fuel nn kk px twist sx suf) (onodes m n).
Proof.
  revert pre m n. induction suf as [|y suf IH]; intros pre m n HP HS HI OP OS OI; cbn [length p_newNodes newNodes].
  - split; [constructor|]. split; [apply kept_refl|lia].
  - assert (I0 : idx (pre ++ y :: suf) (lenN pre) = Done y).
    { unfold idx. rewrite nth_error_app2 by (unfold lenN; lia). replace (N.to_nat (lenN pre) - length pre)%nat with 0%nat by (unfold lenN; lia). reflexivity. }
    eapply sim_left; [apply (sim_get_at _ _ _ _ _ _ _ HI I0)|]. intros ? ? ? (-> & -> & ->).
    eapply sim_bind; [apply (sim_newNode fuel nn kk p px twist st sx); assumption|]. intros [x|] [x'|] m1 n1 X; cbn [onode] in X; try contradiction; [|exact I].
    destruct X as (X1 & K1 & LE1).
    replace (lenN pre + 1) with (lenN (pre ++ [y])) by (rewrite lenN_app; reflexivity).
    eapply sim_bind; [apply IH|].
    + frame.
    + frame.
    + rewrite <- app_assoc. cbn [app]. apply (has_kept me n m m1); auto.
    + eapply old_later; eauto.
    + eapply old_later; eauto.
    + eapply old_later; eauto.
    + intros [l|] [l'|] m2 n2 X; cbn [onodes] in X; try contradiction; [|exact I]. destruct X as (X2 & K2 & LE2).
      apply sim_ret. split; [|split; [eapply kept_trans; eauto|lia]]. constructor; [eapply equi_kept; eauto|exact X2].
Qed.
Lemma sim_nextRows nn kk c : forall rows rows' m n, (length rows <= c)%nat -> Forall2 (equi_ok n m) rows rows' ->
  sim me (p_nextRows room nn kk rows) m n (nextRows nn kk rows') (onodes m n).
Proof.
  induction c; intros rows rows' m n LE F; (destruct rows as [|a [|b t]]; [inversion F; subst; split; [constructor|]; split; [apply kept_refl|lia]|inversion F as [|? ? ? ? ? F']; subst; inversion F'; subst; exact I|]); [cbn in LE; lia|].
  inversion F as [|? a' ? ta' FA F']; subst. inversion F' as [|? b' ? t' FB FT]; subst. cbn [p_nextRows nextRows length] in *.
  eapply sim_bind; [apply sim_validate; [exact FA|exact FB]|]. intros ? [[]|] ? ? (-> & -> & ->); [|exact I].
  apply sim_pure. intros trim _.
  eapply sim_bind; [apply sim_child; [exact FA|exact FB]|]. intros row row' m1 n1 (R1 & K1 & LE1).
  eapply sim_bind; [apply IHc; [lia|eapply equis_kept; eauto]|].
  intros [l|] [l'|] m2 n2 X2; cbn [onodes] in X2; try contradiction; [|exact I]. destruct X2 as (F2 & K2 & LE2).
  apply sim_ret. split; [|split; [eapply kept_trans; eauto|lia]]. constructor; [eapply equi_kept; eauto|exact F2].
Qed.
Lemma sim_reduceRows nn kk fuel : forall rows rows' m n, Forall2 (equi_ok n m) rows rows' ->
  sim me (p_reduceRows room fuel nn kk rows) m n (reduceRows fuel nn kk rows') (onodes m n).
Proof.
  induction fuel; intros rows rows' m n F;
    (destruct rows as [|a [|b t]]; [inversion F; subst; split; [constructor|]; split; [apply kept_refl|lia]| |]).
  1,3: pose proof F as F0; inversion F as [|? ? ? ? ? F']; subst; inversion F'; subst; split; [exact F0|]; split; [apply kept_refl|lia].
  - inversion F as [|? ? ? ? ? F']; subst. inversion F'; subst. exact I.
  - pose proof F as F0. inversion F as [|? ? ? ? ? F']; subst. inversion F'; subst. cbn [p_reduceRows reduceRows].
    eapply sim_bind; [apply (sim_nextRows nn kk (length (a :: b :: t))); [lia|exact F0]|].
    intros [l|] [l'|] m2 n2 X2; cbn [onodes] in X2; try contradiction; [|exact I]. destruct X2 as (F2 & K2 & LE2).
    eapply sim_weaken; [apply IHfuel; exact F2|].
    intros [x|] [x'|] m3 n3 X3; cbn [onodes] in *; try contradiction; auto. destruct X3 as (F3 & K3 & LE3).
    split; [exact F3|]. split; [eapply kept_trans; eauto|lia].
Qed.
Lemma sim_verify fuel nn kk personal header soln px hx sx twist m n : has m personal px -> has m header hx -> has m soln sx ->
  owner (s_loc personal) <> me -> owner (s_loc header) <> me -> owner (s_loc soln) <> me ->
  sim me (p_verify blake room fuel nn kk personal header soln twist) m n (verify blake spare_room fuel nn kk px hx sx twist) (fun a b _ _ => a = b).
Proof.
  intros HP HH HS OP OH OS. unfold p_verify, verify. cbv zeta.
  eapply sim_left; [apply (sim_suffixed2 blake room me HB RM); [exact HP|left; exact OP]|]. intros ps m1 n1 (H1 & N1 & K1 & LE1).
  eapply sim_bind; [apply (sim_indicesFromMinimal nn kk soln sx); [frame|left; exact OS]|].
  intros [ix|] [ixx|] m2 n2 X; cbn [omade] in X; try contradiction; [|reflexivity]. destruct X as (H2 & O2 & K2 & LE2).
  eapply sim_bind.
  { rewrite (proj1 H2). replace (N.to_nat (lenN ixx)) with (length ixx) by (unfold lenN; lia). change 0 with (lenN (@nil N)).
    apply (sim_newNodes fuel nn kk ps (px ++ le_bytes 4 nn ++ le_bytes 4 kk) twist header hx ix [] ixx); [frame|frame|exact H2|locs|left; exact OH|exact O2]. }
  intros [rows|] [rows'|] m3 n3 X; cbn [onodes] in X; try contradiction; [|reflexivity]. destruct X as (F3 & K3 & LE3).
  eapply sim_bind.
  { assert (EL : length rows = length rows') by (clear -F3; induction F3; cbn; congruence). rewrite EL. apply sim_reduceRows. exact F3. }
  intros [l|] [l'|] m4 n4 X; cbn [onodes] in X; try contradiction; [|reflexivity]. destruct X as (F4 & _).
  destruct F4 as [|x y l l' ((HX & _) & _) F4]; [exact I|]. change (idx (x :: l) 0) with (Done x). change (idx (y :: l') 0) with (Done y). cbn [pure pbind bind].
  eapply sim_left; [apply (sim_all blake room me HB RM) with (g := fun v => v =? 0); [exact HX|intros; apply sim_ret; repeat split]|].
  intros ? ? ? (-> & -> & ->). reflexivity.
Qed.
End Equi.
