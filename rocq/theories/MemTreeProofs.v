(** Proofs about MemTree.v. *)
From Coq Require Import NArith ZArith Arith List Bool Lia ZifyBool ZifyN ZifyNat.
From Verif Require Import Base BaseFacts CryptoModel EquiModel MemModel MemProofs MemAppend MemAutoProofs MemCuckooProofs MemTree.
Import ListNotations.
Open Scope N_scope.
Ltac Zify.zify_post_hook ::= Z.div_mod_to_equations.

(** The slice up to its capacity. *)
Definition full (s : sl) : sl := mkSl (s_loc s) (s_off s) (s_cap s) (s_cap s).
Lemma cut_at_full s a b : cut_at s a b = cut_at (full s) a b.
Proof. reflexivity. Qed.
Lemma full_full s : s_cap s = s_len s -> full s = s.
Proof. destruct s as [l o k c]. cbn. unfold full. cbn. intros ->. reflexivity. Qed.

Lemma lenN_app {A} (x y : list A) : lenN (x ++ y) = lenN x + lenN y.
Proof. unfold lenN. rewrite app_length. lia. Qed.
Lemma overwrite_mid {A} (x y z w : list A) : length w = length y -> overwrite (x ++ y ++ z) (length x) w = x ++ w ++ z.
Proof.
  intros E. unfold overwrite. rewrite firstn_app, Nat.sub_diag, firstn_all. cbn [firstn]. rewrite app_nil_r. f_equal.
  rewrite firstn_all2 by (rewrite !app_length; lia). f_equal.
  rewrite skipn_app, skipn_all2 by lia. replace (length x + length w - length x)%nat with (length y) by lia.
  rewrite skipn_app, skipn_all2, Nat.sub_diag by lia. reflexivity.
Qed.
Lemma zeros_plus a b : zeros (a + b) = zeros a ++ zeros b.
Proof. unfold zeros. rewrite <- repeat_app. f_equal. lia. Qed.
Lemma copy_zeros l k : copy_at (zeros (lenN l + k)) 0 l = Done (l ++ zeros k).
Proof.
  unfold copy_at. replace (0 <=? lenN (zeros (lenN l + k))) with true by lia. f_equal. rewrite zeros_plus.
  apply (overwrite_mid [] (zeros (lenN l)) (zeros k) l). pose proof (zeros_lenN (lenN l)). unfold lenN in *. lia.
Qed.
Lemma put_zeros l o v k : put_at (l ++ zeros (4 + k)) (lenN l) (enc o 4 v) = Done (l ++ enc o 4 v ++ zeros k).
Proof.
  unfold put_at. rewrite enc_lenN, lenN_app, zeros_lenN. replace (lenN l + N.of_nat 4 <=? lenN l + (4 + k)) with true by lia. f_equal.
  rewrite zeros_plus. replace (N.to_nat (lenN l)) with (length l) by (unfold lenN; lia). apply overwrite_mid.
  pose proof (enc_lenN o 4 v). pose proof (zeros_lenN 4). unfold lenN in *. lia.
Qed.

Section Tree.
Variable blake : N -> list N -> list N -> list N.
Variable room : N -> N.
Variable me : N.
Hypothesis HB : forall s p d, 0 < s <= 64 -> lenN (blake s p d) = s.
Hypothesis RM : forall k, k <= room k.

Lemma safe_Blake2b data personal size : readable me data -> readable me personal ->
  safe me (p_Blake2b blake room data personal size) (writable me).
Proof.
  intros RD RP. unfold p_Blake2b. cbv zeta. destruct (_ || _); [exact I|].
  eapply safe_bind; [apply safe_read; exact RP|]. intros p _. eapply safe_bind; [apply safe_read; exact RD|]. intros d _.
  eapply safe_bind; [apply safe_make_cap|]. intros r W. eapply safe_bind; [apply safe_stores; exact W|]. intros _ _. exact W.
Qed.
Lemma safe_suffixed x v : readable me x -> safe me (p_suffixed x v) (writable me).
Proof. intros R. unfold p_suffixed. safe_go. Qed.
Lemma safe_suffixed2 x v w : readable me x -> safe me (p_suffixed2 x v w) (writable me).
Proof. intros R. unfold p_suffixed2. safe_go. Qed.
Lemma safe_joined a b : readable me a -> readable me b -> safe me (p_joined room a b) (writable me).
Proof.
  intros RA RB. unfold p_joined. eapply safe_bind; [apply safe_make|]. intros x W.
  eapply safe_bind; [apply safe_get; exact RA|]. intros a0 _. eapply safe_bind; [apply safe_get; exact RB|]. intros b0 _.
  destruct (_ <? _); (eapply safe_bind; [apply safe_append; assumption|]; intros y WY; apply safe_append; assumption).
Qed.
Lemma safe_all s f : readable me s -> (forall x, safe me (f x) (fun _ => True)) -> safe me (p_all s f) (fun _ => True).
Proof.
  intros R F. unfold p_all. eapply safe_bind with (Q := fun _ => True); [|intros; exact I]. eapply safe_true.
  apply (safe_for_break _ _ _ _ _ (fun _ => True) (fun _ => True)); [exact I|]. intros i [] _.
  eapply safe_bind; [apply safe_get; exact R|]. intros x _. eapply safe_bind; [apply F|]. intros [] _; exact I.
Qed.
Lemma safe_distinct a b : readable me a -> readable me b -> safe me (p_distinct a b) (fun _ => True).
Proof. intros RA RB. apply safe_all; [exact RA|]. intros x. apply safe_all; [exact RB|]. intros y. exact I. Qed.

(** A digest: the bytes after it, up to the capacity, are zeros. *)
Definition digest (m : memory) (n : N) (s : sl) (l : list N) (m' : memory) (n' : N) : Prop :=
  builds me m n s l m' n' /\ has m' (full s) (l ++ zeros (room (lenN l) - lenN l)).
Lemma sim_Blake2b data personal d p size m n : has m data d -> has m personal p ->
  sim me (p_Blake2b blake room data personal size) m n (Blake2b blake d p size) (digest m n).
Proof.
  intros HD HP. unfold p_Blake2b, Blake2b. cbv zeta. rewrite (proj1 HP). set (k := if u8 size =? 0 then 64 else u8 size).
  assert (KP : 0 < k) by (subst k; destruct (N.eqb_spec (u8 size) 0); lia).
  destruct (N.ltb_spec 64 k) as [K|K]; cbn [orb]; [exact I|]. destruct (N.ltb_spec 16 (lenN p)); [exact I|].
  specialize (RM k). pose proof (HB k p d ltac:(lia)) as LB.
  eapply sim_left; [apply sim_read; exact HP|]. intros ? ? ? (-> & -> & ->). eapply sim_left; [apply sim_read; exact HD|]. intros ? ? ? (-> & -> & ->).
  unfold sim. cbn [make_cap pbind run s_loc]. rewrite run_bind.
  destruct (run_stores me (mkSl (me, n) 0 (room k) (room k)) _ (n + 1) _ 0 (blake k p d) (has_fresh me n (room k) m)) as (m' & R & HV & O).
  { rewrite zeros_lenN. lia. }
  cbn [s_loc s_off] in R. change (0 + 0) with 0 in R. rewrite R. cbn [run].
  change (N.to_nat 0) with 0%nat in HV.
  replace (zeros (room k)) with (zeros k ++ zeros (room k - k)) in HV by (rewrite <- zeros_plus; f_equal; lia).
  pose proof (overwrite_mid [] (zeros k) (zeros (room k - k)) (blake k p d)) as OM. cbn [app length] in OM. rewrite OM in HV.
  2:{ pose proof (zeros_lenN k). unfold lenN in *. lia. }
  unfold digest. rewrite LB. split; [|exact HV]. split; [|split; [split; cbn; [reflexivity|lia]|split; [|lia]]].
  - pose proof (has_cut _ _ _ 0 k HV) as X. cbn [s_loc s_off s_cap] in X. rewrite !N.sub_0_r, N.add_0_r in X.
    replace (firstn (N.to_nat k) (skipn (N.to_nat 0) (blake k p d ++ zeros (room k - k)))) with (blake k p d) in X.
    { apply X; [lia|]. rewrite lenN_app. lia. }
    change (N.to_nat 0) with 0%nat. cbn [skipn]. rewrite firstn_app.
    rewrite firstn_all2 by (unfold lenN in *; lia). replace (N.to_nat k - length (blake k p d))%nat with 0%nat by (unfold lenN in *; lia).
    cbn [firstn]. rewrite app_nil_r. reflexivity.
  - intros l OL. rewrite O. 2:{ cbn. intros ->. cbn in OL. lia. } apply mset_other. intros ->. cbn in OL. lia.
Qed.

Lemma sim_suffixed x l v m n : has m x l -> old me n x ->
  sim me (p_suffixed x v) m n (Done (l ++ le_bytes 4 v)) (builds me m n).
Proof.
  intros H O. pose proof H as (L & _). unfold p_suffixed. rewrite L. apply sim_make. intros buf m1 E1 N1 H1 K1.
  eapply sim_left; [rewrite <- (copy_zeros l 4); apply sim_copy; [exact H1|frame]|]. intros [] m2 n2 (H2 & L2 & O2 & ->).
  apply sim_assoc. eapply sim_left; [rewrite <- (put_zeros l LittleEndian v 0); apply sim_put32_at; exact H2|]. intros [] m3 n3 (H3 & L3 & O3 & ->).
  apply sim_ret. split; [rewrite app_nil_r in H3; exact H3|]. split; [exact N1|]. split; [|lia].
  intros a OA. rewrite O3, O2 by apart. apply K1. exact OA.
Qed.
Lemma sim_suffixed2 x l v w m n : has m x l -> old me n x ->
  sim me (p_suffixed2 x v w) m n (Done (l ++ le_bytes 4 v ++ le_bytes 4 w)) (builds me m n).
Proof.
  intros H O. pose proof H as (L & _). unfold p_suffixed2. rewrite L. apply sim_make. intros buf m1 E1 N1 H1 K1.
  eapply sim_left; [rewrite <- (copy_zeros l 8); apply sim_copy; [exact H1|frame]|]. intros [] m2 n2 (H2 & L2 & O2 & ->).
  apply sim_assoc. eapply sim_left; [rewrite <- (put_zeros l LittleEndian v 4); apply sim_put32_at; exact H2|]. intros [] m3 n3 (H3 & L3 & O3 & ->).
  apply sim_assoc. eapply sim_left.
  { change (l ++ enc LittleEndian 4 v ++ zeros 4) with (l ++ enc LittleEndian 4 v ++ zeros (4 + 0)) in H3. rewrite app_assoc in H3.
    replace (lenN l + 4) with (lenN (l ++ enc LittleEndian 4 v)) by (rewrite lenN_app, enc_lenN; lia).
    rewrite <- (put_zeros (l ++ enc LittleEndian 4 v) LittleEndian w 0). apply sim_put32_at. exact H3. }
  intros [] m4 n4 (H4 & L4 & O4 & ->).
  apply sim_ret. split; [rewrite app_nil_r, <- app_assoc in H4; exact H4|]. split; [exact N1|]. split; [|lia].
  intros a OA. rewrite O4, O3, O2 by apart. apply K1. exact OA.
Qed.

Lemma sim_join2 x a b la lb m n : has m x [] -> s_cap x = 0 -> has m a la -> has m b lb -> la <> [] ->
  writable me x -> old me n a -> old me n b -> s_loc b <> s_loc x -> s_len x = 0 ->
  sim me (x <~ append room x a ;; append room x b) m n (Done (la ++ lb)) (fun s l m' n' =>
    has m' s l /\ new me n n' s /\ kept me n m m' /\ n <= n').
Proof.
  intros HX CX HA HBB NZ WX OA OB NE LX.
  eapply sim_left; [apply (sim_append me room x a m n [] la RM HX HA); [lia|]|].
  { destruct la; [contradiction|]. unfold lenN. cbn. lia. }
  intros y m1 n1 (H1 & N1 & K1 & LE1). cbn [app] in H1.
  assert (HB1 : has m1 b lb) by frame.
  pose proof (sim_append_any me room y b m1 n1 la lb RM H1 HB1) as S. unfold sim in *.
  destruct (run me (append room y b) m1 n1) as [[[s| |] m2] n2]; try contradiction.
  destruct S as (H2 & [(E & O & -> & _)|(N2 & K2 & LE2)]).
  - split; [exact H2|]. split; [unfold new in *; rewrite E; lia|]. split; [|lia].
    intros q OQ. rewrite O by (intros ->; locs). apply K1. exact OQ.
  - split; [exact H2|]. split; [locs|]. split; [|lia]. intros q OQ. rewrite K2 by (destruct OQ; [auto|right; lia]). apply K1. exact OQ.
Qed.
Lemma sim_joined a b la lb m n : has m a la -> has m b lb -> old me n a -> old me n b ->
  sim me (p_joined room a b) m n (a0 <- idx la 0 ;; b0 <- idx lb 0 ;; Done (if a0 <? b0 then la ++ lb else lb ++ la)) (builds me m n).
Proof.
  intros HA HBB OA OB. unfold p_joined. apply sim_make. intros x m1 E1 N1 H1 K1.
  destruct la as [|a0 la]. { unfold get at 1. rewrite (proj1 HA). exact I. }
  destruct lb as [|b0 lb]. { sget. unfold get. rewrite (proj1 HBB). exact I. }
  assert (HA1 : has m1 a (a0 :: la)) by frame. assert (HB1 : has m1 b (b0 :: lb)) by frame.
  sget. sget.
  assert (W : writable me x) by apply N1.
  assert (D : forall p q lp lq, has m1 p lp -> has m1 q lq -> lp <> [] -> old me n p -> old me n q ->
    sim me (x <~ append room x p ;; append room x q) m1 (n + 1) (Done (lp ++ lq)) (builds me m n)).
  { intros p q lp lq HP HQ NZ OP OQ. eapply sim_weaken.
    - apply sim_join2 with (la := lp) (lb := lq); auto.
      + subst x. reflexivity.
      + unfold old in *. lia.
      + unfold old in *. lia.
      + intros E. locs.
      + subst x. reflexivity.
    - intros s l m2 n2 (B1 & B2 & B3 & B4). split; [exact B1|]. split; [locs|]. split; [|lia].
      intros r OR. rewrite B3 by (destruct OR; [auto|right; lia]). apply K1. exact OR. }
  cbn [idx nth_error N.to_nat]. destruct (_ <? _); apply D; auto; discriminate.
Qed.

Lemma sim_all s l f g m n : has m s l -> (forall x, sim me (f x) m n (Done (g x)) (same m n)) ->
  sim me (p_all s f) m n (Done (forallb g l)) (same m n).
Proof.
  intros H F. unfold p_all. pose proof H as (L & _). rewrite L.
  assert (X : forall k pre suf, l = pre ++ suf -> k = length suf ->
    sim me (pfor_break k (lenN pre) (fun i (_ : unit) => x <~ get s i ;; b <~ f x ;; if (b : bool) then Ret (Continue tt) else Ret (Break tt)) tt)
      m n (Done (if forallb g suf then inr tt else inl tt)) (same m n)).
  { intros k. induction k; intros pre [|y suf] E K; cbn [length] in K; try discriminate; cbn [pfor_break].
    - repeat split.
    - eapply (sim_left me _ _ m n (if g y then Continue tt else Break tt) _ (same m n)).
      { assert (I0 : idx l (lenN pre) = Done y).
        { unfold idx. subst l. rewrite nth_error_app2 by (unfold lenN; lia). replace (N.to_nat (lenN pre) - length pre)%nat with 0%nat by (unfold lenN; lia). reflexivity. }
        eapply sim_left; [rewrite <- I0; apply sim_get; exact H|]. intros ? ? ? (-> & -> & ->).
        eapply sim_left; [apply F|]. intros ? ? ? (-> & -> & ->). destruct (g y); repeat split. }
      intros st ? ? (-> & -> & ->). cbn [forallb]. destruct (g y); cbn [andb]; [|repeat split].
      replace (lenN pre + 1) with (lenN (pre ++ [y])) by (rewrite lenN_app; reflexivity). apply IHk; [|lia].
      rewrite <- app_assoc. exact E. }
  eapply sim_left; [apply (X (N.to_nat (lenN l)) [] l eq_refl); unfold lenN; lia|]. intros r ? ? (-> & -> & ->).
  destruct (forallb g l); repeat split.
Qed.
Lemma sim_distinct a b la lb m n : has m a la -> has m b lb ->
  sim me (p_distinct a b) m n (Done (distinctIndices la lb)) (same m n).
Proof.
  intros HA HBB. unfold p_distinct, distinctIndices. apply sim_all; [exact HA|]. intros x. apply sim_all; [exact HBB|].
  intros y. repeat split.
Qed.
End Tree.
