(** Proofs about XorModel: every implementation leaves the memory with the xor of the two slices in the destination. *)
From Coq Require Import NArith ZArith Arith List Bool Lia ZifyBool ZifyN ZifyNat.
From Verif Require Import Base BaseFacts XorModel.
Import ListNotations.
Open Scope N_scope.
Ltac Zify.zify_post_hook ::= Z.div_mod_to_equations.

(** ** Lists of bytes *)
Definition run_of (k : nat) (f : N -> N) : list N := tab (N.of_nat k) f.
Lemma run_of_S k f : run_of (S k) f = f 0 :: run_of k (fun j => f (1 + j)).
Proof.
  unfold run_of. replace (N.of_nat (S k)) with (1 + N.of_nat k) by lia. rewrite tab_app. reflexivity.
Qed.
Lemma run_of_length k f : length (run_of k f) = k.
Proof. unfold run_of. rewrite tab_length. lia. Qed.
Lemma run_of_ext k f g : (forall j, j < N.of_nat k -> f j = g j) -> run_of k f = run_of k g.
Proof. apply tab_ext. Qed.
Lemma run_of_bytes k f : (forall j, j < N.of_nat k -> f j < 256) -> bytes (run_of k f).
Proof. intros H. apply words_tab. exact H. Qed.
Lemma xor_run k f g : xor_list (run_of k f) (run_of k g) = run_of k (fun j => N.lxor (f j) (g j)).
Proof.
  revert f g. induction k as [|k IH]; intros; [reflexivity|]. rewrite !run_of_S. cbn [xor_list combine map].
  f_equal. apply (IH (fun j => f (1 + j)) (fun j => g (1 + j))).
Qed.

Lemma lxor_low x y p q : x < 256 -> y < 256 -> N.lxor (x + 256 * p) (y + 256 * q) = N.lxor x y + 256 * N.lxor p q.
Proof.
  intros Hx Hy.
  assert (A : forall u v, u < 256 -> u + 256 * v = N.lor u (N.shiftl v 8)).
  { intros u v Hu. rewrite N.shiftl_mul_pow2, N.mul_comm. change 256 with (2 ^ 8).
    rewrite N.add_nocarry_lxor; [apply N.lxor_lor|]; apply N.bits_inj; intros i; rewrite N.land_spec, N.bits_0;
    (destruct (N.ltb_spec i 8);
      [rewrite N.mul_pow2_bits_low by lia; apply andb_false_r
      |rewrite (testbit_high 8 u i) by (auto; lia); apply andb_false_l]). }
  rewrite !A by (auto; apply (lxor_lt 8); auto). apply N.bits_inj. intros i.
  rewrite N.lxor_spec, !N.lor_spec, N.lxor_spec.
  destruct (N.ltb_spec i 8).
  - rewrite !N.shiftl_spec_low by lia. rewrite !orb_false_r. auto.
  - rewrite !N.shiftl_spec_high' by lia. rewrite N.lxor_spec.
    rewrite (testbit_high 8 x i), (testbit_high 8 y i) by (auto; lia). auto.
Qed.
Lemma lxor_value l m : bytes l -> bytes m -> length l = length m ->
  N.lxor (le_value l) (le_value m) = le_value (xor_list l m).
Proof.
  intros Hl. revert m. induction Hl as [|x l Hx Hl IH]; intros [|y m] Hm HL; try discriminate HL; [reflexivity|].
  inversion_clear Hm. cbn [le_value xor_list combine map]. rewrite lxor_low by assumption.
  rewrite IH by (auto; cbn in HL; lia). reflexivity.
Qed.
Lemma xor_list_bytes l m : bytes l -> bytes m -> bytes (xor_list l m).
Proof.
  intros Hl. revert m. induction Hl as [|x l Hx Hl IH]; intros [|y m] Hm; try constructor.
  - inversion_clear Hm. apply (lxor_lt 8); auto.
  - inversion_clear Hm. apply IH. auto.
Qed.
Lemma xor_list_length l m : length (xor_list l m) = Nat.min (length l) (length m).
Proof. unfold xor_list. rewrite map_length, combine_length. auto. Qed.
Lemma le_bytes_xor l m k : bytes l -> bytes m -> length l = k -> length m = k ->
  le_bytes k (N.lxor (le_value l) (le_value m)) = xor_list l m.
Proof.
  intros Hl Hm Ll Lm. rewrite lxor_value by (auto; congruence).
  replace k with (length (xor_list l m)) by (rewrite xor_list_length, Ll, Lm; apply Nat.min_id).
  apply le_value_bytes. apply xor_list_bytes; auto.
Qed.
Lemma value_lt l k : bytes l -> length l = k -> le_value l < 256 ^ N.of_nat k.
Proof. intros H E. pose proof (le_value_lt l H) as A. unfold lenN in A. rewrite E in A. exact A. Qed.

(** ** Memory *)
Lemma load_ok m k a f : (forall j, j < N.of_nat k -> m (a + j) = Some (f j)) -> load m a k = Done (run_of k f).
Proof.
  revert a f. induction k as [|k IH]; intros a f H; [reflexivity|].
  cbn [load]. pose proof (H 0 ltac:(lia)) as H0. rewrite N.add_0_r in H0. rewrite H0.
  rewrite (IH (a + 1) (fun j => f (1 + j))). { rewrite run_of_S. reflexivity. }
  intros j Hj. rewrite <- N.add_assoc. apply H. lia.
Qed.
Lemma store_ok k : forall m a f, (forall j, j < N.of_nat k -> m (a + j) <> None) ->
  exists m', store m a (run_of k f) = Done m'
    /\ forall x, m' x = if (a <=? x) && (x <? a + N.of_nat k) then Some (f (x - a)) else m x.
Proof.
  induction k as [|k IH]; intros m a f H.
  - exists m. split; [reflexivity|]. intros x. destruct (_ && _) eqn:E; auto. lia.
  - rewrite run_of_S. cbn [store].
    pose proof (H 0 ltac:(lia)) as H0. rewrite N.add_0_r in H0. destruct (m a) eqn:Ea; [|congruence].
    destruct (IH (put m a (f 0)) (a + 1) (fun j => f (1 + j))) as (m' & E & Hm').
    { intros j Hj. unfold put. destruct (N.eqb_spec (a + 1 + j) a); [discriminate|].
      rewrite <- N.add_assoc. apply H. lia. }
    exists m'. split; auto. intros x. rewrite Hm'. unfold put.
    destruct (N.eqb_spec x a) as [->|Hne].
    + replace ((a + 1 <=? a) && (a <? a + 1 + N.of_nat k)) with false by lia.
      replace ((a <=? a) && (a <? a + N.of_nat (S k))) with true by lia. rewrite N.sub_diag. auto.
    + replace ((a + 1 <=? x) && (x <? a + 1 + N.of_nat k)) with ((a <=? x) && (x <? a + N.of_nat (S k))) by lia.
      destruct (_ && _) eqn:E'; auto. do 2 f_equal. lia.
Qed.

(** ** The three slices *)
Definition byte (m : mem) (x : N) : N := match m x with Some b => b | None => 0 end.

Section Xor.
Variables (m0 : mem) (da aa ba n : N).
Hypothesis mapped_dst : forall i, i < n -> m0 (da + i) <> None.
Hypothesis mapped_a : forall i, i < n -> m0 (aa + i) <> None.
Hypothesis mapped_b : forall i, i < n -> m0 (ba + i) <> None.
Hypothesis bytes_a : forall i, i < n -> byte m0 (aa + i) < 256.
Hypothesis bytes_b : forall i, i < n -> byte m0 (ba + i) < 256.
Hypothesis apart_a : forall i j, i < n -> j < n -> da + i = aa + j -> i = j.
Hypothesis apart_b : forall i j, i < n -> j < n -> da + i = ba + j -> i = j.
Hypothesis small : n < 2 ^ 63.
Hypothesis wrap_dst : da + n < 2 ^ 64.
Hypothesis wrap_a : aa + n < 2 ^ 64.
Hypothesis wrap_b : ba + n < 2 ^ 64.

Definition val (i : N) : N := N.lxor (byte m0 (aa + i)) (byte m0 (ba + i)).
(** The memory once the bytes of the destination in [D] are written. *)
Definition image (D : N -> bool) (x : N) : option N :=
  if (da <=? x) && (x <? da + n) && D (x - da) then Some (val (x - da)) else m0 x.
Definition holds (m : mem) (D : N -> bool) : Prop := forall x, m x = image D x.

Lemma holds_start D : (forall i, i < n -> D i = false) -> holds m0 D.
Proof.
  intros H x. unfold image. destruct (_ && _) eqn:E; auto.
  apply andb_true_iff in E. destruct E as [E1 E2]. rewrite H in E2 by lia. discriminate.
Qed.
Lemma holds_ext m D E : holds m D -> (forall i, i < n -> D i = E i) -> holds m E.
Proof.
  intros H HE x. rewrite H. unfold image.
  destruct ((da <=? x) && (x <? da + n)) eqn:R; auto. cbn [andb]. rewrite HE by lia. auto.
Qed.
Lemma source s (Hm : forall i, i < n -> m0 (s + i) <> None)
  (Ha : forall i j, i < n -> j < n -> da + i = s + j -> i = j) m D p k :
  holds m D -> p + N.of_nat k <= n -> (forall j, p <= j -> j < p + N.of_nat k -> D j = false) ->
  load m (s + p) k = Done (run_of k (fun j => byte m0 (s + (p + j)))).
Proof.
  intros H Hp HD. apply load_ok. intros j Hj. rewrite H, <- N.add_assoc. unfold image, byte.
  destruct ((da <=? s + (p + j)) && (s + (p + j) <? da + n)) eqn:R; cbn [andb].
  - replace (s + (p + j) - da) with (p + j).
    + rewrite HD by lia. pose proof (Hm (p + j) ltac:(lia)). destruct (m0 _); congruence.
    + pose proof (Ha (s + (p + j) - da) (p + j) ltac:(lia) ltac:(lia) ltac:(lia)). lia.
  - pose proof (Hm (p + j) ltac:(lia)). destruct (m0 _); congruence.
Qed.
Definition source_a := source aa mapped_a apart_a.
Definition source_b := source ba mapped_b apart_b.
Definition src (s p : N) (k : nat) : list N := run_of k (fun j => byte m0 (s + (p + j))).
Lemma src_len s p k : length (src s p k) = k.
Proof. apply run_of_length. Qed.
Lemma src_a p k : p + N.of_nat k <= n -> bytes (src aa p k).
Proof. intros H. apply run_of_bytes. intros. apply bytes_a. lia. Qed.
Lemma src_b p k : p + N.of_nat k <= n -> bytes (src ba p k).
Proof. intros H. apply run_of_bytes. intros. apply bytes_b. lia. Qed.
Lemma src_xor p k : xor_list (src aa p k) (src ba p k) = run_of k (fun j => val (p + j)).
Proof. apply xor_run. Qed.
Lemma val_lt i : i < n -> val i < 256.
Proof. intros. apply (lxor_lt 8); [apply bytes_a|apply bytes_b]; auto. Qed.
Definition with_range (D : N -> bool) (p k : N) (i : N) : bool := D i || (p <=? i) && (i <? p + k).
Lemma sink m D p k : holds m D -> p + N.of_nat k <= n ->
  exists m', store m (da + p) (run_of k (fun j => val (p + j))) = Done m' /\ holds m' (with_range D p (N.of_nat k)).
Proof.
  intros H Hp. destruct (store_ok k m (da + p) (fun j => val (p + j))) as (m' & E & Hm').
  - intros j Hj. rewrite H. unfold image. destruct (_ && _); [discriminate|].
    rewrite <- N.add_assoc. apply mapped_dst. lia.
  - exists m'. split; auto. intros x. rewrite Hm', H. unfold image, with_range.
    destruct ((da + p <=? x) && (x <? da + p + N.of_nat k)) eqn:R.
    + replace ((da <=? x) && (x <? da + n)) with true by lia.
      replace ((p <=? x - da) && (x - da <? p + N.of_nat k)) with true by lia. rewrite orb_true_r. cbn [andb].
      do 2 f_equal. lia.
    + destruct ((da <=? x) && (x <? da + n)) eqn:R2; auto. cbn [andb].
      replace ((p <=? x - da) && (x - da <? p + N.of_nat k)) with false by lia. rewrite orb_false_r. auto.
Qed.
Lemma addr_ok s i : s + n < 2 ^ 64 -> i < n -> addw 64 s i = s + i.
Proof. intros. apply trunc_small. lia. Qed.

(** ** amd64 *)
Section Amd.
Import Amd64.
Definition runs (s : state) (P : mem -> Prop) : Prop := exists fuel m, run fuel s = Done m /\ P m.
Lemma runs_step s s' P : step s = Done (Continue s') -> runs s' P -> runs s P.
Proof.
  intros H (f & m & E & HP). exists (S f), m. split; auto. unfold run in *. cbn [loop_fuel]. rewrite H. exact E.
Qed.
Lemma runs_ret s m (P : mem -> Prop) : step s = Done (Break m) -> P m -> runs s P.
Proof. intros H HP. exists 1%nat, m. split; auto. unfold run. cbn [loop_fuel]. rewrite H. reflexivity. Qed.
Ltac go := eapply runs_step; [reflexivity|]; cbn [negb next set setx setm flags goto jump get getx pc ax bx cx dx si di x0 x1 zf lt memory].
Ltac goby tac := eapply runs_step; [unfold step; cbn [pc nth_error program get getx ax bx cx dx si di x0 x1 memory]; tac; reflexivity|];
  cbn [negb next set setx setm flags goto jump get getx pc ax bx cx dx si di x0 x1 zf lt memory].

Definition final (m : mem) : Prop := holds m (fun _ => true).

Lemma land15 x : N.land 15 x = x mod 16.
Proof. rewrite N.land_comm. apply (N.land_ones x 4). Qed.
Lemma land7 x : N.land 7 x = x mod 8.
Proof. rewrite N.land_comm. apply (N.land_ones x 3). Qed.

Lemma loop16 c : forall a d f u w z l m,
  a < d -> d - a = 16 * N.of_nat c -> d <= n ->
  holds m (fun i => (i <? a) || (d <=? i)) ->
  runs (mkS 4 a da ba d aa f u w z l m) final.
Proof.
  induction c as [|c IH]; intros a d f u w z l m Hlt Hd Hn Hm; [lia|].
  go. goby ltac:(rewrite addr_ok, (source_a m _ a 16 Hm) by (auto; lia); cbn [bind]).
  goby ltac:(rewrite addr_ok, (source_b m _ a 16 Hm) by (auto; lia); cbn [bind]).
  go. fold (src aa a 16) (src ba a 16). rewrite src_xor.
  destruct (sink m _ a 16 Hm) as (m' & E & Hm'); [lia|].
  goby ltac:(rewrite addr_ok, E by (auto; lia); cbn [bind]).
  go. replace (addw 64 a 16) with (a + 16) by (symmetry; apply trunc_small; lia).
  go. go.
  destruct (N.eqb_spec d (a + 16)) as [Hd'|Hd']; cbn [negb].
  - eapply runs_ret; [reflexivity|]. apply (holds_ext _ _ _ Hm'). intros i Hi. unfold with_range. lia.
  - change (find loop16b program 0) with 4%nat. apply (IH (a + 16)); auto; try lia.
    apply (holds_ext _ _ _ Hm'). intros i Hi. unfold with_range. lia.
Qed.

Lemma sgn_small x : x < 2 ^ 63 -> sgn x = Z.of_N x.
Proof. intros. unfold sgn. replace (x <? 2 ^ 63) with true by lia. auto. Qed.

(** From [aligned]. *)
Lemma at_aligned c a d f u w z l m :
  0 < d -> d = 16 * c -> d <= n -> holds m (fun i => d <=? i) -> runs (mkS 2 a da ba d aa f u w z l m) final.
Proof.
  intros H0 Hd Hn Hm. go. go. apply (loop16 (N.to_nat c)); auto; try lia.
  apply (holds_ext _ _ _ Hm). intros. lia.
Qed.

(** From [not_aligned], with a length that is a multiple of 8 but not of 16. *)
Lemma at_not_aligned8 c a d f u w z l m :
  d = 16 * c + 8 -> d <= n -> holds m (fun i => d <=? i) -> runs (mkS 25 a da ba d aa f u w z l m) final.
Proof.
  intros Hd Hn Hm. go. go. rewrite land7. replace (d mod 8) with 0 by lia. change (0 =? 0) with true. go. go.
  replace (subw 64 d 8) with (16 * c).
  2:{ unfold subw. replace (d + 2 ^ 64 - 8) with (16 * c + 1 * 2 ^ 64) by lia.
      rewrite trunc_mod, N.mod_add by discriminate. symmetry. apply N.mod_small. lia. }
  goby ltac:(rewrite addr_ok, (source_a m _ (16 * c) 8 Hm) by (auto; lia); cbn [bind]).
  goby ltac:(rewrite addr_ok, (source_b m _ (16 * c) 8 Hm) by (auto; lia); cbn [bind]).
  fold (src aa (16 * c) 8) (src ba (16 * c) 8). go.
  destruct (sink m _ (16 * c) 8 Hm) as (m' & E & Hm'); [lia|].
  goby ltac:(rewrite addr_ok by (auto; lia);
    rewrite (le_bytes_xor _ _ 8 (src_a (16 * c) 8 ltac:(lia)) (src_b (16 * c) 8 ltac:(lia)) (src_len _ _ _) (src_len _ _ _));
    rewrite src_xor, E; cbn [bind]).
  go. go. rewrite !sgn_small by lia.
  destruct (Z.ltb_spec (Z.of_N (16 * c)) (Z.of_N 16)) as [Hc|Hc]; cbn [negb].
  - go. eapply runs_ret; [reflexivity|]. apply (holds_ext _ _ _ Hm'). intros. unfold with_range. lia.
  - change (find aligned program 0) with 2%nat. apply (at_aligned c); auto; try lia.
    apply (holds_ext _ _ _ Hm'). intros. unfold with_range. lia.
Qed.

Lemma low_byte x v : v < 256 -> (x - x mod 256 + v) mod 256 = v.
Proof. intros. pose proof (N.mod_le x 256). lia. Qed.
Lemma byte_value f : le_value (run_of 1 f) = f 0.
Proof. rewrite run_of_S. cbn [le_value run_of]. change (le_value (run_of 0 _)) with 0. lia. Qed.


Lemma sub_ok d v : v <= d -> d < 2 ^ 63 -> subw 64 d v = d - v.
Proof.
  intros. unfold subw. replace (d + 2 ^ 64 - v) with (d - v + 1 * 2 ^ 64) by lia.
  rewrite trunc_mod, N.mod_add by discriminate. apply N.mod_small. lia.
Qed.

(** From [loop_1b], with a length that is not a multiple of 8. *)
Lemma at_loop1 e c : forall a d f u w z l m,
  (c < 7)%nat -> d = 8 * e + N.of_nat c + 1 -> d <= n -> holds m (fun i => d <=? i) ->
  runs (mkS 13 a da ba d aa f u w z l m) final.
Proof.
  induction c as [|c IH]; intros a d f u w z l m Hc Hd Hn Hm;
  (go; go; rewrite sub_ok by lia;
   goby ltac:(rewrite addr_ok, (source_a m _ (d - 1) 1 Hm) by (auto; lia); cbn [bind]);
   goby ltac:(rewrite addr_ok, (source_b m _ (d - 1) 1 Hm) by (auto; lia); cbn [bind]);
   rewrite !byte_value, N.add_0_r;
   assert (Hb1 : byte m0 (aa + (d - 1)) < 256) by (apply bytes_a; lia);
   assert (Hb2 : byte m0 (ba + (d - 1)) < 256) by (apply bytes_b; lia);
   assert (Hb3 : val (d - 1) < 256) by (apply val_lt; lia);
   pose proof (low_byte f _ Hb1) as Hx1; pose proof (low_byte a _ Hb2) as Hx2;
   set (x1 := f - f mod 256 + byte m0 (aa + (d - 1))) in *; set (x2 := a - a mod 256 + byte m0 (ba + (d - 1))) in *;
   clearbody x1 x2; go; rewrite Hx1, Hx2; fold (val (d - 1));
   assert (Hx3 : (x1 - byte m0 (aa + (d - 1)) + val (d - 1)) mod 256 = val (d - 1))
     by (pose proof (low_byte x1 _ Hb3) as A; rewrite Hx1 in A; exact A);
   destruct (sink m _ (d - 1) 1 Hm) as (m' & E & Hm'); [lia|];
   rewrite run_of_S, N.add_0_r in E; change (run_of 0 (fun j => val (d - 1 + (1 + j)))) with (@nil N) in E;
   goby ltac:(rewrite addr_ok by (auto; lia); rewrite Hx3, E; cbn [bind]);
   go; rewrite land7).
  - replace ((d - 1) mod 8 =? 0) with true by lia. go. go.
    destruct (N.eqb_spec (d - 1) 0) as [H0|H0].
    + go. go. eapply runs_ret; [reflexivity|]. apply (holds_ext _ _ _ Hm'). intros. unfold with_range. lia.
    + go. go. rewrite land15. assert (Hp : e mod 2 = 0 \/ e mod 2 = 1) by lia. destruct Hp as [Hp|Hp].
      * replace ((d - 1) mod 16 =? 0) with true by lia. go. change (find aligned program 0) with 2%nat.
        apply (at_aligned (e / 2)); try lia. apply (holds_ext _ _ _ Hm'). intros. unfold with_range. lia.
      * replace ((d - 1) mod 16 =? 0) with false by lia. go.
        apply (at_not_aligned8 (e / 2)); try lia. apply (holds_ext _ _ _ Hm'). intros. unfold with_range. lia.
  - replace ((d - 1) mod 8 =? 0) with false by lia. go. change (find loop_1b program 0) with 13%nat.
    apply IH; try lia. apply (holds_ext _ _ _ Hm'). intros. unfold with_range. lia.
Qed.

Lemma amd64_ok r : 0 < n -> exists fuel m, call fuel r m0 da aa ba n = Done m /\ holds m (fun _ => true).
Proof.
  intros H0. change (runs (mkS 0 (ax r) da ba n aa (di r) (x0 r) (x1 r) (zf r) (lt r) m0) final).
  assert (Hm : holds m0 (fun i => n <=? i)) by (apply holds_start; intros; lia).
  go. rewrite land15. destruct (N.eqb_spec (n mod 16) 0) as [H16|H16].
  - go. apply (at_aligned (n / 16)); auto; lia.
  - go. change (find not_aligned program 0) with 25%nat.
    destruct (N.eqb_spec (n mod 8) 0) as [H8|H8].
    + apply (at_not_aligned8 (n / 16)); auto; lia.
    + go. go. rewrite land7. replace (n mod 8 =? 0) with false by lia. go.
      change (find loop_1b program 0) with 13%nat.
      apply (at_loop1 (n / 8) (N.to_nat (n mod 8 - 1))); auto; lia.
Qed.
End Amd.

(** ** arm64 *)
Section Arm.
Import Arm64.
Definition aruns (s : state) (P : mem -> Prop) : Prop := exists fuel m, run fuel s = Done m /\ P m.
Lemma aruns_step s s' P : step s = Done (Continue s') -> aruns s' P -> aruns s P.
Proof.
  intros H (f & m & E & HP). exists (S f), m. split; auto. unfold run in *. cbn [loop_fuel]. rewrite H. exact E.
Qed.
Lemma aruns_ret s m (P : mem -> Prop) : step s = Done (Break m) -> P m -> aruns s P.
Proof. intros H HP. exists 1%nat, m. split; auto. unfold run. cbn [loop_fuel]. rewrite H. reflexivity. Qed.
Lemma post s i k : s + n < 2 ^ 64 -> i + k <= n -> addw 64 (s + i) k = s + (i + k).
Proof. intros. rewrite N.add_assoc. apply trunc_small. lia. Qed.

Ltac redu := unfold jump, bump; cbn [negb]; unfold next, set, setv, setm, flag, goto;
  cbn [pc regs vregs lt memory reg_beq vreg_beq].
Ltac go := eapply aruns_step; [reflexivity|]; redu.
Ltac goby tac := eapply aruns_step;
  [unfold step; cbn [pc nth_error program regs vregs memory vload vstore reg_beq vreg_beq bind setv set setm];
   tac; cbn [bind]; reflexivity|]; redu.

(** The registers once [p] bytes are done. *)
Definition at_pos (r : reg -> N) (p : N) : Prop := r R0 = da + p /\ r R1 = aa + p /\ r R2 = ba + p.
Definition below (p : N) (i : N) : bool := i <? p.

Ltac use_a m Hm p k := rewrite (source_a m _ p k Hm) by (unfold below; lia); cbn [bind memory setv set setm].
Ltac use_b m Hm p k := rewrite (source_b m _ p k Hm) by (unfold below; lia); cbn [bind memory setv set setm].

Ltac use_d E := rewrite E; cbn [bind memory setv set setm vregs vreg_beq].
Lemma src_xor' p k : xor_list (src ba p k) (src aa p k) = run_of k (fun j => val (p + j)).
Proof. unfold src. rewrite xor_run. apply run_of_ext. intros. apply N.lxor_comm. Qed.

(** What the code after the main loop may assume, and must achieve. *)
Definition goal_at (label : nat) (w : N) : Prop := forall p r v l m,
  at_pos r p -> n = p + r R3 mod w -> holds m (below p) -> aruns (mkS label r v l m) final.

Lemma testbit_div x k : N.testbit x k = negb (x / 2 ^ k mod 2 =? 0).
Proof.
  destruct (N.testbit x k) eqn:E.
  - apply N.testbit_true in E. rewrite E. reflexivity.
  - apply N.testbit_false in E. rewrite E. reflexivity.
Qed.
(** Lines 66-67. *)
Lemma at_finish r v l m : holds m (below n) -> aruns (mkS 52 r v l m) final.
Proof.
  intros Hm. go. eapply aruns_ret; [reflexivity|]. apply (holds_ext _ _ _ Hm). intros. unfold below. lia.
Qed.
(** Lines 60-65. *)
Lemma less_than2_ok : goal_at 46 2.
Proof.
  intros p r v l m (H0 & H1 & H2) Hn Hm. go. go. rewrite testbit_div. change (2 ^ 0) with 1.
  destruct (N.eqb_spec (r R3 / 1 mod 2) 0) as [Hb|Hb]; cbn [negb].
  - change (find finish program 0) with 52%nat. apply at_finish. apply (holds_ext _ _ _ Hm). intros. unfold below. lia.
  - goby ltac:(rewrite H1; use_a m Hm p 1%nat). goby ltac:(rewrite H2; use_b m Hm p 1%nat).
    fold (src aa p 1) (src ba p 1). go.
    destruct (sink m _ p 1 Hm) as (m1 & E1 & Hm1); [lia|].
    pose proof (src_a p 1 ltac:(lia)) as Ba. pose proof (src_b p 1 ltac:(lia)) as Bb.
    assert (Hw : N.lxor (le_value (src ba p 1)) (le_value (src aa p 1)) < 2 ^ 32).
    { apply lxor_lt; (eapply N.lt_le_trans; [apply value_lt; [eassumption|apply src_len]|discriminate]). }
    rewrite (N.mod_small _ (2 ^ 32) Hw).
    goby ltac:(rewrite H0; rewrite (le_bytes_xor _ _ 1 Bb Ba (src_len _ _ _) (src_len _ _ _)), src_xor'; use_d E1).
    apply at_finish. apply (holds_ext _ _ _ Hm1). intros. unfold with_range, below. lia.
Qed.
(** Lines 54-59. *)
Lemma less_than4_ok : goal_at 40 4.
Proof.
  intros p r v l m (H0 & H1 & H2) Hn Hm. go. go. rewrite testbit_div. change (2 ^ 1) with 2.
  destruct (N.eqb_spec (r R3 / 2 mod 2) 0) as [Hb|Hb]; cbn [negb].
  - change (find less_than2 program 0) with 46%nat. apply (less_than2_ok p); [repeat split; auto|lia|auto].
  - goby ltac:(rewrite H1; use_a m Hm p 2%nat). goby ltac:(rewrite H2; use_b m Hm p 2%nat).
    fold (src aa p 2) (src ba p 2). go.
    destruct (sink m _ p 2 Hm) as (m1 & E1 & Hm1); [lia|].
    pose proof (src_a p 2 ltac:(lia)) as Ba. pose proof (src_b p 2 ltac:(lia)) as Bb.
    assert (Hw : N.lxor (le_value (src ba p 2)) (le_value (src aa p 2)) < 2 ^ 32).
    { apply lxor_lt; (eapply N.lt_le_trans; [apply value_lt; [eassumption|apply src_len]|discriminate]). }
    rewrite (N.mod_small _ (2 ^ 32) Hw).
    goby ltac:(rewrite H0; rewrite (le_bytes_xor _ _ 2 Bb Ba (src_len _ _ _) (src_len _ _ _)), src_xor'; use_d E1).
    apply (less_than2_ok (p + 2)).
    + unfold at_pos. cbn. rewrite H0, H1, H2. change (N.pos (Pos.of_succ_nat 1)) with 2. rewrite !post by (auto; lia). auto.
    + cbn. lia.
    + apply (holds_ext _ _ _ Hm1). intros. unfold with_range, below. lia.
Qed.
(** Lines 48-53. *)
Lemma less_than8_ok : goal_at 34 8.
Proof.
  intros p r v l m (H0 & H1 & H2) Hn Hm. go. go. rewrite testbit_div. change (2 ^ 2) with 4.
  destruct (N.eqb_spec (r R3 / 4 mod 2) 0) as [Hb|Hb]; cbn [negb].
  - change (find less_than4 program 0) with 40%nat. apply (less_than4_ok p); [repeat split; auto|lia|auto].
  - goby ltac:(rewrite H1; use_a m Hm p 4%nat). goby ltac:(rewrite H2; use_b m Hm p 4%nat).
    fold (src aa p 4) (src ba p 4). go.
    destruct (sink m _ p 4 Hm) as (m1 & E1 & Hm1); [lia|].
    pose proof (src_a p 4 ltac:(lia)) as Ba. pose proof (src_b p 4 ltac:(lia)) as Bb.
    assert (Hw : N.lxor (le_value (src ba p 4)) (le_value (src aa p 4)) < 2 ^ 32).
    { apply lxor_lt; (eapply N.lt_le_trans; [apply value_lt; [eassumption|apply src_len]|discriminate]). }
    rewrite (N.mod_small _ (2 ^ 32) Hw).
    goby ltac:(rewrite H0; rewrite (le_bytes_xor _ _ 4 Bb Ba (src_len _ _ _) (src_len _ _ _)), src_xor'; use_d E1).
    apply (less_than4_ok (p + 4)).
    + unfold at_pos. cbn. rewrite H0, H1, H2. change (N.pos (Pos.of_succ_nat 3)) with 4. rewrite !post by (auto; lia). auto.
    + cbn. lia.
    + apply (holds_ext _ _ _ Hm1). intros. unfold with_range, below. lia.
Qed.
(** Lines 42-47. *)
Lemma less_than16_ok : goal_at 28 16.
Proof.
  intros p r v l m (H0 & H1 & H2) Hn Hm. go. go. rewrite testbit_div. change (2 ^ 3) with 8.
  destruct (N.eqb_spec (r R3 / 8 mod 2) 0) as [Hb|Hb]; cbn [negb].
  - change (find less_than8 program 0) with 34%nat. apply (less_than8_ok p); [repeat split; auto|lia|auto].
  - goby ltac:(rewrite H1; use_a m Hm p 8%nat). goby ltac:(rewrite H2; use_b m Hm p 8%nat).
    fold (src aa p 8) (src ba p 8). go.
    destruct (sink m _ p 8 Hm) as (m1 & E1 & Hm1); [lia|].
    pose proof (src_a p 8 ltac:(lia)) as Ba. pose proof (src_b p 8 ltac:(lia)) as Bb.
    
    goby ltac:(rewrite H0; rewrite (le_bytes_xor _ _ 8 Bb Ba (src_len _ _ _) (src_len _ _ _)), src_xor'; use_d E1).
    apply (less_than8_ok (p + 8)).
    + unfold at_pos. cbn. rewrite H0, H1, H2. change (N.pos (Pos.of_succ_nat 7)) with 8. rewrite !post by (auto; lia). auto.
    + cbn. lia.
    + apply (holds_ext _ _ _ Hm1). intros. unfold with_range, below. lia.
Qed.
(** Lines 35-41. *)
Lemma less_than32_ok : goal_at 21 32.
Proof.
  intros p r v l m (H0 & H1 & H2) Hn Hm. go. go. rewrite testbit_div. change (2 ^ 4) with 16.
  destruct (N.eqb_spec (r R3 / 16 mod 2) 0) as [Hb|Hb]; cbn [negb].
  - change (find less_than16 program 0) with 28%nat. apply (less_than16_ok p); [repeat split; auto|lia|auto].
  - goby ltac:(rewrite H1; use_a m Hm p 8%nat; rewrite <- N.add_assoc; use_a m Hm (p + 8) 8%nat).
    goby ltac:(rewrite H2; use_b m Hm p 8%nat; rewrite <- N.add_assoc; use_b m Hm (p + 8) 8%nat).
    fold (src aa p 8) (src ba p 8) (src aa (p + 8) 8) (src ba (p + 8) 8). go. go.
    destruct (sink m _ p 8 Hm) as (m1 & E1 & Hm1); [lia|].
    destruct (sink m1 _ (p + 8) 8 Hm1) as (m2 & E2 & Hm2); [lia|].
    pose proof (src_a p 8 ltac:(lia)) as Ba. pose proof (src_b p 8 ltac:(lia)) as Bb.
    pose proof (src_a (p + 8) 8 ltac:(lia)) as Ca. pose proof (src_b (p + 8) 8 ltac:(lia)) as Cb.
    goby ltac:(rewrite H0; rewrite (le_bytes_xor _ _ 8 Bb Ba (src_len _ _ _) (src_len _ _ _)), src_xor'; use_d E1;
      rewrite <- N.add_assoc; rewrite (le_bytes_xor _ _ 8 Cb Ca (src_len _ _ _) (src_len _ _ _)), src_xor'; use_d E2).
    apply (less_than16_ok (p + 16)).
    + unfold at_pos. cbn. rewrite H0, H1, H2. rewrite !post by (auto; lia). auto.
    + cbn. lia.
    + apply (holds_ext _ _ _ Hm2). intros. unfold with_range, below. lia.
Qed.
(** Lines 26-34. *)
Lemma tail_ok : goal_at 13 64.
Proof.
  intros p r v l m (H0 & H1 & H2) Hn Hm. go. go.
  destruct (N.eqb_spec (r R3) 0) as [Hz|Hz].
  - change (find finish program 0) with 52%nat. apply at_finish. rewrite Hz in Hn.
    apply (holds_ext _ _ _ Hm). intros. unfold below. lia.
  - go. rewrite testbit_div. change (2 ^ 5) with 32.
    destruct (N.eqb_spec (r R3 / 32 mod 2) 0) as [Hb|Hb]; cbn [negb].
    + change (find less_than32 program 0) with 21%nat. apply (less_than32_ok p); [repeat split; auto|lia|auto].
    + goby ltac:(rewrite H1; use_a m Hm p 16%nat; rewrite <- !N.add_assoc; use_a m Hm (p + 16) 16%nat).
      goby ltac:(rewrite H2; use_b m Hm p 16%nat; rewrite <- !N.add_assoc; use_b m Hm (p + 16) 16%nat).
      go. go. fold (src aa p 16) (src aa (p + 16) 16) (src ba p 16) (src ba (p + 16) 16). rewrite !src_xor'.
      destruct (sink m _ p 16 Hm) as (m1 & E1 & Hm1); [lia|].
      destruct (sink m1 _ (p + 16) 16 Hm1) as (m2 & E2 & Hm2); [lia|].
      goby ltac:(rewrite H0; use_d E1; rewrite <- !N.add_assoc; use_d E2).
      apply (less_than32_ok (p + 32)).
      * unfold at_pos. cbn. rewrite H0, H1, H2. change (16 * lenN [V0; V1]) with 32. change (16 * lenN [V2; V3]) with 32.
        rewrite !post by (auto; lia). auto.
      * cbn. lia.
      * apply (holds_ext _ _ _ Hm2). intros. unfold with_range, below. lia.
Qed.
(** Lines 15-25. *)
Lemma loop64 c : forall p r v l m,
  at_pos r p -> n = p + r R3 -> 64 <= r R3 -> (N.to_nat (r R3 / 64) <= c)%nat -> holds m (below p) ->
  goal_at 13 64 ->
  aruns (mkS 2 r v l m) final.
Proof.
  induction c as [|c IH]; intros p r v l m (H0 & H1 & H2) Hn H64 Hc Hm Htail; [lia|].
  go.
  goby ltac:(rewrite H1; use_a m Hm p 16%nat; rewrite <- !N.add_assoc; use_a m Hm (p + 16) 16%nat;
    use_a m Hm (p + (16 + 16)) 16%nat; use_a m Hm (p + (16 + (16 + 16))) 16%nat).
  goby ltac:(rewrite H2; use_b m Hm p 16%nat; rewrite <- !N.add_assoc; use_b m Hm (p + 16) 16%nat;
    use_b m Hm (p + (16 + 16)) 16%nat; use_b m Hm (p + (16 + (16 + 16))) 16%nat).
  go. go. go. go.
  fold (src aa p 16) (src aa (p + 16) 16) (src aa (p + (16 + 16)) 16) (src aa (p + (16 + (16 + 16))) 16).
  fold (src ba p 16) (src ba (p + 16) 16) (src ba (p + (16 + 16)) 16) (src ba (p + (16 + (16 + 16))) 16).
  rewrite !src_xor'.
  destruct (sink m _ p 16 Hm) as (m1 & E1 & Hm1); [lia|].
  destruct (sink m1 _ (p + 16) 16 Hm1) as (m2 & E2 & Hm2); [lia|].
  destruct (sink m2 _ (p + (16 + 16)) 16 Hm2) as (m3 & E3 & Hm3); [lia|].
  destruct (sink m3 _ (p + (16 + (16 + 16))) 16 Hm3) as (m4 & E4 & Hm4); [lia|].
  goby ltac:(rewrite H0; use_d E1; rewrite <- !N.add_assoc; use_d E2; use_d E3; use_d E4).
  go. rewrite sub_ok by lia. go. rewrite !sgn_small by lia.
  assert (Hm5 : holds m4 (below (p + 64))).
  { apply (holds_ext _ _ _ Hm4). intros. unfold with_range, below. lia. }
  go. destruct (Z.ltb_spec (Z.of_N (r R3 - 64)) (Z.of_N 64)) as [Hlt|Hge]; cbn [negb].
  - apply (Htail (p + 64)); auto; [|cbn; lia].
    unfold at_pos. cbn. rewrite H0, H1, H2. change (16 * lenN [V0; V1; V2; V3]) with 64. change (16 * lenN [V4; V5; V6; V7]) with 64.
    rewrite !post by (auto; lia). auto.
  - change (find loop_64 program 0) with 2%nat. apply (IH (p + 64)); auto; try (cbn; lia).
    unfold at_pos. cbn. rewrite H0, H1, H2. change (16 * lenN [V0; V1; V2; V3]) with 64. change (16 * lenN [V4; V5; V6; V7]) with 64.
    rewrite !post by (auto; lia). auto.
Qed.

Lemma arm64_ok r : exists fuel m, call fuel r m0 da aa ba n = Done m /\ holds m (fun _ => true).
Proof.
  set (q := fun q => match q with R0 => da | R1 => aa | R2 => ba | R3 => n | _ => regs r q end).
  change (aruns (mkS 0 q (vregs r) (lt r) m0) final).
  assert (Hm : holds m0 (below 0)) by (apply holds_start; intros; unfold below; lia).
  assert (Hq : at_pos q 0) by (repeat split; unfold q; lia).
  go. go. change (q R3) with n. rewrite !sgn_small by lia.
  destruct (Z.ltb_spec (Z.of_N n) (Z.of_N 64)) as [Hlt|Hge].
  - change (find tail program 0) with 13%nat. apply (tail_ok 0); auto. change (q R3) with n. lia.
  - apply (loop64 (N.to_nat (n / 64)) 0); auto; try (change (q R3) with n; lia). apply tail_ok.
Qed.
End Arm.

(** ** The portable versions *)
Section Generic.
Variables da_len aa_len ba_len : N.
Let dst := mkSlice da da_len.
Let a := mkSlice aa aa_len.
Let b := mkSlice ba ba_len.
Hypothesis na : n <= aa_len.
Hypothesis nb : n <= ba_len.

(** One element of [w] bytes, bytes [w*i] to [w*i+w-1]. *)
Lemma elem_ok w i m D : 0 < w -> w * i + w <= n -> n <= da_len -> holds m D ->
  (forall j, w * i <= j -> j < w * i + w -> D j = false) ->
  exists m', (x <- elem_get m a w i ;; y <- elem_get m b w i ;; elem_set m dst w i (xor_list x y)) = Done m'
    /\ holds m' (with_range D (w * i) w).
Proof.
  intros Hw Hi Hd Hm HD. assert (i < n) by nia.
  unfold elem_get, elem_set. cbn [sl_ptr sl_len a b dst].
  replace (i <? aa_len) with true by lia. replace (i <? ba_len) with true by lia. replace (i <? da_len) with true by lia.
  rewrite (source_a m D (w * i) (N.to_nat w) Hm) by (intros; try apply HD; lia). cbn [bind].
  rewrite (source_b m D (w * i) (N.to_nat w) Hm) by (intros; try apply HD; lia). cbn [bind].
  fold (src aa (w * i) (N.to_nat w)) (src ba (w * i) (N.to_nat w)). rewrite src_xor.
  destruct (sink m D (w * i) (N.to_nat w) Hm) as (m' & E & Hm'); [lia|].
  exists m'. split; auto. rewrite N2Nat.id in Hm'. exact Hm'.
Qed.
Lemma safe_ok : n <= da_len -> exists m, safeXORBytes m0 dst a b n = Done m /\ holds m (fun _ => true).
Proof.
  intros Hd. unfold safeXORBytes.
  destruct (for_n_inv (fun i m => holds m (below i)) n (fun i m =>
    x <- elem_get m a 1 i ;; y <- elem_get m b 1 i ;; elem_set m dst 1 i (xor_list x y)) m0) as (m & E & Hm).
  - apply holds_start. intros. unfold below. lia.
  - intros j t Hj Ht. destruct (elem_ok 1 j t _ ltac:(lia) ltac:(lia) Hd Ht) as (t' & E & Ht').
    { intros. unfold below. lia. }
    exists t'. split; auto. apply (holds_ext _ _ _ Ht'). intros. unfold with_range, below. lia.
  - exists m. split; auto. apply (holds_ext _ _ _ Hm). intros. unfold below. lia.
Qed.
Lemma fast_ok w : 0 < w -> n <= da_len -> exists m, fastXORBytes w m0 dst a b n = Done m /\ holds m (fun _ => true).
Proof.
  intros Hw Hd. unfold fastXORBytes. cbn [sl_len dst]. replace (da_len <? n) with false by lia.
  pose proof (N.div_mod' n w) as Hdm. pose proof (N.mod_lt n w ltac:(lia)) as Hml.
  pose proof (N.add_sub (w * (n / w)) (n mod w)) as Hsub. rewrite <- Hdm in Hsub.
  destruct (for_n_inv (fun i m => holds m (below (w * i))) (n / w) (fun i m =>
    x <- elem_get m a w i ;; y <- elem_get m b w i ;; elem_set m dst w i (xor_list x y)) m0) as (m & E & Hm).
  - apply holds_start. intros. unfold below. lia.
  - intros j t Hj Ht.
    assert (w * j + w <= w * (n / w)) by (clear -Hj; nia).
    destruct (elem_ok w j t _ Hw ltac:(lia) Hd Ht) as (t' & E & Ht').
    { intros. unfold below. lia. }
    exists t'. split; auto. apply (holds_ext _ _ _ Ht'). intros. unfold with_range, below. lia.
  - assert (E' : (if 0 <? n / w then for_n (n / w) (fun i m =>
      x <- elem_get m a w i ;; y <- elem_get m b w i ;; elem_set m dst w i (xor_list x y)) m0 else Done m0) = Done m).
    { destruct (N.ltb_spec 0 (n / w)) as [|H0]; [exact E|]. apply N.le_0_r in H0. rewrite H0 in E.
      unfold for_n in E. change (N.to_nat 0) with O in E. cbn [for_up] in E. exact E. }
    rewrite E'. cbn [bind].
    destruct (for_up_inv (fun i m => holds m (below i)) (fun i m =>
      x <- elem_get m a 1 i ;; y <- elem_get m b 1 i ;; elem_set m dst 1 i (xor_list x y))
      (N.to_nat (n mod w)) (n - n mod w) m) as (m' & E2 & Hm2).
    + rewrite Hsub. exact Hm.
    + intros j t Hj1 Hj2 Ht. assert (j < n) by (rewrite Hsub, N2Nat.id, <- Hdm in Hj2; exact Hj2).
      destruct (elem_ok 1 j t _ ltac:(lia) ltac:(lia) Hd Ht) as (t' & E3 & Ht').
      { intros. unfold below. lia. }
      exists t'. split; auto. apply (holds_ext _ _ _ Ht'). intros. unfold with_range, below. lia.
    + exists m'. split; auto. rewrite Hsub, N2Nat.id, <- Hdm in Hm2. apply (holds_ext _ _ _ Hm2). intros. unfold below. lia.
Qed.
End Generic.
End Xor.

(** ** A destination that is too short *)
Lemma for_up_panic {S} (body : N -> S -> outcome S) k : forall i s j,
  (forall t u, body t u <> OutOfFuel) -> i <= j -> j < i + N.of_nat k -> (forall u, body j u = Panic) ->
  for_up k i body s = Panic.
Proof.
  induction k as [|k IH]; intros i s j Hf Hi Hj Hp; [lia|]. cbn [for_up].
  destruct (N.eq_dec i j) as [->|Hne]; [rewrite Hp; reflexivity|].
  pose proof (Hf i s). destruct (body i s); [|reflexivity|congruence]. cbn [bind].
  apply (IH _ _ j); auto; lia.
Qed.
Lemma load_fuel m k : forall a, load m a k <> OutOfFuel.
Proof.
  induction k as [|k IH]; intros a; cbn [load]; [discriminate|]. destruct (m a); [|discriminate].
  pose proof (IH (a + 1)). destruct (load m (a + 1) k); cbn [bind]; congruence.
Qed.
Lemma store_fuel l : forall m a, store m a l <> OutOfFuel.
Proof. induction l as [|b l IH]; intros m a; cbn [store]; [discriminate|]. destruct (m a); [apply IH|discriminate]. Qed.
Lemma safe_short m dst a b n : sl_len dst < n -> safeXORBytes m dst a b n = Panic.
Proof.
  intros H. unfold safeXORBytes, for_n. apply (for_up_panic _ _ _ _ (sl_len dst)); try lia.
  - intros t u. unfold elem_get, elem_set.
    destruct (t <? sl_len a); [|discriminate]. pose proof (load_fuel u (N.to_nat 1) (sl_ptr a + 1 * t)).
    destruct (load _ _ _); cbn [bind]; try congruence.
    destruct (t <? sl_len b); [|discriminate]. pose proof (load_fuel u (N.to_nat 1) (sl_ptr b + 1 * t)).
    destruct (load _ _ _); cbn [bind]; try congruence.
    destruct (t <? sl_len dst); [|discriminate]. apply store_fuel.
  - intros u. unfold elem_get, elem_set. rewrite N.ltb_irrefl.
    destruct (_ <? sl_len a); [|reflexivity].
    pose proof (load_fuel u (N.to_nat 1) (sl_ptr a + 1 * sl_len dst)). destruct (load _ _ _); cbn [bind]; try congruence.
    destruct (_ <? sl_len b); [|reflexivity].
    pose proof (load_fuel u (N.to_nat 1) (sl_ptr b + 1 * sl_len dst)). destruct (load _ _ _); cbn [bind]; congruence.
Qed.
