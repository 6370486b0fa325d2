(** Proofs: KeccakF800 refines Keccak-f[800] and is a bijection. *)
From Coq Require Import NArith ZArith List Bool Lia Btauto ZifyBool ZifyNat ZifyN.
From Verif Require Import Base BaseFacts KeccakModel KeccakSpec.
Import ListNotations.
Open Scope N_scope.
Ltac Zify.zify_post_hook ::= Z.div_mod_to_equations.

Definition state25 (A : list N) : Prop := length A = 25%nat /\ words 32 A.

Lemma rolw_0 w x : x < 2 ^ w -> rolw w x 0 = x.
Proof.
  intros. apply N.bits_inj; intro i. rewrite testbit_rolw by (auto; lia).
  destruct (N.ltb_spec i w).
  - destruct (N.leb_spec 0 i); try lia. f_equal; lia.
  - symmetry; apply (testbit_high w); auto.
Qed.

Lemma testbit_rolw_mod w x s i :
  x < 2 ^ w -> s <= w ->
  N.testbit (rolw w x s) i = (i <? w) && N.testbit x ((i + (w - s)) mod w).
Proof.
  intros. rewrite testbit_rolw by auto.
  destruct (N.ltb_spec i w); auto. cbn [andb].
  destruct (N.leb_spec s i).
  - replace (i + (w - s)) with (i - s + 1 * w) by lia.
    rewrite N.mod_add, N.mod_small by lia. auto.
  - rewrite N.mod_small by lia. f_equal; lia.
Qed.

Lemma rolw_xor w x y s :
  x < 2 ^ w -> y < 2 ^ w -> s <= w ->
  rolw w (N.lxor x y) s = N.lxor (rolw w x s) (rolw w y s).
Proof.
  intros. apply N.bits_inj; intro i.
  rewrite N.lxor_spec, !testbit_rolw_mod by (auto using lxor_lt).
  rewrite N.lxor_spec. destruct (i <? w); auto.
Qed.

Lemma rolw_rolw w x a b :
  x < 2 ^ w -> a <= w -> b <= w -> a + b <= w ->
  rolw w (rolw w x a) b = rolw w x (a + b).
Proof.
  intros. apply N.bits_inj; intro i.
  rewrite !testbit_rolw_mod by (auto using rolw_lt; lia).
  destruct (N.ltb_spec i w); auto. cbn [andb].
  assert (0 < w) by lia.
  assert (T : (i + (w - b)) mod w <? w = true).
  { apply N.ltb_lt. apply N.mod_lt. lia. }
  rewrite T. cbn [andb]. f_equal.
  rewrite N.add_mod_idemp_l by lia.
  replace (i + (w - b) + (w - a)) with (i + (w - (a + b)) + 1 * w) by lia.
  apply N.mod_add; lia.
Qed.

Lemma rolw_full w x : x < 2 ^ w -> 0 < w -> rolw w x w = x.
Proof.
  intros. apply N.bits_inj; intro i. rewrite testbit_rolw by (auto; lia).
  destruct (N.ltb_spec i w).
  - destruct (N.leb_spec w i); try lia. f_equal; lia.
  - symmetry; apply (testbit_high w); auto.
Qed.

(** ** One explicit round *)

Ltac destruct25 A H :=
  repeat (destruct A as [|?a A]; [discriminate H|]); destruct A; [|discriminate H].

Definition explicit_round (rc : N) (A : list N) : list N :=
  match A with
  | [ Aba; Abe; Abi; Abo; Abu; Aga; Age; Agi; Ago; Agu; Aka; Ake; Aki; Ako; Aku; Ama; Ame; Ami; Amo; Amu; Asa; Ase; Asi; Aso; Asu ] =>
    let Ca := N.lxor (N.lxor (N.lxor (N.lxor Aba Aga) Aka) Ama) Asa in
    let Ce := N.lxor (N.lxor (N.lxor (N.lxor Abe Age) Ake) Ame) Ase in
    let Ci := N.lxor (N.lxor (N.lxor (N.lxor Abi Agi) Aki) Ami) Asi in
    let Co := N.lxor (N.lxor (N.lxor (N.lxor Abo Ago) Ako) Amo) Aso in
    let Cu := N.lxor (N.lxor (N.lxor (N.lxor Abu Agu) Aku) Amu) Asu in
    let Da := N.lxor Cu (rolw 32 Ce 1) in
    let De := N.lxor Ca (rolw 32 Ci 1) in
    let Di := N.lxor Ce (rolw 32 Co 1) in
    let Do := N.lxor Ci (rolw 32 Cu 1) in
    let Du := N.lxor Co (rolw 32 Ca 1) in
    let x (a b c : N) := N.lxor a (N.land (notw 32 b) c) in
    let row Ba Be Bi Bo Bu := [x Ba Be Bi; x Be Bi Bo; x Bi Bo Bu; x Bo Bu Ba; x Bu Ba Be] in
    let r a s := rolw 32 a s in
    match row (N.lxor Aba Da) (r (N.lxor Age De) 12) (r (N.lxor Aki Di) 11) (r (N.lxor Amo Do) 21) (r (N.lxor Asu Du) 14) with
    | [] => []
    | a :: t => N.lxor a rc :: t
    end
    ++ row (r (N.lxor Abo Do) 28) (r (N.lxor Agu Du) 20) (r (N.lxor Aka Da) 3) (r (N.lxor Ame De) 13) (r (N.lxor Asi Di) 29)
    ++ row (r (N.lxor Abe De) 1) (r (N.lxor Agi Di) 6) (r (N.lxor Ako Do) 25) (r (N.lxor Amu Du) 8) (r (N.lxor Asa Da) 18)
    ++ row (r (N.lxor Abu Du) 27) (r (N.lxor Aga Da) 4) (r (N.lxor Ake De) 10) (r (N.lxor Ami Di) 15) (r (N.lxor Aso Do) 24)
    ++ row (r (N.lxor Abi Di) 30) (r (N.lxor Ago Do) 23) (r (N.lxor Aku Du) 7) (r (N.lxor Ama Da) 9) (r (N.lxor Ase De) 2)
  | _ => A
  end.

Lemma double_round_explicit rc0 rc1 A :
  length A = 25%nat ->
  keccakf800_double_round rc0 rc1 A = Done (explicit_round rc1 (explicit_round rc0 A)).
Proof.
  intros H. destruct25 A H. reflexivity.
Qed.

Lemma words_from_lanes w f :
  (forall x y, f x y < 2 ^ w) -> words w (from_lanes f).
Proof.
  intros H. apply Forall_forall. intros v Hv. apply in_map_iff in Hv.
  destruct Hv as ((x & y) & <- & _). apply H.
Qed.

Lemma from_lanes_length f : length (from_lanes f) = 25%nat.
Proof. reflexivity. Qed.

Lemma lane_lt w A x y : words w A -> lane A x y < 2 ^ w.
Proof. apply words_nth. Qed.

Lemma col_lt w A x : words w A -> col A x < 2 ^ w.
Proof. intros. unfold col. repeat apply lxor_lt; apply lane_lt; auto. Qed.

Lemma theta_words w A : words w A -> words w (theta w A).
Proof.
  intros. apply words_from_lanes. intros.
  repeat apply lxor_lt; auto using lane_lt, col_lt, rolw_lt.
Qed.
Lemma rho_words w A : words w A -> words w (rho w A).
Proof. intros. apply words_from_lanes. auto using lane_lt, rolw_lt. Qed.
Lemma pi_words w A : words w A -> words w (pi A).
Proof. intros. apply words_from_lanes. auto using lane_lt. Qed.
Lemma chi_words w A : words w A -> words w (chi w A).
Proof.
  intros. apply words_from_lanes. intros. apply lxor_lt; auto using lane_lt.
  apply land_lt_r. auto using lane_lt.
Qed.

Lemma round_constant_lt ir : round_constant 32 ir < 2 ^ 32.
Proof.
  unfold round_constant. change (map N.of_nat (seq 0 (S (N.to_nat (N.log2 32))))) with [0;1;2;3;4;5].
  cbn [fold_left].
  repeat match goal with |- context [if ?b then _ else _] => destruct b end; vm_compute; reflexivity.
Qed.

Lemma iota_words ir A : words 32 A -> words 32 (iota 32 ir A).
Proof.
  intros H. destruct A; cbn; auto. inversion H; subst. constructor; auto.
  apply lxor_lt; auto. apply round_constant_lt.
Qed.

Lemma iota_length w ir A : length (iota w ir A) = length A.
Proof. destruct A; auto. Qed.

Lemma keccak_round_state ir A : state25 A -> state25 (keccak_round 32 ir A).
Proof.
  intros (L & W). split.
  - unfold keccak_round. rewrite iota_length. reflexivity.
  - apply iota_words, chi_words, pi_words, rho_words, theta_words; auto.
Qed.

Lemma round_explicit ir A :
  state25 A -> keccak_round 32 ir A = explicit_round (round_constant 32 ir) A.
Proof.
  intros (L & W).
  assert (T0 : rolw 32 (lane (theta 32 A) 0 0) 0 = lane (theta 32 A) 0 0).
  { apply rolw_0. apply lane_lt, theta_words; auto. }
  destruct25 A L. clear W.
  unfold keccak_round, iota. generalize (round_constant 32 ir). intros rc.
  revert T0. cbv -[N.lxor N.land notw rolw]. intros T0.
  repeat rewrite T0. reflexivity.
Qed.

Lemma explicit_round_state rc A : rc < 2 ^ 32 -> state25 A -> state25 (explicit_round rc A).
Proof.
  intros Hrc (L & W). destruct25 A L. split; [reflexivity|].
  unfold words in W.
  repeat match goal with H : Forall _ (_ :: _) |- _ => inversion H; clear H; subst end.
  unfold isw in *.
  cbn [explicit_round app].
  repeat (apply Forall_cons || apply Forall_nil); unfold isw;
    repeat first [ assumption | apply lxor_lt | apply land_lt_r | apply rolw_lt ].
Qed.

Lemma rck8_spec i : i < 22 -> nth (N.to_nat i) rck8 0 = round_constant 32 i.
Proof.
  intros H.
  assert (E : rck8 = map (fun n => round_constant 32 (N.of_nat n)) (seq 0 22))
    by (vm_compute; reflexivity).
  rewrite E. rewrite nth_indep with (d' := (fun n => round_constant 32 (N.of_nat n)) 0%nat)
    by (rewrite map_length, seq_length; lia).
  rewrite (map_nth (fun n => round_constant 32 (N.of_nat n))), seq_nth by lia. f_equal; lia.
Qed.

Lemma KeccakF800_refines st :
  state25 st -> KeccakF800 st = Done (keccak_f 32 st).
Proof.
  intros H. unfold KeccakF800.
  pose (I := fun (i : N) (A : list N) =>
     state25 A /\
     A = fold_left (fun A ir => keccak_round 32 (N.of_nat ir) A) (seq 0 (N.to_nat (2 * i))) st).
  destruct (for_n_inv I 11
    (fun i A => rc0 <- idx rck8 (2 * i) ;; rc1 <- idx rck8 (2 * i + 1) ;;
                keccakf800_double_round rc0 rc1 A) st) as (s' & E & Hs).
  - split; auto.
  - intros j t Hj (Ht & Et).
    rewrite !(idx_Done _ _ 0) by (change (lenN rck8) with 22; lia). cbn [bind].
    rewrite !rck8_spec by lia. rewrite double_round_explicit by apply Ht.
    eexists; split; [reflexivity|].
    rewrite <- !round_explicit; auto.
    2:{ rewrite <- round_explicit; auto using keccak_round_state. }
    split.
    + auto using keccak_round_state.
    + replace (N.to_nat (2 * (j + 1))) with (N.to_nat (2 * j) + 2)%nat by lia.
      rewrite seq_app, fold_left_app, <- Et. cbn [seq fold_left].
      f_equal; [lia|]. f_equal. lia.
  - rewrite E. destruct Hs as (_ & ->). reflexivity.
Qed.

(** ** Inverse *)

(** Column-parity map of theta, generalised: F p s. *)
Definition F (p s : N) (c : list N) : list N :=
  map (fun x => N.lxor (N.lxor (nth (N.to_nat (x mod 5)) c 0) (nth (N.to_nat ((x + 4 * p) mod 5)) c 0))
                       (rolw 32 (nth (N.to_nat ((x + p) mod 5)) c 0) s))
      [0; 1; 2; 3; 4].

Global Arguments F : simpl never.

Definition cols5 (c : list N) : Prop := length c = 5%nat /\ words 32 c.

Lemma F_cols p s c : cols5 c -> cols5 (F p s c).
Proof.
  intros (L & W). split; [reflexivity|].
  apply Forall_forall. intros v Hv. apply in_map_iff in Hv. destruct Hv as (x & <- & _).
  repeat apply lxor_lt; try apply rolw_lt; apply words_nth; auto.
Qed.

Lemma cons_eq {A} (a b : A) l m : a = b -> l = m -> a :: l = b :: m.
Proof. congruence. Qed.

Ltac xor_solve :=
  apply N.bits_inj; intro; rewrite ?N.lxor_spec;
  repeat match goal with |- context [N.testbit ?a ?i] => generalize (N.testbit a i); intro end;
  btauto.

Ltac cols_split c H W :=
  destruct H as (H & W);
  repeat (destruct c as [|?c c]; [discriminate H|]); destruct c; [|discriminate H];
  repeat match goal with K : words _ (_ :: _) |- _ => inversion K; clear K; subst
                       | K : Forall _ (_ :: _) |- _ => inversion K; clear K; subst end;
  unfold isw in *.

Lemma F_double p q s c :
  (p = 1 /\ q = 2 \/ p = 2 /\ q = 4 \/ p = 4 /\ q = 3 \/ p = 3 /\ q = 1) -> s + s <= 32 ->
  cols5 c -> F p s (F p s c) = F q (s + s) c.
Proof.
  intros Hp Hs H. cols_split c H W. remember (s + s) as t eqn:Et.
  destruct Hp as [(-> & ->)|[(-> & ->)|[(-> & ->)|(-> & ->)]]].
  all: unfold F; cbn [map].
  all: match goal with |- ?l = ?r =>
         let l' := eval cbv -[N.lxor rolw] in l in
         let r' := eval cbv -[N.lxor rolw] in r in change (l' = r') end.
  all: assert (s <= 32) by lia.
  all: rewrite ?rolw_xor by (repeat first [assumption | apply lxor_lt | apply rolw_lt | lia]).
  all: rewrite ?rolw_rolw by (first [assumption | lia]).
  all: rewrite <- Et.
  all: repeat (apply cons_eq; [xor_solve|]); reflexivity.
Qed.

Lemma F_32 c : cols5 c -> F 2 32 c = F 2 0 c.
Proof.
  intros H. cols_split c H W. unfold F; cbn [map].
  match goal with |- ?l = ?r =>
         let l' := eval cbv -[N.lxor rolw] in l in
         let r' := eval cbv -[N.lxor rolw] in r in change (l' = r') end.
  rewrite !rolw_full by (first [assumption|lia]). rewrite !rolw_0 by assumption. reflexivity.
Qed.

Lemma F_cancel c : cols5 c -> F 4 0 (F 2 0 c) = c.
Proof.
  intros H. cols_split c H W. unfold F; cbn [map].
  match goal with |- ?l = ?r =>
         let l' := eval cbv -[N.lxor rolw] in l in change (l' = r) end.
  rewrite ?rolw_0 by (repeat first [assumption | apply lxor_lt | apply rolw_lt ]).
  repeat (apply cons_eq; [xor_solve|]); reflexivity.
Qed.

Fixpoint iterF (n : nat) (c : list N) : list N :=
  match n with O => c | S m => F 1 1 (iterF m c) end.

Lemma iterF_cols n c : cols5 c -> cols5 (iterF n c).
Proof. intros; induction n; cbn; auto using F_cols. Qed.

Lemma iterF_add n m c : iterF (n + m) c = iterF n (iterF m c).
Proof. induction n; cbn; congruence. Qed.

Lemma iterF_double n p q s :
  (p = 1 /\ q = 2 \/ p = 2 /\ q = 4 \/ p = 4 /\ q = 3 \/ p = 3 /\ q = 1) -> s + s <= 32 ->
  (forall c, cols5 c -> iterF n c = F p s c) ->
  forall c, cols5 c -> iterF (n + n) c = F q (s + s) c.
Proof.
  intros Hp Hs H c Hc. rewrite iterF_add, !H; auto using F_cols, iterF_cols.
  apply F_double; auto.
Qed.

Lemma iterF_96 c : cols5 c -> iterF 96 c = c.
Proof.
  intros Hc.
  assert (H1 : forall c, cols5 c -> iterF 1 c = F 1 1 c) by reflexivity.
  assert (H2 := iterF_double 1 1 2 1 ltac:(lia) ltac:(lia) H1).
  assert (H4 := iterF_double 2 2 4 2 ltac:(lia) ltac:(lia) H2).
  assert (H8 := iterF_double 4 4 3 4 ltac:(lia) ltac:(lia) H4).
  assert (H16 := iterF_double 8 3 1 8 ltac:(lia) ltac:(lia) H8).
  assert (H32 := iterF_double 16 1 2 16 ltac:(lia) ltac:(lia) H16).
  assert (H32' : forall c, cols5 c -> iterF 32 c = F 2 0 c).
  { intros d Hd. change (iterF (16 + 16) d = F 2 0 d). rewrite (H32 d Hd). apply F_32; auto. }
  assert (H64 := iterF_double 32 2 4 0 ltac:(lia) ltac:(lia) H32').
  change 96%nat with ((32 + 32) + 32)%nat. rewrite (iterF_add (32 + 32) 32).
  rewrite H32' by auto. rewrite H64 by auto using F_cols.
  apply F_cancel; auto.
Qed.

Definition columns (A : list N) : list N := map (col A) [0; 1; 2; 3; 4].

(** Adding the theta effect computed from given column parities. *)
Definition add_effect (c : list N) (A : list N) : list N :=
  from_lanes (fun x y =>
    N.lxor (lane A x y)
      (N.lxor (nth (N.to_nat ((x + 4) mod 5)) c 0) (rolw 32 (nth (N.to_nat ((x + 1) mod 5)) c 0) 1))).

Definition theta_inv (A : list N) : list N := add_effect (iterF 95 (columns A)) A.

Lemma columns_cols A : words 32 A -> cols5 (columns A).
Proof.
  intros. split; auto. apply Forall_forall. intros v Hv. apply in_map_iff in Hv.
  destruct Hv as (x & <- & _). apply col_lt; auto.
Qed.

Lemma theta_add_effect A : theta 32 A = add_effect (columns A) A.
Proof. reflexivity. Qed.

Lemma add_effect_words c A : words 32 c -> words 32 A -> words 32 (add_effect c A).
Proof.
  intros. apply words_from_lanes. intros.
  repeat apply lxor_lt; try apply rolw_lt; try apply words_nth; auto.
Qed.

Lemma columns_add_effect c A :
  length A = 25%nat -> length c = 5%nat ->
  columns (add_effect c A) =
  map (fun p => N.lxor (fst p) (snd p))
    (combine (columns A) (map (fun x => N.lxor (nth (N.to_nat ((x + 4) mod 5)) c 0)
                               (rolw 32 (nth (N.to_nat ((x + 1) mod 5)) c 0) 1)) [0;1;2;3;4])).
Proof.
  intros L Lc. destruct25 A L.
  repeat (destruct c as [|?c c]; [discriminate Lc|]); destruct c; [|discriminate Lc].
  match goal with |- ?l = ?r =>
         let l' := eval cbv -[N.lxor rolw] in l in
         let r' := eval cbv -[N.lxor rolw] in r in change (l' = r') end.
  repeat (apply cons_eq; [xor_solve|]); reflexivity.
Qed.

Lemma columns_add_effect_self A :
  length A = 25%nat -> columns (add_effect (columns A) A) = F 1 1 (columns A).
Proof.
  intros L. rewrite columns_add_effect by auto.
  destruct25 A L.
  match goal with |- ?l = ?r =>
         let l' := eval cbv -[N.lxor rolw] in l in
         let r' := eval cbv -[N.lxor rolw] in r in change (l' = r') end.
  repeat (apply cons_eq; [xor_solve|]); reflexivity.
Qed.

Lemma add_effect_twice c A :
  length A = 25%nat -> length c = 5%nat -> add_effect c (add_effect c A) = A.
Proof.
  intros L Lc. destruct25 A L.
  repeat (destruct c as [|?c c]; [discriminate Lc|]); destruct c; [|discriminate Lc].
  match goal with |- ?l = ?r =>
         let l' := eval cbv -[N.lxor rolw] in l in change (l' = r) end.
  rewrite !lxor_cancel_r. reflexivity.
Qed.

Lemma theta_inv_theta A : state25 A -> theta_inv (theta 32 A) = A.
Proof.
  intros (L & W). rewrite theta_add_effect. unfold theta_inv.
  rewrite columns_add_effect_self by auto.
  change (F 1 1 (columns A)) with (iterF 1 (columns A)).
  rewrite <- iterF_add. change (95 + 1)%nat with 96%nat. rewrite (iterF_96 (columns A)) by (apply columns_cols; auto).
  apply add_effect_twice; auto.
Qed.

Lemma theta_theta_inv A : state25 A -> theta 32 (theta_inv A) = A.
Proof.
  intros (L & W). rewrite theta_add_effect. unfold theta_inv.
  assert (E : columns (add_effect (iterF 95 (columns A)) A) = iterF 95 (columns A)).
  { remember (iterF 95 (columns A)) as c eqn:Ec.
    assert (Hc : cols5 c) by (subst c; apply iterF_cols, columns_cols; auto).
    assert (E : F 1 1 c = columns A) by (subst c; apply (iterF_96 (columns A)), columns_cols; auto).
    rewrite columns_add_effect by (auto; apply Hc). rewrite <- E.
    clear E Ec. cols_split c Hc Wc.
    match goal with |- ?l = ?r =>
         let l' := eval cbv -[N.lxor rolw] in l in change (l' = r) end.
    repeat (apply cons_eq; [xor_solve|]); reflexivity. }
  rewrite E. apply add_effect_twice; auto.
Qed.

(** rho and pi *)
Definition rho_inv (A : list N) : list N :=
  from_lanes (fun x y => rolw 32 (lane A x y) (32 - rho_offset x y mod 32)).

Lemma lane_from_lanes f x y :
  x < 5 -> y < 5 -> lane (from_lanes f) x y = f x y.
Proof.
  intros Hx Hy.
  assert (Cx : x = 0 \/ x = 1 \/ x = 2 \/ x = 3 \/ x = 4) by lia.
  assert (Cy : y = 0 \/ y = 1 \/ y = 2 \/ y = 3 \/ y = 4) by lia.
  destruct Cx as [->|[->|[->|[->| ->]]]]; destruct Cy as [->|[->|[->|[->| ->]]]]; reflexivity.
Qed.

Lemma from_lanes_ext f g :
  (forall x y, x < 5 -> y < 5 -> f x y = g x y) -> from_lanes f = from_lanes g.
Proof.
  intros H. unfold from_lanes, coords. cbn [flat_map map app fst snd].
  rewrite !H by lia. reflexivity.
Qed.

Lemma from_lanes_lane A : length A = 25%nat -> from_lanes (lane A) = A.
Proof. intros L. destruct25 A L. reflexivity. Qed.

Lemma rho_inv_rho A : state25 A -> rho_inv (rho 32 A) = A.
Proof.
  intros (L & W). rewrite <- (from_lanes_lane A L) at 2.
  apply from_lanes_ext. intros x y Hx Hy. unfold rho. rewrite lane_from_lanes by auto.
  apply rolw_inv. apply lane_lt; auto. pose proof (N.mod_lt (rho_offset x y) 32). lia.
Qed.
Lemma rho_rho_inv A : state25 A -> rho 32 (rho_inv A) = A.
Proof.
  intros (L & W). rewrite <- (from_lanes_lane A L) at 2.
  apply from_lanes_ext. intros x y Hx Hy. unfold rho_inv. rewrite lane_from_lanes by auto.
  apply rolw_inv'. apply lane_lt; auto. pose proof (N.mod_lt (rho_offset x y) 32). lia.
Qed.

Definition pi_inv (A : list N) : list N := from_lanes (fun x y => lane A y (2 * x + 3 * y)).

Lemma pi_inv_pi A : length A = 25%nat -> pi_inv (pi A) = A.
Proof. intros L. destruct25 A L. reflexivity. Qed.
Lemma pi_pi_inv A : length A = 25%nat -> pi (pi_inv A) = A.
Proof. intros L. destruct25 A L. reflexivity. Qed.

(** chi *)
Definition chi_inv (A : list N) : list N :=
  from_lanes (fun x y =>
    N.lxor (lane A x y)
      (N.land (notw 32 (lane A (x + 1) y))
         (N.lxor (lane A (x + 2) y) (N.land (notw 32 (lane A (x + 3) y)) (lane A (x + 4) y))))).

Lemma testbit_notw w a i : N.testbit (notw w a) i = xorb (N.testbit a i) (i <? w).
Proof. unfold notw. rewrite N.lxor_spec, testbit_ones. auto. Qed.

Ltac bit_solve H :=
  apply N.bits_inj; let i := fresh "i" in intro i;
  rewrite ?N.lxor_spec, ?N.land_spec, ?testbit_notw, ?N.lxor_spec, ?N.land_spec,
    ?testbit_notw, ?N.lxor_spec, ?N.land_spec, ?testbit_notw, ?N.lxor_spec, ?N.land_spec,
    ?testbit_notw, ?N.lxor_spec, ?N.land_spec;
  destruct (N.ltb_spec i 32);
  [ repeat match goal with |- context [N.testbit ?a ?i] => generalize (N.testbit a i); intro end;
    btauto
  | rewrite ?(testbit_high 32) by (assumption); reflexivity ].

Lemma mod5 x : (x mod 5) < 5.
Proof. apply N.mod_lt; lia. Qed.

Lemma lane_mod A x y : lane A (x mod 5) (y mod 5) = lane A x y.
Proof. unfold lane. rewrite !N.mod_mod by lia. auto. Qed.

Lemma lane_from_lanes' f x y :
  lane (from_lanes f) x y = f (x mod 5) (y mod 5).
Proof. rewrite <- lane_mod. apply lane_from_lanes; apply mod5. Qed.

Lemma lane_eq A x y x' y' :
  x mod 5 = x' mod 5 -> y mod 5 = y' mod 5 -> lane A x y = lane A x' y'.
Proof. unfold lane. intros -> ->. auto. Qed.

Lemma chi_inv_chi A : state25 A -> chi_inv (chi 32 A) = A.
Proof.
  intros (L & W). rewrite <- (from_lanes_lane A L) at 2.
  apply from_lanes_ext. intros x y Hx Hy. unfold chi. rewrite !lane_from_lanes'.
  set (l := fun k => lane A (x + k) y).
  assert (G : forall k j, lane A ((x + k) mod 5 + j) (y mod 5) = lane A (x + k + j) y).
  { intros. apply lane_eq; lia. }
  assert (G0 : forall j, lane A (x mod 5 + j) (y mod 5) = lane A (x + j) y).
  { intros. apply lane_eq; lia. }
  assert (G1 : forall k, lane A ((x + k) mod 5) (y mod 5) = lane A (x + k) y).
  { intros. apply lane_eq; lia. }
  rewrite lane_mod, !G, !G0, !G1.
  rewrite <- !N.add_assoc.
  replace (lane A (x + (3 + 2)) y) with (lane A x y) by (apply lane_eq; lia).
  replace (lane A (x + (4 + 1)) y) with (lane A x y) by (apply lane_eq; lia).
  replace (lane A (x + (4 + 2)) y) with (lane A (x + 1) y) by (apply lane_eq; lia).
  change (1 + 1) with 2. change (1 + 2) with 3. change (2 + 1) with 3. change (2 + 2) with 4.
  change (3 + 1) with 4.
  clear G G0 G1 l.
  assert (B0 := lane_lt 32 A x y W). assert (B1 := lane_lt 32 A (x + 1) y W).
  assert (B2 := lane_lt 32 A (x + 2) y W). assert (B3 := lane_lt 32 A (x + 3) y W).
  assert (B4 := lane_lt 32 A (x + 4) y W).
  remember (lane A x y) as a0. remember (lane A (x + 1) y) as a1.
  remember (lane A (x + 2) y) as a2. remember (lane A (x + 3) y) as a3.
  remember (lane A (x + 4) y) as a4. clear - B0 B1 B2 B3 B4.
  bit_solve tt.
Qed.

Lemma chi_chi_inv A : state25 A -> chi 32 (chi_inv A) = A.
Proof.
  intros (L & W). rewrite <- (from_lanes_lane A L) at 2.
  apply from_lanes_ext. intros x y Hx Hy. unfold chi_inv. rewrite !lane_from_lanes'.
  assert (G : forall k j, lane A ((x + k) mod 5 + j) (y mod 5) = lane A (x + k + j) y).
  { intros. apply lane_eq; lia. }
  assert (G0 : forall j, lane A (x mod 5 + j) (y mod 5) = lane A (x + j) y).
  { intros. apply lane_eq; lia. }
  assert (G1 : forall k, lane A ((x + k) mod 5) (y mod 5) = lane A (x + k) y).
  { intros. apply lane_eq; lia. }
  rewrite lane_mod, !G, !G0, !G1.
  rewrite <- !N.add_assoc.
  replace (lane A (x + (1 + 4)) y) with (lane A x y) by (apply lane_eq; lia).
  replace (lane A (x + (2 + 3)) y) with (lane A x y) by (apply lane_eq; lia).
  replace (lane A (x + (2 + 4)) y) with (lane A (x + 1) y) by (apply lane_eq; lia).
  change (1 + 1) with 2. change (1 + 2) with 3. change (2 + 1) with 3. change (2 + 2) with 4.
  change (1 + 3) with 4.
  clear G G0 G1.
  assert (B0 := lane_lt 32 A x y W). assert (B1 := lane_lt 32 A (x + 1) y W).
  assert (B2 := lane_lt 32 A (x + 2) y W). assert (B3 := lane_lt 32 A (x + 3) y W).
  assert (B4 := lane_lt 32 A (x + 4) y W).
  remember (lane A x y) as a0. remember (lane A (x + 1) y) as a1.
  remember (lane A (x + 2) y) as a2. remember (lane A (x + 3) y) as a3.
  remember (lane A (x + 4) y) as a4. clear - B0 B1 B2 B3 B4.
  bit_solve tt.
Qed.

Lemma iota_iota ir A : iota 32 ir (iota 32 ir A) = A.
Proof. destruct A; cbn; auto. rewrite lxor_cancel_r. auto. Qed.

Definition round_inv (ir : N) (A : list N) : list N :=
  theta_inv (rho_inv (pi_inv (chi_inv (iota 32 ir A)))).

Lemma iota_state ir A : state25 A -> state25 (iota 32 ir A).
Proof. intros (L & W). split. rewrite iota_length; auto. apply iota_words; auto. Qed.
Lemma theta_state A : state25 A -> state25 (theta 32 A).
Proof. intros (L & W). split; auto using theta_words. Qed.
Lemma rho_state A : state25 A -> state25 (rho 32 A).
Proof. intros (L & W). split; auto using rho_words. Qed.
Lemma pi_state A : state25 A -> state25 (pi A).
Proof. intros (L & W). split; auto using pi_words. Qed.
Lemma chi_state A : state25 A -> state25 (chi 32 A).
Proof. intros (L & W). split; auto using chi_words. Qed.
Lemma theta_inv_state A : state25 A -> state25 (theta_inv A).
Proof.
  intros (L & W). split; auto. apply add_effect_words; auto.
  apply iterF_cols, columns_cols; auto.
Qed.
Lemma rho_inv_state A : state25 A -> state25 (rho_inv A).
Proof. intros (L & W). split; auto. apply words_from_lanes. auto using lane_lt, rolw_lt. Qed.
Lemma pi_inv_state A : state25 A -> state25 (pi_inv A).
Proof. intros (L & W). split; auto. apply words_from_lanes. auto using lane_lt. Qed.
Lemma chi_inv_state A : state25 A -> state25 (chi_inv A).
Proof.
  intros (L & W). split; auto. apply words_from_lanes. intros.
  apply lxor_lt; auto using lane_lt. apply land_lt_r. apply lxor_lt; auto using lane_lt.
  apply land_lt_r. auto using lane_lt.
Qed.

Lemma round_inv_state ir A : state25 A -> state25 (round_inv ir A).
Proof.
  intros. unfold round_inv.
  auto 10 using theta_inv_state, rho_inv_state, pi_inv_state, chi_inv_state, iota_state.
Qed.

Lemma round_inv_round ir A : state25 A -> round_inv ir (keccak_round 32 ir A) = A.
Proof.
  intros H. unfold round_inv, keccak_round. rewrite iota_iota.
  rewrite chi_inv_chi by auto using pi_state, rho_state, theta_state.
  rewrite pi_inv_pi by reflexivity.
  rewrite rho_inv_rho by auto using theta_state.
  apply theta_inv_theta; auto.
Qed.

Lemma round_round_inv ir A : state25 A -> keccak_round 32 ir (round_inv ir A) = A.
Proof.
  intros H. unfold round_inv, keccak_round.
  rewrite theta_theta_inv by auto 10 using rho_inv_state, pi_inv_state, chi_inv_state, iota_state.
  rewrite rho_rho_inv by auto using pi_inv_state, chi_inv_state, iota_state.
  rewrite pi_pi_inv by reflexivity.
  rewrite chi_chi_inv by auto using iota_state.
  apply iota_iota.
Qed.

Definition rounds (l : list nat) (A : list N) : list N :=
  fold_left (fun A ir => keccak_round 32 (N.of_nat ir) A) l A.
Definition rounds_inv (l : list nat) (A : list N) : list N :=
  fold_right (fun ir A => round_inv (N.of_nat ir) A) A l.

Lemma rounds_cons n l A : rounds (n :: l) A = rounds l (keccak_round 32 (N.of_nat n) A).
Proof. reflexivity. Qed.
Lemma rounds_inv_cons n l A : rounds_inv (n :: l) A = round_inv (N.of_nat n) (rounds_inv l A).
Proof. reflexivity. Qed.
Lemma keccak_f_rounds A : keccak_f 32 A = rounds (seq 0 22) A.
Proof. reflexivity. Qed.

Lemma rounds_state l : forall A, state25 A -> state25 (rounds l A).
Proof.
  induction l; intros; auto. rewrite rounds_cons. apply IHl, keccak_round_state; auto.
Qed.
Lemma rounds_inv_state l : forall A, state25 A -> state25 (rounds_inv l A).
Proof.
  induction l; intros; auto. rewrite rounds_inv_cons. apply round_inv_state; auto.
Qed.
Lemma rounds_inv_rounds l : forall A, state25 A -> rounds_inv l (rounds l A) = A.
Proof.
  induction l; intros; auto. rewrite rounds_cons, rounds_inv_cons, IHl.
  apply round_inv_round; auto. apply keccak_round_state; auto.
Qed.
Lemma rounds_rounds_inv l : forall A, state25 A -> rounds l (rounds_inv l A) = A.
Proof.
  induction l; intros; auto. rewrite rounds_cons, rounds_inv_cons.
  rewrite round_round_inv. apply IHl; auto. apply rounds_inv_state; auto.
Qed.

Definition keccak_f800_inv (A : list N) : list N := rounds_inv (seq 0 22) A.

Lemma keccak_f_state A : state25 A -> state25 (keccak_f 32 A).
Proof. intros. rewrite keccak_f_rounds. apply rounds_state; auto. Qed.

Lemma KeccakF800_bijective :
  (forall st, state25 st -> exists t, state25 t /\ KeccakF800 st = Done t /\ keccak_f800_inv t = st) /\
  (forall t, state25 t -> state25 (keccak_f800_inv t) /\ KeccakF800 (keccak_f800_inv t) = Done t).
Proof.
  split.
  - intros st H. exists (keccak_f 32 st). split; [|split].
    + apply keccak_f_state; auto.
    + apply KeccakF800_refines; auto.
    + rewrite keccak_f_rounds. unfold keccak_f800_inv. apply rounds_inv_rounds; auto.
  - intros t H. assert (S : state25 (keccak_f800_inv t)) by (apply rounds_inv_state; auto).
    split; auto. rewrite KeccakF800_refines by auto. f_equal.
    rewrite keccak_f_rounds. unfold keccak_f800_inv. apply rounds_rounds_inv; auto.
Qed.

Lemma KeccakF800_unique_preimage :
  (forall st, length st = 25%nat -> words 32 st ->
     exists t, KeccakF800 st = Done t /\ length t = 25%nat /\ words 32 t) /\
  (forall t, length t = 25%nat -> words 32 t ->
     exists! st, (length st = 25%nat /\ words 32 st) /\ KeccakF800 st = Done t).
Proof.
  destruct KeccakF800_bijective as (H1 & H2). split.
  - intros st L W. destruct (H1 st (conj L W)) as (t & (Lt & Wt) & E & _). eauto.
  - intros t L W. exists (keccak_f800_inv t). destruct (H2 t (conj L W)) as (S & E). split.
    + split; auto.
    + intros st (S' & E'). destruct (H1 st S') as (t' & _ & E'' & <-).
      rewrite E' in E''. injection E'' as <-. auto.
Qed.
