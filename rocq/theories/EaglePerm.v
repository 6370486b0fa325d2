(** The Eaglesong permutation is a bijection on states. *)
From Coq Require Import NArith ZArith Arith List Lia Bool ZifyBool ZifyNat ZifyN.
From Verif Require Import Base BaseFacts CryptoSpec CryptoProofs KeccakProofs AutoProofs EagleTables EagleModel EagleSpec EagleProofs.
Import ListNotations.
Open Scope N_scope.
Ltac Zify.zify_post_hook ::= Z.div_mod_to_equations.

Lemma word_tab n g j : j < n -> word (tab n g) j = g j.
Proof. intros J. unfold word. rewrite nth_tab by lia. rewrite N2Nat.id. reflexivity. Qed.
Lemma tab_in n k : k < n -> In k (tab n (fun k => k)).
Proof.
  intros K. rewrite <- (word_tab n (fun k => k) k K) at 1. apply nth_In. rewrite tab_length. lia.
Qed.
Lemma state_ext s t : state16 s -> state16 t -> (forall j, j < 16 -> word s j = word t j) -> s = t.
Proof.
  intros (L & _) (L' & _) H. apply (list_eq_nth _ _ 0); [lia|].
  intros i I. specialize (H (N.of_nat i) ltac:(lia)). unfold word in H. rewrite Nat2N.id in H. auto.
Qed.

(** ** The bit matrix *)
(** Sum of the words selected by a mask. *)
Definition comb (m : N) (s : list N) : N := xor_all (tab 16 (fun k => if N.testbit m k then word s k else 0)).
Definition mask (f : N -> bool) : N := fold_right (fun k a => if f k then N.setbit a k else a) 0 (tab 16 (fun k => k)).
Definition column (j : N) : N := mask (fun k => selected k j).
(** The inverse of the matrix, one mask per column. *)
Definition inverse_columns : list N :=
  [36783; 40798; 48828; 64888; 30047; 58641; 17805; 33973; 35178; 37588; 42408; 52048; 6415; 12830; 25660; 51159].
Definition unmix (s : list N) : list N := tab 16 (fun j => comb (word inverse_columns j) s).

Lemma xor_all_xor n f g : xor_all (tab n (fun k => N.lxor (f k) (g k))) = N.lxor (xor_all (tab n f)) (xor_all (tab n g)).
Proof.
  induction n as [|n IH] using N.peano_ind; [reflexivity|].
  rewrite <- N.add_1_r, !tab_succ, !xor_all_app, IH.
  rewrite !N.lxor_assoc. f_equal. rewrite <- !N.lxor_assoc. f_equal. apply N.lxor_comm.
Qed.
Lemma comb_xor a b s : comb (N.lxor a b) s = N.lxor (comb a s) (comb b s).
Proof.
  unfold comb. rewrite <- xor_all_xor. apply f_equal, tab_ext. intros k _. rewrite N.lxor_spec.
  destruct (N.testbit a k), (N.testbit b k); cbn [xorb]; rewrite ?N.lxor_nilpotent, ?N.lxor_0_r, ?N.lxor_0_l; reflexivity.
Qed.
Lemma xor_all_zero n : xor_all (tab n (fun _ => 0)) = 0.
Proof. induction n as [|n IH] using N.peano_ind; [reflexivity|]. rewrite <- N.add_1_r, tab_succ, xor_all_app, IH. reflexivity. Qed.
Lemma comb_0 s : comb 0 s = 0.
Proof. unfold comb. rewrite <- (xor_all_zero 16). f_equal. Qed.
Lemma comb_all n (c : N -> bool) (m : N -> N) s :
  comb (xor_all (tab n (fun k => if c k then m k else 0))) s = xor_all (tab n (fun k => if c k then comb (m k) s else 0)).
Proof.
  induction n as [|n IH] using N.peano_ind; [apply comb_0|].
  rewrite <- N.add_1_r, !tab_succ, !xor_all_app, comb_xor, IH. f_equal. destruct (c n); [reflexivity|apply comb_0].
Qed.
Lemma xor_all_single n j x : j < n -> xor_all (tab n (fun k => if k =? j then x else 0)) = x.
Proof.
  induction n as [|n IH] using N.peano_ind; [lia|]. intros J.
  rewrite <- N.add_1_r, tab_succ, xor_all_app.
  destruct (N.eqb_spec n j) as [->|].
  - rewrite (tab_ext j _ (fun _ => 0)), xor_all_zero; [reflexivity|].
    intros k K. destruct (N.eqb_spec k j); [lia|reflexivity].
  - rewrite N.lxor_0_r. apply IH. lia.
Qed.
Lemma comb_bit j s : j < 16 -> comb (2 ^ j) s = word s j.
Proof.
  intros J. unfold comb. rewrite <- (xor_all_single 16 j (word s j) J). apply f_equal, tab_ext. intros k _.
  rewrite N.pow2_bits_eqb, N.eqb_sym. destruct (N.eqb_spec k j); subst; reflexivity.
Qed.
Lemma selected_column k j : k < 16 -> j < 16 -> N.testbit (column j) k = selected k j.
Proof.
  intros K J.
  assert (T : forallb (fun k => forallb (fun j => Bool.eqb (N.testbit (column j) k) (selected k j)) (tab 16 (fun j => j)))
     (tab 16 (fun k => k)) = true) by (vm_compute; reflexivity).
  rewrite forallb_forall in T. specialize (T k (tab_in 16 k K)).
  rewrite forallb_forall in T. specialize (T j (tab_in 16 j J)). apply eqb_prop. auto.
Qed.
Lemma word_bit_mix s j : j < 16 -> word (bit_mix s) j = comb (column j) s.
Proof.
  intros J. unfold bit_mix. rewrite word_tab by auto. unfold comb. apply f_equal, tab_ext.
  intros k K. rewrite selected_column by auto. reflexivity.
Qed.
Lemma matrix_inverse : forallb (fun j =>
    (xor_all (tab 16 (fun k => if N.testbit (word inverse_columns j) k then column k else 0)) =? 2 ^ j)
    && (xor_all (tab 16 (fun k => if N.testbit (column j) k then word inverse_columns k else 0)) =? 2 ^ j))
  (tab 16 (fun j => j)) = true.
Proof. vm_compute. reflexivity. Qed.
Lemma matrix_inverse_at j : j < 16 ->
  xor_all (tab 16 (fun k => if N.testbit (word inverse_columns j) k then column k else 0)) = 2 ^ j /\
  xor_all (tab 16 (fun k => if N.testbit (column j) k then word inverse_columns k else 0)) = 2 ^ j.
Proof.
  intros J. pose proof matrix_inverse as T. rewrite forallb_forall in T.
  specialize (T j (tab_in 16 j J)). apply andb_prop in T as (A & B).
  apply N.eqb_eq in A, B. auto.
Qed.
Lemma state16_unmix s : state16 s -> state16 (unmix s).
Proof.
  intros (_ & W). apply state16_tab. intros j _. apply xor_all_lt. apply words_tab.
  intros k _. destruct (N.testbit (word inverse_columns j) k); [apply word_lt; auto|reflexivity].
Qed.
Lemma unmix_mix s : state16 s -> unmix (bit_mix s) = s.
Proof.
  intros S. apply state_ext; [apply state16_unmix, state16_bit_mix, S|exact S|].
  intros j J. unfold unmix. rewrite word_tab by auto.
  transitivity (comb (xor_all (tab 16 (fun k => if N.testbit (word inverse_columns j) k then column k else 0))) s).
  - rewrite comb_all. unfold comb at 1. apply f_equal, tab_ext. intros k K. rewrite word_bit_mix by auto. reflexivity.
  - rewrite (proj1 (matrix_inverse_at j J)). apply comb_bit. auto.
Qed.
Lemma mix_unmix s : state16 s -> bit_mix (unmix s) = s.
Proof.
  intros S. apply state_ext; [apply state16_bit_mix, state16_unmix, S|exact S|].
  intros j J. rewrite word_bit_mix by auto.
  transitivity (comb (xor_all (tab 16 (fun k => if N.testbit (column j) k then word inverse_columns k else 0))) s).
  - rewrite comb_all. unfold comb at 1. apply f_equal, tab_ext. intros k K.
    unfold unmix. rewrite word_tab by auto. reflexivity.
  - rewrite (proj2 (matrix_inverse_at j J)). apply comb_bit. auto.
Qed.

(** ** The circulant *)
Definition circ' (a b v : N) : N := N.lxor v (N.lxor (rolw 32 v (a mod 32)) (rolw 32 v (b mod 32))).
Lemma circ_circ' a b v : v < 2 ^ 32 -> a < 32 -> b < 32 -> circ a b v = circ' a b v.
Proof.
  intros V A B. unfold circ, circ'. rewrite !N.mod_small by auto. rewrite !rolw_rotate; auto; lia.
Qed.
Lemma rolw_mod_add v a b : v < 2 ^ 32 -> rolw 32 (rolw 32 v (a mod 32)) (b mod 32) = rolw 32 v ((a + b) mod 32).
Proof.
  intros V. pose proof (N.mod_lt a 32 ltac:(discriminate)). pose proof (N.mod_lt b 32 ltac:(discriminate)).
  pose proof (N.mod_lt (a + b) 32 ltac:(discriminate)).
  apply N.bits_inj; intro i.
  rewrite testbit_rolw_mod by (try apply rolw_lt; auto; lia).
  rewrite testbit_rolw_mod by (auto; lia). rewrite testbit_rolw_mod by (auto; lia).
  destruct (N.ltb_spec i 32); auto. cbn [andb].
  destruct (N.ltb_spec ((i + (32 - b mod 32)) mod 32) 32); [|lia]. cbn [andb]. f_equal. lia.
Qed.
Lemma circ'_lt a b v : v < 2 ^ 32 -> circ' a b v < 2 ^ 32.
Proof. intros. unfold circ'. repeat apply xor_lt32; auto; apply rolw_lt; auto. Qed.
Lemma circ'_square a b v : v < 2 ^ 32 -> circ' a b (circ' a b v) = circ' (2 * a) (2 * b) v.
Proof.
  intros V. unfold circ' at 1.
  assert (R : forall c, rolw 32 (circ' a b v) (c mod 32) =
     N.lxor (rolw 32 v (c mod 32)) (N.lxor (rolw 32 v ((a + c) mod 32)) (rolw 32 v ((b + c) mod 32)))).
  { intros c. pose proof (N.mod_lt c 32 ltac:(discriminate)). unfold circ'.
    rewrite !rolw_xor; try (repeat apply xor_lt32; auto; apply rolw_lt; auto); try lia.
    rewrite !rolw_mod_add by auto. reflexivity. }
  rewrite (R a), (R b). unfold circ'. rewrite (N.add_comm b a).
  replace (2 * a) with (a + a) by lia. replace (2 * b) with (b + b) by lia.
  apply N.bits_inj; intro i. rewrite !N.lxor_spec.
  generalize (N.testbit v i) (N.testbit (rolw 32 v (a mod 32)) i) (N.testbit (rolw 32 v (b mod 32)) i)
    (N.testbit (rolw 32 v ((a + a) mod 32)) i) (N.testbit (rolw 32 v ((b + b) mod 32)) i) (N.testbit (rolw 32 v ((a + b) mod 32)) i).
  intros [] [] [] [] [] []; reflexivity.
Qed.
Lemma circ'_pow k a b v : v < 2 ^ 32 -> N.iter (2 ^ k) (circ' a b) v = circ' (2 ^ k * a) (2 ^ k * b) v.
Proof.
  revert a b v. induction k as [|k IH] using N.peano_ind; intros a b v V.
  - change (2 ^ 0) with 1. rewrite !N.mul_1_l. reflexivity.
  - rewrite N.pow_succ_r'. replace (2 * 2 ^ k) with (2 ^ k + 2 ^ k) by lia. rewrite N.iter_add.
    rewrite (IH a b v V), (IH a b _ (circ'_lt _ _ _ V)), circ'_square by auto. f_equal; lia.
Qed.
Lemma circ'_32 a b v : v < 2 ^ 32 -> N.iter 32 (circ' a b) v = v.
Proof.
  intros V. change 32 with (2 ^ 5) at 1. rewrite circ'_pow by auto. unfold circ'.
  change (2 ^ 5) with 32. rewrite !(N.mul_comm 32), !N.mod_mul by discriminate.
  rewrite rolw_0 by auto. rewrite N.lxor_nilpotent, N.lxor_0_r. reflexivity.
Qed.
Definition uncirc (a b v : N) : N := N.iter 31 (circ' a b) v.
Lemma iter_circ'_lt n a b v : v < 2 ^ 32 -> N.iter n (circ' a b) v < 2 ^ 32.
Proof.
  intros V. induction n as [|n IH] using N.peano_ind; [exact V|]. rewrite N.iter_succ. apply circ'_lt. auto.
Qed.
Lemma uncirc_circ a b v : v < 2 ^ 32 -> uncirc a b (circ' a b v) = v.
Proof.
  intros V. unfold uncirc. rewrite <- (circ'_32 a b v) at 2 by auto. change 32 with (31 + 1). rewrite N.iter_add. reflexivity.
Qed.
Lemma circ_uncirc a b v : v < 2 ^ 32 -> circ' a b (uncirc a b v) = v.
Proof. intros V. unfold uncirc. rewrite <- N.iter_succ. apply circ'_32. auto. Qed.
Definition uncirculant (s : list N) : list N :=
  tab 16 (fun j => uncirc (word coefficients (3 * j + 1)) (word coefficients (3 * j + 2)) (word s j)).
Lemma state16_uncirculant s : state16 s -> state16 (uncirculant s).
Proof. intros (_ & W). apply state16_tab. intros j J. apply iter_circ'_lt, word_lt, W. Qed.
Lemma coef_lt j c : j < 16 -> c < 3 -> word coefficients (3 * j + c) < 32.
Proof. intros. apply (table_lt coefficients 32 (3 * j + c) coefficients_small). rewrite coefficients_len. lia. Qed.
Lemma uncirculant_circulant s : state16 s -> uncirculant (circulant s) = s.
Proof.
  intros S. apply state_ext; [apply state16_uncirculant, state16_circulant, S|exact S|].
  intros j J. unfold uncirculant, circulant. rewrite !word_tab by auto.
  pose proof (word_lt s j (proj2 S)).
  rewrite circ_circ'; [apply uncirc_circ; auto|auto|apply coef_lt; auto; lia|apply coef_lt; auto; lia].
Qed.
Lemma circulant_uncirculant s : state16 s -> circulant (uncirculant s) = s.
Proof.
  intros S. pose proof (state16_uncirculant s S) as U. apply state_ext; [apply state16_circulant, U|exact S|].
  intros j J. unfold circulant. rewrite word_tab by auto.
  rewrite circ_circ'; [|apply word_lt, U|apply coef_lt; auto; lia|apply coef_lt; auto; lia].
  unfold uncirculant. rewrite word_tab by auto. apply circ_uncirc, word_lt, S.
Qed.

(** ** Injection *)
Lemma inject_inject i s : state16 s -> inject i (inject i s) = s.
Proof.
  intros S. unfold inject. symmetry. apply (list_eq_tab _ _ 0); [destruct S; unfold lenN; lia|].
  intros k K. rewrite word_tab by auto. rewrite N.lxor_assoc, N.lxor_nilpotent, N.lxor_0_r. reflexivity.
Qed.

(** ** Addition and rotation *)
Definition unarx_pair (x y : N) : N * N :=
  let y' := rotate 32 ((y + 2 ^ 32 - x) mod 2 ^ 32) 8 in ((rotate 32 x 24 + 2 ^ 32 - y') mod 2 ^ 32, y').
Lemma rot_8_24 v : v < 2 ^ 32 -> rotate 32 (rotate 32 v 8) 24 = v.
Proof.
  intros V. rewrite <- rolw_rotate by (try apply rotate_lt; auto; lia). rewrite <- rolw_rotate by (auto; lia).
  apply (rolw_inv 32 v 8 V). lia.
Qed.
Lemma rot_24_8 v : v < 2 ^ 32 -> rotate 32 (rotate 32 v 24) 8 = v.
Proof.
  intros V. rewrite <- rolw_rotate by (try apply rotate_lt; auto; lia). rewrite <- rolw_rotate by (auto; lia).
  apply (rolw_inv 32 v 24 V). lia.
Qed.
Lemma unarx_arx x y : x < 2 ^ 32 -> y < 2 ^ 32 ->
  unarx_pair (fst (arx_pair x y)) (snd (arx_pair x y)) = (x, y).
Proof.
  intros X Y. unfold unarx_pair, arx_pair. cbn [fst snd].
  assert (S : (x + y) mod 2 ^ 32 < 2 ^ 32) by (apply N.mod_lt; discriminate).
  pose proof (rotate_lt 32 _ 8 S ltac:(lia)) as R. pose proof (rotate_lt 32 y 24 Y ltac:(lia)) as R'.
  rewrite rot_8_24 by auto.
  set (x' := rotate 32 ((x + y) mod 2 ^ 32) 8) in *.
  replace (((x' + rotate 32 y 24) mod 2 ^ 32 + 2 ^ 32 - x') mod 2 ^ 32) with (rotate 32 y 24)
    by (change (2 ^ 32) with 4294967296 in *; lia).
  rewrite rot_24_8 by auto. f_equal. change (2 ^ 32) with 4294967296 in *. lia.
Qed.
Lemma unarx_lt x y : x < 2 ^ 32 -> fst (unarx_pair x y) < 2 ^ 32 /\ snd (unarx_pair x y) < 2 ^ 32.
Proof.
  intros X. unfold unarx_pair. cbn [fst snd]. split; [apply N.mod_lt; discriminate|].
  apply rotate_lt; [apply N.mod_lt; discriminate|lia].
Qed.
Lemma arx_unarx x y : x < 2 ^ 32 -> y < 2 ^ 32 ->
  arx_pair (fst (unarx_pair x y)) (snd (unarx_pair x y)) = (x, y).
Proof.
  intros X Y. unfold unarx_pair, arx_pair. cbn [fst snd].
  assert (S : (y + 2 ^ 32 - x) mod 2 ^ 32 < 2 ^ 32) by (apply N.mod_lt; discriminate).
  pose proof (rotate_lt 32 _ 8 S ltac:(lia)) as R. pose proof (rotate_lt 32 x 24 X ltac:(lia)) as R'.
  rewrite rot_8_24 by auto.
  set (y' := rotate 32 ((y + 2 ^ 32 - x) mod 2 ^ 32) 8) in *.
  replace (((rotate 32 x 24 + 2 ^ 32 - y') mod 2 ^ 32 + y') mod 2 ^ 32) with (rotate 32 x 24)
    by (change (2 ^ 32) with 4294967296 in *; lia).
  rewrite rot_24_8 by auto. f_equal. change (2 ^ 32) with 4294967296 in *. lia.
Qed.
Fixpoint unarx (s : list N) : list N :=
  match s with
  | x :: y :: t => let (x', y') := unarx_pair x y in x' :: y' :: unarx t
  | _ => s
  end.
Lemma pairs_ind (P : list N -> Prop) : P [] -> (forall x, P [x]) -> (forall x y t, P t -> P (x :: y :: t)) -> forall l, P l.
Proof.
  intros A B C l. enough (P l /\ forall x, P (x :: l)) by tauto.
  induction l as [|y l (I1 & I2)]; [split; auto|]. split; [apply I2|]. intros x. apply C, I1.
Qed.
Lemma unarx_arx_all s : words 32 s -> unarx (arx s) = s.
Proof.
  induction s as [|x|x y t IH] using pairs_ind; intros W; [reflexivity|reflexivity|].
  inversion W as [|? ? X W1]; subst. inversion W1 as [|? ? Y W2]; subst. cbn [arx].
  pose proof (unarx_arx x y X Y) as E. destruct (arx_pair x y) as (x', y'). cbn [fst snd] in E.
  cbn [unarx]. rewrite E, IH by auto. reflexivity.
Qed.
Lemma arx_unarx_all s : words 32 s -> arx (unarx s) = s.
Proof.
  induction s as [|x|x y t IH] using pairs_ind; intros W; [reflexivity|reflexivity|].
  inversion W as [|? ? X W1]; subst. inversion W1 as [|? ? Y W2]; subst. cbn [unarx].
  pose proof (arx_unarx x y X Y) as E. destruct (unarx_pair x y) as (x', y'). cbn [fst snd] in E.
  cbn [arx]. rewrite E, IH by auto. reflexivity.
Qed.
Lemma state16_unarx s : state16 s -> state16 (unarx s).
Proof.
  intros (L & W). split.
  - rewrite <- L. clear L W. induction s as [|x|x y t IH] using pairs_ind; [reflexivity|reflexivity|].
    cbn [unarx]. destruct (unarx_pair x y). cbn [length]. rewrite IH. reflexivity.
  - clear L. induction s as [|x|x y t IH] using pairs_ind; [exact W|exact W|].
    inversion W as [|? ? X W1]; subst. inversion W1 as [|? ? Y W2]; subst. cbn [unarx].
    pose proof (unarx_lt x y X) as (? & ?). destruct (unarx_pair x y). constructor; [auto|]. constructor; [auto|]. apply IH. auto.
Qed.

(** ** Rounds *)
Definition unround (i : N) (s : list N) : list N := unmix (uncirculant (inject i (unarx s))).
Lemma unround_round i s : state16 s -> i < 43 -> unround i (eagle_round i s) = s.
Proof.
  intros S I. unfold unround, eagle_round.
  pose proof (state16_bit_mix _ S) as A. pose proof (state16_circulant _ A) as B. pose proof (state16_inject i _ B I) as C.
  rewrite unarx_arx_all by apply C. rewrite inject_inject by auto. rewrite uncirculant_circulant by auto. apply unmix_mix. auto.
Qed.
Lemma state16_unround i s : state16 s -> i < 43 -> state16 (unround i s).
Proof.
  intros S I. unfold unround. apply state16_unmix, state16_uncirculant, state16_inject; auto. apply state16_unarx. auto.
Qed.
Lemma round_unround i s : state16 s -> i < 43 -> eagle_round i (unround i s) = s.
Proof.
  intros S I. unfold unround, eagle_round.
  pose proof (state16_unarx _ S) as A. pose proof (state16_inject i _ A I) as B. pose proof (state16_uncirculant _ B) as C.
  rewrite mix_unmix by auto. rewrite circulant_uncirculant by auto. rewrite inject_inject by auto.
  apply arx_unarx_all, S.
Qed.
Fixpoint unperm (n : nat) (s : list N) : list N :=
  match n with O => s | S m => unperm m (unround (N.of_nat m) s) end.
Lemma unperm_S n s : unperm (S n) s = unperm n (unround (N.of_nat n) s). Proof. reflexivity. Qed.
Lemma perm_S n s : eagle_perm (S n) s = eagle_round (N.of_nat n) (eagle_perm n s). Proof. reflexivity. Qed.
Opaque eagle_round unround.
Lemma unperm_perm n s : state16 s -> (n <= 43)%nat -> unperm n (eagle_perm n s) = s.
Proof.
  intros S. induction n as [|n IHn]; intros L; [reflexivity|]. rewrite unperm_S, perm_S.
  rewrite unround_round; [apply IHn; lia|apply state16_perm; auto; lia|lia].
Qed.
Lemma state16_unperm n s : state16 s -> (n <= 43)%nat -> state16 (unperm n s).
Proof. revert s. induction n as [|n IHn]; intros s S L; [exact S|]. rewrite unperm_S. apply IHn; [apply state16_unround; auto|]; lia. Qed.
Lemma perm_unperm n s : state16 s -> (n <= 43)%nat -> eagle_perm n (unperm n s) = s.
Proof.
  revert s. induction n as [|n IHn]; intros s S L; [reflexivity|]. rewrite unperm_S, perm_S.
  rewrite IHn; [apply round_unround; auto; lia|apply state16_unround; auto; lia|lia].
Qed.
Transparent eagle_round unround.
