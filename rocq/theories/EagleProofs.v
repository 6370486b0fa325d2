(** Eaglesong refines its specification; its permutation is a bijection. *)
From Coq Require Import NArith ZArith Arith List Lia Bool ZifyBool ZifyNat ZifyN.
From Verif Require Import Base BaseFacts CryptoSpec CryptoProofs KeccakProofs AutoProofs EagleTables EagleModel EagleSpec.
Import ListNotations.
Open Scope N_scope.
Ltac Zify.zify_post_hook ::= Z.div_mod_to_equations.

Definition state16 (s : list N) : Prop := length s = 16%nat /\ words 32 s.
Lemma word_lt s j : words 32 s -> word s j < 2 ^ 32.
Proof.
  intros W. unfold word. destruct (nth_in_or_default (N.to_nat j) s 0) as [I|E]; [|rewrite E; reflexivity].
  unfold words in W. rewrite Forall_forall in W. apply W. auto.
Qed.
Lemma idx_word s j : state16 s -> j < 16 -> idx s j = Done (word s j).
Proof. intros (L & _) J. apply idx_Done. unfold lenN. lia. Qed.
Lemma state16_tab g : (forall i, i < 16 -> g i < 2 ^ 32) -> state16 (tab 16 g).
Proof. intros H. split; [apply tab_length|apply words_tab; auto]. Qed.

(** ** Tables *)
Lemma bitMatrix_len : lenN bitMatrix = 256. Proof. reflexivity. Qed.
Lemma coefficients_len : lenN coefficients = 48. Proof. reflexivity. Qed.
Lemma injection_len : lenN injectionConstants = 688. Proof. vm_compute. reflexivity. Qed.
Lemma bitMatrix_bits : forallb (fun x => x <? 2) bitMatrix = true. Proof. vm_compute. reflexivity. Qed.
Lemma coefficients_small : forallb (fun x => x <? 32) coefficients = true. Proof. vm_compute. reflexivity. Qed.
Lemma injection_words : forallb (fun x => x <? 4294967296) injectionConstants = true. Proof. vm_compute. reflexivity. Qed.
Lemma table_lt l b j : forallb (fun x => x <? b) l = true -> j < lenN l -> word l j < b.
Proof.
  intros F J. rewrite forallb_forall in F. unfold word.
  assert (In (nth (N.to_nat j) l 0) l) as I by (apply nth_In; unfold lenN in J; lia).
  specialize (F _ I). lia.
Qed.

(** ** Words *)
Lemma xor_rol v c : v < 2 ^ 32 -> c <= 32 -> N.lxor (shlw 32 v c) (N.shiftr v (32 - c)) = rotate 32 v c.
Proof.
  intros V C. rewrite <- rolw_rotate by auto. unfold rolw. apply N.lxor_lor.
  apply N.bits_inj; intro i. rewrite N.land_spec, testbit_shlw, N.shiftr_spec', N.bits_0.
  destruct (N.ltb_spec i 32); auto. destruct (N.leb_spec c i); auto. cbn [andb].
  rewrite (testbit_high 32 v (i + (32 - c))); auto; lia.
Qed.
Lemma xor_lt32 a b : a < 2 ^ 32 -> b < 2 ^ 32 -> N.lxor a b < 2 ^ 32.
Proof. apply lxor_lt. Qed.
Lemma xor_all_lt l : words 32 l -> xor_all l < 2 ^ 32.
Proof. intros W. induction W; cbn [xor_all fold_right]; [reflexivity|]. apply xor_lt32; auto. Qed.
Lemma xor_all_app l x : xor_all (l ++ [x]) = N.lxor (xor_all l) x.
Proof.
  unfold xor_all. induction l; cbn [app fold_right]; [rewrite N.lxor_0_r, N.lxor_0_l; auto|].
  rewrite IHl, N.lxor_assoc. auto.
Qed.

Lemma set_nth_twice {A} (l : list A) n a b : set_nth (set_nth l n a) n b = set_nth l n b.
Proof. revert n; induction l; intros [|n]; cbn; auto. f_equal. auto. Qed.
Lemma set_nth_same {A} (l : list A) n d : set_nth l n (nth n l d) = l.
Proof. revert n; induction l; intros [|n]; cbn; auto. f_equal. auto. Qed.

(** ** Stages *)
Lemma bitStage_spec s : state16 s -> bitStage s = Done (bit_mix s).
Proof.
  intros S. unfold bitStage, bit_mix. set (g := fun j => xor_all _).
  apply (for_fill _ _ g _ 0); [reflexivity|].
  intros j t J LT _ HI. assert (T0 : nth (N.to_nat j) t 0 = 0).
  { rewrite HI by lia. unfold zeros. destruct (nth_in_or_default (N.to_nat j) (repeat 0 (N.to_nat 16)) 0) as [I|E]; auto.
    apply repeat_spec in I. auto. }
  loop_inv (fun k (x : list N) => x = set_nth t (N.to_nat j)
     (xor_all (tab k (fun k => if selected k j then word s k else 0)))) as x E X.
  - change (xor_all (tab 0 (fun k => if selected k j then word s k else 0))) with 0.
    rewrite <- T0. symmetry. apply set_nth_same.
  - intros k x K ->.
    rewrite (idx_Done _ _ 0) by (unfold lenN in *; rewrite set_nth_length; lia). cbn [bind].
    rewrite nth_set_nth, Nat.eqb_refl by (unfold lenN in *; lia).
    rewrite (idx_Done bitMatrix _ 0) by (rewrite bitMatrix_len; lia). cbn [bind].
    rewrite idx_word by auto. cbn [bind].
    rewrite upd_Done by (unfold lenN in *; rewrite set_nth_length; lia).
    eexists; split; [reflexivity|].
    rewrite tab_succ, xor_all_app.
    assert (B : mulw 32 (nth (N.to_nat (k * 16 + j)) bitMatrix 0) (word s k) = if selected k j then word s k else 0).
    { unfold selected. replace (16 * k + j) with (k * 16 + j) by lia.
      pose proof (table_lt bitMatrix 2 (k * 16 + j) bitMatrix_bits ltac:(rewrite bitMatrix_len; lia)) as Q.
      change (nth (N.to_nat (k * 16 + j)) bitMatrix 0) with (word bitMatrix (k * 16 + j)).
      pose proof (word_lt s k (proj2 S)).
      destruct (N.eqb_spec (word bitMatrix (k * 16 + j)) 1) as [->|].
      - unfold mulw. rewrite N.mul_1_l. apply trunc_small. auto.
      - assert (word bitMatrix (k * 16 + j) = 0) as -> by lia. reflexivity. }
    rewrite B. rewrite set_nth_twice. reflexivity.
  - rewrite X. rewrite upd_Done by (unfold lenN in *; lia). reflexivity.
Qed.

Lemma state16_bit_mix s : state16 s -> state16 (bit_mix s).
Proof.
  intros (_ & W). apply state16_tab. intros j _. apply xor_all_lt. apply words_tab.
  intros k _. destruct (selected k j); [apply word_lt; auto|reflexivity].
Qed.
Lemma copyStage_spec t s : state16 t -> state16 s -> copyStage t s = Done t.
Proof.
  intros T (L & _). unfold copyStage. rewrite (for_fill _ _ (word t) _ 0).
  - f_equal. symmetry. apply (list_eq_tab _ _ 0); [unfold lenN; destruct T; lia|]. intros; reflexivity.
  - unfold lenN. lia.
  - intros j x J _ _ _. rewrite idx_word by auto. reflexivity.
Qed.
Lemma coef_le j c : j < 16 -> c < 3 -> word coefficients (3 * j + c) <= 32.
Proof.
  intros. pose proof (table_lt coefficients 32 (3 * j + c) coefficients_small ltac:(rewrite coefficients_len; lia)). lia.
Qed.
Lemma circStage_spec s : state16 s -> circStage s = Done (circulant s).
Proof.
  intros S. unfold circStage, circulant. apply (for_fill _ _ _ _ 0); [destruct S; unfold lenN; lia|].
  intros j t J LT _ HI.
  rewrite (idx_Done t _ 0) by lia. cbn [bind]. rewrite HI by lia.
  rewrite (idx_Done coefficients _ 0) by (rewrite coefficients_len; lia). cbn [bind].
  rewrite (idx_Done coefficients _ 0) by (rewrite coefficients_len; lia). cbn [bind].
  f_equal. unfold circ.
  pose proof (coef_le j 1 J ltac:(lia)). pose proof (coef_le j 2 J ltac:(lia)).
  pose proof (word_lt s j (proj2 S)).
  fold (word s j). fold (word coefficients (3 * j + 1)). fold (word coefficients (3 * j + 2)).
  rewrite <- !xor_rol by auto. rewrite !N.lxor_assoc. reflexivity.
Qed.
Lemma rotate_lt32 v c : v < 2 ^ 32 -> c <= 32 -> rotate 32 v c < 2 ^ 32.
Proof. intros. rewrite <- rolw_rotate by auto. apply rolw_lt. auto. Qed.
Lemma circ_lt a b v : v < 2 ^ 32 -> a <= 32 -> b <= 32 -> circ a b v < 2 ^ 32.
Proof. intros. unfold circ. repeat apply xor_lt32; auto; apply rotate_lt32; auto. Qed.
Lemma state16_circulant s : state16 s -> state16 (circulant s).
Proof.
  intros (_ & W). apply state16_tab. intros j J.
  apply circ_lt; [apply word_lt; auto|apply coef_le; auto; lia|apply coef_le; auto; lia].
Qed.
Lemma injectStage_spec i s : state16 s -> i < 43 -> injectStage i s = Done (inject i s).
Proof.
  intros S I. unfold injectStage, inject. apply (for_fill _ _ _ _ 0); [destruct S; unfold lenN; lia|].
  intros j t J LT _ HI.
  rewrite (idx_Done t _ 0) by lia. cbn [bind]. rewrite HI by lia.
  rewrite (idx_Done injectionConstants _ 0) by (rewrite injection_len; lia). cbn [bind].
  replace (i * 16 + j) with (16 * i + j) by lia. reflexivity.
Qed.
Lemma state16_inject i s : state16 s -> i < 43 -> state16 (inject i s).
Proof.
  intros (_ & W) I. apply state16_tab. intros j J. apply xor_lt32; [apply word_lt; auto|].
  apply (table_lt _ _ _ injection_words). rewrite injection_len. lia.
Qed.
Lemma state16_inv s : state16 s -> exists a b c d e f g h i j k l m n o p,
  s = [a;b;c;d;e;f;g;h;i;j;k;l;m;n;o;p] /\ Forall (fun x => x < 2 ^ 32) s.
Proof.
  intros (L & W). do 16 (destruct s as [|? s]; [discriminate|]). destruct s; [|discriminate].
  repeat eexists. exact W.
Qed.
Definition arx_code (x y : N) : N * N :=
  let a := addw 32 x y in let a := N.lxor (shlw 32 a 8) (N.shiftr a 24) in
  (a, addw 32 a (N.lxor (shlw 32 y 24) (N.shiftr y 8))).
Lemma arx_code_spec x y : x < 2 ^ 32 -> y < 2 ^ 32 -> arx_code x y = arx_pair x y.
Proof.
  intros X Y. unfold arx_code, arx_pair. cbv zeta.
  change (N.shiftr (addw 32 x y) 24) with (N.shiftr (addw 32 x y) (32 - 8)).
  change (N.shiftr y 8) with (N.shiftr y (32 - 24)).
  rewrite !xor_rol; [|auto|lia|apply trunc_lt|lia].
  unfold addw. rewrite !trunc_mod. reflexivity.
Qed.
Fixpoint arxc (s : list N) : list N :=
  match s with
  | x :: y :: t => let (x', y') := arx_code x y in x' :: y' :: arxc t
  | _ => s
  end.
Lemma arxStage_spec s : state16 s -> arxStage s = Done (arx s).
Proof.
  intros S. transitivity (Done (arxc s)).
  - destruct (state16_inv s S) as (a & b & c & d & e & f & g & h & i & j & k & l & m & n & o & p & -> & _). reflexivity.
  - f_equal. destruct (state16_inv s S) as (a & b & c & d & e & f & g & h & i & j & k & l & m & n & o & p & -> & F).
    repeat match goal with H : Forall _ (_ :: _) |- _ => inversion H; clear H; subst end.
    cbn [arxc arx]. rewrite !arx_code_spec by auto. reflexivity.
Qed.
Lemma arx_pair_lt x y : fst (arx_pair x y) < 2 ^ 32 /\ snd (arx_pair x y) < 2 ^ 32.
Proof.
  unfold arx_pair. cbn [fst snd]. split; [|apply N.mod_lt; discriminate].
  apply rotate_lt32; [apply N.mod_lt; discriminate|lia].
Qed.
Lemma state16_arx s : state16 s -> state16 (arx s).
Proof.
  intros S. destruct (state16_inv s S) as (a & b & c & d & e & f & g & h & i & j & k & l & m & n & o & p & -> & F).
  cbn [arx]. split; [reflexivity|].
  repeat match goal with |- context [arx_pair ?x ?y] =>
    pose proof (arx_pair_lt x y) as (? & ?); destruct (arx_pair x y); cbn [fst snd] in * end.
  repeat constructor; assumption.
Qed.
Lemma state16_round i s : state16 s -> i < 43 -> state16 (eagle_round i s).
Proof.
  intros S I. unfold eagle_round.
  apply state16_arx, state16_inject, I. apply state16_circulant, state16_bit_mix, S.
Qed.
Lemma state16_perm n s : state16 s -> (n <= 43)%nat -> state16 (eagle_perm n s).
Proof. intros S. induction n; intros; [exact S|]. cbn [eagle_perm]. apply state16_round; [apply IHn|]; lia. Qed.
Lemma permute_spec rounds s : state16 s -> rounds <= 43 -> permute rounds s = Done (eagle_perm (N.to_nat rounds) s).
Proof.
  intros S R. unfold permute.
  loop_inv (fun i x => x = eagle_perm (N.to_nat i) s) as x E X.
  - reflexivity.
  - intros i x I ->. pose proof (state16_perm (N.to_nat i) s S ltac:(lia)) as P.
    pose proof (state16_bit_mix _ P) as B. pose proof (state16_circulant _ B) as C.
    pose proof (state16_inject i _ C ltac:(lia)) as J.
    rewrite bitStage_spec by auto. cbn [bind]. rewrite copyStage_spec by auto. cbn [bind].
    rewrite circStage_spec by auto. cbn [bind]. rewrite injectStage_spec by (auto; lia). cbn [bind].
    rewrite arxStage_spec by auto. eexists; split; [reflexivity|].
    replace (N.to_nat (i + 1)) with (Datatypes.S (N.to_nat i)) by lia. cbn [eagle_perm]. rewrite N2Nat.id. reflexivity.
  - subst; reflexivity.
Qed.

(** ** Absorbing *)
Lemma be_value_snoc l x : be_value (l ++ [x]) = 256 * be_value l + x.
Proof. unfold be_value. rewrite rev_app_distr. cbn [rev app le_value]. lia. Qed.
Lemma land_low x b : b < 256 -> N.land (x * 2 ^ 8) b = 0.
Proof.
  intros B. apply N.bits_inj; intro i. rewrite N.land_spec, N.bits_0.
  destruct (N.ltb_spec i 8).
  - rewrite N.mul_pow2_bits_low by auto. reflexivity.
  - rewrite (testbit_high 8 b i) by auto. apply andb_false_r.
Qed.
Lemma push_byte x b : x < 2 ^ 24 -> b < 256 -> N.lxor (shlw 32 x 8) b = 256 * x + b.
Proof.
  intros X B. unfold shlw. rewrite N.shiftl_mul_pow2. rewrite trunc_small by (change (2 ^ 8) with 256; lia).
  rewrite N.lxor_lor.
  - rewrite lor_disjoint.
    + change (2 ^ 8) with 256. lia.
    + apply land_low; auto.
  - apply land_low; auto.
Qed.
Lemma Forall_firstn_w {A} (P : A -> Prop) n l : Forall P l -> Forall P (firstn n l).
Proof. intros H. revert n; induction H; intros [|n]; cbn; constructor; auto. Qed.
Lemma Forall_skipn_w {A} (P : A -> Prop) n l : Forall P l -> Forall P (skipn n l).
Proof. intros H. revert n; induction H; intros [|n]; cbn; auto. Qed.
Lemma nth_error_skipn_w {A} (l : list A) n k : nth_error (skipn n l) k = nth_error l (n + k).
Proof. revert l; induction n; intros [|a l]; cbn; auto. destruct k; auto. Qed.
Lemma absorbWord_spec r delim input i j : bytes input -> delim < 256 ->
  absorbWord (32 * r) delim input i j = Done (eagle_word delim input (r * i + j)).
Proof.
  intros B D. unfold absorbWord, eagle_word.
  set (m := input ++ [delim]). set (T := skipn (N.to_nat (4 * (r * i + j))) m).
  assert (BM : bytes m) by (apply Forall_app; split; auto; constructor; auto).
  assert (BT : bytes T) by (apply Forall_skipn_w; auto).
  loop_inv (fun k x => x = be_value (firstn (N.to_nat k) T)) as x E X.
  - reflexivity.
  - intros k x K ->.
    assert (F : be_value (firstn (N.to_nat k) T) < 2 ^ 24).
    { pose proof (be_value_lt (firstn (N.to_nat k) T) (Forall_firstn_w _ _ _ BT)) as Q.
      eapply N.lt_le_trans; [exact Q|]. change (2 ^ 24) with (256 ^ 3). apply N.pow_le_mono_r; [discriminate|].
      unfold lenN. rewrite firstn_length. lia. }
    assert (PE : i * (32 * r) / 8 + j * 4 + k = 4 * (r * i + j) + k).
    { replace (i * (32 * r)) with (4 * r * i * 8) by lia. rewrite N.div_mul by discriminate. lia. }
    rewrite PE. cbv zeta. set (p := 4 * (r * i + j) + k) in *.
    assert (NT : nth_error T (N.to_nat k) = nth_error m (N.to_nat p)).
    { unfold T. rewrite nth_error_skipn_w. f_equal. lia. }
    replace (N.to_nat (k + 1)) with (Datatypes.S (N.to_nat k)) by lia.
    destruct (N.ltb_spec p (lenN input)) as [P|P]; [|destruct (N.eqb_spec p (lenN input)) as [P'|P']].
    + rewrite (idx_Done _ _ 0) by auto. cbn [bind].
      eexists; split; [reflexivity|].
      rewrite (firstn_succ_snoc T (N.to_nat k) (nth (N.to_nat p) input 0)).
      * rewrite be_value_snoc. apply push_byte; auto.
        apply (proj1 (Forall_forall _ _) B). apply nth_In. unfold lenN in P. lia.
      * rewrite NT. unfold m. rewrite nth_error_app1 by (unfold lenN in P; lia).
        apply nth_error_nth'. unfold lenN in P. lia.
    + eexists; split; [reflexivity|].
      rewrite (firstn_succ_snoc T (N.to_nat k) delim).
      * rewrite be_value_snoc. apply push_byte; auto.
      * rewrite NT. unfold m. rewrite nth_error_app2 by (unfold lenN in P; lia).
        replace (N.to_nat p - length input)%nat with 0%nat by (unfold lenN in P'; lia). reflexivity.
    + eexists; split; [reflexivity|].
      assert (length T <= N.to_nat k)%nat.
      { unfold T, m. rewrite skipn_length, app_length. cbn [length]. unfold lenN in *. lia. }
      rewrite !firstn_all2 by lia. reflexivity.
  - rewrite X. reflexivity.
Qed.
Lemma eagle_word_lt delim input w : bytes input -> delim < 256 -> eagle_word delim input w < 2 ^ 32.
Proof.
  intros B D. unfold eagle_word. eapply N.lt_le_trans; [apply be_value_lt|].
  - apply Forall_firstn_w, Forall_skipn_w, Forall_app. split; auto.
  - change (2 ^ 32) with (256 ^ 4). apply N.pow_le_mono_r; [discriminate|]. unfold lenN. rewrite firstn_length. lia.
Qed.
Lemma state16_zero : state16 (repeat 0 16).
Proof. split; [reflexivity|]. repeat constructor. Qed.
Lemma state16_absorb rounds r W n : (rounds <= 43)%nat -> r <= 16 -> (forall w, W w < 2 ^ 32) ->
  state16 (absorb rounds r W n).
Proof.
  intros R L HW. induction n; [apply state16_zero|]. cbn [absorb]. unfold absorb_block.
  apply state16_perm; [|lia]. apply state16_tab. intros j J.
  destruct (N.ltb_spec j r); [apply xor_lt32; [|apply HW]|]; apply word_lt; apply IHn.
Qed.
Lemma absorb_block_spec r s (body : N -> list N -> outcome (list N)) W : state16 s -> r <= 16 ->
  (forall j t, j < r -> lenN t = 16 -> body j t = (x <- idx t j ;; upd t j (N.lxor x (W j)))) ->
  for_n r body s = Done (tab 16 (fun j => if j <? r then N.lxor (word s j) (W j) else word s j)).
Proof.
  intros S R HB.
  loop_inv (fun i x => x = tab 16 (fun j => if j <? i then N.lxor (word s j) (W j) else word s j)) as x E X.
  - apply (list_eq_tab _ _ 0); [destruct S; unfold lenN; lia|]. intros k K. destruct (N.ltb_spec k 0); [lia|]. reflexivity.
  - intros j x J ->. rewrite HB by (auto; apply lenN_tab). rewrite idx_tab by lia. cbn [bind].
    destruct (N.ltb_spec j j); [lia|]. rewrite upd_Done by (rewrite lenN_tab; lia).
    eexists; split; [reflexivity|]. apply (list_eq_tab _ _ 0).
    + unfold lenN. rewrite set_nth_length, tab_length. reflexivity.
    + intros k K. rewrite nth_set_nth by (rewrite tab_length; lia). rewrite nth_tab by lia. rewrite N2Nat.id.
      destruct (Nat.eqb_spec (N.to_nat j) (N.to_nat k)) as [Q|Q]; destruct (N.ltb_spec k (j + 1)); destruct (N.ltb_spec k j);
        try lia; auto. replace k with j by lia. reflexivity.
  - subst. reflexivity.
Qed.

(** ** Squeezing *)
Lemma upd_end P m v k : k = lenN P -> 0 < m -> upd (P ++ zeros m) k v = Done ((P ++ [v]) ++ zeros (m - 1)).
Proof.
  intros -> M. rewrite upd_Done.
  - f_equal. unfold zeros. replace (N.to_nat m) with (Datatypes.S (N.to_nat (m - 1))) by lia. cbn [repeat].
    unfold lenN. rewrite Nat2N.id, set_nth_app, <- app_assoc. reflexivity.
  - rewrite lenN_app. unfold zeros, lenN. rewrite repeat_length. lia.
Qed.
Lemma le_bytes_4 v : le_bytes 4 v = map (fun k => N.land (N.shiftr v (8 * k)) 255) [0; 1; 2; 3].
Proof.
  cbn [le_bytes map]. rewrite !N.shiftr_shiftr. change 255 with (N.ones 8). rewrite !N.land_ones, !trunc_mod.
  rewrite N.shiftr_0_r. reflexivity.
Qed.
Lemma squeeze_word v s j base P m (off : N -> N) : idx s j = Done v -> 4 <= m -> lenN P = base -> (forall k, off k = base + k) ->
  for_n 4 (fun k output => x <- idx s j ;; upd output (off k) (N.land (N.shiftr x (8 * k)) 255)) (P ++ zeros m)
  = Done ((P ++ le_bytes 4 v) ++ zeros (m - 4)).
Proof.
  intros E M B HO. rewrite le_bytes_4.
  loop_inv (fun k x => x = (P ++ map (fun k => N.land (N.shiftr v (8 * k)) 255) (firstn (N.to_nat k) [0; 1; 2; 3])) ++ zeros (m - k)) as x EX X.
  - cbn [N.to_nat firstn map]. rewrite app_nil_r, N.sub_0_r. reflexivity.
  - intros k x K ->. rewrite E, HO. cbn [bind].
    rewrite upd_end; [|rewrite lenN_app, B; f_equal; unfold lenN; rewrite map_length, firstn_length; cbn [length]; lia|lia].
    eexists; split; [reflexivity|]. replace (m - k - 1) with (m - (k + 1)) by lia.
    f_equal. rewrite <- app_assoc. f_equal.
    assert (k = 0 \/ k = 1 \/ k = 2 \/ k = 3) as [->|[->|[->| ->]]] by lia; reflexivity.
  - rewrite X. reflexivity.
Qed.
Lemma flat_map_length_4 l : length (flat_map (le_bytes 4) l) = (4 * length l)%nat.
Proof. induction l; cbn [flat_map length]; auto. rewrite app_length, le_bytes_length, IHl. lia. Qed.
Lemma squeeze_block r s i P m : state16 s -> r <= 16 -> lenN P = 4 * r * i -> 4 * r <= m ->
  for_n (32 * r / 32) (fun j output =>
    for_n 4 (fun k output => x <- idx s j ;;
       upd output (i * (32 * r) / 8 + j * 4 + k) (N.land (N.shiftr x (8 * k)) 255)) output) (P ++ zeros m)
  = Done ((P ++ flat_map (le_bytes 4) (firstn (N.to_nat r) s)) ++ zeros (m - 4 * r)).
Proof.
  intros S R L M. replace (32 * r / 32) with r by (rewrite N.mul_comm, N.div_mul by discriminate; auto).
  loop_inv (fun j x => x = (P ++ flat_map (le_bytes 4) (firstn (N.to_nat j) s)) ++ zeros (m - 4 * j)) as x EX X.
  - cbn [N.to_nat firstn flat_map]. rewrite app_nil_r, N.mul_0_r, N.sub_0_r. reflexivity.
  - intros j x J ->. assert (LF : (j <= lenN s)) by (destruct S; unfold lenN; lia).
    rewrite (squeeze_word (word s j) s j (4 * r * i + 4 * j)).
    + eexists; split; [reflexivity|]. replace (N.to_nat (j + 1)) with (Datatypes.S (N.to_nat j)) by lia.
      rewrite (firstn_succ_snoc s (N.to_nat j) (word s j)).
      * rewrite flat_map_app. cbn [flat_map]. rewrite app_nil_r, <- !app_assoc. do 4 f_equal. lia.
      * apply nth_error_nth'. destruct S. lia.
    + apply idx_word; auto. lia.
    + lia.
    + rewrite lenN_app, L. f_equal. unfold lenN. rewrite flat_map_length_4, firstn_length. unfold lenN in LF. lia.
    + intros k. replace (i * (32 * r)) with (4 * r * i * 8) by lia. rewrite N.div_mul by discriminate. lia.
  - subst. reflexivity.
Qed.
Lemma state16_squeezed rounds s i : state16 s -> (rounds <= 43)%nat -> state16 (squeezed rounds s i).
Proof. intros S R. induction i; cbn [squeezed]; auto. apply state16_perm; auto. Qed.
Lemma out_block_length rounds r s i : state16 s -> (rounds <= 43)%nat -> r <= 16 ->
  length (out_block rounds r s i) = N.to_nat (4 * r).
Proof.
  intros S R L. unfold out_block. rewrite flat_map_length_4, firstn_length.
  destruct (state16_squeezed rounds s i S R). lia.
Qed.
Lemma concat_out_length rounds r s n : state16 s -> (rounds <= 43)%nat -> r <= 16 ->
  length (concat (map (out_block rounds r s) (seq 0 n))) = (N.to_nat (4 * r) * n)%nat.
Proof.
  intros S R L. induction n; [cbn; lia|]. rewrite seq_S, map_app, concat_app, app_length, IHn. cbn [map concat].
  rewrite app_nil_r, out_block_length by auto. lia.
Qed.

Theorem eaglesong_spec rounds capacity r delim input : bytes input -> delim < 256 -> rounds <= 43 -> 1 <= r <= 16 ->
  eaglesong rounds capacity (32 * r) delim input = Done (eagle_spec rounds capacity r delim input).
Proof.
  intros B D R HR. unfold eaglesong, eagle_spec.
  unfold divc at 1. destruct (N.eqb_spec (32 * r) 0) as [?|NZ0]; [lia|]. cbn [bind].
  assert (BL : ((lenN input + 1) * 8 + 32 * r - 1) / (32 * r) = eagle_blocks r (lenN input)).
  { unfold eagle_blocks.
    replace ((lenN input + 1) * 8 + 32 * r - 1) with (7 + 8 * (lenN input + 1 + 4 * r - 1)) by lia.
    replace (32 * r) with (8 * (4 * r)) by lia. rewrite <- N.div_div by lia. f_equal.
    rewrite (N.mul_comm 8), N.div_add by discriminate. reflexivity. }
  rewrite BL.
  assert (HW : forall w, eagle_word delim input w < 2 ^ 32) by (intros; apply eagle_word_lt; auto).
  set (W := eagle_word delim input) in *. set (nb := eagle_blocks r (lenN input)).
  assert (A : for_n nb (fun i state =>
      state <- for_n (32 * r / 32) (fun j state =>
          integer <- absorbWord (32 * r) delim input i j ;; s <- idx state j ;; upd state j (N.lxor s integer)) state ;;
      permute rounds state) (zeros 16) = Done (absorb (N.to_nat rounds) r W (N.to_nat nb))).
  { loop_inv (fun i x => x = absorb (N.to_nat rounds) r W (N.to_nat i)) as x E X.
    - reflexivity.
    - intros i x I ->. pose proof (state16_absorb (N.to_nat rounds) r W (N.to_nat i) ltac:(lia) ltac:(lia) HW) as S.
      replace (32 * r / 32) with r by (rewrite N.mul_comm, N.div_mul by discriminate; auto).
      rewrite (absorb_block_spec r _ _ (fun j => W (r * i + j))); [|auto|lia|].
      + cbn [bind]. rewrite permute_spec; auto.
        * eexists; split; [reflexivity|]. replace (N.to_nat (i + 1)) with (Datatypes.S (N.to_nat i)) by lia.
          cbn [absorb]. rewrite N2Nat.id. reflexivity.
        * apply state16_tab. intros j J.
          destruct (N.ltb_spec j r); [apply xor_lt32; [|apply HW]|]; apply word_lt; apply S.
      + intros j t J LT. rewrite absorbWord_spec by auto. reflexivity.
    - rewrite X. reflexivity. }
  rewrite A. cbn [bind].
  pose proof (state16_absorb (N.to_nat rounds) r W (N.to_nat nb) ltac:(lia) ltac:(lia) HW) as S.
  set (s := absorb _ _ _ _) in *. clearbody s.
  replace (32 * r / 8) with (4 * r) by (replace (32 * r) with (4 * r * 8) by lia; rewrite N.div_mul by discriminate; auto).
  unfold divc. destruct (N.eqb_spec (4 * r) 0) as [?|NZ1]; [lia|]. cbn [bind].
  set (n := capacity / (4 * r)).
  assert (NC : 4 * r * n <= capacity) by (unfold n; apply N.mul_div_le; lia). clearbody n.
  assert (Q : for_n n (fun i '(output, state) =>
      output <- for_n (32 * r / 32) (fun j output =>
          for_n 4 (fun k output => x <- idx state j ;;
            upd output (i * (32 * r) / 8 + j * 4 + k) (N.land (N.shiftr x (8 * k)) 255)) output) output ;;
      state <- permute rounds state ;;
      Done (output, state)) (zeros capacity, s)
    = Done (concat (map (out_block (N.to_nat rounds) r s) (seq 0 (N.to_nat n))) ++ zeros (capacity - 4 * r * n),
            squeezed (N.to_nat rounds) s (N.to_nat n))).
  { loop_inv (fun i (x : list N * list N) =>
       x = (concat (map (out_block (N.to_nat rounds) r s) (seq 0 (N.to_nat i))) ++ zeros (capacity - 4 * r * i),
            squeezed (N.to_nat rounds) s (N.to_nat i))) as x E X.
    - cbn [N.to_nat seq map concat app squeezed]. rewrite N.mul_0_r, N.sub_0_r. reflexivity.
    - intros i x I ->. cbn beta iota.
      pose proof (state16_squeezed (N.to_nat rounds) s (N.to_nat i) S ltac:(lia)) as SS.
      rewrite squeeze_block; [|auto|lia| |].
      + cbn [bind]. rewrite permute_spec by auto. cbn [bind]. eexists; split; [reflexivity|].
        replace (N.to_nat (i + 1)) with (Datatypes.S (N.to_nat i)) by lia.
        rewrite seq_S, map_app, concat_app. cbn [map concat squeezed]. rewrite app_nil_r. unfold out_block at 3.
        f_equal. f_equal. f_equal. lia.
      + unfold lenN. rewrite concat_out_length by (auto; lia). lia.
      + nia.
    - rewrite X. reflexivity. }
  rewrite Q. reflexivity.
Qed.
