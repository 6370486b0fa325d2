(** Proofs about the crypto primitives. *)
From Coq Require Import NArith ZArith List Bool Lia Btauto ZifyBool ZifyNat ZifyN.
From Verif Require Import Base BaseFacts CryptoModel CryptoSpec.
Import ListNotations.
Open Scope N_scope.
Ltac Zify.zify_post_hook ::= Z.div_mod_to_equations.

(** ** Rotation *)

Lemma lor_disjoint a b : N.land a b = 0 -> N.lor a b = a + b.
Proof. intros H. rewrite N.add_nocarry_lxor, N.lxor_lor; auto. Qed.

Lemma rolw_rotate w x s : x < 2 ^ w -> s <= w -> rolw w x s = rotate w x s.
Proof.
  intros Hx Hs. unfold rolw, rotate. rewrite lor_disjoint.
  - unfold shlw. rewrite trunc_mod, N.shiftl_mul_pow2, N.shiftr_div_pow2. auto.
  - apply N.bits_inj; intro i. rewrite N.land_spec, testbit_shlw, N.shiftr_spec', N.bits_0.
    destruct (N.ltb_spec i w); auto. destruct (N.leb_spec s i); auto. cbn [andb].
    rewrite (testbit_high w x (i + (w - s))); auto; lia.
Qed.

Lemma rotate_lt w x s : x < 2 ^ w -> s <= w -> rotate w x s < 2 ^ w.
Proof. intros. rewrite <- rolw_rotate by auto. apply rolw_lt; auto. Qed.

(** ** convutil *)

Definition enc32 (o : order) (v : N) : list N :=
  match o with LittleEndian => le_bytes 4 v | BigEndian => be_bytes 4 v end.
Definition dec32 (o : order) (b : list N) : N :=
  match o with LittleEndian => le_value b | BigEndian => be_value b end.

Lemma enc32_length o v : length (enc32 o v) = 4%nat.
Proof. destruct o; cbn [enc32]; [apply le_bytes_length|apply be_bytes_length]. Qed.
Lemma enc32_bytes o v : bytes (enc32 o v).
Proof. destruct o; cbn [enc32]; [apply le_bytes_bytes|apply be_bytes_bytes]. Qed.
Lemma dec_enc32 o v : v < 2 ^ 32 -> dec32 o (enc32 o v) = v.
Proof.
  intros. destruct o; cbn [enc32 dec32]; rewrite ?le_bytes_value, ?be_bytes_value;
    apply N.mod_small; exact H.
Qed.
Lemma enc_dec32 o b : length b = 4%nat -> bytes b -> enc32 o (dec32 o b) = b.
Proof.
  intros L B. destruct o; cbn [enc32 dec32]; rewrite <- L.
  - apply le_value_bytes; auto.
  - apply be_value_bytes; auto.
Qed.
Lemma dec32_lt o b : length b = 4%nat -> bytes b -> dec32 o b < 2 ^ 32.
Proof.
  intros L B. assert (E : lenN b = 4) by (unfold lenN; lia).
  destruct o; cbn [dec32]; [pose proof (le_value_lt b B)|pose proof (be_value_lt b B)];
    rewrite E in H; exact H.
Qed.

Lemma concat_map_length {A} (f : A -> list N) l k :
  (forall x, length (f x) = k) -> length (concat (map f l)) = (k * length l)%nat.
Proof. intros H; induction l; cbn [map concat length]; rewrite ?app_length, ?H; lia. Qed.

Lemma overwrite_at {A} (l m n p : list A) :
  length m = length p -> overwrite (l ++ m ++ n) (length l) p = l ++ p ++ n.
Proof.
  intros H. unfold overwrite.
  rewrite firstn_app, firstn_all, Nat.sub_diag, firstn_O, app_nil_r. f_equal.
  rewrite !app_length.
  rewrite (firstn_all2 p) by lia. f_equal.
  rewrite skipn_app, (skipn_all2 l) by lia. cbn [app].
  replace (length l + length p - length l)%nat with (length m) by lia.
  rewrite skipn_app, skipn_all, Nat.sub_diag. auto.
Qed.

Lemma firstn_succ_snoc {A} (l : list A) j x :
  nth_error l j = Some x -> firstn (S j) l = firstn j l ++ [x].
Proof.
  revert l; induction j; destruct l; cbn; intros; try discriminate.
  - injection H as ->. auto.
  - f_equal. apply IHj; auto.
Qed.

Lemma Uint32ArrayToBytes_spec arr o :
  Uint32ArrayToBytes arr o = Done (concat (map (enc32 o) arr)).
Proof.
  unfold Uint32ArrayToBytes.
  destruct (for_n_inv (fun i buf =>
     exists rest, length rest = (4 * (length arr - N.to_nat i))%nat /\
     buf = concat (map (enc32 o) (firstn (N.to_nat i) arr)) ++ rest) (lenN arr)
    (fun i buf => v <- idx arr i ;; tail <- slice_from buf (i * 4) ;;
       tail' <- put_uint32 o tail v ;; copy_at buf (i * 4) tail') (zeros (lenN arr * 4)))
    as (s & E & rest & HL & Hs).
  - exists (zeros (lenN arr * 4)). split; auto. rewrite zeros_length. unfold lenN. lia.
  - intros j t Hj (rest & HL & ->). unfold lenN in Hj.
    assert (Hn : (N.to_nat j < length arr)%nat) by lia.
    rewrite (idx_Done _ _ 0) by (unfold lenN; lia). cbn [bind].
    set (pre := concat (map (enc32 o) (firstn (N.to_nat j) arr))).
    assert (Lp : length pre = (4 * N.to_nat j)%nat).
    { unfold pre. rewrite (concat_map_length _ _ 4) by apply enc32_length.
      rewrite firstn_length_le; lia. }
    unfold slice_from. rewrite slice_Done by (rewrite ?lenN_app; unfold lenN; lia).
    cbn [bind].
    replace (N.to_nat (j * 4)) with (length pre) by lia.
    rewrite skipn_app, skipn_all, Nat.sub_diag. cbn [skipn app].
    rewrite firstn_all2 by (rewrite lenN_app; unfold lenN; lia).
    unfold put_uint32. replace (4 <=? lenN rest) with true
      by (symmetry; apply N.leb_le; unfold lenN; lia).
    change (match o with LittleEndian => le_bytes 4 (nth (N.to_nat j) arr 0)
                    | BigEndian => be_bytes 4 (nth (N.to_nat j) arr 0) end)
      with (enc32 o (nth (N.to_nat j) arr 0)).
    set (v := nth (N.to_nat j) arr 0).
    unfold copy_at at 1. replace (0 <=? lenN rest) with true by (symmetry; apply N.leb_le; lia). cbn [bind].
    pose proof (firstn_skipn 4 rest) as Hr.
    assert (L4 : length (firstn 4 rest) = 4%nat) by (rewrite firstn_length_le; lia).
    assert (O1 : overwrite rest (N.to_nat 0) (enc32 o v) = enc32 o v ++ skipn 4 rest).
    { rewrite <- Hr at 1. apply (overwrite_at [] (firstn 4 rest) (skipn 4 rest) (enc32 o v)).
      rewrite enc32_length; auto. }
    rewrite O1. unfold copy_at. replace (j * 4 <=? lenN (pre ++ rest)) with true
      by (symmetry; apply N.leb_le; rewrite lenN_app; unfold lenN; lia).
    eexists; split; [reflexivity|].
    exists (skipn 4 rest). split; [rewrite skipn_length; lia|].
    replace (N.to_nat (j * 4)) with (length pre) by lia.
    rewrite <- (app_nil_r rest) at 1.
    rewrite (overwrite_at pre rest [] (enc32 o v ++ skipn 4 rest)).
    2:{ rewrite app_length, skipn_length, enc32_length. lia. }
    rewrite app_nil_r, app_assoc. f_equal.
    replace (N.to_nat (j + 1)) with (S (N.to_nat j)) by lia.
    rewrite (firstn_succ_snoc arr (N.to_nat j) v) by (apply nth_error_nth'; auto).
    rewrite map_app, concat_app. cbn [map concat]. rewrite app_nil_r. auto.
  - rewrite E, Hs. f_equal. unfold lenN in *.
    rewrite firstn_all2 by lia. destruct rest; [apply app_nil_r|cbn in HL; lia].
Qed.

Lemma BytesToUint32Array_spec buf o :
  BytesToUint32Array buf o =
  Done (tab (lenN buf / 4) (fun i => dec32 o (firstn 4 (skipn (N.to_nat (4 * i)) buf)))).
Proof.
  unfold BytesToUint32Array. apply (for_fill _ _ _ _ 0).
  - apply lenN_zeros.
  - intros j t Hj HL _ _.
    rewrite slice_Done by lia. cbn [bind].
    replace (N.to_nat ((j + 1) * 4 - j * 4)) with 4%nat by lia.
    replace (N.to_nat (j * 4)) with (N.to_nat (4 * j)) by lia.
    set (s := firstn 4 _).
    assert (L4 : length s = 4%nat).
    { unfold s. rewrite firstn_length_le; auto. rewrite skipn_length. unfold lenN in *. lia. }
    assert (G : get_uint32 o s = Done (dec32 o s)).
    { unfold get_uint32, le_u32, be_u32.
      replace (4 <=? lenN s) with true by (symmetry; apply N.leb_le; unfold lenN; lia).
      rewrite !firstn_all2 by lia. destruct o; auto. }
    rewrite G. auto.
Qed.

Lemma chunks_concat o arr i :
  (i < length arr)%nat ->
  firstn 4 (skipn (4 * i) (concat (map (enc32 o) arr))) = enc32 o (nth i arr 0).
Proof.
  revert i; induction arr as [|v arr IH]; intros i Hi; cbn in Hi; try lia.
  cbn [map concat]. destruct i.
  - change (4 * 0)%nat with 0%nat. cbn [skipn]. rewrite firstn_app, enc32_length, firstn_all2 by (rewrite enc32_length; auto).
    cbn [Nat.sub firstn]. apply app_nil_r.
  - rewrite skipn_app, enc32_length, skipn_all2 by (rewrite enc32_length; lia).
    replace (4 * S i - 4)%nat with (4 * i)%nat by lia. cbn [app nth]. apply IH. lia.
Qed.

Lemma words_roundtrip arr o :
  words 32 arr ->
  exists b, Uint32ArrayToBytes arr o = Done b /\ bytes b /\ lenN b = 4 * lenN arr /\
            BytesToUint32Array b o = Done arr.
Proof.
  intros W. exists (concat (map (enc32 o) arr)).
  assert (L : length (concat (map (enc32 o) arr)) = (4 * length arr)%nat)
    by (apply concat_map_length, enc32_length).
  repeat split.
  - apply Uint32ArrayToBytes_spec.
  - clear. induction arr; cbn [map concat]; [constructor|]. apply words_app; split; auto.
    apply enc32_bytes.
  - unfold lenN. lia.
  - rewrite BytesToUint32Array_spec. f_equal. symmetry.
    apply (list_eq_tab _ _ 0).
    + unfold lenN. lia.
    + intros i Hi. assert (i < lenN arr) by (unfold lenN in *; lia).
      replace (N.to_nat (4 * i)) with (4 * N.to_nat i)%nat by lia.
      rewrite chunks_concat by (unfold lenN in *; lia).
      symmetry. apply dec_enc32. apply words_nth; auto.
Qed.

Lemma bytes_roundtrip b o :
  bytes b -> lenN b mod 4 = 0 ->
  exists arr, BytesToUint32Array b o = Done arr /\ words 32 arr /\ 4 * lenN arr = lenN b /\
              Uint32ArrayToBytes arr o = Done b.
Proof.
  intros B M. eexists. split; [apply BytesToUint32Array_spec|].
  assert (Hd : 4 * (lenN b / 4) = lenN b) by lia.
  assert (C : forall i, i < lenN b / 4 -> length (firstn 4 (skipn (N.to_nat (4 * i)) b)) = 4%nat).
  { intros i Hi. rewrite firstn_length_le; auto. rewrite skipn_length. unfold lenN in *. lia. }
  repeat split.
  - apply words_tab. intros i Hi. apply dec32_lt; auto. apply Forall_firstn, Forall_skipn; auto.
  - rewrite lenN_tab. auto.
  - rewrite Uint32ArrayToBytes_spec. f_equal. rewrite map_tab.
    rewrite (tab_ext _ _ (fun i => firstn 4 (skipn (N.to_nat (4 * i)) b))).
    2:{ intros i Hi. apply enc_dec32; auto. apply Forall_firstn, Forall_skipn; auto. }
    assert (G : forall n, 4 * n <= lenN b ->
       concat (tab n (fun i => firstn 4 (skipn (N.to_nat (4 * i)) b))) = firstn (N.to_nat (4 * n)) b).
    { intros n; induction n using N.peano_ind; intros Hn; auto.
      rewrite <- N.add_1_r, tab_succ, concat_app, IHn by lia. cbn [concat]. rewrite app_nil_r.
      replace (N.to_nat (4 * (n + 1))) with (N.to_nat (4 * n) + 4)%nat by lia.
      rewrite <- (firstn_skipn (N.to_nat (4 * n)) b) at 3.
      rewrite firstn_app, firstn_firstn, firstn_length_le by (unfold lenN in Hn; lia).
      rewrite Nat.min_r by lia. f_equal. f_equal. lia. }
    rewrite G by lia. apply firstn_all2. unfold lenN in *. lia.
Qed.

(** Byte [j] of the encoding of word [i]. *)
Lemma le_bytes_nth n x j : (j < n)%nat -> nth j (le_bytes n x) 0 = byte_of x (N.of_nat j).
Proof.
  revert x j; induction n; intros x j H; try lia. cbn [le_bytes]. destruct j.
  - cbn [nth]. unfold byte_of. rewrite trunc_mod. change (256 ^ N.of_nat 0) with 1.
    rewrite N.div_1_r. auto.
  - cbn [nth]. rewrite IHn by lia. unfold byte_of. rewrite N.shiftr_div_pow2.
    replace (N.of_nat (S j)) with (1 + N.of_nat j) by lia.
    rewrite N.pow_add_r, N.pow_1_r. change (2 ^ 8) with 256.
    rewrite N.div_div; auto; try lia.
Qed.
Lemma be_bytes_nth n x j :
  (j < n)%nat -> nth j (be_bytes n x) 0 = byte_of x (N.of_nat (n - 1 - j)).
Proof.
  intros. unfold be_bytes. rewrite rev_nth by (rewrite le_bytes_length; auto).
  rewrite le_bytes_length, le_bytes_nth by lia. f_equal. lia.
Qed.

Lemma enc32_digit o x j : j < 4 -> nth (N.to_nat j) (enc32 o x) 0 = digit o 4 x j.
Proof.
  intros. destruct o; cbn [enc32 digit].
  - rewrite le_bytes_nth by lia. f_equal; lia.
  - rewrite be_bytes_nth by lia. f_equal; lia.
Qed.

Lemma concat_nth o arr i j :
  (i < length arr)%nat -> (j < 4)%nat ->
  nth (4 * i + j) (concat (map (enc32 o) arr)) 0 = nth j (enc32 o (nth i arr 0)) 0.
Proof.
  revert i; induction arr as [|v arr IH]; intros i Hi Hj; cbn in Hi; try lia.
  cbn [map concat]. destruct i.
  - rewrite app_nth1 by (rewrite enc32_length; lia). auto.
  - rewrite app_nth2 by (rewrite enc32_length; lia). rewrite enc32_length.
    replace (4 * S i + j - 4)%nat with (4 * i + j)%nat by lia. cbn [nth]. apply IH; lia.
Qed.

Lemma scalar_bytes v o :
  Uint32ToBytes v o = Done (tab 4 (digit o 4 v)) /\
  Uint64ToBytes v o = Done (tab 8 (digit o 8 v)).
Proof.
  split.
  - assert (E : Uint32ToBytes v o = Done (enc32 o v)) by (destruct o; reflexivity).
    rewrite E. f_equal. apply (list_eq_tab _ _ 0).
    + unfold lenN; rewrite enc32_length; auto.
    + intros. apply enc32_digit; auto.
  - assert (E : Uint64ToBytes v o = Done (match o with LittleEndian => le_bytes 8 v | BigEndian => be_bytes 8 v end))
      by (destruct o; reflexivity).
    rewrite E. f_equal. apply (list_eq_tab _ _ 0).
    + destruct o; unfold lenN; rewrite ?le_bytes_length, ?be_bytes_length; auto.
    + intros. destruct o; cbn [digit].
      * rewrite le_bytes_nth by lia. f_equal; lia.
      * rewrite be_bytes_nth by lia. f_equal; lia.
Qed.

Lemma array_digits arr o b :
  Uint32ArrayToBytes arr o = Done b ->
  forall i j, i < lenN arr -> j < 4 ->
  nth (N.to_nat (4 * i + j)) b 0 = digit o 4 (nth (N.to_nat i) arr 0) j.
Proof.
  rewrite Uint32ArrayToBytes_spec. intros [= <-] i j Hi Hj.
  replace (N.to_nat (4 * i + j)) with (4 * N.to_nat i + N.to_nat j)%nat by lia.
  unfold lenN in *. rewrite concat_nth by lia. apply enc32_digit; auto.
Qed.

(** ** FNV *)

Definition fnv_inv32 : N := 899433627.
Definition fnv_inv64 : N := 9778875398352553115.

Lemma mulw_cancel w p q x :
  (p * q) mod 2 ^ w = 1 -> x < 2 ^ w -> mulw w (mulw w x p) q = x.
Proof.
  intros H Hx. unfold mulw. rewrite trunc_mul_l. rewrite trunc_mod, <- N.mul_assoc.
  rewrite N.mul_mod, H, N.mul_1_r, N.mod_mod by apply pow2_nz. apply N.mod_small; auto.
Qed.

Lemma unique_of_inverse (f g : N -> N) m :
  (forall x, x < m -> f x < m) -> (forall y, y < m -> g y < m) ->
  (forall x, x < m -> g (f x) = x) -> (forall y, y < m -> f (g y) = y) ->
  forall y, y < m -> exists! x, x < m /\ f x = y.
Proof.
  intros Hf Hg Hgf Hfg y Hy. exists (g y). split; [auto|].
  intros x (Hx & <-). auto.
Qed.

Lemma Fnv1_bijective_u v r : v < 2 ^ 32 -> r < 2 ^ 32 -> exists! u, u < 2 ^ 32 /\ Fnv1 u v = r.
Proof.
  intros Hv Hr.
  apply (unique_of_inverse (fun u => Fnv1 u v) (fun r => mulw 32 (N.lxor r v) fnv_inv32)); auto.
  - intros. apply lxor_lt; auto. apply mulw_lt.
  - intros. apply mulw_lt.
  - intros. unfold Fnv1. rewrite lxor_cancel_r. apply mulw_cancel; auto.
  - intros. unfold Fnv1. rewrite mulw_cancel; auto. apply lxor_cancel_r. apply lxor_lt; auto.
Qed.

Lemma Fnv1_bijective_v u r : r < 2 ^ 32 -> exists! v, v < 2 ^ 32 /\ Fnv1 u v = r.
Proof.
  intros Hr.
  apply (unique_of_inverse (fun v => Fnv1 u v) (fun r => N.lxor (mulw 32 u FnvPrime) r)); auto.
  - intros. apply lxor_lt; auto. apply mulw_lt.
  - intros. apply lxor_lt; auto. apply mulw_lt.
  - intros. apply lxor_cancel_l.
  - intros. apply lxor_cancel_l.
Qed.

Lemma Fnv1Uint64_bijective_u v r : v < 2 ^ 64 -> r < 2 ^ 64 -> exists! u, u < 2 ^ 64 /\ Fnv1Uint64 u v = r.
Proof.
  intros Hv Hr.
  apply (unique_of_inverse (fun u => Fnv1Uint64 u v) (fun r => mulw 64 (N.lxor r v) fnv_inv64)); auto.
  - intros. apply lxor_lt; auto. apply mulw_lt.
  - intros. apply mulw_lt.
  - intros. unfold Fnv1Uint64. rewrite lxor_cancel_r. apply mulw_cancel; auto.
  - intros. unfold Fnv1Uint64. rewrite mulw_cancel; auto. apply lxor_cancel_r. apply lxor_lt; auto.
Qed.

Lemma Fnv1Uint64_bijective_v u r : r < 2 ^ 64 -> exists! v, v < 2 ^ 64 /\ Fnv1Uint64 u v = r.
Proof.
  intros Hr.
  apply (unique_of_inverse (fun v => Fnv1Uint64 u v) (fun r => N.lxor (mulw 64 u FnvPrime) r)); auto.
  - intros. apply lxor_lt; auto. apply mulw_lt.
  - intros. apply lxor_lt; auto. apply mulw_lt.
  - intros. apply lxor_cancel_l.
  - intros. apply lxor_cancel_l.
Qed.

Lemma Fnv1a_bijective_u v r : v < 2 ^ 32 -> r < 2 ^ 32 -> exists! u, u < 2 ^ 32 /\ Fnv1a u v = r.
Proof.
  intros Hv Hr.
  apply (unique_of_inverse (fun u => Fnv1a u v) (fun r => N.lxor (mulw 32 r fnv_inv32) v)); auto.
  - intros. apply mulw_lt.
  - intros. apply lxor_lt; auto. apply mulw_lt.
  - intros. unfold Fnv1a. rewrite mulw_cancel; auto. apply lxor_cancel_r. apply lxor_lt; auto.
  - intros. unfold Fnv1a. rewrite lxor_cancel_r. apply mulw_cancel; auto.
Qed.

Lemma Fnv1a_comm u v : Fnv1a u v = Fnv1a v u.
Proof. unfold Fnv1a. rewrite N.lxor_comm. auto. Qed.

Lemma Fnv1a_bijective_v u r : u < 2 ^ 32 -> r < 2 ^ 32 -> exists! v, v < 2 ^ 32 /\ Fnv1a u v = r.
Proof.
  intros Hu Hr. destruct (Fnv1a_bijective_u u r Hu Hr) as (v & (Hv & E) & U).
  exists v. split.
  - split; auto. rewrite Fnv1a_comm; auto.
  - intros v' (Hv' & E'). apply U. split; auto. rewrite Fnv1a_comm; auto.
Qed.

Lemma Fnv1_lt u v : v < 2 ^ 32 -> Fnv1 u v < 2 ^ 32.
Proof. intros. apply lxor_lt; auto. apply mulw_lt. Qed.
Lemma Fnv1a_lt u v : Fnv1a u v < 2 ^ 32.
Proof. apply mulw_lt. Qed.

Lemma FnvHash_spec mix data :
  lenN mix <= lenN data ->
  FnvHash mix data =
  Done (tab (lenN mix) (fun i => Fnv1 (nth (N.to_nat i) mix 0) (nth (N.to_nat i) data 0))).
Proof.
  intros H. unfold FnvHash. apply (for_fill _ _ _ _ 0); auto.
  intros j t Hj HL _ H2.
  rewrite !(idx_Done _ _ 0) by lia. cbn [bind]. rewrite H2 by lia. auto.
Qed.

Lemma FnvHash_panics mix data : lenN data < lenN mix -> FnvHash mix data = Panic.
Proof.
  intros H. unfold FnvHash, for_n.
  replace (N.to_nat (lenN mix)) with
    (N.to_nat (lenN data) + S (N.to_nat (lenN mix) - N.to_nat (lenN data) - 1))%nat by lia.
  rewrite for_up_app.
  destruct (for_up_inv (fun _ t => lenN t = lenN mix)
     (fun i m => a <- idx m i ;; b <- idx data i ;; upd m i (Fnv1 a b))
     (N.to_nat (lenN data)) 0 mix eq_refl) as (t & E & Ht).
  { intros j t _ Hj Ht. rewrite !(idx_Done _ _ 0) by lia. cbn [bind].
    rewrite upd_Done by lia. eexists; split; eauto.
    unfold lenN in *. rewrite set_nth_length. auto. }
  rewrite E. cbn [bind for_up].
  rewrite (idx_Done _ _ 0) by lia. cbn [bind]. rewrite idx_Panic by lia. auto.
Qed.

(** ** SipHash *)

Definition tup (h : sip) : sipstate := (v0 h, v1 h, v2 h, v3 h).
Definition valid_sip (h : sip) : Prop := sip_valid (tup h).

Lemma addw_mod w a b : addw w a b = (a + b) mod 2 ^ w.
Proof. apply trunc_mod. Qed.
Lemma mod_lt_pow w a : a mod 2 ^ w < 2 ^ w.
Proof. apply N.mod_lt, pow2_nz. Qed.

Lemma lor_rotate x s t : x < 2 ^ 64 -> s <= 64 -> t = 64 - s ->
  N.lor (shlw 64 x s) (N.shiftr x t) = rotate 64 x s.
Proof. intros H Hs ->. apply (rolw_rotate 64 x s); auto. Qed.

Ltac range := repeat first
  [ assumption | apply mod_lt_pow | apply lxor_lt | apply rotate_lt | apply addw_lt | lia ].

Lemma SipRound_spec h : valid_sip h ->
  tup (SipRound h) = sipround (tup h) /\ valid_sip (SipRound h).
Proof.
  destruct h as [a b c d]. intros (Ha & Hb & Hc & Hd). cbn [v0 v1 v2 v3 tup] in *.
  assert (E : tup (SipRound (mkSip a b c d)) = sipround (a, b, c, d)).
  { unfold SipRound, tup, sipround, half_left, half_right. cbn [v0 v1 v2 v3].
    rewrite !addw_mod.
    repeat match goal with
      |- context [N.lor (shlw 64 ?x ?s) (N.shiftr ?x ?t)] =>
        rewrite (lor_rotate x s t) by (try reflexivity; range)
      end.
    reflexivity. }
  split; auto. unfold valid_sip. rewrite E.
  unfold sipround, half_left, half_right, sip_valid. repeat split; range.
Qed.

Lemma iter_SipRound n h : valid_sip h ->
  tup (N.iter n SipRound h) = N.iter n sipround (tup h) /\ valid_sip (N.iter n SipRound h).
Proof.
  intros H. induction n using N.peano_ind; [cbn; auto|].
  rewrite !N.iter_succ. destruct IHn as (E & V).
  destruct (SipRound_spec _ V) as (E' & V'). rewrite E', E. auto.
Qed.

Definition pre_mix (h : sip) (m : N) : sip := mkSip (v0 h) (v1 h) (v2 h) (N.lxor (v3 h) m).
Definition post_mix (h : sip) (m : N) : sip :=
  mkSip (N.lxor (v0 h) m) (v1 h) (N.lxor (v2 h) 0xff) (v3 h).

Lemma Hash24_unfold h m :
  Hash24 h m = N.iter 4 SipRound (post_mix (N.iter 2 SipRound (pre_mix h m)) m).
Proof. unfold Hash24. generalize SipRound. intros f. reflexivity. Qed.
Lemma Hash48_unfold h m :
  Hash48 h m = N.iter 8 SipRound (post_mix (N.iter 4 SipRound (pre_mix h m)) m).
Proof. unfold Hash48. generalize SipRound. intros f. reflexivity. Qed.

Lemma pre_mix_valid h m : valid_sip h -> m < 2 ^ 64 -> valid_sip (pre_mix h m).
Proof. intros (? & ? & ? & ?) ?. repeat split; cbn [v0 v1 v2 v3 pre_mix]; range. Qed.
Lemma post_mix_valid h m : valid_sip h -> m < 2 ^ 64 -> valid_sip (post_mix h m).
Proof. intros (? & ? & ? & ?) ?. repeat split; cbn [v0 v1 v2 v3 post_mix]; range. Qed.

Lemma compress_iter c d h m : valid_sip h -> m < 2 ^ 64 ->
  tup (N.iter d SipRound (post_mix (N.iter c SipRound (pre_mix h m)) m)) =
    sip_compress c d (tup h) m /\ valid_sip (N.iter d SipRound (post_mix (N.iter c SipRound (pre_mix h m)) m)).
Proof.
  intros V Hm.
  destruct (iter_SipRound c (pre_mix h m) (pre_mix_valid h m V Hm)) as (E1 & V1).
  remember (N.iter c SipRound (pre_mix h m)) as h1 eqn:Eh. clear Eh.
  destruct (iter_SipRound d (post_mix h1 m) (post_mix_valid h1 m V1 Hm)) as (E2 & V2).
  split; auto. rewrite E2. unfold sip_compress, tup at 2.
  change (v0 h, v1 h, v2 h, N.lxor (v3 h) m) with (tup (pre_mix h m)).
  rewrite <- E1. reflexivity.
Qed.

Lemma Hash24_spec h m : valid_sip h -> m < 2 ^ 64 ->
  tup (Hash24 h m) = sip_compress 2 4 (tup h) m /\ valid_sip (Hash24 h m).
Proof. rewrite Hash24_unfold. apply compress_iter. Qed.

Lemma Hash48_spec h m : valid_sip h -> m < 2 ^ 64 ->
  tup (Hash48 h m) = sip_compress 4 8 (tup h) m /\ valid_sip (Hash48 h m).
Proof. rewrite Hash48_unfold. apply compress_iter. Qed.

Lemma XorLanes_spec h : XorLanes h = sip_out (tup h).
Proof. unfold XorLanes, sip_out, tup. rewrite !N.lxor_assoc. auto. Qed.

Lemma sip_out_lt s : sip_valid s -> sip_out s < 2 ^ 64.
Proof. destruct s as [[[a b] c] d]. intros (? & ? & ? & ?). cbn. range. Qed.

Lemma node_message e u : addw 64 (mulw 64 2 e) u = (2 * e + u) mod 2 ^ 64.
Proof. unfold addw, mulw. rewrite trunc_add_l. apply trunc_mod. Qed.

Lemma SipNode24_spec mask keys edge uorv : valid_sip keys ->
  SipNode24 mask keys edge uorv = cuckoo_node mask (tup keys) edge uorv.
Proof.
  intros V. unfold SipNode24, cuckoo_node. rewrite XorLanes_spec, node_message.
  destruct (Hash24_spec keys ((2 * edge + uorv) mod 2 ^ 64) V (mod_lt_pow 64 _)) as (E & _).
  rewrite E. auto.
Qed.

Lemma SipNode24Legacy_spec mask keys edge uorv : valid_sip keys ->
  SipNode24Legacy mask keys edge uorv = cuckoo_node_rot mask (tup keys) edge uorv.
Proof.
  intros V. unfold SipNode24Legacy, cuckoo_node_rot. rewrite XorLanes_spec, node_message.
  destruct (Hash24_spec keys ((2 * edge + uorv) mod 2 ^ 64) V (mod_lt_pow 64 _)) as (E & V').
  rewrite lor_rotate; try reflexivity.
  - rewrite E. auto.
  - apply sip_out_lt. exact V'.
  - lia.
Qed.

Lemma node_in_mask mask keys edge uorv :
  SipNode24 mask keys edge uorv <= mask /\ SipNode24Legacy mask keys edge uorv <= mask.
Proof. split; apply land_le_r. Qed.

Lemma ldiff63 e : N.ldiff e 63 = 64 * (e / 64).
Proof.
  change 63 with (N.ones 6). rewrite N.ldiff_ones_r, N.shiftl_mul_pow2, N.shiftr_div_pow2.
  change (2 ^ 6) with 64. lia.
Qed.
Lemma land63 e : N.land e 63 = e mod 64.
Proof. change 63 with (N.ones 6). apply N.land_ones. Qed.

Lemma SipBlock48_spec keys edge : valid_sip keys -> edge < 2 ^ 64 ->
  SipBlock48 keys edge = Done (cuckaroo_block (tup keys) edge).
Proof.
  intros V He. unfold SipBlock48. rewrite ldiff63.
  set (e0 := 64 * (edge / 64)).
  assert (He0 : e0 + 64 <= 2 ^ 64).
  { unfold e0. change (2 ^ 64) with (64 * 288230376151711744) in *. lia. }
  destruct (for_n_inv (fun i (st : sip * list N) =>
      tup (fst st) = block_state (tup keys) e0 (N.to_nat i) /\ valid_sip (fst st) /\
      lenN (snd st) = 64 /\
      forall k, k < i -> nth (N.to_nat k) (snd st) 0 = block_value (tup keys) e0 k) 64
    (fun i '(h, block) =>
      let h := Hash48 h (addw 64 e0 i) in
      block <- upd block i (XorLanes h) ;;
      Done (h, block)) (keys, zeros 64)) as ((h & block) & E & Hst).
  - cbn [fst snd]. repeat split; auto; try apply V. intros; lia.
  - intros j (h & block) Hj (E1 & V1 & L1 & N1). cbn [fst snd] in *. cbv beta iota zeta.
    assert (Em : addw 64 e0 j = e0 + j) by (apply trunc_small; lia).
    rewrite Em.
    destruct (Hash48_spec h (e0 + j) V1) as (E2 & V2); [lia|].
    rewrite upd_Done by lia. cbn [bind]. eexists; split; [reflexivity|]. cbn [fst snd].
    assert (E3 : tup (Hash48 h (e0 + j)) = block_state (tup keys) e0 (N.to_nat (j + 1))).
    { rewrite E2, E1. replace (N.to_nat (j + 1)) with (S (N.to_nat j)) by lia.
      cbn [block_state]. f_equal. lia. }
    repeat split; auto; try apply V2.
    + unfold lenN in *. rewrite set_nth_length. auto.
    + intros k Hk. unfold lenN in *. rewrite nth_set_nth by lia.
      destruct (Nat.eqb_spec (N.to_nat j) (N.to_nat k)).
      * rewrite XorLanes_spec, E3. unfold block_value. do 2 f_equal. lia.
      * apply N1. lia.
  - cbv zeta in E. rewrite E. clear E. cbn [bind]. destruct Hst as (_ & _ & L & Hn). cbn [snd] in *.
    rewrite (idx_Done _ _ 0) by lia. cbn [bind]. rewrite (Hn 63) by lia.
    set (last := block_value (tup keys) e0 63) in *.
    destruct (for_n_inv (fun i t => lenN t = 64 /\
       forall k, k < 64 -> nth (N.to_nat k) t 0 =
         if k <? i then N.lxor (block_value (tup keys) e0 k) last else block_value (tup keys) e0 k)
       63 (fun i block => b <- idx block i ;; upd block i (N.lxor b last)) block)
      as (block' & E & L' & Hn').
    + split; auto. intros k Hk. destruct (N.ltb_spec k 0); try lia. auto.
    + intros j t Hj (Lt & Ht). rewrite (idx_Done _ _ 0) by lia. cbn [bind].
      rewrite upd_Done by lia. eexists; split; [reflexivity|].
      unfold lenN in *. split; [rewrite set_nth_length; auto|].
      intros k Hk. rewrite nth_set_nth by lia.
      destruct (Nat.eqb_spec (N.to_nat j) (N.to_nat k)).
      * assert (j = k) by lia. subst k. rewrite Ht by lia.
        destruct (N.ltb_spec j j); try lia. destruct (N.ltb_spec j (j + 1)); try lia.
      * rewrite Ht by lia. destruct (N.ltb_spec k j), (N.ltb_spec k (j + 1)); try lia; auto.
    + rewrite E. cbn [bind]. rewrite land63.
      assert (edge mod 64 < 64) by (apply N.mod_lt; lia).
      rewrite (idx_Done _ _ 0) by lia. f_equal. rewrite Hn' by lia.
      unfold cuckaroo_block. fold e0. fold last.
      destruct (N.eqb_spec (edge mod 64) 63) as [Ej|Ej].
      * rewrite Ej. auto.
      * destruct (N.ltb_spec (edge mod 64) 63); try lia; auto.
Qed.

(** ** xoshiro256++ *)

Definition xtup (h : xoshiro) : xostate := (s0 h, s1 h, s2 h, s3 h).
Definition valid_x (h : xoshiro) : Prop :=
  s0 h < 2 ^ 64 /\ s1 h < 2 ^ 64 /\ s2 h < 2 ^ 64 /\ s3 h < 2 ^ 64.

Lemma Next_spec h : valid_x h ->
  Next h = (xo_output (xtup h), snd (Next h)) /\ xtup (snd (Next h)) = xo_step (xtup h) /\
  valid_x (snd (Next h)) /\ fst (Next h) < 2 ^ 64.
Proof.
  destruct h as [a b c d]. intros (Ha & Hb & Hc & Hd). cbn [s0 s1 s2 s3] in *.
  unfold Next, xo_output, xo_step, xtup, rotl. cbn [s0 s1 s2 s3 fst snd].
  change (64 - 23) with 41. change (64 - 45) with 19.
  rewrite !addw_mod. rewrite !lor_rotate by (try reflexivity; range).
  repeat split.
  - unfold shlw. rewrite trunc_mod, N.shiftl_mul_pow2. auto.
  - cbn [s0]. range.
  - cbn [s1]. range.
  - cbn [s2]. range. apply shlw_lt.
  - cbn [s3]. range.
  - range.
Qed.

Definition Next_inv (h : xoshiro) : xoshiro :=
  let t3 := rolw 64 (s3 h) 19 in
  let a := N.lxor (s0 h) t3 in
  let y := N.lxor (s1 h) (s2 h) in
  let b := N.lxor (N.lxor y (shlw 64 y 17)) (N.lxor (shlw 64 y 34) (shlw 64 y 51)) in
  let d := N.lxor t3 b in
  let c := N.lxor (N.lxor (s1 h) b) a in
  mkX a b c d.

Lemma shlw_lxor w x y s : shlw w (N.lxor x y) s = N.lxor (shlw w x s) (shlw w y s).
Proof.
  apply N.bits_inj; intro i. rewrite N.lxor_spec, !testbit_shlw, N.lxor_spec.
  destruct (i <? w), (s <=? i); auto.
Qed.
Lemma shlw_shlw w x s t : shlw w (shlw w x s) t = shlw w x (s + t).
Proof.
  apply N.bits_inj; intro i. rewrite !testbit_shlw.
  destruct (N.ltb_spec i w); auto. destruct (N.leb_spec t i); cbn [andb].
  - destruct (N.ltb_spec (i - t) w); try lia.
    destruct (N.leb_spec s (i - t)), (N.leb_spec (s + t) i); try lia; auto.
    cbn [andb]. f_equal; lia.
  - destruct (N.leb_spec (s + t) i); try lia; auto.
Qed.
Lemma shlw_big w x s : w <= s -> shlw w x s = 0.
Proof.
  intros. apply N.bits_inj; intro i. rewrite testbit_shlw, N.bits_0.
  destruct (N.ltb_spec i w), (N.leb_spec s i); auto; lia.
Qed.

Ltac xors := apply N.bits_inj; let i := fresh in intro i; rewrite ?N.lxor_spec;
  repeat match goal with |- context [N.testbit ?a ?j] => generalize (N.testbit a j); intro end;
  btauto.

Lemma xs_inv y :
  y < 2 ^ 64 ->
  let b := N.lxor (N.lxor y (shlw 64 y 17)) (N.lxor (shlw 64 y 34) (shlw 64 y 51)) in
  N.lxor b (shlw 64 b 17) = y.
Proof.
  intros Hy b. unfold b. rewrite !shlw_lxor, !shlw_shlw.
  change (17 + 17) with 34. change (34 + 17) with 51. change (51 + 17) with 68.
  rewrite (shlw_big 64 y 68) by lia. rewrite N.lxor_0_r. xors.
Qed.
Lemma xs_inv' b :
  b < 2 ^ 64 ->
  let y := N.lxor b (shlw 64 b 17) in
  N.lxor (N.lxor y (shlw 64 y 17)) (N.lxor (shlw 64 y 34) (shlw 64 y 51)) = b.
Proof.
  intros Hb y. unfold y. rewrite !shlw_lxor, !shlw_shlw.
  change (17 + 17) with 34. change (17 + 34) with 51. change (17 + 51) with 68.
  rewrite (shlw_big 64 b 68) by lia. rewrite N.lxor_0_r. xors.
Qed.

Lemma Next_inv_valid h : valid_x h -> valid_x (Next_inv h).
Proof.
  destruct h as [a b c d]. intros (Ha & Hb & Hc & Hd). cbn [s0 s1 s2 s3] in *.
  unfold Next_inv, valid_x. cbn [s0 s1 s2 s3].
  repeat split; repeat first [assumption | apply lxor_lt | apply rolw_lt | apply shlw_lt].
Qed.

Lemma Next_inv_Next h : valid_x h -> Next_inv (snd (Next h)) = h.
Proof.
  destruct h as [a b c d]. intros (Ha & Hb & Hc & Hd). cbn [s0 s1 s2 s3] in *.
  unfold Next, Next_inv. cbn [s0 s1 s2 s3 fst snd].
  change (rotl (N.lxor d b) 45) with (rolw 64 (N.lxor d b) 45).
  assert (R : rolw 64 (rolw 64 (N.lxor d b) 45) 19 = N.lxor d b)
    by (apply (rolw_inv 64 _ 45); [apply lxor_lt; auto|lia]).
  rewrite R.
  assert (Y : N.lxor (N.lxor b (N.lxor c a)) (N.lxor (N.lxor c a) (shlw 64 b 17)) =
              N.lxor b (shlw 64 b 17)) by xors.
  rewrite Y. rewrite (xs_inv' b Hb). f_equal; xors.
Qed.

Lemma Next_Next_inv h : valid_x h -> snd (Next (Next_inv h)) = h.
Proof.
  destruct h as [a b c d]. intros (Ha & Hb & Hc & Hd). cbn [s0 s1 s2 s3] in *.
  unfold Next, Next_inv. cbn [s0 s1 s2 s3 fst snd].
  set (t3 := rolw 64 d 19).
  set (y := N.lxor b c).
  assert (Hy : y < 2 ^ 64) by (apply lxor_lt; auto).
  pose proof (xs_inv y Hy) as X. cbv zeta in X.
  set (z := N.lxor (N.lxor y (shlw 64 y 17)) (N.lxor (shlw 64 y 34) (shlw 64 y 51))) in *.
  clearbody z.
  f_equal.
  - xors.
  - xors.
  - transitivity (N.lxor b (N.lxor z (shlw 64 z 17))); [xors|]. rewrite X. unfold y. xors.
  - replace (N.lxor (N.lxor t3 z) z) with t3 by (symmetry; apply lxor_cancel_r).
    apply (rolw_inv' 64 d 45); auto. lia.
Qed.

Lemma Next_bijective t : valid_x t -> exists! s, valid_x s /\ snd (Next s) = t.
Proof.
  intros H. exists (Next_inv t). split.
  - split; [apply Next_inv_valid|apply Next_Next_inv]; auto.
  - intros s (Hs & <-). apply Next_inv_Next; auto.
Qed.

Definition x_zero : xoshiro := mkX 0 0 0 0.

Lemma Next_zero : Next x_zero = (0, x_zero).
Proof. reflexivity. Qed.

Lemma Next_to_zero h : valid_x h -> snd (Next h) = x_zero -> h = x_zero.
Proof. intros H E. rewrite <- (Next_inv_Next h H), E. reflexivity. Qed.

(** ** Packaging *)

Lemma words_to_bytes_full arr o : words 32 arr ->
  exists b, Uint32ArrayToBytes arr o = Done b /\ bytes b /\ lenN b = 4 * lenN arr /\
    (forall i j, i < lenN arr -> j < 4 ->
       nth (N.to_nat (4 * i + j)) b 0 = digit o 4 (nth (N.to_nat i) arr 0) j) /\
    BytesToUint32Array b o = Done arr.
Proof.
  intros W. destruct (words_roundtrip arr o W) as (b & E & B & L & R).
  exists b. split; [auto|]. split; [auto|]. split; [auto|]. split; [|auto].
  apply array_digits; auto.
Qed.

Lemma bytes_to_words_total b o :
  exists arr, BytesToUint32Array b o = Done arr /\ lenN arr = lenN b / 4.
Proof.
  eexists. split; [apply BytesToUint32Array_spec|]. apply lenN_tab.
Qed.

Lemma siphash_conforms k m : valid_sip k -> m < 2 ^ 64 ->
  tup (Hash24 k m) = sip_compress 2 4 (tup k) m /\
  tup (Hash48 k m) = sip_compress 4 8 (tup k) m /\
  XorLanes k = sip_out (tup k).
Proof.
  intros V Hm. repeat split.
  - apply Hash24_spec; auto.
  - apply Hash48_spec; auto.
  - apply XorLanes_spec.
Qed.

Lemma nodes_conform mask k edge side : valid_sip k ->
  SipNode24 mask k edge side = cuckoo_node mask (tup k) edge side /\
  SipNode24Legacy mask k edge side = cuckoo_node_rot mask (tup k) edge side /\
  SipNode24 mask k edge side <= mask /\
  SipNode24Legacy mask k edge side <= mask.
Proof.
  intros V. split; [apply SipNode24_spec; auto|]. split; [apply SipNode24Legacy_spec; auto|].
  apply node_in_mask.
Qed.

Lemma xoshiro_conforms h : valid_x h ->
  fst (Next h) = xo_output (xtup h) /\ xtup (snd (Next h)) = xo_step (xtup h) /\
  fst (Next h) < 2 ^ 64 /\ valid_x (snd (Next h)).
Proof.
  intros V. destruct (Next_spec h V) as (E & E2 & V2 & L).
  split; [rewrite E; reflexivity|]. auto.
Qed.

Lemma zero_isolated :
  (forall n, N.iter n (fun s => snd (Next s)) (mkX 0 0 0 0) = mkX 0 0 0 0) /\
  fst (Next (mkX 0 0 0 0)) = 0 /\
  (forall h n, valid_x h -> N.iter n (fun s => snd (Next s)) h = mkX 0 0 0 0 -> h = mkX 0 0 0 0).
Proof.
  split; [|split; [reflexivity|]].
  - intros n. induction n using N.peano_ind; auto. rewrite N.iter_succ, IHn. reflexivity.
  - intros h n V. induction n using N.peano_ind; auto.
    rewrite N.iter_succ. intros E. apply IHn. apply Next_to_zero; auto.
    clear - V. induction n using N.peano_ind; auto. rewrite N.iter_succ.
    apply Next_spec; auto.
Qed.

Lemma fnv_values u v :
  Fnv1 u v = N.lxor ((u * 16777619) mod 2 ^ 32) v /\
  Fnv1a u v = (N.lxor u v * 16777619) mod 2 ^ 32 /\
  Fnv1Uint64 u v = N.lxor ((u * 16777619) mod 2 ^ 64) v.
Proof. unfold Fnv1, Fnv1a, Fnv1Uint64, mulw. rewrite !trunc_mod. auto. Qed.

Lemma fnv_hash_full mix data :
  (lenN mix <= lenN data ->
   exists m', FnvHash mix data = Done m' /\ lenN m' = lenN mix /\
     forall i, i < lenN mix ->
       nth (N.to_nat i) m' 0 = Fnv1 (nth (N.to_nat i) mix 0) (nth (N.to_nat i) data 0)) /\
  (lenN data < lenN mix -> FnvHash mix data = Panic).
Proof.
  split; [|apply FnvHash_panics].
  intros H. eexists. split; [apply FnvHash_spec; auto|]. split; [apply lenN_tab|].
  intros i Hi. rewrite nth_tab by lia. rewrite N2Nat.id. auto.
Qed.
