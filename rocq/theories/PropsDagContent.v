(** C13-C15: contents of verification caches, dataset items and L1 caches. *)
From Coq Require Import NArith ZArith List Bool Lia ZifyBool ZifyN ZifyNat.
From Verif Require Import Base BaseFacts Hashes HashesFacts CryptoModel DagModel DagSpec DagSize Chunks
  DagContent.
Import ListNotations.
Open Scope N_scope.
Ltac Zify.zify_post_hook ::= Z.div_mod_to_equations.

Lemma keccak512_ok : hash_ok 64 keccak512.
Proof. intros b. split; [apply keccak512_length|apply keccak512_bytes]. Qed.

(** Equality test on lists. *)
Definition same (a b : list N) : bool :=
  (lenN a =? lenN b) && forallb (fun '(x, y) => x =? y) (combine a b).

(** A cheap 64-byte hash for running the generators on small inputs. *)
Definition toy_hash (b : list N) : list N :=
  let s := fold_left (fun a x => (a * 31 + x + 7) mod 65521) b 1 in
  map (fun k => (s / (N.of_nat k + 1) + N.of_nat k * s) mod 256) (seq 0 64).
Lemma toy_hash_ok : hash_ok 64 toy_hash.
Proof.
  intros b. split; [unfold toy_hash; rewrite map_length; apply seq_length|].
  apply Forall_map. apply Forall_forall. intros x _. unfold isw. apply N.mod_lt. lia.
Qed.

(** ** C13 *)

(** Whatever the buffer held before, generateCache returns normally and leaves in it the
    rows of the ethash specification, one after the other. *)
Theorem C13_cache_generation H d buf seed rows :
  hash_ok 64 H -> 1 <= rows -> rows < 2 ^ 26 -> lenN buf = 64 * rows ->
  generateCache H d buf seed =
  Done (concat (cache_rows H seed (N.to_nat rows) (N.to_nat (cf_cache_rounds d)))).
Proof. exact (generateCache_spec H d buf seed rows). Qed.
Print Assumptions C13_cache_generation.
Example C13_instance_keccak :
  generateCache keccak512 (cfg_ethereum []) (zeros 1024) (zeros 32) =
  Done (concat (cache_rows keccak512 (zeros 32) 16 3)).
Proof.
  apply (C13_cache_generation keccak512 (cfg_ethereum []) (zeros 1024) (zeros 32) 16);
    [exact keccak512_ok|lia|lia|reflexivity].
Qed.
Example C13_instance_toy :
  match generateCache toy_hash (cfg_ethereum []) (repeat 255 320) (repeat 9 32) with
  | Done c => same c (concat (cache_rows toy_hash (repeat 9 32) 5 3)) &&
              negb (same c (concat (cache_rows toy_hash (repeat 9 32) 5 2)))
  | _ => false
  end = true.
Proof. vm_compute. reflexivity. Qed.

(** The bound on the rows is needed: the offset of the row to mix in is computed in 32 bits, so the end of the
    last of 2^26 rows is 0.  With a hash that leads there, generation panics. *)
Definition last_row_hash (_ : list N) : list N := [255; 255; 255; 3] ++ repeat 0 60.
Theorem C13_large_cache_refuted d buf seed :
  1 <= cf_cache_rounds d -> lenN buf = 64 * 2 ^ 26 ->
  hash_ok 64 last_row_hash /\ generateCache last_row_hash d buf seed = Panic.
Proof.
  intros RD HL.
  assert (HH : hash_ok 64 last_row_hash).
  { intros x. split; [reflexivity|]. unfold last_row_hash. repeat constructor; lia. }
  split; auto. unfold generateCache.
  assert (EX : exists n, n = 2 ^ 26) by eauto. destruct EX as (n & En). rewrite <- En in HL.
  assert (Hn : 1 <= n) by lia.
  pose proof (fill_phase last_row_hash seed buf n HH Hn HL) as E1.
  destruct (hash_into last_row_hash 64 buf 0 seed) as [c0| |]; cbn [bind] in E1 |- *; try discriminate.
  rewrite E1. cbn [bind]. clear E1.
  assert (ER : lenN buf / hashBytes = n) by (rewrite HL; unfold hashBytes; lia). rewrite ER. clear ER HL.
  set (R := initial_rows last_row_hash seed (N.to_nat n)).
  assert (B : blocks 64 R) by (apply initial_rows_blocks; auto).
  assert (LR : lenN R = n) by (unfold lenN, R; rewrite initial_rows_length; apply N2Nat.id).
  assert (N0 : nth (N.to_nat 0) R [] = last_row_hash seed).
  { unfold R. rewrite nth_initial_rows by lia. reflexivity. }
  clearbody R.
  assert (ST : memo_body last_row_hash n 0 (concat R, zeros hashBytes) = Panic).
  { unfold memo_body.
    assert (E : modc (0 + n - 1) n = Done (n - 1)) by (rewrite En; reflexivity). rewrite E. clear E. cbn [bind]. cbv zeta.
    pose proof (le_u32_block R 0 (0 * hashBytes) B ltac:(lia) eq_refl) as E. rewrite N0 in E.
    destruct (slice_from (concat R) (0 * hashBytes)) as [tl| |]; cbn [bind] in E |- *; try discriminate.
    rewrite E. cbn [bind]. clear E.
    assert (E : modc (le_value (firstn 4 (last_row_hash seed))) (u32 n) = Done (n - 1)) by (rewrite En; reflexivity).
    rewrite E. clear E. cbn [bind].
    rewrite (slice_block 64 R (n - 1)) by (auto; unfold hashBytes; lia). cbn [bind].
    assert (E : mulw 32 (n - 1) hashBytes = 2 ^ 32 - 64) by (rewrite En; reflexivity). rewrite E. clear E.
    unfold slice. change (addw 32 (2 ^ 32 - 64) hashBytes) with 0. reflexivity. }
  assert (RO : for_n n (memo_body last_row_hash n) (concat R, zeros hashBytes) = Panic).
  { unfold for_n. destruct (N.to_nat n) as [|m] eqn:E; [clear - E Hn; lia|]. cbn [for_up]. rewrite ST. reflexivity. }
  unfold memo_body in RO.
  unfold for_n at 1. destruct (N.to_nat (cf_cache_rounds d)) as [|m] eqn:E; [clear - E RD; lia|]. cbn [for_up].
  rewrite RO. reflexivity.
Qed.
Print Assumptions C13_large_cache_refuted.

(** The result has the shape every other part relies on: [rows] rows of 64 bytes. *)
Theorem C13_cache_shape H seed n rounds :
  hash_ok 64 H ->
  length (cache_rows H seed n rounds) = n /\
  Forall (fun r => length r = 64%nat) (cache_rows H seed n rounds).
Proof. intros HH. destruct (cache_rows_ok H seed n rounds HH). split; auto. Qed.
Print Assumptions C13_cache_shape.

(** ** C14 *)

(** Two runs of a loop whose bodies agree as long as an invariant holds. *)
Lemma for_up_ext_inv {S} (P : S -> Prop) (f g : N -> S -> outcome S) n : forall i s,
  P s -> (forall j t, P t -> f j t = g j t) -> (forall j t t', P t -> f j t = Done t' -> P t') ->
  for_up n i f s = for_up n i g s.
Proof.
  induction n as [|n IH]; intros i s HP E K; cbn [for_up]; auto.
  rewrite <- E by auto. destruct (f i s) as [t| |] eqn:Ef; cbn [bind]; auto. apply IH; eauto.
Qed.
Lemma for_up_inv {S} (P : S -> Prop) (f : N -> S -> outcome S) n : forall i s t,
  P s -> (forall j t t', P t -> f j t = Done t' -> P t') -> for_up n i f s = Done t -> P t.
Proof.
  induction n as [|n IH]; intros i s t HP K E; cbn [for_up] in E; [injection E as <-; auto|].
  destruct (f i s) as [u| |] eqn:Ef; cbn [bind] in E; try discriminate. exact (IH _ _ _ (K _ _ _ HP Ef) K E).
Qed.
Lemma upd_length l i (v : N) l' : upd l i v = Done l' -> length l' = length l.
Proof. unfold upd. destruct (_ <? _); intros E; inversion E. apply set_nth_length. Qed.
Lemma idx_app_l (A X : list N) i : i < lenN A -> idx (A ++ X) i = idx A i.
Proof. intros H. unfold idx. rewrite nth_error_app1; auto. unfold lenN in H. lia. Qed.
Lemma FnvHash_len m t m' : FnvHash m t = Done m' -> length m' = length m.
Proof.
  unfold FnvHash, for_n. apply (for_up_inv (fun x => length x = length m)); auto.
  intros j u u' HL. destruct (idx u j); cbn [bind]; try discriminate.
  destruct (idx t j); cbn [bind]; try discriminate. intros E. apply upd_length in E. congruence.
Qed.
Lemma FnvHash_tail (A X Y m : list N) off :
  off + lenN m <= lenN A -> 
  FnvHash m (skipn (N.to_nat off) (A ++ X)) = FnvHash m (skipn (N.to_nat off) (A ++ Y)).
Proof.
  intros H. rewrite !skipn_app. replace (N.to_nat off - length A)%nat with 0%nat by (unfold lenN in *; lia).
  cbn [skipn]. set (B := skipn (N.to_nat off) A).
  assert (LB : lenN m <= lenN B) by (unfold B, lenN in *; rewrite skipn_length; lia).
  unfold FnvHash. clearbody B. clear H.
  unfold for_n.
  apply (for_up_ext_inv (fun x => length x = length m)); auto.
  - intros j t L. destruct (idx t j) eqn:E; cbn [bind]; auto.
    assert (J : j < lenN B). { unfold idx in E. destruct (nth_error t (N.to_nat j)) eqn:E'; try discriminate.
      assert (nth_error t (N.to_nat j) <> None) as NN by congruence. apply nth_error_Some in NN. unfold lenN in *. lia. }
    rewrite !idx_app_l by auto. reflexivity.
  - intros j u u' HL. destruct (idx u j); cbn [bind]; try discriminate.
    destruct (idx (B ++ X) j); cbn [bind]; try discriminate. intros E. apply upd_length in E. congruence.
Qed.

Lemma slice_from_skipn (l : list N) off :
  slice_from l off = if off <=? lenN l then Done (skipn (N.to_nat off) l) else Panic.
Proof.
  unfold slice_from, slice. rewrite N.leb_refl, andb_true_r. destruct (N.leb_spec off (lenN l)); auto.
  f_equal. rewrite firstn_all2; auto. rewrite skipn_length. unfold lenN in *. lia.
Qed.


Theorem C14_dataset_item H d cache index :
  hash_ok 64 H -> cache_ok cache -> lenN cache < 2 ^ 28 ->
  generateDatasetItem H d (concat cache) index =
  Done (words_bytes (dataset_item H (N.to_nat (cf_dataset_parents d)) cache index)).
Proof. exact (generateDatasetItem_spec H d cache index). Qed.
Print Assumptions C14_dataset_item.

(** The bound on the rows is needed: positions in the cache are 32-bit, so nothing past the first 2^32 words
    (2^28 rows) is ever read, while the specification of item 2^28 starts from row 2^28. *)
Theorem C14_large_cache_refuted H d (rows : list (list N)) X Y index :
  lenN rows = 2 ^ 28 -> Forall (fun r => length r = 16%nat) rows -> length X = 16%nat -> length Y = 16%nat ->
  generateDatasetItem H d (concat (rows ++ [X])) index = generateDatasetItem H d (concat (rows ++ [Y])) index /\
  item_mix H (rows ++ [X]) (2 ^ 28) 0 = hash_words H (xor_head (2 ^ 28) X) /\
  item_mix H (rows ++ [Y]) (2 ^ 28) 0 = hash_words H (xor_head (2 ^ 28) Y).
Proof.
  intros HR B LX LY.
  assert (S : forall Z0, item_mix H (rows ++ [Z0]) (2 ^ 28) 0 = hash_words H (xor_head (2 ^ 28) Z0)).
  { intros Z0. cbn [item_mix]. f_equal. f_equal. rewrite app_length. cbn [length].
    replace (2 ^ 28 mod N.of_nat (length rows + 1)) with (lenN rows).
    - unfold lenN. rewrite Nat2N.id, app_nth2, Nat.sub_diag by auto. reflexivity.
    - rewrite N.mod_small; auto. unfold lenN in HR. lia. }
  split; [|split; apply S]. clear S. rewrite !concat_app. cbn [concat]. rewrite !app_nil_r.
  assert (LA : lenN (concat rows) = 2 ^ 32).
  { unfold lenN in *. rewrite (concat_blocks_length 16) by auto. change (2 ^ 32) with (16 * 2 ^ 28). lia. }
  assert (EX : exists n, n = 2 ^ 32) by eauto. destruct EX as (n & En). rewrite <- En in LA.
  generalize dependent (concat rows). intros A LA. clear rows HR B.
  assert (WR : forall v, v mod 2 ^ 32 < lenN A) by (intros v; rewrite LA, En; apply N.mod_lt; discriminate).
  assert (WM : forall a b, mulw 32 a b < lenN A) by (intros; unfold mulw, trunc; rewrite N.land_ones; apply WR).
  assert (WA : forall a b, addw 32 a b < lenN A) by (intros; unfold addw, trunc; rewrite N.land_ones; apply WR).
  assert (LE : lenN (A ++ X) = lenN (A ++ Y)) by (unfold lenN; rewrite !app_length; congruence).
  unfold generateDatasetItem. rewrite LE. set (r := u32 (lenN (A ++ Y) / hashWords)). cbv zeta.
  destruct (modc index r) as [q| |]; cbn [bind]; auto.
  assert (E0 : forall Z0, idx (A ++ Z0) (mulw 32 q hashWords) = idx A (mulw 32 q hashWords))
    by (intros; apply idx_app_l, WM).
  rewrite (E0 X), (E0 Y). destruct (idx A (mulw 32 q hashWords)) as [c0| |]; cbn [bind]; auto.
  destruct (put_uint32 LittleEndian (zeros hashBytes) (N.lxor c0 index)) as [mix| |]; cbn [bind]; auto.
  erewrite for_up_ext.
  2:{ intros j t. rewrite (idx_app_l A X), <- (idx_app_l A Y) by apply WA. reflexivity. }
  match goal with |- context [for_up 15 1 ?f mix] => destruct (for_up 15 1 f mix) as [mix1| |]; cbn [bind]; auto end.
  destruct (hash_into H 64 mix1 0 mix1) as [mix2| |]; cbn [bind]; auto.
  match goal with |- context [for_n 16 ?f (zeros hashWords)] =>
    destruct (for_n 16 f (zeros hashWords)) as [im| |] eqn:E16; cbn [bind]; auto;
    assert (L16 : length im = 16%nat) by
     (refine (for_up_inv (fun x => length x = 16%nat) f (N.to_nat 16) 0 (zeros hashWords) im eq_refl _ E16);
      intros j t t' L; destruct (slice_from mix2 (j * 4)); cbn [bind]; try discriminate;
      destruct (le_u32 a); cbn [bind]; try discriminate; intros E; apply upd_length in E; congruence) end.
  match goal with |- bind ?a _ = bind ?b _ => assert (EP : a = b); [|rewrite EP; reflexivity] end.
  clear E16 E0. unfold for_n. apply (for_up_ext_inv (fun x => length x = 16%nat)); auto.
  - intros j t L. destruct (idx t (j mod 16)) as [m| |]; cbn [bind]; auto.
    destruct (modc (Fnv1 (N.lxor index j) m) r) as [p| |]; cbn [bind]; auto.
    rewrite !slice_from_skipn, LE. destruct (_ <=? _); cbn [bind]; auto.
    apply FnvHash_tail. unfold mulw, trunc, hashWords. rewrite N.land_ones. unfold lenN at 1. rewrite L, LA, En.
    change (2 ^ 32) with (2 ^ 28 * 16). rewrite N.mul_mod_distr_r by discriminate.
    assert (p mod 2 ^ 28 < 2 ^ 28) by (apply N.mod_lt; discriminate). lia.
  - intros j t t' L. destruct (idx t (j mod 16)) as [m| |]; cbn [bind]; try discriminate.
    destruct (modc (Fnv1 (N.lxor index j) m) r) as [p| |]; cbn [bind]; try discriminate.
    destruct (slice_from (A ++ X) (mulw 32 p hashWords)); cbn [bind]; try discriminate.
    intros E. apply FnvHash_len in E. congruence.
Qed.
Print Assumptions C14_large_cache_refuted.
Example C14_large_cache_instance : exists rows,
  lenN rows = 2 ^ 28 /\ Forall (fun r : list N => length r = 16%nat) rows /\
  xor_head (2 ^ 28) (repeat 1 16) <> xor_head (2 ^ 28) (repeat 2 16).
Proof.
  assert (EX : exists n, n = 2 ^ 28) by eauto. destruct EX as (n & En).
  exists (repeat (repeat 0 16) (N.to_nat n)). split; [|split].
  - unfold lenN. rewrite repeat_length, N2Nat.id. exact En.
  - apply Forall_forall. intros x Hx. apply repeat_spec in Hx. rewrite Hx. reflexivity.
  - discriminate.
Qed.

Theorem C14_multi_item H d cache index size :
  hash_ok 64 H -> cache_ok cache -> lenN cache < 2 ^ 28 ->
  size < 2 ^ 28 -> index * size + size <= 2 ^ 32 ->
  generateDatasetItemUint H d (concat cache) index size =
  Done (concat (map (fun k => dataset_item H (N.to_nat (cf_dataset_parents d)) cache
                                (index * size + N.of_nat k)) (seq 0 (N.to_nat size)))).
Proof. exact (generateDatasetItemUint_spec H d cache index size). Qed.
Print Assumptions C14_multi_item.

(** The three exported lookups, for the indices whose items are below 2^32. *)
Theorem C14_lookup_funcs H d cache index :
  hash_ok 64 H -> cache_ok cache -> lenN cache < 2 ^ 28 ->
  let item := dataset_item H (N.to_nat (cf_dataset_parents d)) cache in
  (index < 2 ^ 32 -> NewLookupFunc512 H d (concat cache) index = Done (item index)) /\
  (index < 2 ^ 31 -> NewLookupFunc1024 H d (concat cache) index =
     Done (item (2 * index) ++ item (2 * index + 1))) /\
  (index < 2 ^ 30 -> NewLookupFunc2048 H d (concat cache) index =
     Done (item (4 * index) ++ item (4 * index + 1) ++ item (4 * index + 2) ++ item (4 * index + 3))).
Proof.
  intros HH OK HC item. unfold NewLookupFunc512, NewLookupFunc1024, NewLookupFunc2048.
  split; [|split]; intros Hi; rewrite C14_multi_item by (auto; lia);
    f_equal; fold item;
    [change (N.to_nat 1) with 1%nat|change (N.to_nat 2) with 2%nat|change (N.to_nat 4) with 4%nat];
    cbn [map seq concat]; rewrite ?app_nil_r.
  - f_equal. lia.
  - f_equal; f_equal; lia.
  - f_equal; [f_equal; lia|]. f_equal; [f_equal; lia|]. f_equal; f_equal; lia.
Qed.
Print Assumptions C14_lookup_funcs.

Definition toy_cache : list (list N) :=
  map (fun r => map (fun k => (1000003 * N.of_nat r + 77 * N.of_nat k + 5) * 4099 mod 2 ^ 32) (seq 0 16))
    (seq 0 7).
Lemma toy_cache_ok : cache_ok toy_cache.
Proof. split; [discriminate|]. repeat constructor. Qed.
Example C14_instance :
  generateDatasetItem toy_hash (cfg_ravencoin []) (concat toy_cache) 4000000000 =
    Done (words_bytes (dataset_item toy_hash 512 toy_cache 4000000000)) /\
  NewLookupFunc2048 toy_hash (cfg_ravencoin []) (concat toy_cache) 1073741823 =
    Done (dataset_item toy_hash 512 toy_cache 4294967292 ++
          dataset_item toy_hash 512 toy_cache 4294967293 ++
          dataset_item toy_hash 512 toy_cache 4294967294 ++
          dataset_item toy_hash 512 toy_cache 4294967295).
Proof.
  split.
  - apply (C14_dataset_item toy_hash (cfg_ravencoin []) toy_cache); [exact toy_hash_ok|exact toy_cache_ok|reflexivity].
  - apply (C14_lookup_funcs toy_hash (cfg_ravencoin []) toy_cache 1073741823);
      [exact toy_hash_ok|exact toy_cache_ok|reflexivity|lia].
Qed.
Example C14_items_differ :
  same (dataset_item toy_hash 16 toy_cache 3) (dataset_item toy_hash 16 toy_cache 4) = false.
Proof. vm_compute. reflexivity. Qed.

(** Beyond the stated range the index arithmetic wraps: the second half of the lookup at
    index 2^31 is item 1, not item 2^32 + 1. *)
Theorem C14_wraps_at_2_32 H d cache :
  hash_ok 64 H -> cache_ok cache -> lenN cache < 2 ^ 28 ->
  NewLookupFunc1024 H d (concat cache) (2 ^ 31) =
  Done (dataset_item H (N.to_nat (cf_dataset_parents d)) cache 0 ++
        dataset_item H (N.to_nat (cf_dataset_parents d)) cache 1).
Proof.
  intros HH OK HC.
  transitivity (NewLookupFunc1024 H d (concat cache) 0); [reflexivity|].
  destruct (C14_lookup_funcs H d cache 0 HH OK HC) as (_ & E & _). apply E. lia.
Qed.
Print Assumptions C14_wraps_at_2_32.

(** ** C15 *)

Theorem C15_l1_is_dataset_prefix H d cache buf rows :
  hash_ok 64 H -> cache_ok cache -> lenN cache < 2 ^ 28 ->
  lenN buf = 64 * rows -> rows < 2 ^ 32 ->
  generateL1Cache H d buf (concat cache) =
  Done (words_bytes (concat (map (fun k =>
     dataset_item H (N.to_nat (cf_dataset_parents d)) cache (N.of_nat k)) (seq 0 (N.to_nat rows))))).
Proof. exact (generateL1Cache_spec H d cache buf rows). Qed.
Print Assumptions C15_l1_is_dataset_prefix.

(** Word [w] of the L1 cache is word [w] of the dataset: word [w mod 16] of item [w / 16]. *)
Theorem C15_l1_words H d cache buf rows l1 w :
  hash_ok 64 H -> cache_ok cache -> lenN cache < 2 ^ 28 ->
  lenN buf = 64 * rows -> rows < 2 ^ 32 ->
  generateL1Cache H d buf (concat cache) = Done l1 -> w < 16 * rows ->
  nth (N.to_nat w) (le_words (N.to_nat (16 * rows)) l1) 0 =
  nth (N.to_nat (w mod 16)) (dataset_item H (N.to_nat (cf_dataset_parents d)) cache (w / 16)) 0.
Proof.
  intros HH OK HC HL Hr E Hw.
  rewrite (C15_l1_is_dataset_prefix H d cache buf rows) in E by auto. inversion E; subst l1; clear E.
  set (g := fun k : nat => dataset_item H (N.to_nat (cf_dataset_parents d)) cache (N.of_nat k)).
  assert (B : blocks 16 (map g (seq 0 (N.to_nat rows)))).
  { apply Forall_map, Forall_forall. intros. apply dataset_item_length. }
  rewrite le_words_words_bytes.
  - replace (N.to_nat w) with (16 * N.to_nat (w / 16) + N.to_nat (w mod 16))%nat by lia.
    rewrite (nth_concat_row 16) by (auto; rewrite ?map_length, ?seq_length; lia).
    f_equal. rewrite nth_indep with (d' := g 0%nat) by (rewrite map_length, seq_length; lia).
    rewrite map_nth, seq_nth by lia. unfold g. f_equal. lia.
  - apply Forall_concat, Forall_map, Forall_forall. intros. apply dataset_item_words; auto.
  - rewrite (concat_blocks_length 16) by auto. rewrite map_length, seq_length. lia.
Qed.
Print Assumptions C15_l1_words.
Example C15_instance :
  cf_l1_cache_size (cfg_ravencoin []) = 64 * 256 /\
  generateL1Cache toy_hash (cfg_ravencoin []) (zeros 128) (concat toy_cache) =
    Done (words_bytes (dataset_item toy_hash 512 toy_cache 0 ++ dataset_item toy_hash 512 toy_cache 1)).
Proof.
  split; [reflexivity|].
  rewrite (C15_l1_is_dataset_prefix toy_hash (cfg_ravencoin []) toy_cache (zeros 128) 2);
    [|exact toy_hash_ok|exact toy_cache_ok|reflexivity|reflexivity|lia].
  change (N.to_nat 2) with 2%nat. cbn [map seq concat]. rewrite app_nil_r. reflexivity.
Qed.
