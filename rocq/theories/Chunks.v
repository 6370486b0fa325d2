(** Flat buffers seen as lists of equal blocks. *)
From Coq Require Import NArith ZArith List Bool Lia ZifyBool ZifyN ZifyNat.
From Verif Require Import Base BaseFacts CryptoModel CryptoProofs.
Import ListNotations.
Open Scope N_scope.

Definition blocks {A} (k : nat) (R : list (list A)) : Prop := Forall (fun r => length r = k) R.

Section Blocks.
Context {A : Type}.
Implicit Types R : list (list A).

Lemma blocks_nth k R i : blocks k R -> (i < length R)%nat -> length (nth i R []) = k.
Proof. intros H L. unfold blocks in H. rewrite Forall_forall in H. apply H. apply nth_In; auto. Qed.

Lemma blocks_set_nth k R i r : blocks k R -> length r = k -> blocks k (set_nth R i r).
Proof. intros. apply Forall_set_nth; auto. Qed.

Lemma concat_blocks_length k R : blocks k R -> length (concat R) = (k * length R)%nat.
Proof. induction 1; cbn [concat length]; [lia|]. rewrite app_length. lia. Qed.

Lemma concat_at R i :
  (i < length R)%nat -> concat R = concat (firstn i R) ++ nth i R [] ++ concat (skipn (S i) R).
Proof.
  revert i; induction R as [|r R IH]; intros i H; cbn [length] in H; [lia|].
  destruct i; cbn [firstn concat nth skipn app]; auto.
  rewrite <- app_assoc. f_equal. apply IH. lia.
Qed.

Lemma firstn_blocks_length k R i :
  blocks k R -> (i <= length R)%nat -> length (concat (firstn i R)) = (k * i)%nat.
Proof.
  intros B H. rewrite (concat_blocks_length k) by (apply Forall_firstn; auto).
  rewrite firstn_length, Nat.min_l by auto. auto.
Qed.

Lemma skipn_concat k R i :
  blocks k R -> (i <= length R)%nat -> skipn (k * i) (concat R) = concat (skipn i R).
Proof.
  intros B H. rewrite <- (firstn_skipn i R) at 1. rewrite concat_app.
  rewrite <- (firstn_blocks_length k R i) by auto.
  rewrite skipn_app, skipn_all, Nat.sub_diag. reflexivity.
Qed.

Lemma skipn_nth_cons (R : list (list A)) i :
  (i < length R)%nat -> skipn i R = nth i R [] :: skipn (S i) R.
Proof.
  revert i; induction R as [|r R IH]; intros i H; cbn [length] in H; [lia|].
  destruct i; cbn [skipn nth]; auto. rewrite IH by lia. reflexivity.
Qed.

Lemma block_at k R i :
  blocks k R -> (i < length R)%nat -> firstn k (skipn (k * i) (concat R)) = nth i R [].
Proof.
  intros B H. rewrite (skipn_concat k) by (auto; lia). rewrite skipn_nth_cons by auto.
  cbn [concat]. rewrite firstn_app, blocks_nth with (k := k), Nat.sub_diag by auto.
  rewrite firstn_O, app_nil_r. apply firstn_all2. rewrite (blocks_nth k) by auto. auto.
Qed.

Lemma overwrite_block k R i r :
  blocks k R -> (i < length R)%nat -> length r = k ->
  overwrite (concat R) (k * i) r = concat (set_nth R i r).
Proof.
  intros B H L. rewrite (concat_at R i) by auto.
  rewrite <- (firstn_blocks_length k R i) by (auto; lia).
  rewrite overwrite_at by (rewrite (blocks_nth k); auto).
  rewrite set_nth_split by auto. rewrite concat_app. reflexivity.
Qed.

Lemma slice_block k R i a b :
  blocks k R -> i < lenN R -> a = i * N.of_nat k -> b = a + N.of_nat k ->
  slice (concat R) a b = Done (nth (N.to_nat i) R []).
Proof.
  intros B H -> ->.
  assert (L := concat_blocks_length k R B). unfold lenN in H.
  rewrite slice_Done; [|lia|unfold lenN; nia].
  replace (N.to_nat (i * N.of_nat k + N.of_nat k - i * N.of_nat k)) with k by lia.
  replace (N.to_nat (i * N.of_nat k)) with (k * N.to_nat i)%nat by lia.
  rewrite block_at by (auto; lia). reflexivity.
Qed.

Lemma slice_from_block k R i a :
  blocks k R -> i <= lenN R -> a = i * N.of_nat k ->
  slice_from (concat R) a = Done (concat (skipn (N.to_nat i) R)).
Proof.
  intros B H ->. assert (L := concat_blocks_length k R B). unfold lenN in H.
  unfold slice_from. rewrite slice_Done; [|unfold lenN; nia|lia].
  replace (N.to_nat (i * N.of_nat k)) with (k * N.to_nat i)%nat by lia.
  rewrite (skipn_concat k) by (auto; lia).
  rewrite firstn_all2; auto.
  rewrite (concat_blocks_length k) by (apply Forall_skipn; auto).
  rewrite skipn_length. unfold lenN. nia.
Qed.

Lemma copy_block k R i a r :
  blocks k R -> i < lenN R -> a = i * N.of_nat k -> length r = k ->
  copy_at (concat R) a r = Done (concat (set_nth R (N.to_nat i) r)).
Proof.
  intros B H -> L. assert (LC := concat_blocks_length k R B). unfold lenN in H.
  unfold copy_at. destruct (N.leb_spec (i * N.of_nat k) (lenN (concat R))); [|unfold lenN in *; nia].
  replace (N.to_nat (i * N.of_nat k)) with (k * N.to_nat i)%nat by lia.
  rewrite overwrite_block by (auto; lia). reflexivity.
Qed.

(** Cutting a list into [n] blocks of [k]. *)
Fixpoint cut (k n : nat) (l : list A) : list (list A) :=
  match n with
  | O => []
  | S m => firstn k l :: cut k m (skipn k l)
  end.

Lemma cut_length k n l : length (cut k n l) = n.
Proof. revert l; induction n; intros; cbn; auto. Qed.

Lemma cut_blocks k n l : length l = (k * n)%nat -> blocks k (cut k n l).
Proof.
  revert l; induction n; intros l H; cbn [cut]; constructor.
  - rewrite firstn_length. lia.
  - apply IHn. rewrite skipn_length. lia.
Qed.

Lemma cut_concat k n l : length l = (k * n)%nat -> concat (cut k n l) = l.
Proof.
  revert l; induction n; intros l H; cbn [cut concat].
  - destruct l; cbn in *; auto. lia.
  - rewrite IHn by (rewrite skipn_length; lia). apply firstn_skipn.
Qed.

Lemma concat_cut k n (R : list (list A)) : blocks k R -> length R = n -> cut k n (concat R) = R.
Proof.
  intros B <-. induction B as [|r R L B IH]; cbn [cut length concat]; auto.
  rewrite firstn_app, skipn_app, L, Nat.sub_diag, firstn_O, app_nil_r.
  rewrite firstn_all2, skipn_all2 by lia. cbn [app skipn]. f_equal. exact IH.
Qed.

Lemma concat_blocks_inj k (R S : list (list A)) :
  blocks k R -> blocks k S -> length R = length S -> concat R = concat S -> R = S.
Proof.
  intros BR BS L E. rewrite <- (concat_cut k (length R) R), E, L by auto. apply concat_cut; auto.
Qed.

Lemma Forall_cut (P : A -> Prop) k n l : Forall P l -> Forall (Forall P) (cut k n l).
Proof.
  revert l; induction n; intros l H; cbn; constructor; auto using Forall_firstn, Forall_skipn.
Qed.
End Blocks.

(** ** Words inside byte buffers *)

Lemma put_word W i a o v :
  blocks 4 W -> i < lenN W -> a = i * 4 ->
  (tail <- slice_from (concat W) a ;;
   tail' <- put_uint32 o tail v ;;
   copy_at (concat W) a tail') = Done (concat (set_nth W (N.to_nat i) (enc32 o v))).
Proof.
  intros B H ->. unfold lenN in H.
  rewrite (slice_from_block 4 W i) by (auto; unfold lenN; lia). cbn [bind].
  rewrite skipn_nth_cons by lia. cbn [concat].
  unfold put_uint32.
  assert (L4 : length (nth (N.to_nat i) W []) = 4%nat) by (apply blocks_nth; auto; lia).
  set (rest := concat (skipn (S (N.to_nat i)) W)).
  destruct (N.leb_spec 4 (lenN (nth (N.to_nat i) W [] ++ rest))).
  2:{ rewrite lenN_app in *. unfold lenN in *. lia. }
  fold (enc32 o v).
  assert (E : copy_at (nth (N.to_nat i) W [] ++ rest) 0 (enc32 o v) = Done (enc32 o v ++ rest)).
  { unfold copy_at. destruct (N.leb_spec 0 (lenN (nth (N.to_nat i) W [] ++ rest))); [|lia].
    f_equal. change (N.to_nat 0) with (length (@nil N)).
    apply (overwrite_at [] (nth (N.to_nat i) W []) rest (enc32 o v)). rewrite enc32_length; auto. }
  rewrite E. cbn [bind].
  unfold copy_at. destruct (N.leb_spec (i * 4) (lenN (concat W))).
  2:{ unfold lenN in *. rewrite (concat_blocks_length 4) in * by auto. lia. }
  f_equal. rewrite (concat_at W (N.to_nat i)) by lia. fold rest.
  replace (N.to_nat (i * 4)) with (length (concat (firstn (N.to_nat i) W))).
  2:{ rewrite (firstn_blocks_length 4) by (auto; lia). lia. }
  rewrite <- (app_nil_r (nth (N.to_nat i) W [] ++ rest)).
  rewrite overwrite_at by (rewrite !app_length, enc32_length; lia).
  rewrite set_nth_split, concat_app by lia. cbn [concat]. fold rest. rewrite app_nil_r. reflexivity.
Qed.

Lemma read_word W i a :
  blocks 4 W -> i < lenN W -> a = i * 4 ->
  (tail <- slice_from (concat W) a ;; le_u32 tail) = Done (le_value (nth (N.to_nat i) W [])).
Proof.
  intros B H ->. unfold lenN in H.
  rewrite (slice_from_block 4 W i) by (auto; unfold lenN; lia). cbn [bind].
  rewrite skipn_nth_cons by lia. cbn [concat].
  assert (L4 : length (nth (N.to_nat i) W []) = 4%nat) by (apply blocks_nth; auto; lia).
  unfold le_u32.
  set (rest := concat (skipn (S (N.to_nat i)) W)).
  destruct (N.leb_spec 4 (lenN (nth (N.to_nat i) W [] ++ rest))).
  2:{ rewrite lenN_app in *. unfold lenN in *. lia. }
  rewrite firstn_app, L4. cbn [Nat.sub]. rewrite firstn_O, app_nil_r, firstn_all2 by lia. reflexivity.
Qed.

Lemma flat_map_le_concat (l : list N) : flat_map (le_bytes 4) l = concat (map (le_bytes 4) l).
Proof. apply flat_map_concat_map. Qed.

Lemma blocks_map_le l : blocks 4 (map (le_bytes 4) l).
Proof. apply Forall_map. apply Forall_forall. intros. apply le_bytes_length. Qed.

Lemma put_word0 W o v :
  blocks 4 W -> 0 < lenN W ->
  put_uint32 o (concat W) v = Done (concat (set_nth W 0 (enc32 o v))).
Proof.
  intros B H. destruct W as [|r W]; [unfold lenN in H; cbn in H; lia|].
  inversion B; subst. cbn [concat set_nth]. unfold put_uint32.
  destruct (N.leb_spec 4 (lenN (r ++ concat W))).
  2:{ rewrite lenN_app in *. unfold lenN in *. lia. }
  fold (enc32 o v). unfold copy_at.
  destruct (N.leb_spec 0 (lenN (r ++ concat W))); [|lia].
  f_equal. apply (overwrite_at [] r (concat W) (enc32 o v)). rewrite enc32_length; auto.
Qed.

Lemma nth_map2 (f : N -> N -> N) a b i :
  length a = length b -> (i < length a)%nat ->
  nth i (map (fun '(x, y) => f x y) (combine a b)) 0 = f (nth i a 0) (nth i b 0).
Proof.
  revert b i; induction a as [|x a IH]; intros [|y b] i L Hi; cbn in L, Hi; try lia.
  destruct i; cbn; auto. apply IH; lia.
Qed.
