(** Combining rows pairwise, level by level, gives the value of a binary tree. *)
From Coq Require Import Arith List Lia.
Import ListNotations.

Section Levels.
  Context {A : Type} (p : nat -> A -> A -> option A).
  Fixpoint level (f : A -> A -> option A) (rows : list A) : option (list A) :=
    match rows with
    | [] => Some []
    | [_] => None
    | a :: b :: t =>
        match f a b with
        | None => None
        | Some x => match level f t with None => None | Some l => Some (x :: l) end
        end
    end.
  (** [h] levels, the first one numbered [d]. *)
  Fixpoint levels (d h : nat) (rows : list A) : option (list A) :=
    match h with
    | O => Some rows
    | S h' => match level (p d) rows with None => None | Some l => levels (S d) h' l end
    end.
  Fixpoint tree_value (h : nat) (rows : list A) : option A :=
    match h with
    | O => match rows with [x] => Some x | _ => None end
    | S h' =>
        match tree_value h' (firstn (2 ^ h') rows) with
        | None => None
        | Some a => match tree_value h' (skipn (2 ^ h') rows) with None => None | Some b => p h' a b end
        end
    end.

  Lemma level_app f m xs ys : length xs = 2 * m ->
    level f (xs ++ ys) = match level f xs with None => None | Some a => match level f ys with None => None | Some b => Some (a ++ b) end end.
  Proof.
    revert xs. induction m; intros xs L.
    - destruct xs; [|discriminate]. cbn [app level]. destruct (level f ys); reflexivity.
    - destruct xs as [|x [|y xs]]; cbn [length] in L; try lia. cbn [app level].
      destruct (f x y); [|reflexivity]. rewrite IHm by lia. destruct (level f xs); [|reflexivity].
      destruct (level f ys); reflexivity.
  Qed.
  Lemma level_length f m xs l : length xs = 2 * m -> level f xs = Some l -> length l = m.
  Proof.
    revert xs l. induction m; intros xs l L E.
    - destruct xs; [|discriminate]. injection E as <-. reflexivity.
    - destruct xs as [|x [|y xs]]; cbn [length] in L; try lia. cbn [level] in E.
      destruct (f x y); [|discriminate]. destruct (level f xs) eqn:EL; [|discriminate]. injection E as <-.
      cbn [length]. f_equal. apply (IHm xs); auto. lia.
  Qed.
  Lemma levels_app h d m xs ys : length xs = 2 ^ h * m ->
    levels d h (xs ++ ys) = match levels d h xs with None => None | Some a => match levels d h ys with None => None | Some b => Some (a ++ b) end end.
  Proof.
    revert d xs ys m. induction h; intros d xs ys m L; [reflexivity|]. cbn [levels].
    assert (L2 : length xs = 2 * (2 ^ h * m)) by (rewrite L; cbn [Nat.pow]; lia).
    rewrite (level_app _ (2 ^ h * m)) by auto.
    destruct (level (p d) xs) as [a|] eqn:E; [|reflexivity].
    pose proof (level_length _ _ _ _ L2 E) as LA.
    destruct (level (p d) ys) as [b|] eqn:EB.
    - apply (IHh (S d) a b m LA).
    - destruct (levels (S d) h a); reflexivity.
  Qed.
  Lemma levels_length h d m xs l : length xs = 2 ^ h * m -> levels d h xs = Some l -> length l = m.
  Proof.
    revert d xs l. induction h; intros d xs l L E.
    - injection E as <-. cbn [Nat.pow] in L. lia.
    - cbn [levels] in E. destruct (level (p d) xs) as [a|] eqn:EL; [|discriminate].
      apply (IHh (S d) a l); auto. apply (level_length (p d) _ xs); auto. rewrite L. cbn [Nat.pow]. lia.
  Qed.
  Lemma levels_snoc h d xs : levels d (S h) xs = match levels d h xs with None => None | Some l => level (p (d + h)) l end.
  Proof.
    revert d xs. induction h; intros d xs.
    - cbn [levels]. rewrite Nat.add_0_r. destruct (level (p d) xs); reflexivity.
    - change (levels d (S (S h)) xs) with (match level (p d) xs with None => None | Some l => levels (S d) (S h) l end).
      change (levels d (S h) xs) with (match level (p d) xs with None => None | Some l => levels (S d) h l end).
      destruct (level (p d) xs) as [a|]; [|reflexivity]. rewrite IHh.
      replace (S d + h) with (d + S h) by lia. reflexivity.
  Qed.
  Theorem levels_tree h rows : length rows = 2 ^ h ->
    levels 0 h rows = match tree_value h rows with None => None | Some x => Some [x] end.
  Proof.
    revert rows. induction h; intros rows L.
    - destruct rows as [|x [|]]; try discriminate. reflexivity.
    - rewrite levels_snoc. cbn [tree_value Nat.add].
      assert (LF : length (firstn (2 ^ h) rows) = 2 ^ h) by (rewrite firstn_length, L; cbn [Nat.pow]; lia).
      assert (LS : length (skipn (2 ^ h) rows) = 2 ^ h) by (rewrite skipn_length, L; cbn [Nat.pow]; lia).
      rewrite <- (firstn_skipn (2 ^ h) rows) at 1. rewrite (levels_app h 0 1) by lia.
      rewrite (IHh _ LF), (IHh _ LS).
      destruct (tree_value h (firstn (2 ^ h) rows)) as [a|]; [|reflexivity].
      destruct (tree_value h (skipn (2 ^ h) rows)) as [b|]; [|reflexivity].
      cbn [app level]. destruct (p h a b); reflexivity.
  Qed.
End Levels.
