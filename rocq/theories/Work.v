(** Counting questions: how often a computation has to consult a function it is given. *)
From Coq Require Import NArith ZArith Arith List Bool Lia ZifyBool ZifyN ZifyNat.
From Verif Require Import Base.
Import ListNotations.
Open Scope N_scope.

(** [asks W n f]: for every function [o] whose values satisfy [W], [f o] can be found by at most [n] questions to
    [o]: it is the same for all such [o], or it is found by asking one question and then, depending on the answer,
    at most [n - 1] more. *)
Inductive asks {A B R} (W : B -> Prop) : nat -> ((A -> B) -> R) -> Prop :=
| AsksNothing n r f : (forall o, (forall a, W (o a)) -> f o = r) -> asks W n f
| AsksFirst n a g f : (forall o, (forall a, W (o a)) -> f o = g (o a) o) ->
    (forall b, W b -> asks W n (g b)) -> asks W (S n) f.

(** What the user sees: for each [o] the result is fixed by [n] of its values. *)
Lemma asks_determined {A B R} (W : B -> Prop) n (f : (A -> B) -> R) : asks W n f ->
  forall o, (forall a, W (o a)) -> exists asked, (length asked <= n)%nat /\
  forall o', (forall a, W (o' a)) -> (forall a, In a asked -> o' a = o a) -> f o' = f o.
Proof.
  induction 1 as [n r f E|n a g f E _ IH]; intros o V.
  - exists []. split; [cbn [length]; lia|]. intros o' V' _. rewrite !E by auto. reflexivity.
  - destruct (IH (o a) (V a) o V) as (l & L & D). exists (a :: l). split; [cbn [length]; lia|].
    intros o' V' EQ. rewrite !E by auto. rewrite (EQ a) by (left; reflexivity). apply D; auto. intros b I. apply EQ. right. exact I.
Qed.

Section Rules.
Context {A B : Type} {W : B -> Prop}.

Lemma asks_const {R} n (r : R) : asks (A := A) W n (fun _ => r).
Proof. apply (AsksNothing _ n r). auto. Qed.
Lemma asks_ext {R} n (f f' : (A -> B) -> R) : (forall o, (forall a, W (o a)) -> f' o = f o) -> asks W n f -> asks W n f'.
Proof.
  intros E H. destruct H as [n r f F|n a g f F G].
  - apply (AsksNothing _ n r). intros o V. rewrite E; auto.
  - apply (AsksFirst _ n a g); auto. intros o V. rewrite E; auto.
Qed.
Lemma asks_mono {R} n m (f : (A -> B) -> R) : (n <= m)%nat -> asks W n f -> asks W m f.
Proof.
  intros L H. revert m L. induction H as [n r f F|n a g f F G IH]; intros m L.
  - apply (AsksNothing _ m r). exact F.
  - destruct m as [|m]; [lia|]. apply (AsksFirst _ m a g); auto. intros b Wb. apply IH; auto. lia.
Qed.
Lemma asks_one (a : A) : asks W 1 (fun o => o a).
Proof. apply (AsksFirst _ 0 a (fun b _ => b)); auto. intros b _. apply asks_const. Qed.
Lemma asks_let {X R} n m (f : (A -> B) -> X) (g : X -> (A -> B) -> R) :
  asks W n f -> (forall x, asks W m (g x)) -> asks W (n + m) (fun o => g (f o) o).
Proof.
  intros H G. induction H as [n r f F|n a h f F _ IH].
  - apply (asks_mono m); [lia|]. apply (asks_ext m (g r)); [|apply G]. intros o V. rewrite F; auto.
  - cbn [Nat.add]. apply (AsksFirst _ (n + m) a (fun b o => g (h b o) o)).
    + intros o V. rewrite F; auto.
    + exact IH.
Qed.
Lemma asks_bind {X R} n m (f : (A -> B) -> outcome X) (g : X -> (A -> B) -> outcome R) :
  asks W n f -> (forall x, asks W m (g x)) -> asks W (n + m) (fun o => bind (f o) (fun x => g x o)).
Proof.
  intros H G. apply (asks_let n m f (fun y o => bind y (fun x => g x o))); auto.
  intros [x| |]; cbn [bind]; [apply G|apply asks_const|apply asks_const].
Qed.
(** One question, whose answer is used in the rest. *)
Lemma asks_ask {R} m a (g : (A -> B) -> B -> R) : (forall b, asks W m (fun o => g o b)) -> asks W (S m) (fun o => g o (o a)).
Proof. intros G. apply (asks_let 1 m (fun o => o a) (fun b o => g o b)); [apply asks_one|exact G]. Qed.
(** A step that asks nothing. *)
Lemma asks_bind_eq {X R} m (c : outcome X) (g : X -> (A -> B) -> outcome R) :
  (forall x, c = Done x -> asks W m (g x)) -> asks W m (fun o => bind c (fun x => g x o)).
Proof. intros G. destruct c; cbn [bind]; [apply G; reflexivity|apply asks_const|apply asks_const]. Qed.
Lemma asks_bind0 {X R} m (c : outcome X) (g : X -> (A -> B) -> outcome R) :
  (forall x, asks W m (g x)) -> asks W m (fun o => bind c (fun x => g x o)).
Proof. intros G. destruct c; cbn [bind]; [apply G|apply asks_const|apply asks_const]. Qed.
Lemma asks_last {X R} n (f : (A -> B) -> outcome X) (g : X -> outcome R) : asks W n f -> asks W n (fun o => bind (f o) g).
Proof.
  intros H. apply (asks_mono (n + 0)); [lia|]. apply (asks_bind n 0 f (fun x _ => g x)); auto. intros; apply asks_const.
Qed.
Lemma asks_for_up {S} k m (body : N -> S -> (A -> B) -> outcome S) : forall i s,
  (forall j t, asks W m (body j t)) -> asks W (k * m) (fun o => for_up k i (fun j t => body j t o) s).
Proof.
  induction k as [|k IH]; intros i s H; cbn [for_up Nat.mul]; [apply asks_const|].
  apply (asks_bind m (k * m) (body i s) (fun s' o => for_up k (i + 1) (fun j t => body j t o) s')); auto.
Qed.
Lemma asks_for_n {S} k m (body : N -> S -> (A -> B) -> outcome S) s :
  (forall j t, asks W m (body j t)) -> asks W (N.to_nat k * m) (fun o => for_n k (fun j t => body j t o) s).
Proof. apply asks_for_up. Qed.
Lemma asks_for_break {S R} k m (body : N -> S -> (A -> B) -> outcome (step S R)) : forall i s,
  (forall j t, asks W m (body j t)) -> asks W (k * m) (fun o => for_break k i (fun j t => body j t o) s).
Proof.
  induction k as [|k IH]; intros i s H; cbn [for_break Nat.mul]; [apply asks_const|].
  apply (asks_bind m (k * m) (body i s) (fun st o => match st with
    | Continue s' => for_break k (i + 1) (fun j t => body j t o) s' | Break r => Done (inl r) end)); auto.
  intros [s'|r]; [apply IH; auto|apply asks_const].
Qed.
End Rules.

(** Answers that are themselves computed from another function. *)
Lemma asks_compose {A B C D R} {W : D -> Prop} n m (f : (A -> B) -> R) (h : A -> (C -> D) -> B) :
  asks (fun _ => True) n f -> (forall a, asks W m (h a)) -> asks W (n * m) (fun o => f (fun a => h a o)).
Proof.
  intros H G. induction H as [n r f F|n a g f F _ IH].
  - apply (AsksNothing _ _ r). intros o _. apply F. auto.
  - cbn [Nat.mul]. apply (asks_ext (m + n * m) (fun o => g (h a o) (fun a => h a o))).
    + intros o _. apply (F (fun a => h a o)). auto.
    + apply (asks_let m (n * m) (h a) (fun b o => g b (fun a => h a o))); auto.
Qed.

(** Ask for the value at [a], wherever it occurs. *)
Ltac ask_at a :=
  match goal with |- @asks ?A ?B ?R ?W (S ?m) ?f =>
    let g := constr:(fun o : A -> B => ltac:(
      let body := eval cbv beta in (f o) in
      let p := eval pattern (o a) in body in
      match p with ?h _ => exact h end)) in
    apply (@asks_ask A B W R m a g); intro
  end.
