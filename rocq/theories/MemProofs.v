(** Proofs about MemModel.v: access discipline, independence of calls that run together, rules for relating a
    program to a model on lists. *)
From Coq Require Import NArith ZArith Arith List Bool Lia ZifyBool ZifyN ZifyNat.
From Verif Require Import Base BaseFacts CryptoModel MemModel.
Import ListNotations.
Open Scope N_scope.
Ltac Zify.zify_post_hook ::= Z.div_mod_to_equations.

(** ** Discipline: reads what was there before or is its own, writes only what is its own *)

Definition visible (me : N) (l : loc) : Prop := owner l = 0 \/ owner l = me.
Fixpoint safe {A} (me : N) (p : prog A) (Q : A -> Prop) : Prop :=
  match p with
  | Ret a => Q a
  | Fail | Spent => True
  | Make n k => forall l, owner l = me -> safe me (k l) Q
  | Load l i k => visible me l /\ forall v, safe me (k v) Q
  | Store l i v k => owner l = me /\ safe me k Q
  end.

Lemma safe_weaken {A} me (p : prog A) (Q R : A -> Prop) : (forall a, Q a -> R a) -> safe me p Q -> safe me p R.
Proof.
  intros QR. induction p; cbn [safe]; auto.
  - intros (V & S). auto.
  - intros (O & S). auto.
Qed.
Lemma safe_bind {A B} me (p : prog A) (f : A -> prog B) Q R :
  safe me p Q -> (forall a, Q a -> safe me (f a) R) -> safe me (pbind p f) R.
Proof.
  intros S F. induction p; cbn [safe pbind] in *; auto.
  - destruct S as (V & S). auto.
  - destruct S as (O & S). auto.
Qed.
Lemma safe_for {S} me n i (body : N -> S -> prog S) s (I : S -> Prop) :
  I s -> (forall j s, I s -> safe me (body j s) I) -> safe me (pfor n i body s) I.
Proof.
  intros H B. revert i s H. induction n; intros i s H; cbn [pfor]; [exact H|].
  eapply safe_bind; [apply B; exact H|]. intros s' H'. apply IHn. exact H'.
Qed.

Lemma safe_pure {A} me (o : outcome A) : safe me (pure o) (fun a => o = Done a).
Proof. destruct o; cbn; auto. Qed.

(** Slices that may be read, and slices that may be written. *)
Definition readable (me : N) (s : sl) : Prop := visible me (s_loc s).
Definition writable (me : N) (s : sl) : Prop := owner (s_loc s) = me.
Lemma writable_readable me s : writable me s -> readable me s.
Proof. intros W. right. exact W. Qed.

Lemma safe_make me n : safe me (make n) (writable me).
Proof. cbn. intros l O. exact O. Qed.
Lemma safe_get me s i : readable me s -> safe me (get s i) (fun _ => True).
Proof. intros R. unfold get. destruct (i <? s_len s); cbn; auto. Qed.
Lemma safe_set me s i v : writable me s -> safe me (set s i v) (fun _ => True).
Proof. intros R. unfold set. destruct (i <? s_len s); cbn; auto. Qed.
Lemma safe_cut me s a b (P : loc -> Prop) : P (s_loc s) -> safe me (cut_at s a b) (fun s' => P (s_loc s')).
Proof. intros R. unfold cut_at. destruct (_ && _); cbn; auto. Qed.
Lemma safe_loads me l i n : visible me l -> safe me (loads l i n) (fun _ => True).
Proof.
  intros V. revert i. induction n; intros i; cbn [loads]; [exact I|]. cbn [pbind safe]. split; [exact V|]. intros v.
  eapply safe_bind; [apply IHn|]. cbn. auto.
Qed.
Lemma safe_stores me l i x : owner l = me -> safe me (stores l i x) (fun _ => True).
Proof. intros O. revert i. induction x; intros i; cbn; auto. Qed.
Lemma safe_read me s : readable me s -> safe me (read s) (fun _ => True).
Proof. apply safe_loads. Qed.
Lemma safe_copy me d s : writable me d -> readable me s -> safe me (copy d s) (fun _ => True).
Proof. intros W R. unfold copy. eapply safe_bind; [apply safe_loads; exact R|]. intros. apply safe_stores. exact W. Qed.
Lemma safe_put32 me o s v : writable me s -> safe me (put32 o s v) (fun _ => True).
Proof. intros W. unfold put32. destruct (4 <=? s_len s); [apply safe_stores; exact W|exact I]. Qed.
Lemma safe_put64 me o s v : writable me s -> safe me (put64 o s v) (fun _ => True).
Proof. intros W. unfold put64. destruct (8 <=? s_len s); [apply safe_stores; exact W|exact I]. Qed.
Lemma safe_get32 me o s : readable me s -> safe me (get32 o s) (fun _ => True).
Proof. intros R. unfold get32. destruct (4 <=? s_len s); [|exact I]. eapply safe_bind; [apply safe_loads; exact R|]. cbn. auto. Qed.
Lemma safe_get64 me o s : readable me s -> safe me (get64 o s) (fun _ => True).
Proof. intros R. unfold get64. destruct (8 <=? s_len s); [|exact I]. eapply safe_bind; [apply safe_loads; exact R|]. cbn. auto. Qed.
Lemma safe_append me room d s : writable me d -> readable me s -> safe me (append room d s) (writable me).
Proof.
  intros W R. unfold append. eapply safe_bind; [apply safe_read; exact R|]. intros x _.
  destruct (_ <=? _).
  - eapply safe_bind; [apply safe_stores; exact W|]. intros _ _. cbn. exact W.
  - eapply safe_bind; [apply safe_read, writable_readable; exact W|]. intros y _. cbn [safe]. intros l O.
    eapply safe_bind; [apply safe_stores; exact O|]. intros _ _. cbn. exact O.
Qed.
Lemma safe_hash_new me H n s : readable me s -> safe me (hash_new H n s) (writable me).
Proof.
  intros R. unfold hash_new. eapply safe_bind; [apply safe_read; exact R|]. intros x _.
  eapply safe_bind; [apply safe_make|]. intros r W. eapply safe_bind; [apply safe_stores; exact W|]. intros _ _. cbn. exact W.
Qed.

Lemma safe_for_n {S} me n (body : N -> S -> prog S) s (I : S -> Prop) :
  I s -> (forall j s, I s -> safe me (body j s) I) -> safe me (pfor_n n body s) I.
Proof. apply safe_for. Qed.
Lemma safe_for_ix {S} me n i (body : N -> S -> prog S) s (I : N -> S -> Prop) :
  I i s -> (forall j s, i <= j -> j < i + N.of_nat n -> I j s -> safe me (body j s) (I (j + 1))) -> safe me (pfor n i body s) (I (i + N.of_nat n)).
Proof.
  revert i s. induction n; intros i s H B; cbn [pfor].
  - replace (i + N.of_nat 0) with i by lia. exact H.
  - eapply safe_bind; [apply B; [lia|lia|exact H]|]. intros s' H'.
    replace (i + N.of_nat (Datatypes.S n)) with (i + 1 + N.of_nat n) by lia. apply IHn; [exact H'|].
    intros j s0 L1 L2 H0. apply B; auto; lia.
Qed.
Lemma safe_true {A} me (p : prog A) Q : safe me p Q -> safe me p (fun _ => True).
Proof. apply safe_weaken. auto. Qed.
Lemma safe_cut_w me s a b : writable me s -> safe me (cut_at s a b) (writable me).
Proof. exact (safe_cut me s a b (fun l => owner l = me)). Qed.
Lemma safe_cut_r me s a b : readable me s -> safe me (cut_at s a b) (readable me).
Proof. exact (safe_cut me s a b (visible me)). Qed.
Lemma safe_from_w me s a : writable me s -> safe me (cut_from s a) (writable me).
Proof. exact (safe_cut me s a (s_len s) (fun l => owner l = me)). Qed.
Lemma safe_from_r me s a : readable me s -> safe me (cut_from s a) (readable me).
Proof. exact (safe_cut me s a (s_len s) (visible me)). Qed.
Lemma safe_ret {A} me (a : A) (Q : A -> Prop) : Q a -> safe me (Ret a) Q.
Proof. exact (fun q => q). Qed.

Create HintDb safe.
Ltac rd := solve [assumption | apply writable_readable; assumption | (left; assumption)].
(** Straight-line code: the loops left over are those whose state needs a word. *)
Ltac safe_atom :=
  lazymatch goal with
  | |- safe _ (make _) _ => apply safe_make
  | |- safe _ (get _ _) _ => apply safe_get; rd
  | |- safe _ (set _ _ _) _ => apply safe_set; assumption
  | |- safe _ (cut_at _ _ _) _ => first [apply safe_cut_w; assumption | apply safe_cut_r; rd]
  | |- safe _ (cut_from _ _) _ => first [apply safe_from_w; assumption | apply safe_from_r; rd]
  | |- safe _ (read _) _ => apply safe_read; rd
  | |- safe _ (copy _ _) _ => apply safe_copy; [assumption|rd]
  | |- safe _ (put32 _ _ _) _ => apply safe_put32; assumption
  | |- safe _ (put64 _ _ _) _ => apply safe_put64; assumption
  | |- safe _ (get32 _ _) _ => apply safe_get32; rd
  | |- safe _ (get64 _ _) _ => apply safe_get64; rd
  | |- safe _ (stores _ _ _) _ => apply safe_stores; assumption
  | |- safe _ (append _ _ _) _ => apply safe_append; [assumption|rd]
  | |- safe _ (hash_new _ _ _) _ => apply safe_hash_new; rd
  | |- safe _ (pure _) _ => apply safe_pure
  | |- safe _ (Ret _) _ => apply safe_ret; solve [exact I | assumption | cbn [fst snd]; split; assumption | eauto with safe]
  | |- _ => solve [eauto with safe]
  end.
Ltac safe_go :=
  lazymatch goal with
  | |- safe _ (pbind _ _) _ => eapply safe_bind; [safe_go|cbv beta; intros; safe_go]
  | |- safe _ (pfor_n _ _ tt) _ => apply (safe_for_n _ _ _ _ (fun _ => True)); [exact I|intros; safe_go]
  | |- safe _ (pfor _ _ _ tt) _ => apply (safe_for _ _ _ _ _ (fun _ => True)); [exact I|intros; safe_go]
  | |- safe _ (if ?b then _ else _) _ => destruct b; safe_go
  | |- safe _ (let _ := _ in _) _ => cbv zeta; safe_go
  | |- safe _ Fail _ => exact I
  | |- safe _ Spent _ => exact I
  | |- safe _ _ _ => safe_atom
  | |- _ => idtac
  end.

(** ** Calls that run together *)

Lemma loc_eqb_spec a b : reflect (a = b) (loc_eqb a b).
Proof.
  unfold loc_eqb, owner, serial. destruct a as [a1 a2], b as [b1 b2]. cbn.
  destruct (N.eqb_spec a1 b1), (N.eqb_spec a2 b2); subst; constructor; congruence.
Qed.
Lemma mset_same m l x : mset m l x l = x.
Proof. unfold mset. destruct (loc_eqb_spec l l); congruence. Qed.
Lemma mset_other m l x l' : l' <> l -> mset m l x l' = m l'.
Proof. intros NE. unfold mset. destruct (loc_eqb_spec l' l); congruence. Qed.

(** Memories that look the same to a call. *)
Definition same_view (me : N) (m m' : memory) : Prop := forall l, visible me l -> m l = m' l.
Lemma same_view_mset me m m' l x : same_view me m m' -> same_view me (mset m l x) (mset m' l x).
Proof. intros SV l' V. unfold mset. destruct (loc_eqb l' l); auto. Qed.

(** A call goes on as it would alone. *)
Lemma step_alone {A} me (p p' : prog A) m m' next next' mt Q :
  safe me p Q -> same_view me mt m -> mstep me (m, p, next) (m', p', next') ->
  exists mt', run me p mt next = run me p' mt' next' /\ same_view me mt' m' /\ safe me p' Q /\
    (forall l, owner l <> me -> m' l = m l).
Proof.
  intros S SV ST. inversion ST; subst; clear ST; cbn [safe] in S.
  - exists (mset mt (me, next) (zeros n)). split; [reflexivity|]. split; [apply same_view_mset; exact SV|].
    split; [apply S; reflexivity|]. intros l O. apply mset_other. intros ->. apply O. reflexivity.
  - destruct S as (V & S). exists mt. cbn [run]. rewrite (SV l V). match goal with H : nth_error _ _ = _ |- _ => rewrite H end. repeat split; auto.
  - destruct S as (V & S). exists mt. cbn [run]. rewrite (SV l V). match goal with H : nth_error _ _ = _ |- _ => rewrite H end. repeat split; auto.
  - destruct S as (O & S). exists (mset mt l (set_nth (mt l) (N.to_nat i) v)). cbn [run].
    rewrite (SV l (or_intror O)). replace (i <? lenN (m l)) with true by lia.
    split; [reflexivity|]. split; [apply same_view_mset; exact SV|]. split; [exact S|].
    intros l' O'. apply mset_other. congruence.
  - destruct S as (O & S). exists mt. cbn [run]. rewrite (SV l (or_intror O)). replace (i <? lenN (m' l)) with false by lia.
    repeat split; auto.
Qed.

Lemma nth_error_set_nth {A} (l : list A) i j v :
  nth_error (set_nth l i v) j = if Nat.eqb j i then match nth_error l i with Some _ => Some v | None => None end else nth_error l j.
Proof.
  revert i j. induction l as [|x l IH]; intros i j; cbn [set_nth].
  - destruct j, i; cbn; auto. destruct (Nat.eqb j i); auto.
  - destruct i, j; cbn [set_nth nth_error Nat.eqb]; auto.
Qed.

Definition started {A} (ps : list (prog A)) : calls A := map (fun p => (p, 0)) ps.
Lemma together {A} (ps : list (prog A)) Q m0 s :
  (forall t p, nth_error ps t = Some p -> safe (N.of_nat t + 1) p Q) ->
  csteps (m0, started ps) s ->
  (forall l, owner l = 0 -> fst s l = m0 l) /\
  length (snd s) = length ps /\
  forall t p p' n', nth_error ps t = Some p -> nth_error (snd s) t = Some (p', n') ->
    exists mt, run (N.of_nat t + 1) p m0 0 = run (N.of_nat t + 1) p' mt n' /\
      same_view (N.of_nat t + 1) mt (fst s) /\ safe (N.of_nat t + 1) p' Q.
Proof.
  intros SF ST. remember (m0, started ps) as s0 eqn:E0. induction ST as [s|s s' s'' ST IH C]; subst s.
  - cbn [fst snd]. split; [reflexivity|]. split; [apply map_length|]. intros t p p' n' T T'. unfold started in T'.
    rewrite nth_error_map, T in T'. injection T' as <- <-. exists m0. repeat split; auto.
  - specialize (IH eq_refl). destruct IH as (SH & LEN & IH). destruct C as [m c t p next m' p' next' T MS]. cbn [fst snd] in *.
    destruct (nth_error ps t) as [p0|] eqn:TP.
    2:{ exfalso. apply nth_error_None in TP. assert (X : nth_error c t <> None) by congruence. apply nth_error_Some in X. lia. }
    destruct (IH t p0 p next TP T) as (mt & E & SV & S).
    destruct (step_alone _ _ _ _ _ _ _ _ _ S SV MS) as (mt' & E' & SV' & S' & FR).
    split; [|split].
    + intros l O. rewrite FR by lia. apply SH. exact O.
    + rewrite <- LEN. clear. revert t. induction c; intros [|t]; cbn; auto.
    + intros u q q' n' U U'. rewrite nth_error_set_nth in U'. destruct (Nat.eqb_spec u t) as [->|NE].
      * rewrite T in U'. injection U' as <- <-. rewrite TP in U. injection U as <-. exists mt'. rewrite E. repeat split; auto.
      * destruct (IH u q q' n' U U') as (mu & EU & SVU & SU). exists mu. split; [exact EU|]. split; [|exact SU].
        intros l V. rewrite (SVU l V). symmetry. apply FR. destruct V as [V|V]; lia.
Qed.

(** No two calls are ever about to access the same array, one of them writing. *)
Lemma no_race {A} (ps : list (prog A)) Q m0 s t u pt pu nt nu l i j w :
  (forall t p, nth_error ps t = Some p -> safe (N.of_nat t + 1) p Q) ->
  csteps (m0, started ps) s ->
  nth_error (snd s) t = Some (pt, nt) -> nth_error (snd s) u = Some (pu, nu) -> t <> u ->
  access pt = Some (l, i, true) -> access pu = Some (l, j, w) -> False.
Proof.
  intros SF ST T U NE AT AU. destruct (together ps Q m0 s SF ST) as (_ & LEN & X).
  assert (TP : exists p, nth_error ps t = Some p).
  { destruct (nth_error ps t) eqn:E; eauto. apply nth_error_None in E. assert (Y : nth_error (snd s) t <> None) by congruence. apply nth_error_Some in Y. lia. }
  assert (UP : exists p, nth_error ps u = Some p).
  { destruct (nth_error ps u) eqn:E; eauto. apply nth_error_None in E. assert (Y : nth_error (snd s) u <> None) by congruence. apply nth_error_Some in Y. lia. }
  destruct TP as (p & TP). destruct UP as (q & UP).
  destruct (X t p pt nt TP T) as (_ & _ & _ & ST'). destruct (X u q pu nu UP U) as (_ & _ & _ & SU').
  destruct pt; try discriminate. injection AT as -> ->. cbn [safe] in ST'. destruct ST' as (O & _).
  destruct pu; try discriminate.
  - injection AU as -> -> <-. cbn [safe] in SU'. destruct SU' as (V & _). destruct V as [V|V]; lia.
  - injection AU as -> -> <-. cbn [safe] in SU'. destruct SU' as (V & _). lia.
Qed.

(** ** Programs and models on lists *)

(** The slice [s] lies inside its array and holds the list [l]. *)
Definition has (m : memory) (s : sl) (l : list N) : Prop :=
  s_len s = lenN l /\ s_len s <= s_cap s /\ s_off s + s_cap s <= lenN (m (s_loc s)) /\
  forall i, i < lenN l -> nth_error (m (s_loc s)) (N.to_nat (s_off s + i)) = nth_error l (N.to_nat i).
(** The array of [s] was there when the serial number was [n]. *)
Definition old (me n : N) (s : sl) : Prop := owner (s_loc s) <> me \/ serial (s_loc s) < n.
Definition new (me n n' : N) (s : sl) : Prop := owner (s_loc s) = me /\ n <= serial (s_loc s) < n'.
(** Arrays that were there when the serial number was [n] are unchanged. *)
Definition kept (me n : N) (m m' : memory) : Prop := forall l, owner l <> me \/ serial l < n -> m' l = m l.

Lemma has_same m m' s l : m' (s_loc s) = m (s_loc s) -> has m s l -> has m' s l.
Proof. intros E H. unfold has in *. rewrite E. exact H. Qed.
Lemma has_kept me n m m' s l : kept me n m m' -> old me n s -> has m s l -> has m' s l.
Proof. intros K O. apply has_same. apply K. exact O. Qed.
Lemma kept_refl me n m : kept me n m m.
Proof. intros l _. reflexivity. Qed.
Lemma kept_trans me n n' m m' m'' : n <= n' -> kept me n m m' -> kept me n' m' m'' -> kept me n m m''.
Proof. intros LE K K' l O. rewrite K' by lia. apply K. exact O. Qed.
Lemma kept_mset me n m m' l x : kept me n m m' -> owner l = me -> n <= serial l -> kept me n m (mset m' l x).
Proof. intros K O LE l' O'. rewrite mset_other; [apply K; exact O'|]. intros ->. lia. Qed.
Lemma old_le me n n' s : n <= n' -> old me n s -> old me n' s.
Proof. unfold old. lia. Qed.
Lemma new_old me n n' s : new me n n' s -> old me n' s.
Proof. unfold new, old. lia. Qed.
Lemma new_le me n n' k k' s : k <= n -> n' <= k' -> new me n n' s -> new me k k' s.
Proof. unfold new. lia. Qed.
Lemma old_new_apart me n n' s s' : old me n s -> new me n n' s' -> s_loc s <> s_loc s'.
Proof. unfold old, new. intros O W E. rewrite E in O. lia. Qed.

Definition sim {A B} (me : N) (p : prog A) (m : memory) (n : N) (o : outcome B) (Post : A -> B -> memory -> N -> Prop) : Prop :=
  match run me p m n, o with
  | (Done a, m', n'), Done b => Post a b m' n'
  | (Panic, _, _), Panic => True
  | (OutOfFuel, _, _), OutOfFuel => True
  | _, _ => False
  end.

Lemma run_bind {A B} me (p : prog A) (f : A -> prog B) m n :
  run me (pbind p f) m n =
  match run me p m n with
  | (Done a, m', n') => run me (f a) m' n'
  | (Panic, m', n') => (Panic, m', n')
  | (OutOfFuel, m', n') => (OutOfFuel, m', n')
  end.
Proof.
  revert m n. induction p; intros m next; cbn [pbind run]; auto.
  - destruct (nth_error (m l) (N.to_nat i)); auto.
  - destruct (i <? lenN (m l)); auto.
Qed.
Lemma sim_bind {A B C D} me (p : prog A) (f : A -> prog C) m n (o : outcome B) (g : B -> outcome D) Mid Post :
  sim me p m n o Mid -> (forall a b m' n', Mid a b m' n' -> sim me (f a) m' n' (g b) Post) ->
  sim me (pbind p f) m n (bind o g) Post.
Proof.
  unfold sim. rewrite run_bind. intros S F. destruct (run me p m n) as [[[a| |] m'] n'], o; cbn [bind]; try contradiction; auto.
  apply F. exact S.
Qed.
Lemma sim_assoc {A B C D} me (p : prog A) (f : A -> prog B) (g : B -> prog C) m n (o : outcome D) P :
  sim me (pbind (pbind p f) g) m n o P -> sim me (pbind p (fun x => pbind (f x) g)) m n o P.
Proof.
  unfold sim. rewrite !run_bind. destruct (run me p m n) as [[[a| |] m'] n']; auto. rewrite run_bind. auto.
Qed.
Lemma sim_weaken {A B} me (p : prog A) m n (o : outcome B) (P Q : A -> B -> memory -> N -> Prop) :
  sim me p m n o P -> (forall a b m' n', P a b m' n' -> Q a b m' n') -> sim me p m n o Q.
Proof. unfold sim. intros S F. destruct (run me p m n) as [[[a| |] m'] n'], o; auto. Qed.
Lemma sim_ret {A B} me (a : A) (b : B) m n (P : A -> B -> memory -> N -> Prop) : P a b m n -> sim me (Ret a) m n (Done b) P.
Proof. intros H. exact H. Qed.
(** A step of the program alone, of the model alone. *)
Lemma sim_left {A B C D} me (p : prog A) (f : A -> prog C) m n (b : B) (o : outcome D) Mid Post :
  sim me p m n (Done b) Mid -> (forall a m' n', Mid a b m' n' -> sim me (f a) m' n' o Post) -> sim me (pbind p f) m n o Post.
Proof.
  unfold sim. rewrite run_bind. intros S F. destruct (run me p m n) as [[[a| |] m'] n']; try contradiction. apply F. exact S.
Qed.
Lemma sim_pure {A B D} me (o : outcome A) (f : A -> prog B) (g : A -> outcome D) m n Post :
  (forall a, o = Done a -> sim me (f a) m n (g a) Post) -> sim me (pbind (pure o) f) m n (bind o g) Post.
Proof. intros F. destruct o; [apply F; reflexivity|exact I|exact I]. Qed.
Lemma sim_for {S T} me k i (body : N -> S -> prog S) (body' : N -> T -> outcome T) s t m n
    (I : N -> S -> T -> memory -> N -> Prop) :
  I i s t m n ->
  (forall j s t m n, i <= j -> j < i + N.of_nat k -> I j s t m n -> sim me (body j s) m n (body' j t) (I (j + 1))) ->
  sim me (pfor k i body s) m n (for_up k i body' t) (I (i + N.of_nat k)).
Proof.
  revert i s t m n. induction k; intros i s t m n H B; cbn [pfor for_up].
  - replace (i + N.of_nat 0) with i by lia. exact H.
  - eapply sim_bind; [apply B; [lia|lia|exact H]|]. intros a b m' n' H'.
    replace (i + N.of_nat (Datatypes.S k)) with (i + 1 + N.of_nat k) by lia. apply IHk; [exact H'|].
    intros. apply B; auto; lia.
Qed.
Lemma sim_for_n {S T} me k (body : N -> S -> prog S) (body' : N -> T -> outcome T) s t m n
    (I : N -> S -> T -> memory -> N -> Prop) :
  I 0 s t m n ->
  (forall j s t m n, j < k -> I j s t m n -> sim me (body j s) m n (body' j t) (I (j + 1))) ->
  sim me (pfor_n k body s) m n (for_n k body' t) (I k).
Proof.
  intros H B. unfold pfor_n, for_n. replace (I k) with (I (0 + N.of_nat (N.to_nat k))) by (f_equal; lia).
  apply sim_for; [exact H|]. intros. apply B; auto. lia.
Qed.

(** *** Lists *)

Lemma nth_error_firstn_if {A} (l : list A) k i : nth_error (firstn k l) i = if (i <? k)%nat then nth_error l i else None.
Proof.
  revert k i. induction l as [|x l IH]; intros [|k] [|i]; cbn [firstn nth_error]; auto.
  - destruct (_ <? _)%nat; reflexivity.
  - rewrite IH. destruct (Nat.ltb_spec i k), (Nat.ltb_spec (S i) (S k)); auto; lia.
Qed.
Lemma nth_error_skipn_if {A} (l : list A) k i : nth_error (skipn k l) i = nth_error l (k + i).
Proof. revert l. induction k; intros [|x l]; cbn [skipn Nat.add nth_error]; auto. destruct i; reflexivity. Qed.
Lemma list_eq_nth {A} (l l' : list A) : (forall i, nth_error l i = nth_error l' i) -> l = l'.
Proof.
  revert l'. induction l as [|x l IH]; intros [|y l'] E; auto.
  - specialize (E 0%nat). discriminate.
  - specialize (E 0%nat). discriminate.
  - f_equal; [specialize (E 0%nat); cbn in E; congruence|]. apply IH. intros i. apply (E (S i)).
Qed.
Lemma overwrite_cons {A} (l : list A) a v x : (a + S (length x) <= length l)%nat ->
  overwrite (set_nth l a v) (S a) x = overwrite l a (v :: x).
Proof.
  intros B. unfold overwrite. rewrite set_nth_length. cbn [length].
  revert a B. induction l as [|y l IH]; intros [|a] B; cbn [length] in B; try lia.
  - cbn [set_nth firstn app skipn Nat.add length]. rewrite Nat.sub_0_r. cbn [Nat.sub firstn app]. rewrite Nat.sub_0_r. reflexivity.
  - cbn [set_nth length firstn app Nat.sub skipn Nat.add]. f_equal. cbn [firstn app] in IH.
    exact (IH a ltac:(lia)).
Qed.

(** *** Slice operations *)

Lemma sim_make {C D} me k (f : sl -> prog C) m n (o : outcome D) Post :
  (forall s m', s = mkSl (me, n) 0 k k -> new me n (n + 1) s -> has m' s (zeros k) -> kept me n m m' ->
     sim me (f s) m' (n + 1) o Post) ->
  sim me (pbind (make k) f) m n o Post.
Proof.
  intros F. unfold make. cbn [pbind]. unfold sim. cbn [run]. apply F; auto.
  - split; cbn; [reflexivity|lia].
  - unfold has. cbn [s_loc s_off s_len s_cap]. rewrite mset_same. unfold zeros, lenN. rewrite repeat_length.
    split; [lia|]. split; [lia|]. split; [lia|]. intros i _. rewrite N.add_0_l. reflexivity.
  - apply kept_mset; [apply kept_refl|reflexivity|cbn; lia].
Qed.

Definition others (m m' : memory) (s : sl) : Prop := forall l, l <> s_loc s -> m' l = m l.

Lemma sim_get me s i m n l : has m s l -> sim me (get s i) m n (idx l i) (fun a b m' n' => a = b /\ m' = m /\ n' = n).
Proof.
  intros (L & C & B & E). unfold get, idx, sim. rewrite L. destruct (N.ltb_spec i (lenN l)) as [H|H].
  - cbn [run]. rewrite E by exact H. destruct (nth_error l (N.to_nat i)) eqn:X; [auto|].
    apply nth_error_None in X. unfold lenN in H. lia.
  - cbn [run]. replace (nth_error l (N.to_nat i)) with (@None N); [exact I|]. symmetry. apply nth_error_None. unfold lenN in H. lia.
Qed.
Lemma has_set m s l i v : has m s l -> i < lenN l ->
  has (mset m (s_loc s) (set_nth (m (s_loc s)) (N.to_nat (s_off s + i)) v)) s (set_nth l (N.to_nat i) v).
Proof.
  intros (L & C & B & E) H. unfold has. rewrite mset_same. unfold lenN in *. rewrite !set_nth_length.
  split; [exact L|]. split; [exact C|]. split; [exact B|]. intros j Hj. rewrite !nth_error_set_nth.
  destruct (Nat.eqb_spec (N.to_nat (s_off s + j)) (N.to_nat (s_off s + i))), (Nat.eqb_spec (N.to_nat j) (N.to_nat i)); try lia.
  - rewrite E by lia. reflexivity.
  - apply E. lia.
Qed.
Lemma sim_set me s i v m n l : has m s l ->
  sim me (set s i v) m n (upd l i v) (fun _ l' m' n' => has m' s l' /\ lenN l' = lenN l /\ others m m' s /\ n' = n).
Proof.
  intros H. pose proof H as (L & C & B & E). unfold set, upd, sim. rewrite L. destruct (N.ltb_spec i (lenN l)) as [Hi|Hi]; [|exact I].
  cbn [run]. replace (s_off s + i <? lenN (m (s_loc s))) with true by lia.
  split; [apply has_set; auto|]. split; [unfold lenN; rewrite set_nth_length; reflexivity|]. split; [|reflexivity].
  intros l' NE. apply mset_other. exact NE.
Qed.
Lemma run_stores me s m n l a x : has m s l -> a + lenN x <= lenN l ->
  exists m', run me (stores (s_loc s) (s_off s + a) x) m n = (Done tt, m', n) /\
    has m' s (overwrite l (N.to_nat a) x) /\ others m m' s.
Proof.
  revert a m l. induction x as [|v x IH]; intros a m l H B.
  - exists m. split; [reflexivity|]. split; [|intros l' _; reflexivity].
    unfold overwrite. cbn [length]. rewrite firstn_nil, Nat.add_0_r. cbn [app]. rewrite firstn_skipn. exact H.
  - rewrite lenN_cons in B. cbn [stores run]. pose proof H as (L & C & D & E).
    replace (s_off s + a <? lenN (m (s_loc s))) with true by lia.
    assert (H' := has_set m s l a v H ltac:(lia)).
    set (m1 := mset m _ _) in *. replace (s_off s + a + 1) with (s_off s + (a + 1)) by lia.
    destruct (IH (a + 1) m1 (set_nth l (N.to_nat a) v) H') as (m' & R & HV & O).
    { unfold lenN in *. rewrite set_nth_length. lia. }
    exists m'. split; [exact R|]. split.
    + replace (overwrite l (N.to_nat a) (v :: x)) with (overwrite (set_nth l (N.to_nat a) v) (N.to_nat (a + 1)) x); [exact HV|].
      replace (N.to_nat (a + 1)) with (S (N.to_nat a)) by lia. apply overwrite_cons. unfold lenN in *. lia.
    + intros l' NE. rewrite O by exact NE. apply mset_other. exact NE.
Qed.
Lemma run_loads me l i k m n : (i + N.of_nat k <= lenN (m l)) ->
  run me (loads l i k) m n = (Done (firstn k (skipn (N.to_nat i) (m l))), m, n).
Proof.
  revert i. induction k; intros i B; cbn [loads]; [reflexivity|].
  cbn [pbind run]. destruct (nth_error (m l) (N.to_nat i)) as [v|] eqn:X.
  2:{ apply nth_error_None in X. unfold lenN in B. lia. }
  rewrite run_bind, IHk by lia. cbn [run]. do 3 f_equal.
  replace (N.to_nat (i + 1)) with (S (N.to_nat i)) by lia. clear - X. revert X. generalize (N.to_nat i) as j. generalize (m l) as x.
  induction x as [|y x IH]; intros [|j]; cbn [nth_error]; try discriminate.
  - intros E. injection E as ->. reflexivity.
  - intros E. exact (IH j E).
Qed.
Lemma has_firstn m s l k : has m s l -> (k <= length l)%nat -> firstn k (skipn (N.to_nat (s_off s)) (m (s_loc s))) = firstn k l.
Proof.
  intros (L & C & B & E) K. apply list_eq_nth. intros i.
  rewrite !nth_error_firstn_if. destruct (Nat.ltb_spec i k); [|reflexivity].
  rewrite nth_error_skipn_if. specialize (E (N.of_nat i)). unfold lenN in E.
  replace (N.to_nat (s_off s + N.of_nat i)) with (N.to_nat (s_off s) + i)%nat in E by lia.
  replace (N.to_nat (N.of_nat i)) with i in E by lia. apply E. lia.
Qed.
Lemma run_read me s m n l : has m s l -> run me (read s) m n = (Done l, m, n).
Proof.
  intros H. pose proof H as (L & C & B & E). unfold read. rewrite run_loads by lia.
  rewrite (has_firstn m s l) by (auto; unfold lenN in L; lia). rewrite firstn_all2 by (unfold lenN in L; lia). reflexivity.
Qed.

(** *** Parts of slices *)

Lemma slice_from_eq (l : list N) a : slice_from l a = if a <=? lenN l then Done (skipn (N.to_nat a) l) else Panic.
Proof.
  unfold slice_from, slice. destruct (N.leb_spec a (lenN l)); cbn [andb]; [|reflexivity].
  replace (lenN l <=? lenN l) with true by lia. rewrite firstn_all2; [reflexivity|]. rewrite skipn_length. unfold lenN. lia.
Qed.
Lemma skipn_plus {A} (l : list A) a b : skipn b (skipn a l) = skipn (a + b) l.
Proof. apply list_eq_nth. intros i. rewrite !nth_error_skipn_if. f_equal. lia. Qed.
Lemma overwrite_skipn {A} (l : list A) a x : (a + length x <= length l)%nat ->
  overwrite l a (overwrite (skipn a l) 0 x) = overwrite l a x.
Proof.
  intros B. unfold overwrite. cbn [firstn app Nat.add]. rewrite skipn_length, Nat.sub_0_r.
  rewrite (firstn_all2 (n := length l - a) x) by lia. f_equal.
  rewrite app_length, skipn_length, skipn_length. rewrite (firstn_all2 (n := length l - a)).
  2:{ rewrite app_length, !skipn_length. lia. }
  rewrite <- app_assoc. f_equal. rewrite (skipn_all2 (n := (a + _)%nat)) by lia. rewrite app_nil_r.
  apply skipn_plus.
Qed.
Lemma overwrite_length {A} (l : list A) a x : (a + length x <= length l)%nat -> length (overwrite l a x) = length l.
Proof.
  intros B. unfold overwrite. rewrite !app_length, firstn_length, firstn_length, skipn_length. lia.
Qed.

Definition enc (o : order) (k : nat) (v : N) : list N := match o with LittleEndian => le_bytes k v | BigEndian => be_bytes k v end.
Definition dec (o : order) (x : list N) : N := match o with LittleEndian => le_value x | BigEndian => be_value x end.
Lemma enc_length o k v : length (enc o k v) = k.
Proof. destruct o; cbn [enc]; unfold be_bytes; rewrite ?rev_length; apply le_bytes_length. Qed.


(** Model of a write at an offset, as the code of the models has it, and in one piece. *)
Definition put_at (l : list N) (a : N) (x : list N) : outcome (list N) :=
  if a + lenN x <=? lenN l then Done (overwrite l (N.to_nat a) x) else Panic.
Lemma put_at_ok l a x : lenN x <> 0 -> forall {B} (g : list N -> outcome B),
  bind (slice_from l a) (fun tail => bind (if lenN x <=? lenN tail then copy_at tail 0 x else Panic)
    (fun tail' => bind (copy_at l a tail') g)) = bind (put_at l a x) g.
Proof.
  intros NZ B g. unfold put_at. rewrite slice_from_eq. destruct (N.leb_spec a (lenN l)) as [A|A]; cbn [bind].
  2:{ replace (a + lenN x <=? lenN l) with false by lia. reflexivity. }
  replace (lenN x <=? lenN (skipn (N.to_nat a) l)) with (a + lenN x <=? lenN l) by (unfold lenN in *; rewrite skipn_length; lia).
  destruct (N.leb_spec (a + lenN x) (lenN l)) as [C|C]; [|reflexivity].
  unfold copy_at. replace (0 <=? lenN (skipn (N.to_nat a) l)) with true by lia. cbn [bind]. replace (a <=? lenN l) with true by lia. cbn [bind].
  change (N.to_nat 0) with 0%nat. rewrite overwrite_skipn; [reflexivity|]. unfold lenN in *. lia.
Qed.
Lemma enc_lenN o k v : lenN (enc o k v) = N.of_nat k.
Proof. unfold lenN. rewrite enc_length. reflexivity. Qed.
Lemma put32_model (l : list N) a o v {B} (g : list N -> outcome B) :
  bind (slice_from l a) (fun tail => bind (put_uint32 o tail v) (fun tail' => bind (copy_at l a tail') g)) =
  bind (put_at l a (enc o 4 v)) g.
Proof. rewrite <- put_at_ok by (rewrite enc_lenN; lia). unfold put_uint32. rewrite enc_lenN. reflexivity. Qed.
Lemma put64_model (l : list N) a o v {B} (g : list N -> outcome B) :
  bind (slice_from l a) (fun tail => bind (put_uint64 o tail v) (fun tail' => bind (copy_at l a tail') g)) =
  bind (put_at l a (enc o 8 v)) g.
Proof. rewrite <- put_at_ok by (rewrite enc_lenN; lia). unfold put_uint64. rewrite enc_lenN. reflexivity. Qed.
Lemma bind_done {A} (o : outcome A) : bind o Done = o.
Proof. destruct o; reflexivity. Qed.
Lemma put32_model_end (l : list N) a o v :
  bind (slice_from l a) (fun tail => bind (put_uint32 o tail v) (fun tail' => copy_at l a tail')) = put_at l a (enc o 4 v).
Proof.
  rewrite <- (bind_done (put_at _ _ _)), <- put32_model. destruct (slice_from l a); auto. cbn [bind]. destruct (put_uint32 o a0 v); auto. cbn [bind].
  rewrite bind_done. reflexivity.
Qed.
Lemma put32_model_0 (l : list N) o v : put_uint32 o l v = put_at l 0 (enc o 4 v).
Proof.
  unfold put_at, put_uint32, copy_at. rewrite enc_lenN. change (0 + N.of_nat 4) with 4. replace (0 <=? lenN l) with true by lia.
  destruct (4 <=? lenN l); reflexivity.
Qed.
Lemma put64_model_0 (l : list N) o v : put_uint64 o l v = put_at l 0 (enc o 8 v).
Proof.
  unfold put_at, put_uint64, copy_at. rewrite enc_lenN. change (0 + N.of_nat 8) with 8. replace (0 <=? lenN l) with true by lia.
  destruct (8 <=? lenN l); reflexivity.
Qed.

(** What a write leaves behind. *)
Definition wrote {T} (m : memory) (n : N) (s : sl) (l : list N) : T -> list N -> memory -> N -> Prop :=
  fun _ l' m' n' => has m' s l' /\ lenN l' = lenN l /\ others m m' s /\ n' = n.

Lemma sim_put me s m n l a x (B : bool) : has m s l -> B = (a + lenN x <=? lenN l) ->
  sim me (if B then stores (s_loc s) (s_off s + a) x else Fail) m n (put_at l a x) (wrote m n s l).
Proof.
  intros H ->. unfold put_at, sim. destruct (N.leb_spec (a + lenN x) (lenN l)); [|exact I].
  destruct (run_stores me s m n l a x H) as (m' & R & HV & O); [lia|]. rewrite R. split; [exact HV|]. split; [|split; [exact O|reflexivity]].
  unfold lenN in *. rewrite overwrite_length; [reflexivity|lia].
Qed.
Lemma sim_put32_at me s m n l a o v : has m s l ->
  sim me (t <~ cut_from s a ;; put32 o t v) m n (put_at l a (enc o 4 v)) (wrote m n s l).
Proof.
  intros H. pose proof H as (L & C & D & E). unfold cut_from, cut_at. replace (s_len s <=? s_cap s) with true by lia. rewrite andb_true_r, L.
  destruct (N.leb_spec a (lenN l)); cbn [pbind].
  - unfold put32. cbn [s_len s_loc s_off]. fold (enc o 4 v). apply sim_put; [exact H|]. rewrite enc_lenN. lia.
  - unfold put_at. rewrite enc_lenN. replace (a + N.of_nat 4 <=? lenN l) with false by lia. exact I.
Qed.
Lemma sim_put64_at me s m n l a o v : has m s l ->
  sim me (t <~ cut_from s a ;; put64 o t v) m n (put_at l a (enc o 8 v)) (wrote m n s l).
Proof.
  intros H. pose proof H as (L & C & D & E). unfold cut_from, cut_at. replace (s_len s <=? s_cap s) with true by lia. rewrite andb_true_r, L.
  destruct (N.leb_spec a (lenN l)); cbn [pbind].
  - unfold put64. cbn [s_len s_loc s_off]. fold (enc o 8 v). apply sim_put; [exact H|]. rewrite enc_lenN. lia.
  - unfold put_at. rewrite enc_lenN. replace (a + N.of_nat 8 <=? lenN l) with false by lia. exact I.
Qed.
Lemma sim_put32 me s m n l o v : has m s l -> sim me (put32 o s v) m n (put_at l 0 (enc o 4 v)) (wrote m n s l).
Proof.
  intros H. pose proof H as (L & C & D & E). unfold put32. fold (enc o 4 v). replace (s_off s) with (s_off s + 0) by lia.
  apply sim_put; [exact H|]. rewrite enc_lenN. lia.
Qed.
Lemma sim_put64 me s m n l o v : has m s l -> sim me (put64 o s v) m n (put_at l 0 (enc o 8 v)) (wrote m n s l).
Proof.
  intros H. pose proof H as (L & C & D & E). unfold put64. fold (enc o 8 v). replace (s_off s) with (s_off s + 0) by lia.
  apply sim_put; [exact H|]. rewrite enc_lenN. lia.
Qed.

Lemma has_cut m s l a b : has m s l -> a <= b -> b <= lenN l ->
  has m (mkSl (s_loc s) (s_off s + a) (b - a) (s_cap s - a)) (firstn (N.to_nat (b - a)) (skipn (N.to_nat a) l)).
Proof.
  intros (L & C & D & E) A B. unfold has. cbn [s_loc s_off s_len s_cap]. unfold lenN in *. rewrite firstn_length, skipn_length.
  split; [lia|]. split; [lia|]. split; [lia|]. intros i Hi. rewrite nth_error_firstn_if, nth_error_skipn_if.
  replace (N.to_nat i <? N.to_nat (b - a))%nat with true by lia.
  replace (N.to_nat (s_off s + a + i)) with (N.to_nat (s_off s + (a + i))) by lia. rewrite E by lia. f_equal. lia.
Qed.
Definition same {A} (m : memory) (n : N) : A -> A -> memory -> N -> Prop := fun a b m' n' => a = b /\ m' = m /\ n' = n.
Definition part (m : memory) (n : N) (s : sl) : sl -> list N -> memory -> N -> Prop :=
  fun s' l' m' n' => has m s' l' /\ s_loc s' = s_loc s /\ s_cap s' <= s_cap s /\ m' = m /\ n' = n.
Lemma sim_cut_at me s m n l a b : has m s l -> b <= lenN l \/ s_cap s = s_len s ->
  sim me (cut_at s a b) m n (slice l a b) (part m n s).
Proof.
  intros H CAP. pose proof H as (L & C & D & E). unfold cut_at, slice.
  replace (b <=? s_cap s) with (b <=? lenN l) by lia.
  destruct (N.leb_spec a b); cbn [andb]; [|exact I]. destruct (N.leb_spec b (lenN l)); [|exact I].
  split; [apply has_cut; auto|]. cbn. repeat split; lia.
Qed.
Lemma sim_cut_from me s m n l a : has m s l -> sim me (cut_from s a) m n (slice_from l a) (part m n s).
Proof.
  intros H. pose proof H as (L & C & D & E). unfold cut_from, slice_from. rewrite L. apply sim_cut_at; [exact H|]. left. lia.
Qed.
Lemma sim_get32 me s m n l o : has m s l -> sim me (get32 o s) m n (get_uint32 o l) (same m n).
Proof.
  intros H. pose proof H as (L & C & D & E). unfold get32, get_uint32, le_u32, be_u32. rewrite L. unfold sim, same.
  destruct (N.leb_spec 4 (lenN l)); [|destruct o; exact I].
  rewrite run_bind, run_loads by lia. cbn [run]. rewrite (has_firstn m s l) by (auto; unfold lenN in *; lia). destruct o; auto.
Qed.
Lemma sim_get64_le me s m n l : has m s l -> sim me (get64 LittleEndian s) m n (le_u64 l) (same m n).
Proof.
  intros H. pose proof H as (L & C & D & E). unfold get64, le_u64. rewrite L. unfold sim, same.
  destruct (N.leb_spec 8 (lenN l)); [|exact I].
  rewrite run_bind, run_loads by lia. cbn [run]. rewrite (has_firstn m s l) by (auto; unfold lenN in *; lia). auto.
Qed.
Lemma sim_get64_be me s m n l : has m s l -> sim me (get64 BigEndian s) m n (be_u64 l) (same m n).
Proof.
  intros H. pose proof H as (L & C & D & E). unfold get64, be_u64. rewrite L. unfold sim, same.
  destruct (N.leb_spec 8 (lenN l)); [|exact I].
  rewrite run_bind, run_loads by lia. cbn [run]. rewrite (has_firstn m s l) by (auto; unfold lenN in *; lia). auto.
Qed.
Lemma sim_read me s m n l : has m s l -> sim me (read s) m n (Done l) (same m n).
Proof. intros H. unfold sim. rewrite (run_read _ _ _ _ _ H). repeat split. Qed.

(** copy into a part of a slice; the two may be parts of the same array. *)
Lemma overwrite_min {A} (l : list A) a x : (a <= length l)%nat ->
  overwrite l a (firstn (Nat.min (length l - a) (length x)) x) = overwrite l a x.
Proof.
  intros B. unfold overwrite. f_equal. rewrite firstn_firstn, firstn_length. f_equal.
  - replace (Nat.min (length l - a) (Nat.min (length l - a) (length x))) with (Nat.min (length l - a) (length x)) by lia.
    destruct (Nat.leb_spec (length x) (length l - a)).
    + rewrite Nat.min_r by lia. rewrite !firstn_all2 by lia. reflexivity.
    + rewrite Nat.min_l by lia. reflexivity.
  - destruct (Nat.leb_spec (length x) (length l - a)).
    + f_equal. lia.
    + rewrite !skipn_all2 by lia. reflexivity.
Qed.
Lemma sim_copy_at me s src m n l a x : has m s l -> has m src x ->
  sim me (t <~ cut_from s a ;; copy t src) m n (copy_at l a x) (wrote m n s l).
Proof.
  intros H HX. pose proof H as (L & C & D & E). pose proof HX as (L' & C' & D' & E').
  unfold cut_from, cut_at, copy_at. rewrite L. replace (lenN l <=? s_cap s) with true by lia. rewrite andb_true_r.
  destruct (N.leb_spec a (lenN l)); cbn [pbind]; [|exact I].
  unfold copy, sim. cbn [s_len s_loc s_off]. set (k := N.min (lenN l - a) (s_len src)).
  rewrite run_bind, run_loads by lia. rewrite (has_firstn m src x) by (auto; unfold lenN in *; lia).
  destruct (run_stores me s m n l a (firstn (N.to_nat k) x) H) as (m' & R & HV & O).
  { unfold lenN in *. rewrite firstn_length. lia. }
  rewrite R. split; [|split; [|split; [exact O|reflexivity]]].
  - replace (N.to_nat k) with (Nat.min (length l - N.to_nat a) (length x)) in HV by (unfold lenN in *; lia).
    rewrite overwrite_min in HV by (unfold lenN in *; lia). exact HV.
  - unfold overwrite, lenN in *. rewrite !app_length, !firstn_length, skipn_length. lia.
Qed.
Lemma sim_copy me s src m n l x : has m s l -> has m src x -> sim me (copy s src) m n (copy_at l 0 x) (wrote m n s l).
Proof.
  intros H HX. pose proof (sim_copy_at me s src m n l 0 x H HX) as X. pose proof H as (L & C & D & E).
  unfold cut_from, cut_at in X. replace ((0 <=? s_len s) && (s_len s <=? s_cap s)) with true in X by lia. cbn [pbind] in X.
  unfold sim, copy in *. cbn [s_loc s_off s_len] in X. rewrite N.sub_0_r, N.add_0_r in X. exact X.
Qed.

(** New arrays holding a list. *)
Lemma has_fresh me n k m : has (mset m (me, n) (zeros k)) (mkSl (me, n) 0 k k) (zeros k).
Proof.
  unfold has. cbn [s_loc s_off s_len s_cap]. rewrite mset_same. unfold zeros, lenN. rewrite repeat_length.
  split; [lia|]. split; [lia|]. split; [lia|]. intros i _. rewrite N.add_0_l. reflexivity.
Qed.
Lemma overwrite_all {A} (l x : list A) : length x = length l -> overwrite l 0 x = x.
Proof.
  intros E. unfold overwrite. cbn [firstn app Nat.add]. rewrite Nat.sub_0_r, firstn_all2 by lia. rewrite skipn_all2 by lia. apply app_nil_r.
Qed.
Lemma zeros_lenN k : lenN (zeros k) = k.
Proof. unfold zeros, lenN. rewrite repeat_length. lia. Qed.
Definition made (me : N) (m : memory) (n : N) (l : list N) : sl -> memory -> N -> Prop :=
  fun s m' n' => has m' s l /\ new me n n' s /\ s_off s = 0 /\ s_cap s = s_len s /\ kept me n m m' /\ n <= n'.
Lemma sim_hash_new me (H : list N -> list N) k data x m n : has m data x -> lenN (H x) = k ->
  sim me (hash_new H k data) m n (Done tt) (fun s _ m' n' => made me m n (H x) s m' n').
Proof.
  intros HX LH. unfold hash_new, sim. rewrite run_bind, (run_read _ _ _ _ _ HX). unfold make. cbn [pbind run s_loc].
  rewrite run_bind. destruct (run_stores me (mkSl (me, n) 0 k k) _ (n + 1) _ 0 (H x) (has_fresh me n k m)) as (m' & R & HV & O).
  { rewrite zeros_lenN. lia. }
  cbn [s_loc s_off] in R. change (0 + 0) with 0 in R. rewrite R. cbn [run].
  change (N.to_nat 0) with 0%nat in HV. rewrite overwrite_all in HV.
  2:{ pose proof (zeros_lenN k). unfold lenN in *. lia. }
  split; [exact HV|]. split; [split; cbn; [reflexivity|lia]|]. cbn [s_off s_cap s_len]. split; [reflexivity|]. split; [reflexivity|]. split; [|lia].
  intros l OL. rewrite O. 2:{ cbn. intros ->. cbn in OL. lia. } apply mset_other. intros ->. cbn in OL. lia.
Qed.
(** append(dst, src...) to a slice with no room to spare gives a new array. *)
Lemma sim_append me room dst src m n x y : (forall k, k <= room k) ->
  has m dst x -> has m src y -> s_cap dst = s_len dst -> lenN y <> 0 ->
  sim me (append room dst src) m n (Done tt) (fun s _ m' n' =>
    has m' s (x ++ y) /\ new me n n' s /\ kept me n m m' /\ n <= n').
Proof.
  intros RM HX HY CAP NZ. pose proof HX as (L & C & D & E). pose proof HY as (L' & C' & D' & E').
  unfold append, sim. rewrite run_bind, (run_read _ _ _ _ _ HY). replace (s_len dst + s_len src <=? s_cap dst) with false by lia.
  rewrite run_bind, (run_read _ _ _ _ _ HX). cbn [run]. set (need := s_len dst + s_len src).
  rewrite run_bind. destruct (run_stores me (mkSl (me, n) 0 (room need) (room need)) _ (n + 1) _ 0 (x ++ y) (has_fresh me n (room need) m)) as (m' & R & HV & O).
  { rewrite zeros_lenN. specialize (RM need). unfold lenN in *. rewrite app_length. lia. }
  cbn [s_loc s_off] in R. change (0 + 0) with 0 in R. rewrite R. cbn [run].
  split; [|split; [|split]].
  - pose proof (has_cut _ _ _ 0 need HV) as X. cbn [s_loc s_off s_cap] in X. rewrite !N.sub_0_r, N.add_0_r in X.
    assert (LZ : length (zeros (room need)) = N.to_nat (room need)) by apply repeat_length.
    specialize (RM need).
    assert (LB : (0 + length (x ++ y) <= length (zeros (room need)))%nat) by (rewrite app_length, LZ; unfold lenN in *; lia).
    replace (firstn (N.to_nat need) (skipn (N.to_nat 0) (overwrite (zeros (room need)) (N.to_nat 0) (x ++ y)))) with (x ++ y) in X.
    { apply X; [lia|]. change (N.to_nat 0) with 0%nat. unfold lenN. rewrite overwrite_length by exact LB. lia. }
    change (N.to_nat 0) with 0%nat. cbn [skipn]. unfold overwrite. cbn [firstn app Nat.add]. rewrite Nat.sub_0_r.
    rewrite (firstn_all2 (n := length (zeros _)) (x ++ y)) by lia. rewrite firstn_app.
    replace (N.to_nat need - length (x ++ y))%nat with 0%nat by (rewrite app_length; unfold lenN in *; lia).
    cbn [firstn]. rewrite app_nil_r. symmetry. apply firstn_all2. rewrite app_length. unfold lenN in *. lia.
  - split; cbn; [reflexivity|lia].
  - intros l OL. rewrite O. 2:{ cbn. intros ->. cbn in OL. lia. } apply mset_other. intros ->. cbn in OL. lia.
  - lia.
Qed.

(** *** Keeping facts about slices that are not written *)

(** Arrays that were there when the serial number was [n], except that of [s], are unchanged. *)
Definition kept_but (me n : N) (s : sl) (m m' : memory) : Prop :=
  forall l, l <> s_loc s -> owner l <> me \/ serial l < n -> m' l = m l.
Lemma has_kept_but me n s0 m m' s l : kept_but me n s0 m m' -> s_loc s <> s_loc s0 -> old me n s -> has m s l -> has m' s l.
Proof. intros K NE O. apply has_same. apply K; [exact NE|exact O]. Qed.

Definition others2 (m m' : memory) (s s' : sl) : Prop := forall l, l <> s_loc s -> l <> s_loc s' -> m' l = m l.
Lemma others_refl m s : others m m s.
Proof. intros l _. reflexivity. Qed.
Lemma others_trans m m' m'' s : others m m' s -> others m' m'' s -> others m m'' s.
Proof. intros O O' l NE. rewrite O', O by auto. reflexivity. Qed.
Lemma others2_refl m s s' : others2 m m s s'.
Proof. intros l _ _. reflexivity. Qed.
Lemma others2_trans m m' m'' s s' : others2 m m' s s' -> others2 m' m'' s s' -> others2 m m'' s s'.
Proof. intros O O' l NE NE'. rewrite O', O by auto. reflexivity. Qed.
Lemma others2_l m m' m'' s s' : others2 m m' s s' -> others m' m'' s -> others2 m m'' s s'.
Proof. intros O O' l NE NE'. rewrite O', O by auto. reflexivity. Qed.
Lemma others2_r m m' m'' s s' : others2 m m' s s' -> others m' m'' s' -> others2 m m'' s s'.
Proof. intros O O' l NE NE'. rewrite O', O by auto. reflexivity. Qed.

(** Only own arrays with serial numbers from [a] on and below [b] are changed. *)
Definition outside (me a b : N) (m m' : memory) : Prop := forall l, ~ (owner l = me /\ a <= serial l < b) -> m' l = m l.
Lemma outside_refl me a b m : outside me a b m m.
Proof. intros l _. reflexivity. Qed.
Lemma outside_trans me a b m m' m'' : outside me a b m m' -> outside me a b m' m'' -> outside me a b m m''.
Proof. intros O O' l NE. rewrite O', O by auto. reflexivity. Qed.

Ltac locs :=
  repeat match goal with
  | E : @eq loc _ _ |- _ => pose proof (f_equal owner E); pose proof (f_equal serial E); clear E
  end;
  unfold new, old, writable in *; cbn [s_loc owner serial fst snd] in *; lia.
Ltac apart :=
  solve [congruence] ||
  let E := fresh "E" in
  intros E; locs.
Ltac frame :=
  match goal with
  | |- has _ _ _ => eassumption
  | O : others ?m ?m' ?s0 |- has ?m' ?s ?l => apply (has_same m m' s l); [apply O; apart|frame]
  | O : others2 ?m ?m' ?s0 ?s1 |- has ?m' ?s ?l => apply (has_same m m' s l); [apply O; apart|frame]
  | O : outside ?me ?a ?b ?m ?m' |- has ?m' ?s ?l => apply (has_same m m' s l); [apply O; locs|frame]
  | K : kept ?me ?n ?m ?m' |- has ?m' ?s ?l => apply (has_kept me n m m' s l K); [locs|frame]
  | K : kept_but ?me ?n ?s0 ?m ?m' |- has ?m' ?s ?l =>
      apply (has_kept_but me n s0 m m' s l K); [apart|locs|frame]
  end.
Ltac sget := eapply sim_bind; [apply sim_get; frame|]; let v := fresh "v" in intros ? v ? ? (-> & -> & ->).
Ltac sget32 := eapply sim_bind; [apply (sim_get32 _ _ _ _ _ LittleEndian); frame|]; let v := fresh "v" in intros ? v ? ? (-> & -> & ->).

(** ** Every schedule ends *)

(** What a call may be after a step. *)
Inductive child {A} : prog A -> prog A -> Prop :=
| ch_make n k l : child (k l) (Make n k)
| ch_load l i k v : child (k v) (Load l i k)
| ch_load_bad l i k : child Fail (Load l i k)
| ch_store l i v k : child k (Store l i v k)
| ch_store_bad l i v k : child Fail (Store l i v k).
Lemma child_wf {A} : well_founded (@child A).
Proof.
  assert (F : Acc (@child A) Fail) by (constructor; intros y H; inversion H).
  intros p. induction p; constructor; intros y H'; inversion H'; subst; auto.
Qed.
Lemma mstep_child {A} me m (p : prog A) n m' p' n' : mstep me (m, p, n) (m', p', n') -> child p' p.
Proof. intros H. inversion H; constructor. Qed.

Definition one_less {A} (c' c : calls A) : Prop := exists t p n p' n', nth_error c t = Some (p, n) /\ child p' p /\ c' = set_nth c t (p', n').
Lemma one_less_acc {A} (c : calls A) : Acc one_less c.
Proof.
  induction c as [|(p & n) c IH].
  - constructor. intros c' (t & p & n & p' & n' & T & _). destruct t; discriminate.
  - revert n c IH. induction (child_wf p) as [p _ IHp]. intros n c AC. induction AC as [c AC IHc].
    constructor. intros c' (t & q & k & q' & k' & T & CH & ->). destruct t as [|t]; cbn [nth_error set_nth] in *.
    + injection T as <- <-. apply IHp; [exact CH|]. constructor. exact AC.
    + apply IHc. exists t, q, k, q', k'. auto.
Qed.
Lemma csteps_end {A} (s : memory * calls A) : Acc (fun s' s => cstep s s') s.
Proof.
  destruct s as (m, c). revert m. induction (one_less_acc c) as [c _ IH]. intros m. constructor. intros (m', c') ST.
  inversion ST; subst. apply IH. exists t, p, next, p', next'. split; [assumption|]. split; [eapply mstep_child; eassumption|reflexivity].
Qed.

Lemma can_step {A} me m (p : prog A) n : finished p \/ exists m' p' n', mstep me (m, p, n) (m', p', n').
Proof.
  destruct p; cbn; auto; right.
  - eexists _, _, _. constructor.
  - destruct (nth_error (m l) (N.to_nat i)) eqn:E; eexists _, _, _; [apply m_load; exact E|apply m_load_bad; exact E].
  - destruct (N.ltb_spec i (lenN (m l))); eexists _, _, _; [apply m_store|apply m_store_bad]; assumption.
Qed.
Lemma csteps_trans {A} (s s' s'' : memory * calls A) : csteps s s' -> csteps s' s'' -> csteps s s''.
Proof. intros H H'. induction H' as [|a b c H' IH ST]; [exact H|]. eapply cs_step; [apply IH; exact H|exact ST]. Qed.
Lemma csteps_finish {A} (s : memory * calls A) : exists s', csteps s s' /\ forall p n, In (p, n) (snd s') -> finished p.
Proof.
  induction (csteps_end s) as [s _ IH].
  assert (D : (forall p n, In (p, n) (snd s) -> finished p) \/ exists s', cstep s s').
  { destruct s as (m, c). cbn [snd].
    assert (X : (forall p n, In (p, n) c -> finished p) \/ exists t p n, nth_error c t = Some (p, n) /\ ~ finished p).
    { clear IH. induction c as [|(p & n) c IHc]; [left; intros ? ? []|].
      destruct IHc as [F|(t & q & k & T & NF)]; [|right; exists (S t), q, k; auto].
      assert (E : finished p \/ ~ finished p) by (destruct p; cbn; auto). destruct E as [E|E].
      - left. intros q k [I|I]; [injection I as <- <-; exact E|eapply F; exact I].
      - right. exists 0%nat, p, n. auto. }
    destruct X as [F|(t & p & n & T & NF)]; [left; exact F|right].
    destruct (can_step (N.of_nat t + 1) m p n) as [F|(m' & p' & n' & ST)]; [contradiction|].
    eexists. econstructor; eauto. }
  destruct D as [F|(s' & ST)].
  - exists s. split; [constructor|exact F].
  - destruct (IH s' ST) as (s'' & R & F). exists s''. split; [|exact F]. eapply csteps_trans; [|exact R]. eapply cs_step; [constructor|exact ST].
Qed.

(** Steps of one call, computed. *)
Fixpoint ahead {A} (me : N) (k : nat) (x : memory * prog A * N) : memory * prog A * N :=
  match k with
  | O => x
  | S k =>
      let '(m, p, n) := x in
      match p with
      | Make len f => ahead me k (mset m (me, n) (zeros len), f (me, n), n + 1)
      | Load l i f => match nth_error (m l) (N.to_nat i) with Some v => ahead me k (m, f v, n) | None => x end
      | Store l i v p' => if i <? lenN (m l) then ahead me k (mset m l (set_nth (m l) (N.to_nat i) v), p', n) else x
      | _ => x
      end
  end.
Lemma set_nth_again {A} (l : list A) i x y : set_nth (set_nth l i x) i y = set_nth l i y.
Proof. revert i. induction l as [|z l IH]; intros [|i]; cbn; auto. rewrite IH. reflexivity. Qed.
Lemma set_nth_id {A} (l : list A) i x : nth_error l i = Some x -> set_nth l i x = l.
Proof. revert i. induction l as [|z l IH]; intros [|i]; cbn; try discriminate; [congruence|]. intros H. rewrite IH; auto. Qed.
Lemma ahead_steps {A} k m (c : calls A) t p n m' p' n' : nth_error c t = Some (p, n) -> ahead (N.of_nat t + 1) k (m, p, n) = (m', p', n') ->
  csteps (m, c) (m', set_nth c t (p', n')).
Proof.
  revert m c p n. induction k as [|k IH]; intros m c p n T E; cbn [ahead] in E.
  - injection E as <- <- <-. rewrite set_nth_id by exact T. constructor.
  - assert (STOP : (m, p, n) = (m', p', n') -> csteps (m, c) (m', set_nth c t (p', n'))).
    { intros Q. injection Q as <- <- <-. rewrite set_nth_id by exact T. constructor. }
    assert (GO : forall m1 p1 n1, mstep (N.of_nat t + 1) (m, p, n) (m1, p1, n1) -> ahead (N.of_nat t + 1) k (m1, p1, n1) = (m', p', n') ->
      csteps (m, c) (m', set_nth c t (p', n'))).
    { intros m1 p1 n1 ST E'. eapply csteps_trans; [eapply cs_step; [constructor|econstructor; [exact T|exact ST]]|].
      rewrite <- (set_nth_again c t (p1, n1) (p', n')). eapply IH; [|exact E'].
      rewrite nth_error_set_nth, Nat.eqb_refl, T. reflexivity. }
    destruct p; auto.
    + eapply GO; [constructor|exact E].
    + destruct (nth_error (m l) (N.to_nat i)) eqn:L; auto. eapply GO; [constructor; exact L|exact E].
    + destruct (N.ltb_spec i (lenN (m l))); auto. eapply GO; [constructor; assumption|exact E].
Qed.
