(** HeavyHash: the matrix search and the digest. *)
From Coq Require Import NArith ZArith Arith List Lia Bool ZifyBool ZifyNat ZifyN.
From Coq Require Import Floats.SpecFloat.
From Verif Require Import Base BaseFacts CryptoModel CryptoSpec CryptoProofs DagSpec AutoProofs HeavyModel HeavySpec.
Import ListNotations.
Open Scope N_scope.
Ltac Zify.zify_post_hook ::= Z.div_mod_to_equations.

(** ** Square arrays *)
Definition square {A} (m : list (list A)) : Prop := length m = 64%nat /\ Forall (fun r => length r = 64%nat) m.

Lemma square_row {A} (m : list (list A)) i : square m -> i < 64 ->
  idx m i = Done (nth (N.to_nat i) m []) /\ length (nth (N.to_nat i) m []) = 64%nat.
Proof.
  intros (L & F) I. split; [apply idx_Done; unfold lenN; lia|].
  rewrite Forall_forall in F. apply F. apply nth_In. lia.
Qed.
Lemma at2_Done {A} (m : list (list A)) i j d : square m -> i < 64 -> j < 64 ->
  at2 m i j = Done (nth (N.to_nat j) (nth (N.to_nat i) m []) d).
Proof.
  intros S I J. destruct (square_row m i S I) as (E & L). unfold at2. rewrite E. cbn [bind].
  apply idx_Done. unfold lenN. lia.
Qed.
Lemma at2_ok {A} (m : list (list A)) i j : square m -> i < 64 -> j < 64 -> exists x, at2 m i j = Done x.
Proof.
  intros S I J. destruct (square_row m i S I) as (E & L). unfold at2. rewrite E. cbn [bind].
  destruct (nth (N.to_nat i) m []) as [|d t] eqn:R; [discriminate|].
  exists (nth (N.to_nat j) (d :: t) d). apply idx_Done. unfold lenN. lia.
Qed.
Lemma Forall_set_nth {A} (P : A -> Prop) l i v : Forall P l -> P v -> Forall P (set_nth l i v).
Proof.
  intros F V. revert i; induction F; intros i; destruct i; cbn [set_nth]; auto.
Qed.
Lemma set2_ok {A} (m : list (list A)) i j v : square m -> i < 64 -> j < 64 ->
  exists m', set2 m i j v = Done m' /\ square m'.
Proof.
  intros S I J. destruct (square_row m i S I) as (E & L). unfold set2. rewrite E. cbn [bind].
  rewrite upd_Done by (unfold lenN; lia). cbn [bind].
  destruct S as (LM & F). rewrite upd_Done by (unfold lenN; lia).
  eexists; split; [reflexivity|]. split; [rewrite set_nth_length; auto|].
  apply Forall_set_nth; auto. rewrite set_nth_length. auto.
Qed.

(** ** The rank computation never panics *)
Section Rank.
Variable submul : float64 -> float64 -> float64 -> float64.

Lemma for_break_total {S R} (I : N -> S -> Prop) (P : R -> Prop) n i (body : N -> S -> outcome (step S R)) s :
  I i s ->
  (forall j t, i <= j -> j < i + N.of_nat n -> I j t -> (exists t', body j t = Done (Continue t') /\ I (j + 1) t') \/
     (exists r, body j t = Done (Break r) /\ P r)) ->
  (exists t, for_break n i body s = Done (inr t) /\ I (i + N.of_nat n) t) \/
  (exists r, for_break n i body s = Done (inl r) /\ P r).
Proof.
  revert i s; induction n; intros i s H0 HB.
  - left. exists s. split; [reflexivity|]. rewrite N.add_0_r. auto.
  - cbn [for_break]. destruct (HB i s) as [(t' & E & H1)|(r & E & H1)]; auto; try lia.
    + rewrite E. cbn [bind]. destruct (IHn (i + 1) t') as [(t & Et & Ht)|(r & Er & Hr)]; auto.
      * intros j t A B. apply HB; lia.
      * left. exists t. split; auto. replace (i + N.of_nat (Datatypes.S n)) with (i + 1 + N.of_nat n) by lia. auto.
      * right. eauto.
    + rewrite E. cbn [bind]. right. eauto.
Qed.

Lemma findPivot_ok copied sel i : square copied -> length sel = 64%nat -> i < 64 ->
  exists j, findPivot copied sel i = Done j /\ j <= 64.
Proof.
  intros S L I. unfold findPivot.
  match goal with |- context [for_break 64 0 ?b tt] => 
    destruct (for_break_total (fun _ _ => True) (fun j => j < 64) 64 0 b tt) as [(t & E & _)|(r & E & R)]; auto end.
  - intros j [] _ J _. change (0 + N.of_nat 64) with 64 in J. rewrite (idx_Done _ _ false) by (unfold lenN; lia). cbn [bind].
    destruct (nth (N.to_nat j) sel false); [left; eauto|].
    destruct (at2_ok copied j i S ltac:(lia) I) as (x & E). rewrite E. cbn [bind].
    destruct (above x); [right; exists j; auto|left; eauto].
  - rewrite E. cbn [bind]. exists 64. split; [reflexivity|lia].
  - rewrite E. cbn [bind]. exists r. split; [reflexivity|lia].
Qed.

Lemma scaleRow_ok copied i j : square copied -> i < 64 -> j < 64 ->
  exists c, scaleRow copied i j = Done c /\ square c.
Proof.
  intros S I J. unfold scaleRow.
  match goal with |- context [for_up ?n ?s ?b ?c] =>
    destruct (for_up_inv (fun _ x => square x) b n s c) as (x & E & X); auto end.
  - intros k t A B T. unfold size in B.
    destruct (at2_ok t j k T J ltac:(lia)) as (a & ->). cbn [bind].
    destruct (at2_ok t j i T J I) as (b & ->). cbn [bind].
    destruct (set2_ok t j k (fdiv a b) T J ltac:(lia)) as (m & E & M). eauto.
  - eauto.
Qed.

Lemma eliminate_ok copied i j : square copied -> i < 64 -> j < 64 ->
  exists c, eliminate submul copied i j = Done c /\ square c.
Proof.
  intros S I J. unfold eliminate.
  loop_inv (fun (_ : N) (x : list (list float64)) => square x) as c E X; [exact S| |eauto].
  intros k t K T. unfold size in K. destruct (k =? j); [eauto|].
  destruct (at2_ok t k i T K I) as (x & ->). cbn [bind]. destruct (below x); [eauto|].
  match goal with |- context [for_up ?n ?s ?b ?c] =>
    destruct (for_up_inv (fun _ x => square x) b n s c) as (y & E & Y); auto end.
  - intros l u A B U. unfold size in B.
    destruct (at2_ok u k l U K ltac:(lia)) as (a & ->). cbn [bind].
    destruct (at2_ok u j l U J ltac:(lia)) as (b & ->). cbn [bind].
    destruct (at2_ok u k i U K I) as (d & ->). cbn [bind].
    destruct (set2_ok u k l (submul a b d) U K ltac:(lia)) as (m & E & M). eauto.
  - eauto.
Qed.

Lemma calculateRank_ok mat : square mat -> exists r, calculateRank submul mat = Done r /\ r <= 64.
Proof.
  intros (L & F). unfold calculateRank.
  loop_inv (fun (i : N) (s : list (list float64) * list bool * N) =>
     let '(c, sel, r) := s in square c /\ length sel = 64%nat /\ r <= i) as s E X.
  - split; [|split; [reflexivity|lia]]. split; [rewrite map_length; auto|].
    apply Forall_map. eapply Forall_impl; [|exact F]. intros r R. rewrite map_length. auto.
  - intros i [[c sel] r] I (C & S & R). unfold size in I.
    destruct (findPivot_ok c sel i C S I) as (j & -> & J). cbn [bind].
    unfold size. destruct (N.eqb_spec j 64).
    + eexists; split; [reflexivity|]. cbv beta iota. split; auto. split; auto. lia.
    + rewrite upd_Done by (unfold lenN; lia). cbn [bind].
      destruct (scaleRow_ok c i j C I ltac:(lia)) as (c1 & -> & C1). cbn [bind].
      destruct (eliminate_ok c1 i j C1 I ltac:(lia)) as (c2 & -> & C2). cbn [bind].
      eexists; split; [reflexivity|]. cbv beta iota. split; auto. split; [rewrite set_nth_length; auto|]. lia.
  - destruct s as [[c sel] r]. cbn [bind]. exists r. split; auto. unfold size in X. tauto.
Qed.
Lemma zero_rank : calculateRank submul zero_matrix = Done 0.
Proof. vm_compute. reflexivity. Qed.
End Rank.

(** ** Candidate matrices *)
Definition matrix_of (M : N -> N -> N) : list (list N) := tab 64 (fun i => tab 64 (M i)).
Lemma square_matrix_of M : square (matrix_of M).
Proof.
  unfold matrix_of. split; [apply tab_length|]. apply Forall_forall. intros r R. apply In_tab in R.
  destruct R as (i & _ & ->). apply tab_length.
Qed.
Lemma zero_matrix_square : square zero_matrix.
Proof. split; [reflexivity|]. apply Forall_forall. intros r R. apply repeat_spec in R. subst. reflexivity. Qed.

Definition xnext (h : xoshiro) : xoshiro := snd (Next h).
Lemma xnext_iter h n : valid_x h -> valid_x (N.iter n xnext h) /\ xtup (N.iter n xnext h) = N.iter n xo_step (xtup h).
Proof.
  intros V. induction n using N.peano_ind; [auto|]. rewrite !N.iter_succ. destruct IHn as (A & B).
  destruct (xoshiro_conforms _ A) as (_ & E & _ & V'). split; [exact V'|]. unfold xnext at 1. rewrite E, B. auto.
Qed.
Definition out_nth (h : xoshiro) (n : N) : N := fst (Next (N.iter n xnext h)).
Lemma out_nth_spec h n : valid_x h -> out_nth h n = xo_nth (xtup h) n.
Proof.
  intros V. unfold out_nth, xo_nth. destruct (xnext_iter h n V) as (A & B).
  destruct (xoshiro_conforms _ A) as (E & _). rewrite E, B. auto.
Qed.

Definition row_of (h : xoshiro) (j : N) : N := out_nth h (j / 16) / 16 ^ (j mod 16) mod 16.
Lemma nib_eq v k : u16 (N.land (N.shiftr v (4 * k)) 15) = v / 16 ^ k mod 16.
Proof.
  change 15 with (N.ones 4). rewrite N.land_ones, N.shiftr_div_pow2, N.pow_mul_r. change (2 ^ 4) with 16.
  apply trunc_small. eapply N.lt_le_trans; [apply N.mod_lt; lia|]. lia.
Qed.
Lemma fillRow_spec h row : length row = 64%nat ->
  fillRow h row = Done (N.iter 4 xnext h, tab 64 (row_of h)).
Proof.
  intros L. unfold fillRow.
  loop_inv (fun (q : N) (s : xoshiro * list N) => fst s = N.iter q xnext h /\ length (snd s) = 64%nat /\
     (forall j, j < 16 * q -> nth (N.to_nat j) (snd s) 0 = row_of h j)) as s E X.
  - cbn [fst snd]. split; [reflexivity|]. split; [auto|]. lia.
  - intros q [h' r] Q (A & B & C). cbn [fst snd] in A, B, C. subst h'. cbv zeta beta iota.
    destruct (Next (N.iter q xnext h)) as [value h''] eqn:NE.
    assert (V : value = out_nth h q) by (unfold out_nth; rewrite NE; auto).
    assert (H' : h'' = N.iter (q + 1) xnext h) by (rewrite N.add_1_r, N.iter_succ; unfold xnext at 1; rewrite NE; auto).
    match goal with |- context [for_n iterations ?b r] =>
      destruct (for_n_inv (fun k (x : list N) => length x = 64%nat /\
        (forall j, j < 16 * q + k -> nth (N.to_nat j) x 0 = row_of h j)) iterations b r) as (x & E & X1 & X2) end.
    + split; auto. intros j J. apply C. lia.
    + intros k t K (T1 & T2). unfold iterations in *. rewrite upd_Done by (unfold lenN; lia).
      eexists; split; [reflexivity|]. split; [rewrite set_nth_length; auto|].
      intros j J. rewrite nth_set_nth by lia.
      destruct (Nat.eqb_spec (N.to_nat (q * 16 + k)) (N.to_nat j)).
      * assert (j = 16 * q + k) as -> by lia. rewrite nib_eq.
        unfold row_of. rewrite V. f_equal. f_equal.
        -- f_equal. lia.
        -- f_equal. lia.
      * apply T2. lia.
    + rewrite E. cbn [bind]. eexists; split; [reflexivity|]. cbn [fst snd]. split; [auto|]. split; [auto|].
      intros j J. apply X2. unfold iterations. lia.
  - destruct s as [h' r]. cbn [fst snd] in X. destruct X as (-> & B & C). f_equal. f_equal.
    apply (list_eq_tab _ _ 0); [unfold lenN; lia|]. intros j J. apply C. lia.
Qed.

Definition next_matrix (h : xoshiro) : list (list N) := matrix_of (fun i => row_of (N.iter (4 * i) xnext h)).
Lemma fillMatrix_spec h mat : square mat ->
  fillMatrix h mat = Done (N.iter 256 xnext h, next_matrix h).
Proof.
  intros S. unfold fillMatrix.
  loop_inv (fun (i : N) (s : xoshiro * list (list N)) => fst s = N.iter (4 * i) xnext h /\ square (snd s) /\
     (forall j, j < i -> nth (N.to_nat j) (snd s) [] = tab 64 (row_of (N.iter (4 * j) xnext h)))) as s E X.
  - cbn [fst snd]. split; [reflexivity|]. split; [auto|]. lia.
  - intros i [h' m] I (A & B & C). cbn [fst snd] in A, B, C. subst h'. unfold size in I.
    destruct (square_row m i B I) as (-> & L). cbn [bind]. rewrite fillRow_spec by auto. cbn [bind].
    destruct B as (B1 & B2). rewrite upd_Done by (unfold lenN; lia). cbn [bind].
    eexists; split; [reflexivity|]. cbn [fst snd]. split; [|split].
    + replace (4 * (i + 1)) with (4 + 4 * i) by lia. rewrite N.iter_add. auto.
    + split; [rewrite set_nth_length; auto|]. apply Forall_set_nth; auto.
    + intros j J. rewrite nth_set_nth by lia. destruct (Nat.eqb_spec (N.to_nat i) (N.to_nat j)).
      * assert (j = i) as -> by lia. auto.
      * apply C. lia.
  - destruct s as [h' m]. cbn [fst snd] in X. destruct X as (-> & (B1 & _) & C). f_equal. f_equal.
    apply (list_eq_tab _ _ []); [unfold lenN; lia|]. intros j J. apply C. unfold size. lia.
Qed.

Lemma next_matrix_spec h t : valid_x h ->
  next_matrix (N.iter (256 * t) xnext h) = matrix_of (candidate (xtup h) t).
Proof.
  intros V. unfold next_matrix, matrix_of. apply tab_ext. intros i I. apply tab_ext. intros j J.
  unfold row_of, candidate. rewrite <- N.iter_add.
  destruct (xnext_iter h (4 * i + 256 * t) V) as (A & B).
  rewrite out_nth_spec by auto. rewrite B. unfold xo_nth. rewrite <- N.iter_add.
  do 3 f_equal. f_equal. lia.
Qed.

(** ** The search *)
Section Search.
Variable submul : float64 -> float64 -> float64 -> float64.
Variable h : xoshiro.
Hypothesis V : valid_x h.

(** The matrix held after [t] rounds of filling. *)
Definition held (t : N) : list (list N) := if t =? 0 then zero_matrix else matrix_of (candidate (xtup h) (t - 1)).
Definition full (t : N) : Prop := calculateRank submul (held t) = Done 64.
Lemma held_square t : square (held t).
Proof. unfold held. destruct (t =? 0); [apply zero_matrix_square|apply square_matrix_of]. Qed.
Lemma full_dec t : {full t} + {~ full t}.
Proof.
  unfold full. destruct (calculateRank submul (held t)) as [r| |]; [|right; discriminate|right; discriminate].
  destruct (N.eq_dec r 64) as [->|]; [left; auto|right]. intros E. injection E. auto.
Qed.

Definition search (fuel : nat) (t : N) : outcome (list (list N)) :=
  loop_fuel fuel (fun '(h, mat) =>
    r <- calculateRank submul mat ;;
    if r =? size then Done (Break mat)
    else s <- fillMatrix h mat ;; Done (Continue s)) (N.iter (256 * t) xnext h, held t).

Lemma search_step fuel t : search (S fuel) t = if full_dec t then Done (held t) else search fuel (t + 1).
Proof.
  unfold search. cbn [loop_fuel]. destruct (calculateRank_ok submul (held t) (held_square t)) as (r & E & R).
  rewrite E. cbn [bind]. unfold size. destruct (full_dec t) as [F|F]; unfold full in F; rewrite E in F.
  - injection F as ->. reflexivity.
  - destruct (N.eqb_spec r 64); [subst; contradiction|].
    rewrite fillMatrix_spec by apply held_square. cbn [bind].
    rewrite <- N.iter_add. rewrite next_matrix_spec by auto.
    replace (256 + 256 * t) with (256 * (t + 1)) by lia.
    assert (HE : held (t + 1) = matrix_of (candidate (xtup h) t)).
    { unfold held. destruct (N.eqb_spec (t + 1) 0); [lia|]. do 2 f_equal. lia. }
    rewrite HE. reflexivity.
Qed.
Lemma search_sound fuel t m : search fuel t = Done m ->
  exists u, t <= u /\ m = held u /\ full u /\ (forall v, t <= v -> v < u -> ~ full v).
Proof.
  revert t; induction fuel; intros t; [discriminate|]. rewrite search_step. destruct (full_dec t) as [F|F].
  - intros E. injection E as <-. exists t. split; [lia|]. split; auto. split; auto. lia.
  - intros E. destruct (IHfuel _ E) as (u & U & M & FU & B). exists u. split; [lia|]. split; auto. split; auto.
    intros v A C. destruct (N.eq_dec v t) as [->|]; auto. apply B; lia.
Qed.
Lemma search_complete fuel t u : t <= u -> full u -> (forall v, t <= v -> v < u -> ~ full v) ->
  (N.to_nat (u - t) < fuel)%nat -> search fuel t = Done (held u).
Proof.
  revert t; induction fuel; intros t L F B K; [lia|]. rewrite search_step. destruct (full_dec t) as [G|G].
  - destruct (N.eq_dec u t) as [->|]; auto. exfalso. apply (B t); auto; lia.
  - destruct (N.eq_dec u t) as [->|]; [contradiction|]. apply IHfuel; auto; try lia. intros v A C. apply B; lia.
Qed.
Lemma search_no_panic fuel t : search fuel t <> Panic.
Proof.
  revert t; induction fuel; intros t; [discriminate|]. rewrite search_step. destruct (full_dec t); [discriminate|auto].
Qed.
Lemma zero_not_full : ~ full 0.
Proof. unfold full, held. cbn [N.eqb]. rewrite zero_rank. discriminate. Qed.
End Search.

Lemma newMatrix_search submul fuel a b c d : newMatrix submul fuel a b c d = search submul (mkX a b c d) fuel 0.
Proof. reflexivity. Qed.

(** From the zero state only zero matrices come. *)
Lemma xo_zero n : N.iter n xo_step (0, 0, 0, 0) = (0, 0, 0, 0).
Proof. induction n using N.peano_ind; auto. rewrite N.iter_succ, IHn. reflexivity. Qed.
Lemma candidate_zero t i j : candidate (0, 0, 0, 0) t i j = 0.
Proof.
  unfold candidate, xo_nth. rewrite xo_zero. change (xo_output (0, 0, 0, 0)) with 0.
  rewrite N.div_0_l by (apply N.pow_nonzero; lia). reflexivity.
Qed.
Lemma matrix_zero t : matrix_of (candidate (0, 0, 0, 0) t) = zero_matrix.
Proof.
  unfold matrix_of. transitivity (tab 64 (fun _ => tab 64 (fun _ => 0))).
  - apply tab_ext. intros i _. apply tab_ext. intros j _. apply candidate_zero.
  - reflexivity.
Qed.
Lemma newMatrix_zero submul fuel : newMatrix submul fuel 0 0 0 0 = OutOfFuel.
Proof.
  rewrite newMatrix_search.
  assert (V : valid_x (mkX 0 0 0 0)) by (repeat split; reflexivity).
  assert (N : forall t, ~ full submul (mkX 0 0 0 0) t).
  { intros t. destruct (N.eq_dec t 0) as [->|]; [apply zero_not_full|]. unfold full, held.
    destruct (N.eqb_spec t 0); [contradiction|]. change (xtup (mkX 0 0 0 0)) with (0, 0, 0, 0).
    rewrite matrix_zero, zero_rank. discriminate. }
  set (z := mkX 0 0 0 0) in *. clearbody z. generalize 0 as t. induction fuel; intros t; [reflexivity|]. rewrite search_step by auto.
  destruct (full_dec submul z t) as [F|F]; [elim (N t F)|apply IHfuel].
Qed.

(** ** The digest *)
Lemma reverse_32 (l : list N) : length l = 32%nat -> reverse l = Done (rev l).
Proof.
  intros L. do 32 (destruct l as [|? l]; [discriminate|]). destruct l; [|discriminate]. reflexivity.
Qed.
Lemma vector_spec header : length header = 32%nat -> bytes header ->
  vector header = Done (tab 64 (nibble header)).
Proof.
  intros L B. unfold vector.
  loop_inv (fun (i : N) (v : list N) => length v = 64%nat /\
     (forall j, j < 2 * i -> nth (N.to_nat j) v 0 = nibble header j)) as v E X.
  - split; [reflexivity|]. lia.
  - intros i v I (LV & C). change (size / 2) with 32 in I.
    rewrite (idx_Done _ _ 0) by (unfold lenN; lia). cbn [bind].
    rewrite upd_Done by (unfold lenN; lia). cbn [bind].
    rewrite upd_Done by (unfold lenN; rewrite set_nth_length; lia).
    eexists; split; [reflexivity|]. split; [rewrite !set_nth_length; auto|].
    assert (BX : nth (N.to_nat i) header 0 < 256).
    { unfold bytes, words in B. rewrite Forall_forall in B. apply B. apply nth_In. lia. }
    intros j J. rewrite nth_set_nth by (rewrite set_nth_length; lia).
    destruct (Nat.eqb_spec (N.to_nat (i * 2 + 1)) (N.to_nat j)).
    + assert (j = 2 * i + 1) as -> by lia. unfold nibble.
      replace ((2 * i + 1) / 2) with i by lia. rewrite N.even_add, N.even_mul. cbn [N.even orb eqb].
      change 15 with (N.ones 4). rewrite N.land_ones. change (2 ^ 4) with 16. apply trunc_small. lia.
    + rewrite nth_set_nth by lia. destruct (Nat.eqb_spec (N.to_nat (i * 2)) (N.to_nat j)).
      * assert (j = 2 * i) as -> by lia. unfold nibble.
        replace (2 * i / 2) with i by lia. rewrite N.even_mul. cbn [N.even orb].
        rewrite N.shiftr_div_pow2. change (2 ^ 4) with 16. apply trunc_small. lia.
      * apply C. lia.
  - destruct X as (LV & C). f_equal. apply (list_eq_tab _ _ 0); [unfold lenN; lia|].
    intros j J. apply C. change (size / 2) with 32. lia.
Qed.
Lemma nibble_lt b j : bytes b -> nibble b j < 16.
Proof.
  intros B. unfold nibble. set (x := nth (N.to_nat (j / 2)) b 0).
  assert (BX : x < 256).
  { unfold x. destruct (le_lt_dec (length b) (N.to_nat (j / 2))).
    - rewrite nth_overflow by auto. lia.
    - unfold bytes, words in B. rewrite Forall_forall in B. apply B. apply nth_In. auto. }
  clearbody x. destruct (N.even j); lia.
Qed.

Definition psum (f : N -> N) (n : N) : N := fold_right N.add 0 (tab n f).
Lemma fold_add_app l x : fold_right N.add 0 (l ++ [x]) = fold_right N.add 0 l + x.
Proof. induction l; cbn [app fold_right]; lia. Qed.
Lemma psum_succ f n : psum f (n + 1) = psum f n + f n.
Proof. unfold psum. rewrite tab_succ. apply fold_add_app. Qed.
Lemma psum_le f n c : (forall i, i < n -> f i <= c) -> psum f n <= n * c.
Proof.
  induction n using N.peano_ind; intros H; [reflexivity|]. rewrite <- N.add_1_r in *. rewrite psum_succ.
  pose proof (H n ltac:(lia)). assert (psum f n <= n * c) by (apply IHn; intros; apply H; lia). lia.
Qed.

Lemma dot_bound M v : (forall j, j < 64 -> M j < 16) -> (forall j, j < 64 -> v j < 16) -> dot M v <= 14400.
Proof.
  intros HM HV. change (dot M v) with (psum (fun j => M j * v j) 64). change 14400 with (64 * 225).
  apply psum_le. intros i I. specialize (HM i I). specialize (HV i I). nia.
Qed.

Lemma product_spec M v : (forall i j, i < 64 -> j < 64 -> M i j < 16) -> (forall j, j < 64 -> v j < 16) ->
  product (matrix_of M) (tab 64 v) = Done (tab 64 (fun i => dot (M i) v / 2 ^ 10)).
Proof.
  intros HM HV. unfold product. apply (for_fill _ _ _ _ 0); [apply lenN_zeros|].
  intros i t I LT _ _. unfold size in I.
  assert (E : for_n size (fun j s => a <- at2 (matrix_of M) i j ;; b <- idx (tab 64 v) j ;; Done (addw 16 s (mulw 16 a b))) 0
    = Done (dot (M i) v)).
  { loop_inv (fun j s => s = psum (fun j => M i j * v j) j) as s E X.
    - reflexivity.
    - intros j s J ->. unfold size in J. rewrite (at2_Done _ _ _ 0) by (auto using square_matrix_of). cbn [bind].
      unfold matrix_of. rewrite !nth_tab by lia. rewrite idx_tab by auto. cbn [bind]. rewrite !N2Nat.id.
      eexists; split; [reflexivity|]. rewrite psum_succ.
      pose proof (HM i j I J). pose proof (HV j J).
      assert (P : M i j * v j <= 225) by nia.
      assert (psum (fun j => M i j * v j) j <= j * 225).
      { apply psum_le. intros k K. pose proof (HM i k I ltac:(lia)). pose proof (HV k ltac:(lia)). nia. }
      unfold addw, mulw. rewrite (trunc_small 16 (M i j * v j)) by (change (2 ^ 16) with 65536; lia).
      apply trunc_small. change (2 ^ 16) with 65536. lia.
    - rewrite X. reflexivity. }
  rewrite E. cbn [bind]. rewrite N.shiftr_div_pow2. reflexivity.
Qed.

Lemma mixDigest_spec header p : length header = 32%nat -> bytes header -> (forall i, i < 64 -> p i < 16) ->
  mixDigest header (tab 64 p) = Done (tab 32 (fun i => N.lxor (nth (N.to_nat i) header 0) (16 * p (2 * i) + p (2 * i + 1)))).
Proof.
  intros L B HP. unfold mixDigest. apply (for_fill _ _ _ _ 0); [apply lenN_zeros|].
  intros i t I LT _ _.
  rewrite (idx_Done _ _ 0) by (unfold lenN; lia). cbn [bind]. rewrite !idx_tab by lia. cbn [bind].
  replace (i * 2) with (2 * i) by lia.
  pose proof (HP (2 * i) ltac:(lia)) as A. pose proof (HP (2 * i + 1) ltac:(lia)) as C.
  set (x := p (2 * i)) in *. set (y := p (2 * i + 1)) in *. clearbody x y.
  assert (E : N.lor (u8 (shlw 16 x 4)) (u8 y) = 16 * x + y).
  { unfold shlw, u8. rewrite N.shiftl_mul_pow2. change (2 ^ 4) with 16.
    rewrite (trunc_small 16) by (change (2 ^ 16) with 65536; lia).
    rewrite !trunc_small by (change (2 ^ 8) with 256; lia).
    rewrite <- (N.mul_comm 16). change 16 with (2 ^ 4). rewrite N.mul_comm, <- N.shiftl_mul_pow2.
    apply lor_disjoint. apply N.bits_inj. intros k. rewrite N.land_spec, N.bits_0.
    destruct (N.leb_spec 4 k).
    - rewrite (testbit_high 4 y k) by auto. apply andb_false_r.
    - rewrite N.shiftl_spec_low by auto. reflexivity. }
  rewrite E. reflexivity.
Qed.

Lemma Forall_skipn_ {A} (P : A -> Prop) n l : Forall P l -> Forall P (skipn n l).
Proof. intros F. rewrite <- (firstn_skipn n l) in F. apply Forall_app in F. tauto. Qed.
Lemma Forall_firstn_ {A} (P : A -> Prop) n l : Forall P l -> Forall P (firstn n l).
Proof. intros F. rewrite <- (firstn_skipn n l) in F. apply Forall_app in F. tauto. Qed.

Lemma put64_le b v : length b = 8%nat -> put_uint64 LittleEndian b v = Done (le_bytes 8 v).
Proof.
  intros L. do 8 (destruct b as [|? b]; [discriminate|]). destruct b; [|discriminate]. reflexivity.
Qed.
Lemma buildHeader_spec hash timestamp nonce : length hash = 32%nat ->
  buildHeader hash timestamp nonce = Done (heavy_header hash timestamp nonce).
Proof.
  intros A. unfold buildHeader, heavy_header. set (z := Z.to_N _). clearbody z.
  do 32 (destruct hash as [|? hash]; [discriminate|]). destruct hash; [|discriminate]. reflexivity.
Qed.

Lemma slice_seed hash k : (k < 4)%nat -> length hash = 32%nat ->
  (b <- slice hash (8 * N.of_nat k) (8 * N.of_nat k + 8) ;; le_u64 b) = Done (seed_word hash k).
Proof.
  intros K L. rewrite slice_Done by (unfold lenN; lia). cbn [bind].
  replace (N.to_nat (8 * N.of_nat k + 8 - 8 * N.of_nat k)) with 8%nat by lia.
  replace (N.to_nat (8 * N.of_nat k)) with (8 * k)%nat by lia.
  unfold le_u64, lenN. rewrite firstn_length, skipn_length, L.
  destruct (N.leb_spec 8 (N.of_nat (Nat.min 8 (32 - 8 * k)))); [|lia].
  rewrite firstn_firstn. reflexivity.
Qed.
Lemma seed_word_lt hash k : bytes hash -> seed_word hash k < 2 ^ 64.
Proof.
  intros B. unfold seed_word. set (l := firstn 8 _).
  assert (BL : bytes l) by (apply Forall_firstn_, Forall_skipn_; auto).
  pose proof (le_value_lt l BL) as X.
  eapply N.lt_le_trans; [exact X|]. change (2 ^ 64) with (256 ^ 8). apply N.pow_le_mono_r; [lia|].
  unfold lenN, l. rewrite firstn_length. lia.
Qed.
Definition seeds (hash : list N) : xoshiro :=
  mkX (seed_word hash 0) (seed_word hash 1) (seed_word hash 2) (seed_word hash 3).
Lemma seeds_valid hash : bytes hash -> valid_x (seeds hash).
Proof. intros B. repeat split; apply seed_word_lt; auto. Qed.

Lemma candidate_lt s t i j : candidate s t i j < 16.
Proof. unfold candidate. apply N.mod_lt. lia. Qed.

Section Hash.
Variable submul : float64 -> float64 -> float64 -> float64.
Variable cshake : list N -> list N -> list N.

Lemma heavyHash_head fuel hash timestamp nonce : length hash = 32%nat -> bytes hash ->
  heavyHash submul cshake fuel hash timestamp nonce =
  (mat <- search submul (seeds hash) fuel 0 ;;
   let pow := cshake (heavy_header hash timestamp nonce) pow_name in
   v <- vector pow ;; p <- product mat v ;; digest <- mixDigest pow p ;;
   reverse (cshake digest heavy_name)).
Proof.
  intros L B. unfold heavyHash.
  pose proof (slice_seed hash 0 ltac:(lia) L) as E0. pose proof (slice_seed hash 1 ltac:(lia) L) as E1.
  pose proof (slice_seed hash 2 ltac:(lia) L) as E2. pose proof (slice_seed hash 3 ltac:(lia) L) as E3.
  change (8 * N.of_nat 0 + 8) with 8 in E0. change (8 * N.of_nat 0) with 0 in E0.
  change (8 * N.of_nat 1 + 8) with 16 in E1. change (8 * N.of_nat 1) with 8 in E1.
  change (8 * N.of_nat 2 + 8) with 24 in E2. change (8 * N.of_nat 2) with 16 in E2.
  change (8 * N.of_nat 3 + 8) with 32 in E3. change (8 * N.of_nat 3) with 24 in E3.
  destruct (slice hash 0 8); cbn [bind] in E0 |- *; [rewrite E0; cbn [bind]|discriminate|discriminate].
  destruct (slice hash 8 16); cbn [bind] in E1 |- *; [rewrite E1; cbn [bind]|discriminate|discriminate].
  destruct (slice hash 16 24); cbn [bind] in E2 |- *; [rewrite E2; cbn [bind]|discriminate|discriminate].
  destruct (slice hash 24 32); cbn [bind] in E3 |- *; [rewrite E3; cbn [bind]|discriminate|discriminate].
  rewrite newMatrix_search. fold (seeds hash).
  destruct (search submul (seeds hash) fuel 0) as [mat| |]; cbn [bind]; auto.
  rewrite buildHeader_spec by auto. reflexivity.
Qed.

Lemma heavyHash_tail M hash timestamp nonce : (forall s, hash_ok 32 (fun b => cshake b s)) -> (forall i j, i < 64 -> j < 64 -> M i j < 16) ->
  (let pow := cshake (heavy_header hash timestamp nonce) pow_name in
   v <- vector pow ;; p <- product (matrix_of M) v ;; digest <- mixDigest pow p ;;
   reverse (cshake digest heavy_name)) =
  Done (heavy_spec cshake pow_name heavy_name M hash timestamp nonce).
Proof.
  intros HC HM. cbv zeta. set (pow := cshake _ pow_name).
  destruct (HC pow_name (heavy_header hash timestamp nonce)) as (L & B). fold pow in L, B.
  rewrite vector_spec by auto. cbn [bind].
  assert (HN : forall j, j < 64 -> nibble pow j < 16) by (intros; apply nibble_lt; auto).
  rewrite product_spec by auto. cbn [bind].
  rewrite (mixDigest_spec pow (fun i => dot (M i) (nibble pow) / 2 ^ 10)); auto.
  - cbn [bind]. destruct (HC heavy_name (tab 32 (fun i => N.lxor (nth (N.to_nat i) pow 0)
      (16 * (dot (M (2 * i)) (nibble pow) / 2 ^ 10) + dot (M (2 * i + 1)) (nibble pow) / 2 ^ 10)))) as (L2 & _).
    rewrite reverse_32 by exact L2. reflexivity.
  - intros i I. pose proof (dot_bound (M i) (nibble pow) (fun j => HM i j I) HN).
    change (2 ^ 10) with 1024. lia.
Qed.
End Hash.
