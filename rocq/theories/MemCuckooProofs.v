(** Proofs about MemCuckoo.v. *)
From Coq Require Import NArith ZArith Arith List Bool Lia ZifyBool ZifyN ZifyNat.
From Verif Require Import Base BaseFacts CryptoModel CuckooModel MemModel MemProofs MemCuckoo.
Import ListNotations.
Open Scope N_scope.
Ltac Zify.zify_post_hook ::= Z.div_mod_to_equations.

(** ** Loops with early exit *)

Lemma safe_for_break {S R} me k i (body : N -> S -> prog (step S R)) s (I : S -> Prop) (Q : R -> Prop) :
  I s -> (forall j s, I s -> safe me (body j s) (fun st => match st with Continue s' => I s' | Break r => Q r end)) ->
  safe me (pfor_break k i body s) (fun x => match x with inl r => Q r | inr s' => I s' end).
Proof.
  intros H B. revert i s H. induction k; intros i s H; cbn [pfor_break]; [exact H|].
  eapply safe_bind; [apply B; exact H|]. intros [s'|r] H'; [apply IHk; exact H'|exact H'].
Qed.
Lemma safe_loop {S R} me k (body : S -> prog (step S R)) s (I : S -> Prop) (Q : R -> Prop) :
  I s -> (forall s, I s -> safe me (body s) (fun st => match st with Continue s' => I s' | Break r => Q r end)) ->
  safe me (ploop k body s) Q.
Proof.
  intros H B. revert s H. induction k; intros s H; cbn [ploop]; [exact Logic.I|].
  eapply safe_bind; [apply B; exact H|]. intros [s'|r] H'; [apply IHk; exact H'|exact H'].
Qed.
Lemma sim_for_break {S T R U} me k i (body : N -> S -> prog (step S R)) (body' : N -> T -> outcome (step T U)) s t m n
    (I : S -> T -> memory -> N -> Prop) (Q : R -> U -> memory -> N -> Prop) :
  I s t m n ->
  (forall j s t m n, I s t m n -> sim me (body j s) m n (body' j t) (fun st st' m' n' =>
     match st, st' with Continue s', Continue t' => I s' t' m' n' | Break r, Break u => Q r u m' n' | _, _ => False end)) ->
  sim me (pfor_break k i body s) m n (for_break k i body' t) (fun x y m' n' =>
     match x, y with inr s', inr t' => I s' t' m' n' | inl r, inl u => Q r u m' n' | _, _ => False end).
Proof.
  intros H B. revert i s t m n H. induction k; intros i s t m n H; cbn [pfor_break for_break]; [exact H|].
  eapply sim_bind; [apply B; exact H|]. intros [s'|r] [t'|u] m' n' H'; try contradiction; [apply IHk; exact H'|exact H'].
Qed.
Lemma sim_loop {S T R U} me k (body : S -> prog (step S R)) (body' : T -> outcome (step T U)) s t m n
    (I : S -> T -> memory -> N -> Prop) (Q : R -> U -> memory -> N -> Prop) :
  I s t m n ->
  (forall s t m n, I s t m n -> sim me (body s) m n (body' t) (fun st st' m' n' =>
     match st, st' with Continue s', Continue t' => I s' t' m' n' | Break r, Break u => Q r u m' n' | _, _ => False end)) ->
  sim me (ploop k body s) m n (loop_fuel k body' t) Q.
Proof.
  intros H B. revert s t m n H. induction k; intros s t m n H; cbn [ploop loop_fuel]; [exact Logic.I|].
  eapply sim_bind; [apply B; exact H|]. intros [s'|r] [t'|u] m' n' H'; try contradiction; [apply IHk; exact H'|exact H'].
Qed.
Lemma safe_if {A} me (b : bool) (p q : prog A) Q : safe me p Q -> safe me q Q -> safe me (if b then p else q) Q.
Proof. destruct b; auto. Qed.

(** ** Cuckoo *)

Section Cuckoo.
Variable blake2b256 : list N -> list N.
Variable fuel : nat.
Variable me : N.

Lemma safe_small edges n e : readable me edges ->
  safe me (if n <? 0 then prev <~ get edges (n - 1) ;; Ret (e <=? prev) else Ret false) (fun _ => True).
Proof. intros R. destruct (n <? 0); [|exact I]. safe_go. Qed.
Lemma safe_cuckoo_fill c P keys edges uvs : readable me edges -> writable me uvs ->
  safe me (p_cuckoo_fill c P keys edges uvs) (fun _ => True).
Proof.
  intros R W. unfold p_cuckoo_fill. eapply safe_true.
  apply (safe_for_break _ _ _ _ _ (fun _ => True) (fun _ => True)); [exact I|]. intros j (x0, x1) _.
  eapply safe_bind; [apply safe_get; exact R|]. intros e _. destruct (_ <? e); [exact I|].
  eapply safe_bind; [apply safe_small; exact R|]. intros [] _; [exact I|]. safe_go.
Qed.
Lemma safe_cuckaroo_fill c P keys edges uvs : readable me edges -> writable me uvs ->
  safe me (p_cuckaroo_fill c P keys edges uvs) (fun _ => True).
Proof.
  intros R W. unfold p_cuckaroo_fill. eapply safe_true.
  apply (safe_for_break _ _ _ _ _ (fun _ => True) (fun _ => True)); [exact I|]. intros j (x0, x1) _.
  eapply safe_bind; [apply safe_get; exact R|]. intros e _. destruct (_ <? e); [exact I|].
  eapply safe_bind; [apply safe_small; exact R|]. intros [] _; [exact I|]. safe_go.
Qed.
Lemma safe_walk uvs P : readable me uvs -> safe me (p_walk fuel uvs P) (fun _ => True).
Proof.
  intros R. unfold p_walk. apply (safe_loop _ _ _ _ (fun _ => True)); [exact I|]. intros (i, n) _.
  eapply safe_bind with (Q := fun _ => True).
  { unfold p_find_match. apply (safe_loop _ _ _ _ (fun _ => True)); [exact I|]. intros (j, k) _.
    eapply safe_bind; [apply safe_pure|]. intros k' _. destruct (k' =? i); [exact I|].
    eapply safe_bind; [apply safe_get; exact R|]. intros a _. eapply safe_bind; [apply safe_get; exact R|]. intros b _.
    destruct (a =? b); [destruct (negb _); exact I|exact I]. }
  intros [e|j] _; [exact I|]. destruct (j =? i); [exact I|]. cbv zeta. destruct (_ =? 0); exact I.
Qed.
Lemma safe_finish P uvs f : readable me uvs -> safe me (p_finish fuel P uvs f) (fun _ => True).
Proof.
  intros R. unfold p_finish. destruct f as [e|(x0, x1)]; [exact I|]. destruct (negb _); [exact I|].
  eapply safe_bind; [apply safe_walk; exact R|]. intros [e|n] _; [exact I|]. destruct (negb _); exact I.
Qed.
Lemma safe_Verify c header sols : readable me header -> readable me sols ->
  safe me (p_Verify blake2b256 fuel c header sols) (fun _ => True).
Proof.
  intros RH RS. unfold p_Verify. destruct (negb _); [exact I|].
  eapply safe_bind; [apply safe_hash_new; exact RH|]. intros hash W.
  do 4 (eapply safe_bind with (Q := fun _ => True); [safe_go|intros ? _]). cbv zeta.
  destruct (c_variant c); try exact I.
  - unfold p_cuckoo. eapply safe_bind; [apply safe_make|]. intros uvs WU.
    eapply safe_bind; [apply safe_cuckoo_fill; assumption|]. intros f _. apply safe_finish. rd.
  - unfold p_cuckaroo. eapply safe_bind; [apply safe_make|]. intros uvs WU.
    eapply safe_bind; [apply safe_cuckaroo_fill; assumption|]. intros f _. apply safe_finish. rd.
Qed.

(** After the fill, the list in the state of the model is what uvs holds. *)
Definition filled (m : memory) (n : N) (uvs : sl) (x : N * N) (y : list N * N * N) (m' : memory) (n' : N) : Prop :=
  has m' uvs (fst (fst y)) /\ x = (snd (fst y), snd y) /\ others m m' uvs /\ n' = n.
Definition filled_or (m : memory) (n : N) (uvs : sl) (x : cuckoo_err + (N * N)) (y : cuckoo_err + (list N * N * N)) (m' : memory) (n' : N) : Prop :=
  match x, y with inr s, inr t => filled m n uvs s t m' n' | inl e, inl e' => e = e' | _, _ => False end.
Lemma sim_small {D C} edges l n e m k (f : bool -> prog C) (g : bool -> outcome D) Post : has m edges l ->
  (forall b, sim me (f b) m k (g b) Post) ->
  sim me (small <~ (if n <? 0 then prev <~ get edges (n - 1) ;; Ret (e <=? prev) else Ret false) ;; f small) m k
    (small <- (if n <? 0 then prev <- idx l (n - 1) ;; Done (e <=? prev) else Done false) ;; g small) Post.
Proof.
  intros H F. eapply sim_bind with (Mid := same m k).
  - destruct (n <? 0); [|repeat split]. sget. repeat split.
  - intros a b m' n' (-> & -> & ->). apply F.
Qed.
Lemma sim_cuckoo_fill c P keys edges l uvs m n : has m edges l -> has m uvs (zeros (2 * P)) -> s_loc edges <> s_loc uvs ->
  sim me (p_cuckoo_fill c P keys edges uvs) m n (cuckoo_fill c P keys l) (filled_or m n uvs).
Proof.
  intros H HU NE. unfold p_cuckoo_fill, cuckoo_fill.
  eapply sim_weaken; [apply (sim_for_break _ _ _ _ _ _ _ _ _ (filled m n uvs) (fun e e' _ _ => e = e'))|].
  - split; [exact HU|]. split; [reflexivity|]. split; [apply others_refl|reflexivity].
  - intros j (x0, x1) ((y, z0), z1) m1 n1 (H1 & E & O1 & ->). cbn [fst snd] in *. injection E as -> ->.
    sget. destruct (_ <? _); [reflexivity|]. apply (sim_small edges l); [frame|]. intros [|]; [reflexivity|].
    apply sim_pure. intros u _. eapply sim_bind; [apply sim_set; exact H1|]. intros [] y2 m2 n2 (H2 & L2 & O2 & ->).
    apply sim_pure. intros w _. eapply sim_bind; [apply sim_set; exact H2|]. intros [] y3 m3 n3 (H3 & L3 & O3 & ->).
    apply sim_ret. split; [exact H3|]. split; [reflexivity|]. split; [|reflexivity].
    eapply others_trans; [|exact O3]. eapply others_trans; eauto.
  - intros [e|s] [e'|t] m' n' Q; exact Q.
Qed.
Lemma sim_cuckaroo_fill c P keys edges l uvs m n : has m edges l -> has m uvs (zeros (2 * P)) -> s_loc edges <> s_loc uvs ->
  sim me (p_cuckaroo_fill c P keys edges uvs) m n (cuckaroo_fill c P keys l) (filled_or m n uvs).
Proof.
  intros H HU NE. unfold p_cuckaroo_fill, cuckaroo_fill.
  eapply sim_weaken; [apply (sim_for_break _ _ _ _ _ _ _ _ _ (filled m n uvs) (fun e e' _ _ => e = e'))|].
  - split; [exact HU|]. split; [reflexivity|]. split; [apply others_refl|reflexivity].
  - intros j (x0, x1) ((y, z0), z1) m1 n1 (H1 & E & O1 & ->). cbn [fst snd] in *. injection E as -> ->.
    sget. destruct (_ <? _); [reflexivity|]. apply (sim_small edges l); [frame|]. intros [|]; [reflexivity|].
    apply sim_pure. intros edge _. cbv zeta. eapply sim_bind; [apply sim_set; exact H1|]. intros [] y2 m2 n2 (H2 & L2 & O2 & ->).
    eapply sim_bind; [apply sim_set; exact H2|]. intros [] y3 m3 n3 (H3 & L3 & O3 & ->).
    apply sim_ret. split; [exact H3|]. split; [reflexivity|]. split; [|reflexivity].
    eapply others_trans; [|exact O3]. eapply others_trans; eauto.
  - intros [e|s] [e'|t] m' n' Q; exact Q.
Qed.
Lemma sim_walk uvs l P m n : has m uvs l -> sim me (p_walk fuel uvs P) m n (walk fuel l P) (same m n).
Proof.
  intros H. unfold p_walk, walk. apply (sim_loop _ _ _ _ _ _ _ _ (same m n)); [repeat split|].
  intros (i, k) ? ? ? (<- & -> & ->). eapply sim_bind with (Mid := same m n).
  { unfold p_find_match, find_match. apply (sim_loop _ _ _ _ _ _ _ _ (same m n)); [repeat split|].
    intros (j, q) ? ? ? (<- & -> & ->). apply sim_pure. intros q' _. destruct (q' =? i); [repeat split|].
    sget. sget. destruct (_ =? _); [destruct (negb _); repeat split|repeat split]. }
  intros [e|j] ? ? ? (<- & -> & ->); [repeat split|]. destruct (j =? i); [repeat split|]. cbv zeta.
  destruct (_ =? 0); repeat split.
Qed.
Lemma sim_finish P uvs f g m0 n0 m n : filled_or m0 n0 uvs f g m n ->
  sim me (p_finish fuel P uvs f) m n (finish fuel P g) (fun a b _ _ => a = b).
Proof.
  intros F. unfold p_finish, finish. destruct f as [e|(x0, x1)], g as [e'|((y, z0), z1)]; cbn [filled_or] in F; try contradiction.
  - subst. reflexivity.
  - destruct F as (H & E & _). cbn [fst snd] in *. injection E as -> ->. destruct (negb _); [reflexivity|].
    eapply sim_bind; [apply sim_walk; exact H|]. intros r ? ? ? (<- & -> & ->). destruct r; [reflexivity|].
    destruct (negb _); reflexivity.
Qed.
Lemma sim_key hash h a b m n : has m hash h -> b <= lenN h ->
  sim me (s <~ cut_at hash a b ;; get64 LittleEndian s) m n (s <- slice h a b ;; le_u64 s) (same m n).
Proof.
  intros H B. eapply sim_bind; [apply sim_cut_at; [exact H|left; exact B]|]. intros s x ? ? (HS & _ & _ & -> & ->).
  apply sim_get64_le. exact HS.
Qed.
Lemma sim_Verify c header hx sols sx m n : (forall x, lenN (blake2b256 x) = 32) -> has m header hx -> has m sols sx ->
  owner (s_loc sols) <> me ->
  sim me (p_Verify blake2b256 fuel c header sols) m n (Verify blake2b256 fuel c hx sx) (fun a b _ _ => a = b).
Proof.
  intros HB HH HS OS. unfold p_Verify, Verify. rewrite (proj1 HS). destruct (negb _); [reflexivity|]. cbv zeta.
  eapply sim_left; [apply sim_hash_new; [exact HH|apply HB]|]. intros hash m1 n1 (H1 & N1 & _ & _ & K1 & LE1).
  pose proof (HB hx) as LB.
  do 4 (eapply sim_bind; [apply sim_key; [exact H1|lia]|]; intros ? ? ? ? (-> & -> & ->)).
  assert (HS1 : has m1 sols sx) by frame.
  destruct (c_variant c); try reflexivity.
  - unfold p_cuckoo, cuckoo. apply sim_make. intros uvs m2 E2 N2 H2 K2.
    eapply sim_bind; [apply sim_cuckoo_fill; [frame|exact H2|intros E; locs]|]. intros f g m3 n3 F. eapply sim_finish; exact F.
  - unfold p_cuckaroo, cuckaroo. apply sim_make. intros uvs m2 E2 N2 H2 K2.
    eapply sim_bind; [apply sim_cuckaroo_fill; [frame|exact H2|intros E; locs]|]. intros f g m3 n3 F. eapply sim_finish; exact F.
Qed.
End Cuckoo.
