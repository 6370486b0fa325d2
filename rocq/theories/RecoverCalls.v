(** Proofs about a client whose caller recovers from panics. *)
From Coq Require Import NArith ZArith List Bool Permutation Lia ZifyBool ZifyN ZifyNat.
From Verif Require Import Base BaseFacts DagModel RegModel RegSpec RegProofs ClientModel ClientProofs RecoverModel.
Import ListNotations.
Open Scope N_scope.

Section Calls.
Variables keccak256 keccak512 : list N -> list N.
Variable pp : N -> bool.
Variable fuel : nat.
Variable left : N -> list N * list N.
Variable d : config.
Hypothesis CC : (1 <= cf_caches_count d)%Z.

Notation generate := (generate keccak256 keccak512 pp fuel d).
Notation run_generate := (run_generate keccak256 keccak512 pp fuel left d).

(** What an object of the registry holds is what its epoch's generation gives. *)
Definition holds (r : registry) (c : cobj) : Prop :=
  (exists k, In (k, c) (rg_caches r)) \/ rg_future r = Some c.
Record sound_with (P : N -> list N * list N -> Prop) (m : memory) : Prop := mkSound {
  so_wf : wf (cf_caches_count d) (me_reg m);
  so_fresh : forall id, rg_next (me_reg m) <= id -> me_content m id = None;
  so_content : forall c x, holds (me_reg m) c -> me_content m (co_id c) = Some x -> P (co_epoch c) x;
  so_free : me_locked m = false
}.
Arguments so_wf {P} m. Arguments so_fresh {P} m. Arguments so_content {P} m. Arguments so_free {P} m.
Notation sound := (sound_with (fun e x => generate e = Done x)).

Lemma sound_new P : sound_with P new_memory.
Proof. constructor; cbn; auto; [apply wf_empty; lia|discriminate]. Qed.

Lemma holds_unique r c c' : wf (cf_caches_count d) r -> holds r c -> holds r c' -> co_id c = co_id c' -> co_epoch c = co_epoch c'.
Proof.
  intros W [(k & I)|F] [(k' & I')|F'] E.
  - rewrite (wf_key _ _ W _ _ I), (wf_key _ _ W _ _ I'). apply (wf_idinj _ _ W _ _ _ _ I I' E).
  - destruct (wf_future _ _ W _ F') as (_ & A). destruct (A _ _ I). congruence.
  - destruct (wf_future _ _ W _ F) as (_ & A). destruct (A _ _ I'). congruence.
  - congruence.
Qed.

Lemma holds_id r c : wf (cf_caches_count d) r -> holds r c -> co_id c < rg_next r.
Proof.
  intros W [(k & I)|F]; [apply (wf_ids _ _ W _ _ I)|apply (wf_future _ _ W _ F)].
Qed.

(** The locked part of a request. *)
Lemma locked_sound P m order now e : sound_with P m -> (forall l, Permutation l (order l)) -> e < 2 ^ 64 - 1 ->
  exists r c sp, get_locked d order now e (me_reg m) = Done (r, c, sp) /\ co_epoch c = e /\
    sound_with P (mkMem r (me_content m) false) /\ In (e, c) (rg_caches r) /\ holds r c /\
    (forall f, sp = Some f -> holds r f /\ co_epoch f = e + 1 /\ me_content m (co_id f) = None).
Proof.
  intros [W FR CO LO] PO B. set (r0 := me_reg m) in *.
  destruct (get_locked_spec d order now e r0 CC PO B W) as (r & c & sp & G & W' & Ec & Eu & Hn & S).
  exists r, c, sp. split; auto. split; auto.
  assert (IN : In (e, c) (rg_caches r)).
  { destruct (map_get e (rg_caches r0)).
    - destruct S as (_ & _ & S & _). rewrite S. left; auto.
    - destruct S as ((l & _ & S) & _). rewrite S. left; auto. }
  assert (HC : holds r c) by (left; eauto).
  assert (CX : forall x, me_content m (co_id c) = Some x -> P e x).
  { intros x X. destruct (map_get e (rg_caches r0)) as [c0|] eqn:MG.
    - destruct S as (S1 & _). apply map_get_In in MG. rewrite S1 in X.
      rewrite <- (wf_key _ _ W _ _ MG). apply (CO c0); auto. left; eauto.
    - destruct S as (_ & [S2|(f & F1 & F2 & F3)] & _).
      + rewrite FR in X by lia. discriminate.
      + rewrite F3 in X. rewrite <- F2. apply (CO f); auto. right; auto. }
  assert (SP : forall f, sp = Some f -> rg_future r = Some f /\ co_epoch f = e + 1 /\ rg_next r0 <= co_id f).
  { intros f ->. destruct (map_get e (rg_caches r0)); [destruct S as (_ & S & _); discriminate|].
    destruct S as (_ & _ & S). exact S. }
  split; [|split; [exact IN|split; auto]].
  - constructor; cbn [me_reg me_content me_locked]; auto.
    + intros id Hid. apply FR. lia.
    + intros x v HX V. destruct HX as [(k & IX)|FX].
      * assert (CASE : (k, x) = (e, c) \/ In (k, x) (rg_caches r0)).
        { destruct (map_get e (rg_caches r0)).
          - destruct S as (_ & _ & S & _). rewrite S in IX. destruct IX as [IX|IX]; auto.
            apply In_map_delete in IX. tauto.
          - destruct S as ((l & K & S) & _). rewrite S in IX. destruct IX as [IX|IX]; auto.
            apply In_map_delete in IX. destruct IX as [IX _]. right.
            unfold kept in K. destruct (_ <=? _)%Z.
            + destruct K as (k0 & ev & _ & _ & ->). apply In_map_delete in IX. tauto.
            + subst l. auto. }
        destruct CASE as [E|IR]; [inversion E; subst; auto|]. apply (CO x); auto. left; eauto.
      * destruct sp as [f|].
        -- destruct (SP f eq_refl) as (F1 & F2 & F3). assert (x = f) by congruence. subst x. rewrite FR in V by auto. discriminate.
        -- assert (FE : rg_future r = rg_future r0).
           { destruct (map_get e (rg_caches r0)); [apply S|]. destruct S as (_ & _ & S & _). exact S. }
           apply (CO x); auto. right. congruence.
  - intros f Ef. destruct (SP f Ef) as (F1 & F2 & F3). split; [right; auto|]. split; auto.
Qed.

Lemma run_sound m c x : sound m -> holds (me_reg m) c -> generate (co_epoch c) = Done x ->
  exists m', run_generate m c = (m', Done x) /\ sound m' /\ me_reg m' = me_reg m.
Proof.
  intros SO HC G. unfold RecoverModel.run_generate. destruct (me_content m (co_id c)) as [y|] eqn:E.
  - exists m. rewrite (so_content _ SO c y HC E) in G. injection G as ->. auto.
  - rewrite G. exists (put_content m (co_id c) x). split; auto. split; auto. destruct SO as [W FR CO LO].
    constructor; cbn [put_content me_reg me_content me_locked]; auto.
    + intros id Hid. destruct (N.eqb_spec id (co_id c)) as [->|]; auto.
      pose proof (holds_id _ _ W HC). lia.
    + intros c' y HC' V. destruct (N.eqb_spec (co_id c') (co_id c)) as [Ei|]; auto.
      injection V as <-. rewrite (holds_unique _ _ _ W HC' HC Ei). auto.
Qed.

(** A call that returns in the model without recovery does the same here. *)
Lemma recovering_same {R} (eval : N -> list N -> list N -> outcome R) m order now hash height r a :
  sound m -> (forall l, Permutation l (order l)) -> height / cf_epoch_length d < 2 ^ 64 - 1 ->
  computeWith keccak256 keccak512 pp fuel eval d order now (me_reg m) hash height = Done (r, a) ->
  exists m', computeRecovering keccak256 keccak512 pp fuel left eval d order now m hash height = (m', Answered a) /\
    sound m' /\ me_reg m' = r.
Proof.
  intros SO PO B E. unfold computeWith in E. unfold computeRecovering.
  destruct (N.eqb_spec (lenN hash) 32) as [L|L]; cbn [negb] in *.
  2:{ injection E as <- <-. exists m. auto. }
  unfold CalcEpoch, divc in *. destruct (N.eqb_spec (cf_epoch_length d) 0) as [Z|NZ]; [discriminate|]. cbn [bind] in *.
  set (e := height / cf_epoch_length d) in *.
  destruct (DatasetSize pp fuel d e) as [ds| |] eqn:DS; try discriminate. cbn [bind] in *.
  rewrite (so_free _ SO).
  destruct (locked_sound _ m order now e SO PO B) as (r1 & c & sp & G & CE & SO1 & _ & HC & HS).
  unfold GetCache in E. rewrite G in E |- *. cbn [bind] in E. rewrite CE in E.
  destruct (generate e) as [(cache & l1)| |] eqn:GE; try discriminate. cbn [bind] in E.
  set (m1 := mkMem r1 (me_content m) false) in *.
  assert (BG : exists m2 z, (match sp with Some f => run_generate m1 f | None => (m1, Done ([], [])) end) = (m2, Done z) /\
      sound m2 /\ me_reg m2 = r1).
  { destruct sp as [f|]; [|eauto]. destruct (HS f eq_refl) as (HF & FE & _).
    destruct (generate (co_epoch f)) as [y| |] eqn:GF; try discriminate.
    destruct (run_sound m1 f y SO1 HF GF) as (m2 & A1 & A2 & A3). eauto. }
  destruct BG as (m2 & z & -> & SO2 & R2).
  destruct (match sp with Some f => _ | None => _ end); try discriminate. cbn [bind] in E.
  destruct (eval ds cache l1) as [v| |] eqn:EV; try discriminate. cbn [bind] in E. injection E as <- <-.
  destruct (run_sound m2 c (cache, l1)) as (m3 & A1 & A2 & A3); auto.
  { rewrite R2. auto. } { rewrite CE. auto. }
  rewrite A1. cbn [bind fst snd]. rewrite EV. exists m3. split; auto. split; auto. congruence.
Qed.

(** A call whose sizes cannot be told panics before it touches anything. *)
Lemma recovering_early {R} (eval : N -> list N -> list N -> outcome R) m order now hash height :
  length hash = 32%nat -> cf_epoch_length d <> 0 -> DatasetSize pp fuel d (height / cf_epoch_length d) = Panic ->
  computeRecovering keccak256 keccak512 pp fuel left eval d order now m hash height = (m, Panicked).
Proof.
  intros L NZ DS. unfold computeRecovering, lenN. rewrite L. change (negb (N.of_nat 32 =? 32)) with false. cbv iota.
  unfold CalcEpoch, divc. destruct (N.eqb_spec (cf_epoch_length d) 0); [congruence|]. cbn [bind]. rewrite DS. reflexivity.
Qed.

(** A history of calls, each answered as without recovery or panicking early. *)
Lemma serve_recovering {R} (eval : list N -> N -> N -> N -> list N -> list N -> outcome R)
    (ok lost : call -> Prop) (fits : call -> option R -> Prop) :
  (forall q r, ok q -> wf (cf_caches_count d) r ->
     (forall l, Permutation l (cl_order q l)) /\ cl_height q / cf_epoch_length d < 2 ^ 64 - 1 /\
     exists r' a, computeWith keccak256 keccak512 pp fuel (eval (cl_hash q) (cl_height q) (cl_nonce q)) d (cl_order q) (cl_now q) r
       (cl_hash q) (cl_height q) = Done (r', a) /\ fits q a) ->
  (forall q, lost q -> length (cl_hash q) = 32%nat /\ cf_epoch_length d <> 0 /\
     DatasetSize pp fuel d (cl_height q / cf_epoch_length d) = Panic) ->
  forall calls m, sound m -> Forall (fun q => ok q \/ lost q) calls ->
  Forall2 (fun q s => match s with Answered a => ok q /\ fits q a | Panicked => lost q | _ => False end)
    calls (snd (serveRecovering keccak256 keccak512 pp fuel left eval d calls m)).
Proof.
  intros OK LOST calls. induction calls as [|q calls IH]; intros m SO FA; [constructor|].
  inversion FA as [|? ? HQ FA']; subst. cbn [serveRecovering]. destruct HQ as [HQ|HQ].
  - destruct (OK q (me_reg m) HQ (so_wf _ SO)) as (PO & B & r' & a & E & FT).
    destruct (recovering_same _ m _ _ _ _ _ _ SO PO B E) as (m' & E' & SO' & _). rewrite E'.
    specialize (IH m' SO' FA'). destruct (serveRecovering _ _ _ _ _ _ _ calls m'). cbn [snd] in *. constructor; auto.
  - destruct (LOST q HQ) as (L & NZ & DS). rewrite recovering_early by auto.
    specialize (IH m SO FA'). destruct (serveRecovering _ _ _ _ _ _ _ calls m). cbn [snd] in *. constructor; auto.
Qed.

(** ** Any history, for any configuration *)

(** What an object holds after its generation: what that made, or what it left when it panicked. *)
Definition settled (e : N) (x : list N * list N) : Prop := generate e = Done x \/ (generate e = Panic /\ x = left e).

Lemma run_settled m c : sound_with settled m -> holds (me_reg m) c ->
  exists m' o, run_generate m c = (m', o) /\ sound_with settled m' /\ me_reg m' = me_reg m /\
    (forall x, o = Done x -> settled (co_epoch c) x) /\
    (o = Panic -> generate (co_epoch c) = Panic /\ me_content m (co_id c) = None) /\
    (o = OutOfFuel -> generate (co_epoch c) = OutOfFuel) /\
    (o <> OutOfFuel -> exists x, me_content m' (co_id c) = Some x) /\
    (forall id x, me_content m id = Some x -> me_content m' id = Some x).
Proof.
  intros SO HC. unfold RecoverModel.run_generate. destruct (me_content m (co_id c)) as [y|] eqn:E.
  - exists m, (Done y). split; [reflexivity|]. split; [exact SO|]. split; [reflexivity|].
    split; [intros x X; injection X as <-; exact (so_content _ SO c y HC E)|]. split; [discriminate|]. split; [discriminate|]. split; [eauto|auto].
  - assert (PUT : forall x, settled (co_epoch c) x -> sound_with settled (put_content m (co_id c) x)).
    { intros x ST. destruct SO as [W FR CO LO].
      constructor; cbn [put_content me_reg me_content me_locked]; auto.
      - intros id Hid. destruct (N.eqb_spec id (co_id c)) as [->|]; auto.
        pose proof (holds_id _ _ W HC). lia.
      - intros c' y HC' V. destruct (N.eqb_spec (co_id c') (co_id c)) as [Ei|]; auto.
        injection V as <-. rewrite (holds_unique _ _ _ W HC' HC Ei). auto. }
    assert (KEEP : forall x id z, me_content m id = Some z -> me_content (put_content m (co_id c) x) id = Some z).
    { intros x id z Z. cbn [put_content me_content]. destruct (N.eqb_spec id (co_id c)) as [->|]; [congruence|exact Z]. }
    assert (HAS : forall x, me_content (put_content m (co_id c) x) (co_id c) = Some x).
    { intros x. cbn [put_content me_content]. rewrite N.eqb_refl. reflexivity. }
    destruct (generate (co_epoch c)) as [x| |] eqn:G.
    + exists (put_content m (co_id c) x), (Done x). split; [reflexivity|]. split; [apply PUT; left; exact G|]. split; [reflexivity|].
      split; [intros z Z; injection Z as <-; left; exact G|]. split; [discriminate|]. split; [discriminate|]. split; [eauto|apply KEEP].
    + exists (put_content m (co_id c) (left (co_epoch c))), Panic. split; [reflexivity|]. split; [apply PUT; right; auto|]. split; [reflexivity|].
      split; [discriminate|]. split; [auto|]. split; [discriminate|]. split; [eauto|apply KEEP].
    + exists m, OutOfFuel. split; [reflexivity|]. split; [exact SO|]. split; [reflexivity|].
      split; [discriminate|]. split; [discriminate|]. split; [auto|]. split; [congruence|auto].
Qed.

(** What the caller sees of an evaluation. *)
Definition shown {R} (o : outcome R) : seen R :=
  match o with Done v => Answered (Some v) | Panic => Panicked | OutOfFuel => Unknown end.

(** One call. *)
Lemma recovering_any {R} (eval : N -> list N -> list N -> outcome R) m order now hash height :
  sound_with settled m -> (forall l, Permutation l (order l)) -> cf_epoch_length d <> 0 -> height / cf_epoch_length d < 2 ^ 64 - 1 ->
  let e := height / cf_epoch_length d in
  exists m' s, computeRecovering keccak256 keccak512 pp fuel left eval d order now m hash height = (m', s) /\
    sound_with settled m' /\
    (length hash <> 32%nat -> s = Answered None /\ m' = m) /\
    (length hash = 32%nat -> DatasetSize pp fuel d e = Panic -> s = Panicked /\ m' = m) /\
    (length hash = 32%nat -> DatasetSize pp fuel d e = OutOfFuel -> s = Unknown) /\
    forall ds, length hash = 32%nat -> DatasetSize pp fuel d e = Done ds ->
      (forall c x, In (e, c) (rg_caches (me_reg m)) -> me_content m (co_id c) = Some x ->
          s = shown (eval ds (fst x) (snd x))) /\
      ((s = ProcessEnds /\ generate (e + 1) = Panic) \/
       (s = Unknown /\ (generate e = OutOfFuel \/ generate (e + 1) = OutOfFuel)) \/
       ((exists c x, In (e, c) (rg_caches (me_reg m')) /\ settled e x /\ me_content m' (co_id c) = Some x) /\
        ((s = Panicked /\ generate e = Panic) \/ (exists x, settled e x /\ s = shown (eval ds (fst x) (snd x)))))).
Proof.
  intros SO PO NZ B e. unfold computeRecovering, lenN.
  destruct (Nat.eq_dec (length hash) 32) as [L|L].
  2:{ destruct (N.eqb_spec (N.of_nat (length hash)) 32); [lia|]. cbn [negb]. exists m, (Answered None).
      split; [reflexivity|]. split; [exact SO|]. repeat split; intros; congruence. }
  rewrite L. change (negb (N.of_nat 32 =? 32)) with false. cbv iota.
  unfold CalcEpoch, divc. destruct (N.eqb_spec (cf_epoch_length d) 0); [congruence|]. cbn [bind]. fold e.
  destruct (DatasetSize pp fuel d e) as [ds| |] eqn:DS; cbn [bind].
  2:{ exists m, Panicked. split; [reflexivity|]. split; [exact SO|]. repeat split; intros; congruence. }
  2:{ exists m, Unknown. split; [reflexivity|]. split; [exact SO|]. repeat split; intros; congruence. }
  rewrite (so_free _ SO).
  destruct (locked_sound _ m order now e SO PO B) as (r1 & c & sp & G & CE & SO1 & IN & HC & HS).
  rewrite G. set (m1 := mkMem r1 (me_content m) false) in *.
  assert (HIT : forall c0 x, In (e, c0) (rg_caches (me_reg m)) -> me_content m (co_id c0) = Some x ->
    sp = None /\ co_id c = co_id c0).
  { intros c0 x I0 _.
    destruct (get_locked_spec d order now e (me_reg m) CC PO B (so_wf _ SO)) as (r' & c' & sp' & G' & _ & _ & _ & _ & S').
    rewrite G in G'. injection G' as <- <- <-.
    destruct (map_get e (rg_caches (me_reg m))) as [c1|] eqn:MG.
    - destruct S' as (S1 & S2 & _). split; [exact S2|]. rewrite S1.
      assert (J := map_get_In _ _ _ MG). f_equal.
      assert (W := so_wf _ SO). clear -J I0 W. pose proof (wf_nodup _ _ W) as ND.
      induction (rg_caches (me_reg m)) as [|(k, y) l IH]; [destruct J|]. cbn [map] in ND. inversion ND as [|? ? NI ND']; subst.
      destruct I0 as [E0|I0], J as [E1|J].
      + congruence.
      + injection E0 as -> ->. destruct NI. apply in_map_iff. exists (e, c1). auto.
      + injection E1 as -> ->. destruct NI. apply in_map_iff. exists (e, c0). auto.
      + auto.
    - exfalso. clear -I0 MG. induction (rg_caches (me_reg m)) as [|(k, y) l IH]; [destruct I0|].
      cbn [map_get] in MG. destruct (N.eqb_spec k e) as [->|NE]; [discriminate|].
      destruct I0 as [E0|I0]; [congruence|auto]. }
  assert (BG : exists m2 b, (match sp with Some f => run_generate m1 f | None => (m1, Done ([], [])) end) = (m2, b) /\
      sound_with settled m2 /\ me_reg m2 = r1 /\ (b = Panic -> generate (e + 1) = Panic) /\
      (b = OutOfFuel -> generate (e + 1) = OutOfFuel) /\ (sp = None -> b = Done ([], [])) /\
      (forall id x, me_content m id = Some x -> me_content m2 id = Some x)).
  { destruct sp as [f|].
    - destruct (HS f eq_refl) as (HF & FE & _).
      destruct (run_settled m1 f SO1 HF) as (m2 & o & A1 & A2 & A3 & _ & A4 & A8 & _ & A5).
      exists m2, o. split; [exact A1|]. split; [exact A2|]. split; [exact A3|].
      split; [intros Ho; rewrite <- FE; apply A4; exact Ho|]. split; [intros Ho; rewrite <- FE; apply A8; exact Ho|].
      split; [discriminate|exact A5].
    - exists m1, (Done ([], [])). split; [reflexivity|]. split; [exact SO1|]. split; [reflexivity|].
      split; [discriminate|]. split; [discriminate|]. auto. }
  destruct BG as (m2 & b & -> & SO2 & R2 & BP & BF & BN & K2).
  destruct b as [z| |].
  2:{ exists m2, ProcessEnds. split; [reflexivity|]. split; [exact SO2|]. split; [congruence|]. split; [discriminate|]. split; [discriminate|].
      intros ds' _ _. split; [|left; auto]. intros c0 y I0 Y. destruct (HIT c0 y I0 Y) as (SN & _). specialize (BN SN). discriminate. }
  2:{ exists m2, Unknown. split; [reflexivity|]. split; [exact SO2|]. split; [congruence|]. split; [discriminate|]. split; [discriminate|].
      intros ds' _ _. split; [|right; left; auto]. intros c0 y I0 Y. destruct (HIT c0 y I0 Y) as (SN & _). specialize (BN SN). discriminate. }
  assert (HC2 : holds (me_reg m2) c) by (rewrite R2; exact HC).
  destruct (run_settled m2 c SO2 HC2) as (m3 & o & A1 & A2 & A3 & A4 & A5 & A8 & A6 & A7). rewrite A1.
  assert (OUT : o <> OutOfFuel -> exists c x, In (e, c) (rg_caches (me_reg m3)) /\ settled e x /\ me_content m3 (co_id c) = Some x).
  { intros NO. destruct (A6 NO) as (y & Y). exists c, y. rewrite A3, R2. split; [exact IN|]. split; [|exact Y].
    rewrite <- CE. apply (so_content _ A2 c y); [rewrite A3; exact HC2|exact Y]. }
  assert (REUSE : forall c0 y, In (e, c0) (rg_caches (me_reg m)) -> me_content m (co_id c0) = Some y -> o = Done y).
  { intros c0 y I0 Y. destruct (HIT c0 y I0 Y) as (_ & EI). apply K2 in Y. rewrite <- EI in Y.
    unfold RecoverModel.run_generate in A1. rewrite Y in A1. congruence. }
  destruct o as [x| |]; cbn [bind].
  - assert (SX : settled e x) by (rewrite <- CE; apply A4; reflexivity).
    exists m3, (shown (eval ds (fst x) (snd x))). split; [unfold shown; destruct (eval ds (fst x) (snd x)); reflexivity|].
    split; [exact A2|]. split; [congruence|]. split; [discriminate|]. split; [discriminate|].
    intros ds' _ Q. injection Q as <-. split.
    + intros c0 y I0 Y. specialize (REUSE c0 y I0 Y). congruence.
    + right. right. split; [apply OUT; discriminate|]. right. exists x. auto.
  - exists m3, Panicked. split; [reflexivity|]. split; [exact A2|]. split; [congruence|]. split; [discriminate|]. split; [discriminate|].
    intros ds' _ Q. split; [intros c0 y I0 Y; specialize (REUSE c0 y I0 Y); discriminate|].
    right. right. split; [apply OUT; discriminate|]. left. split; [reflexivity|]. rewrite <- CE. apply (A5 eq_refl).
  - exists m3, Unknown. split; [reflexivity|]. split; [exact A2|]. split; [congruence|]. split; [discriminate|]. split; [discriminate|].
    intros ds' _ Q. split; [intros c0 y I0 Y; specialize (REUSE c0 y I0 Y); discriminate|].
    right. left. split; [reflexivity|]. left. rewrite <- CE. apply (A8 eq_refl).
Qed.

(** What a call may see, by the length of its hash and the epoch of its height. *)
Definition may_see {R} (eval : list N -> N -> N -> N -> list N -> list N -> outcome R) (q : call) (s : seen R) : Prop :=
  let e := cl_height q / cf_epoch_length d in
  let on x ds := shown (eval (cl_hash q) (cl_height q) (cl_nonce q) ds (fst x) (snd x)) in
  if negb (lenN (cl_hash q) =? 32) then s = Answered None else
  match DatasetSize pp fuel d e with
  | Panic => s = Panicked
  | OutOfFuel => s = Unknown
  | Done ds =>
      match generate e with
      | Done x => s = on x ds
      | Panic => s = Panicked \/ s = on (left e) ds
      | OutOfFuel => s = Unknown
      end \/
      match generate (e + 1) with Done _ => False | Panic => s = ProcessEnds | OutOfFuel => s = Unknown end
  end.

Definition proper (q : call) : Prop :=
  (forall l, Permutation l (cl_order q l)) /\ cl_height q / cf_epoch_length d < 2 ^ 64 - 1.

Lemma each_call {R} (eval : list N -> N -> N -> N -> list N -> list N -> outcome R) calls : cf_epoch_length d <> 0 ->
  Forall proper calls -> forall m, sound_with settled m ->
  forall i q s, nth_error calls i = Some q ->
    nth_error (snd (serveRecovering keccak256 keccak512 pp fuel left eval d calls m)) i = Some s -> may_see eval q s.
Proof.
  intros NZ F. induction F as [|q0 rest (PO & B) F IH]; intros m SO i q s NQ NS.
  { destruct i; discriminate. }
  cbn [serveRecovering] in NS.
  destruct (recovering_any (eval (cl_hash q0) (cl_height q0) (cl_nonce q0)) m (cl_order q0) (cl_now q0) (cl_hash q0) (cl_height q0) SO PO NZ B)
    as (m' & s0 & E & SO' & C1 & C2 & C3 & C4).
  rewrite E in NS.
  assert (ME : may_see eval q0 s0).
  { unfold may_see, lenN. destruct (N.eqb_spec (N.of_nat (length (cl_hash q0))) 32) as [L|L]; cbn [negb].
    2:{ apply C1. lia. }
    assert (L' : length (cl_hash q0) = 32%nat) by lia.
    destruct (DatasetSize pp fuel d (cl_height q0 / cf_epoch_length d)) as [ds| |] eqn:DS; [|apply C2; auto|apply C3; auto].
    destruct (C4 ds L' eq_refl) as (_ & [(-> & G)|[(-> & [G|G])|(_ & [(-> & G)|(x & ST & ->)])]]).
    - rewrite G. right. reflexivity.
    - rewrite G. left. reflexivity.
    - rewrite G. right. reflexivity.
    - rewrite G. left. left. reflexivity.
    - left. destruct ST as [G|(G & ->)]; rewrite G; [reflexivity|right; reflexivity]. }
  destruct i as [|i].
  - injection NQ as <-. assert (s = s0) as ->; [|exact ME].
    destruct s0; try (cbn [snd nth_error] in NS; congruence);
      destruct (serveRecovering keccak256 keccak512 pp fuel left eval d rest m'); cbn [snd nth_error] in NS; congruence.
  - cbn [nth_error] in NQ.
    destruct s0; try (cbn [snd nth_error] in NS; destruct i; discriminate);
      (destruct (serveRecovering keccak256 keccak512 pp fuel left eval d rest m') as (mm, ss) eqn:ES;
       apply (IH m' SO' i q s NQ); rewrite ES; exact NS).
Qed.

(** Two calls in a row for one epoch. *)
Lemma next_call {R} (eval : list N -> N -> N -> N -> list N -> list N -> outcome R) before p q e ds : cf_epoch_length d <> 0 ->
  Forall proper before -> proper p -> proper q ->
  length (cl_hash p) = 32%nat -> length (cl_hash q) = 32%nat ->
  cl_height p / cf_epoch_length d = e -> cl_height q / cf_epoch_length d = e ->
  DatasetSize pp fuel d e = Done ds -> generate e = Panic ->
  forall m log sp sq, sound_with settled m ->
  snd (serveRecovering keccak256 keccak512 pp fuel left eval d (before ++ [p; q]) m) = log ++ [sp; sq] ->
  length log = length before ->
  sq = shown (eval (cl_hash q) (cl_height q) (cl_nonce q) ds (fst (left e)) (snd (left e))).
Proof.
  intros NZ F (PP & BP) (PQ & BQ) LP LQ EP EQ DS GP. induction F as [|q0 rest (PO & B) F IH]; intros m log sp sq SO ES LL.
  - destruct log; [|discriminate]. cbn [app serveRecovering] in ES.
    destruct (recovering_any (eval (cl_hash p) (cl_height p) (cl_nonce p)) m (cl_order p) (cl_now p) (cl_hash p) (cl_height p) SO PP NZ BP)
      as (m' & s0 & E & SO' & _ & _ & _ & C4). rewrite EP in C4. rewrite E in ES.
    destruct (C4 ds LP DS) as (_ & [(-> & _)|[(-> & _)|((c & x & IN & ST & CT) & _)]]); try discriminate.
    destruct ST as [ST| (_ & ->)]; [congruence|].
    destruct (recovering_any (eval (cl_hash q) (cl_height q) (cl_nonce q)) m' (cl_order q) (cl_now q) (cl_hash q) (cl_height q) SO' PQ NZ BQ)
      as (m'' & s1 & E1 & _ & _ & _ & _ & C5). rewrite EQ in C5. rewrite E1 in ES.
    destruct (C5 ds LQ DS) as (H & _). rewrite <- (H c _ IN CT).
    destruct s0; try discriminate; destruct s1; cbn [snd] in ES; congruence.
  - destruct log as [|s log]; [discriminate|]. cbn [app serveRecovering] in ES.
    destruct (recovering_any (eval (cl_hash q0) (cl_height q0) (cl_nonce q0)) m (cl_order q0) (cl_now q0) (cl_hash q0) (cl_height q0) SO PO NZ B)
      as (m' & s0 & E & SO' & _). rewrite E in ES.
    assert (NE : length (log ++ [sp; sq]) <> 0%nat) by (rewrite app_length; cbn; lia).
    destruct (serveRecovering keccak256 keccak512 pp fuel left eval d (rest ++ [p; q]) m') as (mm, ss) eqn:EE.
    assert (ss = log ++ [sp; sq]).
    { destruct s0; cbn [snd] in ES; try (injection ES as _ ES; rewrite <- ES in NE; cbn in NE; congruence);
        injection ES as _ ES; exact ES. }
    apply (IH m' log sp sq SO'); [rewrite EE; exact H|cbn [length] in LL; congruence].
Qed.

(** ** A panic in the generation itself *)

(** In a new client: the first call panics, and the next in that epoch works on what was left. *)
Lemma second_call {R} (eval : list N -> N -> N -> N -> list N -> list N -> outcome R) p q e ds :
  (forall l, Permutation l (cl_order p l)) -> (forall l, Permutation l (cl_order q l)) ->
  length (cl_hash p) = 32%nat -> length (cl_hash q) = 32%nat -> cf_epoch_length d <> 0 -> e < 2 ^ 64 - 1 ->
  cl_height p / cf_epoch_length d = e -> cl_height q / cf_epoch_length d = e ->
  DatasetSize pp fuel d e = Done ds -> generate e = Panic -> (exists x, generate (e + 1) = Done x) ->
  snd (serveRecovering keccak256 keccak512 pp fuel left eval d [p; q] new_memory) =
  [Panicked;
   match eval (cl_hash q) (cl_height q) (cl_nonce q) ds (fst (left e)) (snd (left e)) with
   | Done v => Answered (Some v) | Panic => Panicked | OutOfFuel => Unknown
   end].
Proof.
  intros PP PQ LP LQ NZ B EP EQ DS GP (x' & GN).
  assert (NX : addw 64 e 1 = e + 1) by (unfold addw; apply trunc_small; lia).
  set (c1 := mkObj 0 e (cl_now p)). set (f1 := mkObj 1 (e + 1) 0).
  set (r1 := mkReg [(e, c1)] (Some f1) 2).
  assert (G1 : get_locked d (cl_order p) (cl_now p) e empty_registry = Done (r1, c1, Some f1)).
  { unfold get_locked. cbn [empty_registry rg_caches rg_future rg_next map_get].
    change (lenN (@nil (N * cobj))) with 0. destruct (Z.leb_spec (cf_caches_count d) (Z.of_N 0)); [lia|]. cbn [bind].
    rewrite NX. reflexivity. }
  set (c2 := mkObj 0 e (cl_now q)).
  assert (G2 : get_locked d (cl_order q) (cl_now q) e r1 = Done (mkReg [(e, c2)] (Some f1) 2, c2, None)).
  { unfold get_locked, r1. cbn [rg_caches rg_future rg_next map_get]. rewrite N.eqb_refl.
    unfold map_set. cbn [map_delete filter]. rewrite N.eqb_refl. reflexivity. }
  set (m1 := put_content (put_content (mkMem r1 (fun _ => None) false) 1 x') 0 (left e)).
  assert (E1 : computeRecovering keccak256 keccak512 pp fuel left (eval (cl_hash p) (cl_height p) (cl_nonce p)) d (cl_order p) (cl_now p)
      new_memory (cl_hash p) (cl_height p) = (m1, Panicked)).
  { unfold computeRecovering, lenN. rewrite LP. change (negb (N.of_nat 32 =? 32)) with false. cbv iota.
    unfold CalcEpoch, divc. destruct (N.eqb_spec (cf_epoch_length d) 0); [congruence|]. cbn [bind]. rewrite EP, DS. cbn [bind].
    cbn [new_memory me_locked me_reg me_content]. rewrite G1.
    unfold RecoverModel.run_generate at 1. cbn [me_content co_id co_epoch f1]. rewrite GN.
    unfold RecoverModel.run_generate. cbn [me_content put_content co_id co_epoch c1]. change (0 =? 1) with false. cbv iota. rewrite GP.
    reflexivity. }
  cbn [serveRecovering]. rewrite E1.
  unfold computeRecovering, lenN. rewrite LQ. change (negb (N.of_nat 32 =? 32)) with false. cbv iota.
  unfold CalcEpoch, divc. destruct (N.eqb_spec (cf_epoch_length d) 0); [congruence|]. cbn [bind]. rewrite EQ, DS. cbn [bind].
  unfold m1. cbn [put_content me_locked me_reg me_content]. rewrite G2.
  unfold RecoverModel.run_generate. cbn [me_content co_id c2]. change (0 =? 0) with true. cbv iota. cbn [bind].
  destruct (eval _ _ _ _ _ _); reflexivity.
Qed.
End Calls.
