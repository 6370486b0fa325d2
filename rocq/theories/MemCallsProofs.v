(** Proofs about MemCalls.v. *)
From Coq Require Import NArith ZArith Arith List Bool Lia ZifyBool ZifyN ZifyNat.
From Verif Require Import Base BaseFacts DagModel EthashModel ProgpowModel OctopusModel HeavyModel AutoModel EagleTables EagleModel MemModel MemSpec MemProofs MemDag MemDagProofs
  MemProgpow MemProgpowProofs MemAppend MemOctopus MemOctopusProofs
  MemHeavy MemHeavyProofs MemAuto MemAutoProofs MemEagle MemEagleProofs
  CuckooModel MemCuckoo MemCuckooProofs MemTree MemTreeProofs EquiModel BeamModel MemBeam MemBeamProofs MemEqui MemEquiProofs MemCalls.
Import ListNotations.
Open Scope N_scope.
Ltac Zify.zify_post_hook ::= Z.div_mod_to_equations.

Lemma has_contents m s : valid m s -> has m s (contents m s).
Proof.
  intros (C & B). unfold has, contents.
  assert (L : lenN (firstn (N.to_nat (s_len s)) (skipn (N.to_nat (s_off s)) (m (s_loc s)))) = s_len s).
  { unfold lenN in *. rewrite firstn_length, skipn_length. lia. }
  rewrite L. parts; auto. intros i Hi. rewrite nth_error_firstn_if. replace (N.to_nat i <? N.to_nat (s_len s))%nat with true by (symmetry; apply Nat.ltb_lt; lia).
  rewrite nth_error_skipn_if. f_equal. lia.
Qed.
Lemma has_valid m s l : has m s l -> valid m s /\ contents m s = l.
Proof.
  intros (L & C & B & E). split; [split; auto|].
  destruct (has_contents m s (conj C B)) as (L' & _ & _ & E'). apply (list_eq_nth (contents m s) l).
  intros i. destruct (Nat.ltb_spec i (length l)) as [H|H].
  - rewrite <- (Nnat.Nat2N.id i). rewrite <- E', E by (unfold lenN in *; lia). reflexivity.
  - replace (nth_error l i) with (@None N) by (symmetry; apply nth_error_None; lia).
    apply nth_error_None. unfold lenN in *. lia.
Qed.
Lemma valid_same m m' s : m' (s_loc s) = m (s_loc s) -> valid m s -> valid m' s.
Proof. unfold valid. intros ->. auto. Qed.
Lemma contents_same m m' s : m' (s_loc s) = m (s_loc s) -> contents m' s = contents m s.
Proof. unfold contents. intros ->. reflexivity. Qed.

Lemma answers_pair me n s b m' n' : pair_made me n s b m' n' -> answers me m' (Some (two s)) (Some (two_lists b)).
Proof.
  intros (H1 & H2 & N1 & N2 & NE). destruct (has_valid _ _ _ H1) as (V1 & C1), (has_valid _ _ _ H2) as (V2 & C2).
  cbn [answers two two_lists]. split; [|split; [|split; [reflexivity|]]].
  - intros x [<-|[<-|[]]]; (split; [assumption|]); unfold new in *; lia.
  - cbn [map]. congruence.
  - cbn [map]. constructor; [cbn; intros [E|[]]; auto|]. constructor; [auto|constructor].
Qed.
Lemma answers_one me s b m' : has m' s b -> owner (s_loc s) = me -> answers me m' (Some (one s)) (Some (one_list b)).
Proof.
  intros H O. destruct (has_valid _ _ _ H) as (V & C). cbn [answers one one_list]. split; [|split; [|split; [reflexivity|]]].
  - intros x [<-|[]]. auto.
  - cbn [map]. congruence.
  - cbn [map]. constructor; [auto|constructor].
Qed.
Lemma answers_numbers me m' v : answers me m' (numbers v) (numbers v).
Proof. split; [intros ? []|]. split; [reflexivity|]. split; [reflexivity|constructor]. Qed.
Lemma answers_number me m' v : answers me m' (number v) (number v).
Proof. destruct v; [|exact I]. split; [intros ? []|]. split; [reflexivity|]. split; [reflexivity|constructor]. Qed.
Lemma answers_same me m m' a v : (forall l, owner l = me -> m' l = m l) -> answers me m a v -> answers me m' a v.
Proof.
  intros E. unfold answers. destruct a as [(ss & ns)|], v as [(ls & ns')|]; auto. intros (V & C & N & D).
  assert (G : forall s, In s ss -> m' (s_loc s) = m (s_loc s)) by (intros s I; apply E; apply V; exact I).
  split; [|split; [|split; [exact N|exact D]]].
  - intros s I. destruct (V s I) as (V1 & V2). split; [eapply valid_same; [apply G; exact I|exact V1]|exact V2].
  - rewrite <- C. apply map_ext_in. intros s I. apply contents_same. apply G. exact I.
Qed.

Section Calls.
Variable o : outside.
Hypothesis RS : right_sizes o.
Let HK : forall x, lenN (keccak512 o x) = 64 := proj1 RS.
Let HK' : forall x, lenN (keccak256 o x) = 32 := proj1 (proj2 RS).
Let HB : forall x, lenN (blake2b256 o x) = 32 := proj1 (proj2 (proj2 RS)).
Let HC : forall x y, lenN (cshake o x y) = 32 := proj1 (proj2 (proj2 (proj2 RS))).
Let HD : forall s p d, 0 < s <= 64 -> lenN (blake2b o s p d) = s := proj1 (proj2 (proj2 (proj2 (proj2 RS)))).
Let RM : forall k, k <= room o k := proj2 (proj2 (proj2 (proj2 (proj2 RS)))).

(** A request as the caller may make it. *)
Definition fits (m : memory) (r : request) : Prop :=
  (forall s, In s (slices r) -> valid m s /\ owner (s_loc s) = 0) /\ initialised m /\ in_range r.

Lemma safe_checked me hash p : safe me p (fun _ => True) -> safe me (checked hash p) (fun _ => True).
Proof. intros S. unfold checked. destruct (negb _); [exact I|]. eapply safe_bind; [exact S|]. cbn. auto. Qed.
Lemma safe_ethash me d cache hash nonce size : readable me cache -> readable me hash ->
  safe me (p_ethash (keccak512 o) (keccak256 o) (room o) d cache hash nonce size) (fun r => writable me (fst r) /\ writable me (snd r)).
Proof.
  intros RC RH. unfold p_ethash. eapply safe_bind; [apply safe_make|]. intros st W. apply safe_hashimoto; [exact RH|].
  intros i. apply safe_item_uint; auto.
Qed.
Lemma safe_program me m r : fits m r -> safe me (program o r) (fun _ => True).
Proof.
  intros (F & _). assert (R : forall s, In s (slices r) -> readable me s) by (intros s I; left; apply F; exact I). clear F.
  destruct r; cbn [program slices] in *; try apply safe_checked.
  - eapply safe_bind; [apply safe_ethash; apply R; cbn; auto|]. cbn. auto.
  - eapply safe_bind; [apply safe_make|]. intros st W. eapply safe_bind; [|cbn; auto].
    apply safe_kawpow; [apply R; cbn; auto..|]. intros i. apply safe_item_uint; [apply R; cbn; auto|exact W].
  - eapply safe_bind; [apply safe_make|]. intros st W. eapply safe_bind; [|cbn; auto].
    apply safe_firopow; [apply R; cbn; auto..|]. intros i. apply safe_item_uint; [apply R; cbn; auto|exact W].
  - eapply safe_bind; [apply safe_make|]. intros st W. eapply safe_bind; [|cbn; auto].
    apply safe_octopus; [apply R; cbn; auto..|]. intros i. apply safe_item_uint; [apply R; cbn; auto|exact W].
  - eapply safe_bind; [apply safe_heavyHash; apply R; cbn; auto|]. cbn. auto.
  - eapply safe_bind; [apply safe_compute; apply R; cbn; auto|]. cbn. auto.
  - eapply safe_bind; [apply safe_eaglesong; apply R; cbn; auto|]. cbn. auto.
  - eapply safe_bind; [apply safe_Verify; apply R; cbn; auto|]. cbn. auto.
  - eapply safe_bind; [apply safe_verify; apply R; cbn; auto|]. cbn. auto.
  - eapply safe_bind; [apply safe_BeamVerify; apply R; cbn; auto 7|]. cbn. auto.
Qed.

Lemma sim_checked me hash p v0 m n h :
  has m hash h -> (lenN h = 32 -> sim me p m n v0 (fun a v m' _ => answers me m' (Some a) (Some v))) ->
  sim me (checked hash p) m n (when_32 h v0) (fun a v m' _ => answers me m' a v).
Proof.
  intros H S. unfold checked, when_32. rewrite (proj1 H). destruct (N.eqb_spec (lenN h) 32) as [E|E]; cbn [negb]; [|exact I].
  eapply sim_bind; [apply S; exact E|]. intros a v m' n' A. exact A.
Qed.

Lemma sim_program me m r : me <> 0 -> fits m r ->
  sim me (program o r) m 0 (expected o m r) (fun a v m' _ => answers me m' a v).
Proof.
  intros ME (F & (T & TB & TC & TI & MI & MC & MX) & IR). assert (HT : valid m kawpow_table -> has m kawpow_table ravencoinKawpow) by (rewrite <- T; apply has_contents).
  assert (G : forall s, In s (slices r) -> has m s (contents m s) /\ owner (s_loc s) <> me).
  { intros s I. destruct (F s I) as (V & O). split; [apply has_contents; exact V|lia]. }
  assert (V : In kawpow_table (slices r) -> valid m kawpow_table) by (intros I; apply F; exact I).
  clear F. destruct r; cbn [program expected slices in_range] in *; [apply sim_checked; [apply G; cbn; auto|]; intros LH..| | | |].
  - eapply sim_bind.
    { unfold p_ethash, newHasher. apply sim_make. intros st m1 E1 N1 H1 K1.
      set (ok := fun m : memory => has m cache (contents m cache) /\ has m hash (contents m hash)).
      refine (sim_hashimoto me (keccak512 o) (keccak256 o) (room o) st hash nonce datasetSize _ (NewLookupFunc512 (keccak512 o) d (contents m cache)) m1 1 (contents m hash)
        (fun m' => has m' cache (contents m cache)) HK HK' RM _ _ _ _ _ _ _ _).
      - apply (has_kept me 0 m m1 hash); [exact K1|left; apply G; cbn; auto|apply G; cbn; auto].
      - apply G; cbn; auto.
      - exists 0. exact H1.
      - subst st. reflexivity.
      - subst st. right. cbn. lia.
      - apply (has_kept me 0 m m1 cache); [exact K1|left; apply G; cbn; auto|apply G; cbn; auto].
      - intros m2 m3 E. apply has_same. apply E. apply G; cbn; auto.
      - intros i m2 n2 OK ST OS. apply sim_item_uint; auto; [apply G; cbn; auto|subst st; reflexivity]. }
    intros a v m' n' (H1 & H2 & N1 & N2 & NE). apply sim_ret. eapply answers_pair. split; [exact H1|]. split; [exact H2|]. split; [exact N1|]. split; [exact N2|exact NE].
  - apply sim_make. intros st m1 E1 N1 H1 K1. eapply sim_bind.
    { refine (sim_kawpow me st (fun m' => has m' cache (contents m cache) /\ has m' l1 (contents m l1) /\ has m' hash (contents m hash) /\ has m' kawpow_table ravencoinKawpow)
        _ (NewLookupFunc2048 (keccak512 o) d (contents m cache)) l1 (contents m l1) _ _ _ _ _ hash (contents m hash) _ _ LH kawpow_table _ _ height nonce datasetSize m1 (0 + 1) _ _ _).
      - subst st. reflexivity.
      - intros m2 m3 E (A1 & A2 & A3 & A4). parts; (apply (has_same m2); [apply E; apply G; cbn; auto|assumption]).
      - intros i m2 n2 (A1 & A2 & A3 & A4) ST OS. apply sim_item_uint; auto; [apply G; cbn; auto|subst st; reflexivity].
      - apply G; cbn; auto.
      - intros m2 A. apply A.
      - intros m2 A. apply A.
      - apply G; cbn; auto.
      - intros m2 A. apply A.
      - apply G; cbn; auto.
      - exists 0. exact H1.
      - assert (A1 : has m kawpow_table ravencoinKawpow) by (apply HT, V; cbn; auto).
        parts; (apply (has_same m); [apply K1; left; apply G; cbn; auto|first [exact A1|apply G; cbn; auto]]).
      - subst st. cbn. lia. }
    intros a v m' n' P. apply sim_ret. eapply answers_pair. exact P.
  - apply sim_make. intros st m1 E1 N1 H1 K1. eapply sim_bind.
    { refine (sim_firopow me st (fun m' => has m' cache (contents m cache) /\ has m' l1 (contents m l1) /\ has m' hash (contents m hash))
        _ (NewLookupFunc2048 (keccak512 o) d (contents m cache)) l1 (contents m l1) _ _ _ _ _ hash (contents m hash) _ _ LH height nonce datasetSize m1 (0 + 1) _ _ _).
      - subst st. reflexivity.
      - intros m2 m3 E (A1 & A2 & A3). parts; (apply (has_same m2); [apply E; apply G; cbn; auto|assumption]).
      - intros i m2 n2 (A1 & A2 & A3) ST OS. apply sim_item_uint; auto; [apply G; cbn; auto|subst st; reflexivity].
      - apply G; cbn; auto.
      - intros m2 A. apply A.
      - intros m2 A. apply A.
      - apply G; cbn; auto.
      - exists 0. exact H1.
      - parts; (apply (has_same m); [apply K1; left; apply G; cbn; auto|apply G; cbn; auto]).
      - subst st. cbn. lia. }
    intros a v m' n' P. apply sim_ret. eapply answers_pair. exact P.
  - apply sim_make. intros st m1 E1 N1 H1 K1. eapply sim_bind.
    { refine (sim_octopus me st (fun m' => has m' cache (contents m cache)) _ (NewLookupFunc512 (keccak512 o) d (contents m cache))
        _ _ _ (fuel o) (keccak512 o) (keccak256 o) (room o) hash (contents m hash) nonce datasetSize m1 (0 + 1) HK HK' RM _ LH _ _ _ _).
      - subst st. reflexivity.
      - intros m2 m3 E. apply has_same. apply E. apply G; cbn; auto.
      - intros i m2 n2 OK ST OS. apply sim_item_uint; auto; [apply G; cbn; auto|subst st; reflexivity].
      - apply (has_kept me 0 m m1 hash); [exact K1|left; apply G; cbn; auto|apply G; cbn; auto].
      - apply G; cbn; auto.
      - subst st. cbn. lia.
      - exists 0. exact H1.
      - apply (has_kept me 0 m m1 cache); [exact K1|left; apply G; cbn; auto|apply G; cbn; auto]. }
    intros a v m' n' (P & Q). apply sim_ret. apply answers_one; assumption.
  - eapply sim_bind; [apply (sim_heavyHash _ _ _ me hash (contents m hash)); [exact HC|apply G; cbn; auto|exact LH|apply G; cbn; auto]|].
    intros a v m' n' (P & Q). apply sim_ret. apply answers_one; assumption.
  - eapply sim_bind; [apply (sim_compute _ _ HB RM me k nBase msg (contents m msg)); [apply G; cbn; auto|apply G; cbn; auto|exact IR]|].
    intros a v m' n' (P & Q). apply sim_ret. apply answers_one; assumption.
  - eapply sim_bind; [apply (sim_eaglesong bits_table coeffs_table inject_table me); [apply G; cbn; auto..| |apply G; cbn; auto|apply G; cbn; auto]|].
    { split; [|split].
      - rewrite <- TB. apply G; cbn; auto.
      - rewrite <- TC. apply G; cbn; auto.
      - rewrite <- TI. apply G; cbn; auto. }
    intros a v m' n' (P & Q). apply sim_ret. apply answers_one; assumption.
  - eapply sim_bind; [apply (sim_Verify (blake2b256 o) (fuel o) me c header (contents m header) sols (contents m sols)); [exact HB|apply G; cbn; auto..]|].
    intros a v m' n' ->. apply sim_ret. apply answers_numbers.
  - eapply sim_bind; [apply (sim_verify (blake2b o) (room o) me HD RM (fuel o) n k personal header soln (contents m personal) (contents m header) (contents m soln));
      apply G; cbn; auto|].
    intros a v m' n' ->. apply sim_ret. apply answers_number.
  - eapply sim_bind.
    { apply (sim_BeamVerify (blake2b o) (room o) index_mask collision_mask mix_mask me HD RM) with (px := contents m personal) (hx := contents m header) (sx := contents m soln);
        [apply G; cbn; auto 7..| |apply G; cbn; auto|apply G; cbn; auto|apply G; cbn; auto|apply G; cbn; auto|apply G; cbn; auto|apply G; cbn; auto].
      split; [|split].
      - rewrite <- MI. apply G; cbn; auto 7.
      - rewrite <- MC. apply G; cbn; auto 7.
      - rewrite <- MX. apply G; cbn; auto 7. }
    intros a v m' n' ->. apply sim_ret. apply answers_number.
Qed.
End Calls.
