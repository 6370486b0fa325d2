(** C69: no data race. *)
From Coq Require Import NArith ZArith List Bool Permutation Lia ZifyBool ZifyN ZifyNat.
From Verif Require Import Base BaseFacts DagModel RegModel RegSpec RegProofs OnceModel OnceProofs
  RaceSpec RaceModel RaceProofs.
Import ListNotations.
Open Scope N_scope.

Section C69.
Context {V : Type}.

(** In every history of concurrent requests and uses of the returned caches, two conflicting
    accesses are ordered by happens-before, in the order in which the history has them. *)
Theorem C69_conflicts_ordered (d : config) (gen : N -> V) s tr i j e f :
  (1 <= cf_caches_count d)%Z -> traced d gen s tr ->
  nth_error tr i = Some e -> nth_error tr j = Some f -> (i < j)%nat ->
  conflict (ev_act e) (ev_act f) -> happens_before tr i j.
Proof.
  intros Hc TX Hi Hj L C. exact (r_ord _ _ (traced_rinv d gen Hc s tr TX) i j e f Hi Hj L C).
Qed.

(** Hence there is no data race. *)
Theorem C69_no_data_race (d : config) (gen : N -> V) s tr i j :
  (1 <= cf_caches_count d)%Z -> traced d gen s tr -> ~ data_race tr i j.
Proof.
  intros Hc TX (e & f & Hi & Hj & L & _ & C & NO). apply NO.
  exact (C69_conflicts_ordered d gen s tr i j e f Hc TX Hi Hj L C).
Qed.

(** The histories are those of the executions the other theorems are about. *)
Theorem C69_all_executions (d : config) (gen : N -> V) s :
  execution d gen s <-> exists tr, traced d gen s tr.
Proof.
  split.
  - induction 1 as [|s s' _ (tr & TX) ST|s e _ (tr & TX) He].
    + eexists. apply tx_init.
    + destruct ST as [s t th sh' pc' new H L]. eexists. apply (tx_step d gen s tr t th sh' pc' new TX H L).
    + eexists. apply (tx_request d gen s tr e TX He).
  - intros (tr & TX). exact (traced_execution d gen s tr TX).
Qed.
End C69.
Print Assumptions C69_conflicts_ordered.
Print Assumptions C69_no_data_race.
Print Assumptions C69_all_executions.

(** Two requests for the same epoch: the first goroutine has updated the registry, the second
    reads it afterwards.  The accesses conflict, so the ordering is not vacuous. *)
Example C69_instance :
  exists s tr i j, traced (cfg_ethereum []) (fun e => e * 7) s tr /\
    nth_error tr i = Some (mkEv (Some 0%nat) (Wr LReg)) /\
    nth_error tr j = Some (mkEv (Some 1%nat) (Rd LReg)) /\ (i < j)%nat /\
    conflict (Wr LReg) (Rd LReg) /\ happens_before tr i j.
Proof.
  set (d := cfg_ethereum []). set (gen := fun e => e * 7).
  assert (T0 := @tx_init N d gen).
  assert (T1 := tx_request d gen _ _ 5 T0 ltac:(lia)). cbn in T1.
  assert (T2 := tx_request d gen _ _ 5 T1 ltac:(lia)). cbn in T2.
  match type of T2 with traced _ _ ?s ?tr =>
    assert (T3 := tx_step d gen s tr 0 (mkT (Some 5) (Lock 5)) _ _ _ T2 eq_refl (s_lock d gen 0 (sy_shared s) 5 eq_refl)) end. cbn in T3.
  match type of T3 with traced _ _ ?s ?tr =>
    assert (T4 := tx_step d gen s tr 0 (mkT (Some 5) (Read 5)) _ _ _ T3 eq_refl (s_read d gen 0 (sy_shared s) 5)) end. cbn in T4.
  destruct (get_locked d (fun m => m) 1 5 empty_registry) as [[[r' c] sp]| |] eqn:GL;
    [|vm_compute in GL; discriminate GL|vm_compute in GL; discriminate GL].
  match type of T4 with traced _ _ ?s ?tr =>
    assert (T5 := tx_step d gen s tr 0 (mkT (Some 5) (Write 5 empty_registry)) _ _ _ T4 eq_refl (s_write d gen 0 (sy_shared s) 5 _ _ _ _ _ _ (fun m => Permutation_refl m) GL)) end.
  vm_compute in GL. inversion GL; subst r' c sp. cbn in T5.
  match type of T5 with traced _ _ ?s ?tr =>
    assert (T6 := tx_step d gen s tr 0 (mkT (Some 5) (Unlock (mkObj 0 5 1))) _ _ _ T5 eq_refl (s_unlock d gen 0 (sy_shared s) _)) end. cbn in T6.
  match type of T6 with traced _ _ ?s ?tr =>
    assert (T7 := tx_step d gen s tr 1 (mkT (Some 5) (Lock 5)) _ _ _ T6 eq_refl (s_lock d gen 1 (sy_shared s) 5 eq_refl)) end. cbn in T7.
  match type of T7 with traced _ _ ?s ?tr =>
    assert (T8 := tx_step d gen s tr 1 (mkT (Some 5) (Read 5)) _ _ _ T7 eq_refl (s_read d gen 1 (sy_shared s) 5)) end. cbn in T8.
  assert (C : conflict (Wr LReg) (Rd LReg)).
  { exists LReg, true, false, false, false. repeat (split; auto). intros [X _]; discriminate. }
  eexists _, _, 15%nat, 21%nat.
  split; [exact T8|]. split; [reflexivity|]. split; [reflexivity|]. split; [lia|]. split; [exact C|].
  apply (C69_conflicts_ordered d gen _ _ 15 21 (mkEv (Some 0%nat) (Wr LReg)) (mkEv (Some 1%nat) (Rd LReg))
    ltac:(cbn; lia) T8 eq_refl eq_refl ltac:(lia) C).
Qed.

(** The definition of a race has content: without synchronisation there is one. *)
Example C69_race_exists :
  data_race [mkEv (Some 0%nat) (Wr (LData 0)); mkEv (Some 1%nat) (Rd (LData 0))] 0 1.
Proof.
  exists (mkEv (Some 0%nat) (Wr (LData 0))), (mkEv (Some 1%nat) (Rd (LData 0))).
  split; [reflexivity|]. split; [reflexivity|]. split; [lia|]. split; [discriminate|]. split.
  - exists (LData 0), true, false, false, false. repeat (split; auto). intros [X _]; discriminate.
  - intros HB.
    assert (FE : forall tr i j, happens_before tr i j -> exists k, edge tr i k).
    { intros tr i j. induction 1; eauto. }
    destruct (FE _ _ _ HB) as (k & E).
    destruct E as [e f A B L X|e f u A B L X Y|e f m A B L X Y|e f id A B L X Y];
      cbn in A; inversion A; subst e; try discriminate X.
    destruct k as [|[|k]]; [lia| |destruct k; discriminate B].
    inversion B; subst f. discriminate X.
Qed.
