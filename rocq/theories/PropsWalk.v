(** C40, continued: which of the last three defects a Cuckoo rejection names. *)
From Coq Require Import NArith ZArith List Permutation Lia.
From Verif Require Import Base BaseFacts CryptoModel CryptoSpec CryptoProofs CuckooModel CuckooSpec CuckooProofs CuckooWalkSpec CuckooWalk PropsCuckoo.
Import ListNotations.
Open Scope N_scope.

(** For proofs of the right length, with edges in range and endpoints that cancel, the verdict is that of the walk: a
    branch or a dead end exactly if the walk gets to one, a short cycle exactly if it comes back too early, and true
    exactly if it comes back after as many steps as there are edges. *)
Theorem C40_walk :
  forall blake edgeBits proofSize (node : N -> sip -> N -> N -> N) (block : sip -> N -> N)
         node' block' c header sols fuel,
  blake_ok blake -> words 64 sols -> (0 < proofSize)%Z -> (Z.to_nat proofSize <= fuel)%nat ->
  let mask := 2 ^ N.min (Z.to_N edgeBits) 64 - 1 in
  let keys := untup (digest_key (blake header)) in
  forall E,
  (NewCuckoo edgeBits proofSize (Some (fun m k e s => Done (node m k e s))) block' = Done c /\
   E = map (fun e => (node mask keys e 0, node mask keys e 1)) sols) \/
  (NewCuckaroo edgeBits proofSize node' (Some (fun k e => Done (block k e))) = Done c /\
   E = map (fun e => (N.land (block keys e) mask, N.land (N.shiftr (block keys e) 32) mask)) sols) ->
  Z.of_nat (length sols) = proofSize -> Forall (fun e => e < 2 ^ Z.to_N edgeBits) sols -> ~ unmatched E ->
  exists r, Verify blake fuel c header sols = Done r /\
  (r = (false, Some ErrPowBranch) <-> exists n side e, reached E n side e /\ meets_branch E side e) /\
  (r = (false, Some ErrPowDeadEnd) <-> exists n side e, reached E n side e /\ meets_dead_end E side e) /\
  (r = (false, Some ErrPowShortCycle) <-> exists n, n <> 0%nat /\ n <> length E /\ reached E n false 0) /\
  (r = (true, None) <-> reached E (length E) false 0).
Proof.
  intros blake eb ps node block nf bf c header sols fuel Hb W HP Hf mask keys E HC SZ RG NU.
  assert (exists U V, c_edgeMask c = mask /\ c_proofSize c = ps /\ (c_variant c = Cuckoo \/ c_variant c = Cuckaroo) /\
     cuckoo_endpoints c keys U V sols /\ E = edge_pairs U V sols) as (U & V & M & PS & HV & HE & ->).
  { destruct HC as [[HC ->]|[HC ->]].
    - pose proof (NewCuckoo_endpoints eb ps node bf c keys sols HC) as HE.
      apply newClient_Done in HC. destruct HC as [H0 ->]. do 2 eexists.
      repeat (split; [first [reflexivity | left; reflexivity | exact HE]|]). reflexivity.
    - pose proof (NewCuckaroo_endpoints eb ps nf block c keys sols HC) as HE.
      apply newClient_Done in HC. destruct HC as [H0 ->]. do 2 eexists.
      repeat (split; [first [reflexivity | right; reflexivity | exact HE]|]). reflexivity. }
  apply (Verify_walk blake fuel c header sols U V (proj1 (Hb header))); auto; try (rewrite PS; auto).
  rewrite M. apply (mask_le (Z.to_N eb) sols W). exact RG.
Qed.
(** The walk decides: every set of edges has one of these ends, and one only. *)
Theorem C40_one_end E n side e n' side' e' :
  reached E n side e -> reached E n' side' e' ->
  (n <> 0 /\ side = false /\ e = 0)%nat \/ meets_branch E side e \/ meets_dead_end E side e ->
  (n' <> 0 /\ side' = false /\ e' = 0)%nat \/ meets_branch E side' e' \/ meets_dead_end E side' e' ->
  n = n' /\ side = side' /\ e = e'.
Proof.
  intros R R' F F'. apply (final_unique E); auto.
  - destruct F as [F|[F|F]]; [left; exact F|apply branch_final, F|apply dead_final, F].
  - destruct F' as [G|[G|G]]; [left; exact G|apply branch_final, G|apply dead_final, G].
Qed.
Print Assumptions C40_walk.
Print Assumptions C40_one_end.

(** Edges with both a branch and dead ends, named by what the walk gets to first; and the walk round a cycle. *)
Ltac others := intros [|[|[|[|x]]]] X NX; cbn in *; try lia; try discriminate; try (exfalso; lia); try reflexivity.
Example C40_walk_instance :
  let A := combine [1; 1; 1; 1] [1; 2; 4; 7] in
  let B := combine [1; 2; 4; 7] [1; 1; 1; 1] in
  let C := combine [1; 1; 2; 2] [3; 4; 4; 3] in
  ~ unmatched A /\ reached A 0 false 0 /\ meets_branch A false 0 /\ has_dead_end A /\
  small [1; 1; 1; 1] [1; 2; 4; 7] [0; 1; 2; 3] = Done (false, Some ErrPowBranch) /\
  ~ unmatched B /\ reached B 0 false 0 /\ meets_dead_end B false 0 /\ has_branch B /\
  small [1; 2; 4; 7] [1; 1; 1; 1] [0; 1; 2; 3] = Done (false, Some ErrPowDeadEnd) /\
  ~ unmatched C /\ reached C 4 false 0 /\ small [1; 1; 2; 2] [3; 4; 4; 3] [0; 1; 2; 3] = Done (true, None).
Proof.
  intros A B C.
  assert (U : forall E : list (N * N), fold_left N.lxor (map fst E) 0 = 0 -> fold_left N.lxor (map snd E) 0 = 0 -> ~ unmatched E)
    by (intros E H1 H2 [Q|Q]; auto).
  split; [apply U; reflexivity|]. split; [constructor|].
  split; [exists 1%nat, 2%nat; cbn; repeat split; auto; lia|].
  split; [exists true, 0%nat; split; [cbn; lia|]; others|].
  split; [vm_compute; reflexivity|].
  split; [apply U; reflexivity|]. split; [constructor|].
  split; [others|].
  split; [exists true, 0%nat, 1%nat, 2%nat; cbn; repeat split; auto; lia|].
  split; [vm_compute; reflexivity|].
  split; [apply U; reflexivity|]. split; [|vm_compute; reflexivity].
  assert (R1 : reached C 1 true 1).
  { apply (reached_step C 0 false 0 1); [constructor|lia|]. split; [cbn; lia|]. split; [lia|]. split; [reflexivity|]. others. }
  assert (R2 : reached C 2 false 2).
  { apply (reached_step C 1 true 1 2); [exact R1|intros (_ & Q & _); discriminate|]. split; [cbn; lia|]. split; [lia|]. split; [reflexivity|]. others. }
  assert (R3 : reached C 3 true 3).
  { apply (reached_step C 2 false 2 3); [exact R2|intros (_ & _ & Q); discriminate|]. split; [cbn; lia|]. split; [lia|]. split; [reflexivity|]. others. }
  apply (reached_step C 3 true 3 0); [exact R3|intros (_ & Q & _); discriminate|]. split; [cbn; lia|]. split; [lia|]. split; [reflexivity|]. others.
Qed.
