(** Properties C36-C40: the cuckoo package. *)
From Coq Require Import NArith ZArith List Permutation Sorting.Sorted Lia.
From Verif Require Import Base BaseFacts CryptoModel CryptoSpec CryptoProofs CuckooModel CuckooSpec CuckooProofs Hashes HashesFacts.
From Coq Require String. Import String.StringSyntax.
Import ListNotations.
Open Scope string_scope.
Open Scope list_scope.
Open Scope N_scope.

(** [blake_ok blake]: the hash returns 32 bytes.  [usable c]: [c] comes from NewCuckoo or NewCuckaroo with a
    positive proof size and a hash function that returns, or is the Cortex client. *)
Lemma blake2b_256_ok : blake_ok blake2b_256.
Proof. intros d. split; [apply blake2b_length; lia|apply blake2b_bytes]. Qed.

(** cuckoo_test.go *)
Definition aeternity0 : list N * list N :=
  (hex "69435549583467653534384d6e4e6c4d714b6371365444674a6631446b783548594f4d67705041783249343d71414541414837384141413d000000000000000000000000000000000000000000000000",
   [0x003b5d47; 0x00a70508; 0x00d0aa4a; 0x0238a16a; 0x038653bf; 0x03e91d96; 0x03f4baa8;
    0x062ef17e; 0x065d7b41; 0x066fbb1e; 0x079af861; 0x08bd2cf2; 0x0956b89d; 0x0b56fb7f;
    0x0c098553; 0x0c6d2c27; 0x0d8c0fd9; 0x0ddcbb1d; 0x0e3eccde; 0x0e464bef; 0x0fb09bef;
    0x1267ebb1; 0x129ef8e6; 0x138432b5; 0x144d428b; 0x1484e6b6; 0x14efcfba; 0x158d5352;
    0x159f3551; 0x15a07563; 0x160a3efd; 0x17c9b61e; 0x184499bc; 0x1844f434; 0x1919053a;
    0x197a9095; 0x1aa04947; 0x1bc3f6e5; 0x1d8b4029; 0x1e6a1fe0; 0x1e7e4380; 0x1f5a2a50]).

Definition aeternity1 : list N * list N :=
  (hex "5957616c3675576330543433356d6775473877482f4d4378354e45626f6a4837586d38547176614e3862553d566b35374733496f4141413d000000000000000000000000000000000000000000000000",
   [0x007791c9; 0x0197cfec; 0x025166a5; 0x025e30b8; 0x03d6aedc; 0x04311736; 0x0516b291;
    0x05179816; 0x056ac771; 0x068b92d8; 0x06aee4f8; 0x0817c500; 0x08c1a751; 0x08f1999c;
    0x08f46654; 0x092b8770; 0x096034f8; 0x09cfcb6f; 0x0d4f1cdb; 0x0d5b8793; 0x0d5c09a8;
    0x0da0e97b; 0x0db38171; 0x0dc09c91; 0x0e34aeaf; 0x0f0251df; 0x10486aa7; 0x14477924;
    0x1544daf9; 0x1623e36e; 0x16b55699; 0x16fa6905; 0x177125c6; 0x17f88a4d; 0x19243b3c;
    0x19ebdaa7; 0x1b5383f1; 0x1c614cbf; 0x1de144f9; 0x1df596a7; 0x1f629453; 0x1f6b9406]).

Definition aeternity2 : list N * list N :=
  (hex "6a4f3142484c734a775a6571367430457650794d76394a44583274387162574859586e496171494d3245773d582b54766c6e496f4141413d000000000000000000000000000000000000000000000000",
   [0x008a9cad; 0x008ec69d; 0x00dbf03e; 0x020337ed; 0x0211161e; 0x02ee6658; 0x045d4488;
    0x0534f601; 0x0542e80c; 0x062d2002; 0x078ac9b5; 0x07b7112a; 0x07cb2202; 0x07fbc7e7;
    0x088827a7; 0x093e3139; 0x0a7af764; 0x0a92c274; 0x0ad8dcb9; 0x0bf8f10f; 0x0c0f0de0;
    0x0cc6670d; 0x0dad83b3; 0x104f3b5e; 0x11817d4c; 0x123a7b96; 0x12b9fbdd; 0x1337ce2b;
    0x13432b38; 0x15b1b455; 0x16784bf4; 0x1693250e; 0x169d804f; 0x16e811de; 0x195d114e;
    0x1b77f0cb; 0x1c55fca6; 0x1cab0177; 0x1cb0a8c3; 0x1d38ea27; 0x1d9aa6dc; 0x1f713d1f]).

Definition cortex0 : list N * list N :=
  (hex "6281a031a95a7669e42cf56d46b5d921b067ace29c46c89fa2698f3b895d6fcb21208e4e00000165",
   [0x017ca085; 0x0181ca71; 0x096b8b98; 0x09d3a607; 0x0b6bb4c8; 0x0c9bbecb; 0x10d1c645;
    0x13ba80dc; 0x13cb4dc9; 0x15ebc37d; 0x164de862; 0x16a7906a; 0x18c28113; 0x199e50ca;
    0x1ba70932; 0x1bc435b1; 0x1caad714; 0x1d94ccd4; 0x1da4b49d; 0x1eff189e; 0x2030c2cf;
    0x2084a6c3; 0x2111e51e; 0x241ff2d0; 0x26bb0111; 0x275fd4a1; 0x27654850; 0x291041de;
    0x2a4c1e5b; 0x2a8e54e1; 0x2ba12d29; 0x2d16cbc0; 0x2e9e0df8; 0x3209259d; 0x32751e22;
    0x33107850; 0x332b35f9; 0x33a134d4; 0x354fc224; 0x384052fb; 0x38cdb22e; 0x3e665fed]).

(** C36 *)
Theorem C36_verify_terminates :
  forall blake c header sols fuel,
  blake_ok blake -> usable c -> (Z.to_nat (c_proofSize c) <= fuel)%nat ->
  exists r, Verify blake fuel c header sols = Done r.
Proof. exact terminates. Qed.
Print Assumptions C36_verify_terminates.

(** The hypothesis "positive proof size" is needed. *)
Theorem C36_zero_proof_size_panics :
  forall blake edgeBits node block c header fuel,
  blake_ok blake ->
  NewCuckoo edgeBits 0 node block = Done c \/ NewCuckaroo edgeBits 0 node block = Done c ->
  (0 < fuel)%nat ->
  Verify blake fuel c header [] = Panic.
Proof. exact zero_size_panics. Qed.
Print Assumptions C36_zero_proof_size_panics.

(** C37 *)
Theorem C37_cuckoo_accepts_exactly_cycles :
  forall blake edgeBits proofSize (node : N -> sip -> N -> N -> N) block c header sols fuel,
  blake_ok blake -> words 64 sols ->
  NewCuckoo edgeBits proofSize (Some (fun m k e s => Done (node m k e s))) block = Done c ->
  (0 < proofSize)%Z -> (Z.to_nat proofSize <= fuel)%nat ->
  let mask := 2 ^ N.min (Z.to_N edgeBits) 64 - 1 in
  let keys := untup (digest_key (blake header)) in
  (Verify blake fuel c header sols = Done (true, None) <->
   Z.of_nat (length sols) = proofSize /\ Forall (fun e => e < 2 ^ Z.to_N edgeBits) sols /\
   single_cycle (map (fun e => (node mask keys e 0, node mask keys e 1)) sols)).
Proof. exact cuckoo_accepts_cycles. Qed.
Print Assumptions C37_cuckoo_accepts_exactly_cycles.

Theorem C37_cuckaroo_accepts_exactly_cycles :
  forall blake edgeBits proofSize node (block : sip -> N -> N) c header sols fuel,
  blake_ok blake -> words 64 sols ->
  NewCuckaroo edgeBits proofSize node (Some (fun k e => Done (block k e))) = Done c ->
  (0 < proofSize)%Z -> (Z.to_nat proofSize <= fuel)%nat ->
  let mask := 2 ^ N.min (Z.to_N edgeBits) 64 - 1 in
  let keys := untup (digest_key (blake header)) in
  (Verify blake fuel c header sols = Done (true, None) <->
   Z.of_nat (length sols) = proofSize /\ Forall (fun e => e < 2 ^ Z.to_N edgeBits) sols /\
   single_cycle (map (fun e => (N.land (block keys e) mask,
                                N.land (N.shiftr (block keys e) 32) mask)) sols)).
Proof. exact cuckaroo_accepts_cycles. Qed.
Print Assumptions C37_cuckaroo_accepts_exactly_cycles.

Theorem C37_aeternity :
  forall blake c header sols fuel,
  blake_ok blake -> words 64 sols -> NewAeternity = Done c -> (42 <= fuel)%nat ->
  let key := digest_key (blake header) in
  (Verify blake fuel c header sols = Done (true, None) <->
   length sols = 42%nat /\ Forall (fun e => e < 2 ^ 29) sols /\
   single_cycle (map (fun e => (cuckoo_node_rot (2 ^ 29 - 1) key e 0,
                                cuckoo_node_rot (2 ^ 29 - 1) key e 1)) sols)).
Proof. exact aeternity_accepts. Qed.
Print Assumptions C37_aeternity.

Theorem C37_cortex :
  forall blake c header sols fuel,
  blake_ok blake -> words 64 sols -> NewCortex = Done c -> (42 <= fuel)%nat ->
  let key := digest_key (blake header) in
  (Verify blake fuel c header sols = Done (true, None) <->
   length sols = 42%nat /\ Forall (fun e => e < 2 ^ 30) sols /\
   single_cycle (map (fun e => (N.land (cuckaroo_block key e) (2 ^ 30 - 1),
                                N.land (N.shiftr (cuckaroo_block key e) 32) (2 ^ 30 - 1))) sols)).
Proof. exact cortex_accepts. Qed.
Print Assumptions C37_cortex.

(** The repository's vectors are accepted by the model: a hypothesis-satisfying, accepted case. *)
Definition run (c : outcome client) (v : list N * list N) :=
  c <- c ;; Verify blake2b_256 42 c (fst v) (snd v).
Example C36_C37_instance :
  blake_ok blake2b_256 /\
  Forall (fun v => words 64 (snd v)) [aeternity0; aeternity1; aeternity2; cortex0] /\
  map (run NewAeternity) [aeternity0; aeternity1; aeternity2] = repeat (Done (true, None)) 3 /\
  run NewCortex cortex0 = Done (true, None) /\
  (exists c, NewCortex = Done c /\ usable c) /\ (exists c, NewAeternity = Done c /\ usable c).
Proof.
  split; [exact blake2b_256_ok|]. split; [|split; [|split; [|split]]].
  - repeat constructor.
  - vm_compute; reflexivity.
  - vm_compute; reflexivity.
  - eexists. split; [reflexivity|]. right. right. reflexivity.
  - eexists. split; [reflexivity|]. left. exists 29%Z, 42%Z, SipNode24Legacy, None.
    split; reflexivity.
Qed.
(** A rejected case of each kind. *)
Example C37_instance_rejected :
  run NewAeternity aeternity1 = Done (true, None) /\
  run NewAeternity (fst aeternity0, snd aeternity1) = Done (false, Some ErrPowNotMatching) /\
  run NewCortex (fst cortex0, 2 ^ 30 :: tl (snd cortex0)) = Done (false, Some ErrPowTooBig).
Proof. repeat split; vm_compute; reflexivity. Qed.

(** C38: the full claim is false of the code (the guard reads "n < 0").  The claim would be
    "Verify ... = Done (true, None) -> StronglySorted N.lt sols". *)
Theorem C38_canonical_order_refuted :
  exists c header sols,
  NewAeternity = Done c /\ words 64 sols /\
  Verify blake2b_256 42 c header sols = Done (true, None) /\
  ~ StronglySorted N.lt sols.
Proof.
  eexists. exists (fst aeternity0), (rev (snd aeternity0)).
  split; [reflexivity|]. split; [repeat constructor; vm_compute; reflexivity|].
  split; [vm_compute; reflexivity|].
  intros H. vm_compute in H. apply StronglySorted_inv in H. destruct H as [_ H].
  inversion H as [|x l Hx _]. vm_compute in Hx. discriminate.
Qed.
Print Assumptions C38_canonical_order_refuted.

(** What holds instead: every reordering of an accepted solution is accepted. *)
Theorem C38_every_order_is_accepted :
  forall blake c header sols sols' fuel,
  blake_ok blake -> usable c -> (Z.to_nat (c_proofSize c) <= fuel)%nat ->
  Permutation sols sols' ->
  Verify blake fuel c header sols = Done (true, None) ->
  Verify blake fuel c header sols' = Done (true, None).
Proof. exact order_irrelevant. Qed.
Print Assumptions C38_every_order_is_accepted.

(** C39 *)
Theorem C39_distinct_edges :
  forall blake c header sols fuel,
  blake_ok blake -> usable c -> (2 < c_proofSize c)%Z -> (Z.to_nat (c_proofSize c) <= fuel)%nat ->
  Verify blake fuel c header sols = Done (true, None) -> NoDup sols.
Proof. exact distinct_edges. Qed.
Print Assumptions C39_distinct_edges.

(** The bound is sharp: with proof size 2 a repeated edge is accepted. *)
Example C39_sharp :
  exists c, NewCuckoo 29 2 (Some (fun m k e s => Done (SipNode24 m k e s))) None = Done c /\
  Verify blake2b_256 2 c [] [7; 7] = Done (true, None).
Proof. eexists. split; [reflexivity|vm_compute; reflexivity]. Qed.

(** C40 *)
Theorem C40_verdicts :
  forall blake edgeBits proofSize (node : N -> sip -> N -> N -> N) (block : sip -> N -> N)
         node' block' c header sols fuel,
  blake_ok blake -> words 64 sols -> (0 < proofSize)%Z -> (Z.to_nat proofSize <= fuel)%nat ->
  let mask := 2 ^ N.min (Z.to_N edgeBits) 64 - 1 in
  let keys := untup (digest_key (blake header)) in
  forall E,
  (NewCuckoo edgeBits proofSize (Some (fun m k e s => Done (node m k e s))) block' = Done c /\
   E = map (fun e => (node mask keys e 0, node mask keys e 1)) sols) \/
  (NewCuckaroo edgeBits proofSize node' (Some (fun k e => Done (block k e))) = Done c /\
   E = map (fun e => (N.land (block keys e) mask, N.land (N.shiftr (block keys e) 32) mask)) sols) ->
  let size_ok := Z.of_nat (length sols) = proofSize in
  let range_ok := Forall (fun e => e < 2 ^ Z.to_N edgeBits) sols in
  exists r, Verify blake fuel c header sols = Done r /\
  match r with
  | (true, None) => size_ok /\ range_ok /\ single_cycle E
  | (false, Some ErrSolsLength) => ~ size_ok
  | (false, Some ErrPowTooBig) => size_ok /\ ~ range_ok
  | (false, Some ErrPowNotMatching) => size_ok /\ range_ok /\ unmatched E
  | (false, Some ErrPowBranch) => size_ok /\ range_ok /\ ~ unmatched E /\ has_branch E
  | (false, Some ErrPowDeadEnd) => size_ok /\ range_ok /\ ~ unmatched E /\ has_dead_end E
  | (false, Some ErrPowShortCycle) => size_ok /\ range_ok /\ ~ unmatched E /\ has_short_cycle E
  | _ => False
  end.
Proof. exact verdicts. Qed.
Print Assumptions C40_verdicts.

(** Each verdict occurs; a hand-made graph with 4 edges (the node function is a table lookup). *)
Definition table (u v : list N) (m : N) (k : sip) (e s : N) : outcome N :=
  Done (nth (N.to_nat e) (if s =? 0 then u else v) 0).
Definition small (u v : list N) (sols : list N) :=
  c <- NewCuckoo 2 4 (Some (table u v)) None ;; Verify blake2b_256 4 c [] sols.
Example C40_instance :
  small [1; 1; 2; 2] [3; 4; 4; 3] [0; 1; 2; 3] = Done (true, None) /\
  small [1; 1; 2; 2] [3; 4; 4; 3] [0; 1; 2] = Done (false, Some ErrSolsLength) /\
  small [1; 1; 2; 2] [3; 4; 4; 3] [0; 1; 2; 4] = Done (false, Some ErrPowTooBig) /\
  small [1; 1; 2; 3] [3; 4; 4; 3] [0; 1; 2; 3] = Done (false, Some ErrPowNotMatching) /\
  small [1; 1; 1; 1] [3; 4; 4; 3] [0; 1; 2; 3] = Done (false, Some ErrPowBranch) /\
  small [1; 2; 4; 7] [3; 4; 4; 3] [0; 1; 2; 3] = Done (false, Some ErrPowDeadEnd) /\
  small [1; 1; 2; 2] [3; 3; 4; 4] [0; 1; 2; 3] = Done (false, Some ErrPowShortCycle).
Proof. repeat split; vm_compute; reflexivity. Qed.
