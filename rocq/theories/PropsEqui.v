(** C41-C46: Equihash. *)
From Coq Require Import String Ascii NArith ZArith Arith List Lia Bool ZifyBool ZifyNat ZifyN.
From Verif Require Import Base BaseFacts CryptoModel CryptoProofs Hashes HashesFacts Levels Ordered EquiModel EquiSpec EquiExpand EquiProofs.
Import ListNotations.
Open Scope N_scope.
Ltac Zify.zify_post_hook ::= Z.div_mod_to_equations.

(** The five clients the package ships. *)
Definition shipped : list client := [NewFlux; NewBitcoinGold; NewZClassic; NewZCash; NewAion].
(** The indices of a solution, read as consecutive groups of one bit more than a digit. *)
Definition indices_of (c : client) (soln : list N) : list N := groups (digit_bits (c_n c) (c_k c) + 1) soln.
Definition required_length (c : client) : N := solution_length (c_n c) (c_k c).
(** Digit [d] of the hash of index [i] under a header. *)
Definition digit_of_index blake (c : client) (header : list N) : N -> N -> N :=
  leaf_digit (c_n c) (c_k c) (group_hash blake (c_n c) (c_k c) (c_personal c) header (c_twist c)).
(** The real hash as the parameter of the model. *)
Definition real_blake (size : N) (personal data : list N) : list N := blake2b (N.to_nat size) personal data.

Lemma real_blake_ok : blake_ok real_blake.
Proof.
  intros size p d H. unfold real_blake. split; [|apply blake2b_bytes]. unfold lenN. rewrite blake2b_length by lia. lia.
Qed.
Lemma shipped_ok c : In c shipped ->
  usable (c_n c) (c_k c) (c_twist c) = true /\ decodable (c_n c) (c_k c) = true /\ lenN (c_personal c) = 8 /\
  8 * required_length c = (digit_bits (c_n c) (c_k c) + 1) * 2 ^ c_k c /\ digit_bits (c_n c) (c_k c) + 1 <= 32 /\ required_length c < 2 ^ 32.
Proof.
  assert (A : forallb (fun c => usable (c_n c) (c_k c) (c_twist c) && decodable (c_n c) (c_k c) && (lenN (c_personal c) =? 8) &&
    (8 * required_length c =? (digit_bits (c_n c) (c_k c) + 1) * 2 ^ c_k c) && (digit_bits (c_n c) (c_k c) + 1 <=? 32) &&
    (required_length c <? 2 ^ 32)) shipped = true) by (vm_compute; reflexivity).
  intros I. rewrite forallb_forall in A. specialize (A c I).
  apply andb_prop in A as (A & A6). apply andb_prop in A as (A & A5). apply andb_prop in A as (A & A4). apply andb_prop in A as (A & A3).
  apply andb_prop in A as (A1 & A2). apply N.eqb_eq in A3, A4. apply N.leb_le in A5. apply N.ltb_lt in A6. auto 10.
Qed.

(** ** C41 *)

(** Decoding a solution of any length either reports the length or gives [2 ^ k] indices, each in range,
    whose digits are, most significant first, the number the solution denotes. *)
Theorem C41_decode c soln : In c shipped -> bytes soln -> lenN soln < 2 ^ 32 ->
  (lenN soln <> required_length c -> indicesFromMinimal (c_n c) (c_k c) soln = Done None) /\
  (lenN soln = required_length c -> exists l,
     indicesFromMinimal (c_n c) (c_k c) soln = Done (Some l) /\ lenN l = 2 ^ c_k c /\
     Forall (fun i => i < 2 ^ (digit_bits (c_n c) (c_k c) + 1)) l /\
     packed (digit_bits (c_n c) (c_k c) + 1) l = be_value soln).
Proof.
  intros I B L. destruct (shipped_ok c I) as (_ & D & _ & R & W & _). rewrite indicesFromMinimal_spec by auto.
  fold (required_length c). split; intros E.
  - destruct (N.eqb_spec (lenN soln) (required_length c)); [contradiction|reflexivity].
  - rewrite E, N.eqb_refl. eexists; split; [reflexivity|]. split; [|split].
    + rewrite groups_len, E, R, (N.mul_comm _ (2 ^ c_k c)), N.div_mul; lia.
    + apply groups_lt.
    + apply (packed_groups _ _ (2 ^ c_k c)); auto; [lia|]. rewrite E. exact R.
Qed.
Print Assumptions C41_decode.

(** Every list of indices in range is the decoding of exactly one solution. *)
Theorem C41_bijection c l : In c shipped -> lenN l = 2 ^ c_k c ->
  Forall (fun i => i < 2 ^ (digit_bits (c_n c) (c_k c) + 1)) l ->
  exists! soln, bytes soln /\ lenN soln = required_length c /\ indicesFromMinimal (c_n c) (c_k c) soln = Done (Some l).
Proof.
  intros I L F. destruct (shipped_ok c I) as (_ & D & _ & R & W & R32).
  set (b := digit_bits (c_n c) (c_k c) + 1) in *. set (m := N.to_nat (required_length c)).
  assert (PL : packed b l < 256 ^ N.of_nat m).
  { unfold m. rewrite N2Nat.id, pow256, R, <- L. apply packed_lt. exact F. }
  assert (LB : lenN (be_bytes m (packed b l)) = required_length c) by (unfold lenN, m; rewrite be_bytes_length; lia).
  exists (be_bytes m (packed b l)). split.
  - split; [apply be_bytes_ok|]. split; [exact LB|].
    rewrite indicesFromMinimal_spec by (auto using be_bytes_ok; rewrite LB; exact R32). fold (required_length c). rewrite LB, N.eqb_refl. fold b.
    do 2 f_equal. rewrite (groups_digits b _ (2 ^ c_k c)); [|lia|rewrite LB; exact R].
    rewrite be_bytes_value by exact PL. rewrite <- L. apply digits_packed. exact F.
  - intros s (B & LS & E). assert (L32 : lenN s < 2 ^ 32) by (rewrite LS; exact R32).
    destruct (C41_decode c s I B L32) as (_ & Q). destruct (Q LS) as (l' & E' & _ & _ & PK).
    rewrite E' in E. injection E as ->. apply be_inj; auto using be_bytes_ok.
    + unfold lenN in LB, LS. lia.
    + rewrite be_bytes_value by exact PL. exact PK.
Qed.
Print Assumptions C41_bijection.
(** A concrete solution for the Flux parameters: sixteen indices of 26 bits in 52 bytes. *)
Example C41_instance : exists soln, lenN soln = 52 /\ bytes soln /\
  indicesFromMinimal 125 4 soln = Done (Some [1; 2; 4; 8; 16; 32; 64; 128; 256; 512; 1024; 2048; 4096; 8192; 16384; 67108863]).
Proof.
  exists (be_bytes 52 (packed 26 [1; 2; 4; 8; 16; 32; 64; 128; 256; 512; 1024; 2048; 4096; 8192; 16384; 67108863])).
  split; [reflexivity|]. split; [apply be_bytes_ok|vm_compute; reflexivity].
Qed.

(** ** C42 *)

(** For usable parameters, every header and every solution: the verdict is true exactly for solutions in
    the sense of the specification, and an error exactly when the length is wrong or some pair of sibling
    subtrees breaks a condition. *)
Theorem C42_verify_usable blake spare fuel c header soln : blake_ok blake ->
  usable (c_n c) (c_k c) (c_twist c) = true -> lenN (c_personal c) <= 8 -> (16 < fuel)%nat -> bytes soln -> lenN soln < 2 ^ 32 ->
  exists r, Verify blake spare fuel c header soln = Done r /\
    (r <> None <-> lenN soln = required_length c /\ tree (digit_of_index blake c header) (N.to_nat (c_k c)) (indices_of c soln)) /\
    (r = Some true <-> lenN soln = required_length c /\ solution (digit_of_index blake c header) (c_k c) (indices_of c soln)).
Proof. intros. apply verify_spec; auto. Qed.
Print Assumptions C42_verify_usable.
Theorem C42_verify_shipped blake spare fuel c header soln : blake_ok blake -> In c shipped -> (16 < fuel)%nat ->
  bytes soln -> lenN soln < 2 ^ 32 ->
  (Verify blake spare fuel c header soln = Done (Some true) <->
   lenN soln = required_length c /\ solution (digit_of_index blake c header) (c_k c) (indices_of c soln)).
Proof.
  intros OK I FU B L. destruct (shipped_ok c I) as (U & _ & P & _).
  destruct (C42_verify_usable blake spare fuel c header soln OK U ltac:(lia) FU B L) as (r & E & _ & T).
  rewrite E, <- T. split; congruence.
Qed.
Print Assumptions C42_verify_shipped.
(** The same network by network: the parameters, the text that personalises the hash, whether the hash is the sum
    that Flux uses, and the bytes of a solution. *)
Definition ascii_bytes (s : string) : list N := map N_of_ascii (list_ascii_of_string s).
Definition networks : list (client * (N * N * string * bool * N)) :=
  [(NewFlux, (125, 4, "ZelProof"%string, true, 52));
   (NewBitcoinGold, (144, 5, "BgoldPoW"%string, false, 100));
   (NewZClassic, (192, 7, "ZcashPoW"%string, false, 400));
   (NewZCash, (200, 9, "ZcashPoW"%string, false, 1344));
   (NewAion, (210, 9, "AION0PoW"%string, false, 1408))].
Theorem C42_networks blake spare fuel c n k text sums size header soln : blake_ok blake ->
  In (c, (n, k, text, sums, size)) networks -> (16 < fuel)%nat -> bytes soln -> lenN soln < 2 ^ 32 ->
  (Verify blake spare fuel c header soln = Done (Some true) <->
   lenN soln = size /\
   solution (leaf_digit n k ((if sums then twisted_hash else plain_hash) blake n k (ascii_bytes text) header)) k
     (groups (n / (k + 1) + 1) soln)).
Proof.
  intros OK I FU B L.
  assert (A : In c shipped /\ c = New n k (ascii_bytes text) sums /\ size = solution_length n k).
  { unfold networks in I. cbn [In] in I. destruct I as [I|[I|[I|[I|[I|[]]]]]]; inversion I; subst;
      (split; [unfold shipped; cbn [In]; auto 10|split; reflexivity]). }
  destruct A as (IS & EC & ->). rewrite (C42_verify_shipped blake spare fuel c header soln OK IS FU B L).
  unfold required_length, digit_of_index, indices_of, group_hash. rewrite EC. cbn [New c_n c_k c_personal c_twist].
  unfold digit_bits. destruct sums; reflexivity.
Qed.
Print Assumptions C42_networks.
(** The last level and the final test together say that every digit cancels. *)
Lemma tree_digits digit h : forall l d, length l = Nat.pow 2 h -> tree digit h l -> (N.to_nat d < h)%nat -> xor_digit digit d l = 0.
Proof.
  induction h; intros l d L T D; [lia|]. cbn [tree] in T. cbv zeta in T. destruct T as (TA & TB & _ & _ & E).
  cbn [Nat.pow] in L.
  rewrite <- (firstn_skipn (Nat.pow 2 h) l), xor_digit_app.
  destruct (Nat.eq_dec (N.to_nat d) h) as [Q|Q].
  - replace d with (N.of_nat h) by lia. rewrite E. apply N.lxor_nilpotent.
  - rewrite (IHh _ d), (IHh _ d); auto; try lia; rewrite ?firstn_length, ?skipn_length; lia.
Qed.
Theorem C42_all_digits_cancel digit k l d : solution digit k l -> d <= k -> xor_digit digit d l = 0.
Proof.
  intros (L & T & Z) D. destruct (N.eq_dec d k) as [->|]; [exact Z|]. apply (tree_digits digit (N.to_nat k)); auto; [|lia].
  rewrite L. apply pow2_nat.
Qed.
Print Assumptions C42_all_digits_cancel.
(** The five clients, and the parameters of the test suite, are usable. *)
Example C42_usable : forallb (fun p => usable (fst p) (snd p) false) [(144, 5); (192, 7); (200, 9); (210, 9); (96, 5); (48, 5)] = true /\ usable 125 4 true = true.
Proof. split; reflexivity. Qed.
Example C42_hash : blake_ok real_blake.
Proof. exact real_blake_ok. Qed.
(** An accepted and a rejected solution under a hash that is all zero, so that only order and distinctness
    matter.  (The solutions of the test suite are replayed with the real hash in VecEqui.v.) *)
Definition toy_blake (size : N) (personal data : list N) : list N := zeros size.
Lemma toy_blake_ok : blake_ok toy_blake.
Proof.
  intros size p d H. unfold toy_blake. split; [apply lenN_zeros|]. apply Forall_forall. intros x X. apply repeat_spec in X. subst. reflexivity.
Qed.
Example C42_accepts : Verify toy_blake (fun _ => []) 17 NewFlux [] (be_bytes 52 (packed 26 (tab 16 (fun i => i)))) = Done (Some true).
Proof. vm_compute. reflexivity. Qed.
Example C42_rejects : Verify toy_blake (fun _ => []) 17 NewFlux [] (be_bytes 52 (packed 26 (1 :: 0 :: map (fun i => i + 2) (tab 14 (fun i => i))))) = Done None.
Proof. vm_compute. reflexivity. Qed.

(** ** C43 *)
Lemma tree_NoDup digit h : forall l, length l = Nat.pow 2 h -> tree digit h l -> NoDup l.
Proof.
  induction h; intros l L T.
  - destruct l as [|x [|]]; try discriminate. repeat constructor. auto.
  - cbn [tree] in T. cbv zeta in T. destruct T as (TA & TB & _ & D & _). cbn [Nat.pow] in L.
    assert (NA : NoDup (firstn (Nat.pow 2 h) l)) by (apply IHh; auto; rewrite firstn_length; lia).
    assert (NB : NoDup (skipn (Nat.pow 2 h) l)) by (apply IHh; auto; rewrite skipn_length; lia).
    rewrite <- (firstn_skipn (Nat.pow 2 h) l). revert NA D. generalize (firstn (Nat.pow 2 h) l). intros a NA D.
    induction NA as [|x a X NA IH]; [exact NB|]. cbn [app]. constructor.
    + rewrite in_app_iff. intros [Q|Q]; [contradiction|]. apply (D x); [left; reflexivity|exact Q].
    + apply IH. intros i A. apply D. right. exact A.
Qed.
Lemma subtree digit h : forall e m l P B S, length l = Nat.pow 2 h -> l = P ++ B ++ S -> (e <= h)%nat ->
  length B = Nat.pow 2 e -> length P = (Nat.pow 2 e * m)%nat -> tree digit h l -> tree digit e B.
Proof.
  induction h; intros e m l P B S L -> EH LB LP T.
  - replace e with O by lia. exact I.
  - rewrite !app_length in L. destruct (Nat.eq_dec e (Datatypes.S h)) as [->|NE].
    { destruct P; [|cbn [length] in L; lia]. destruct S; [|cbn [length] in L; lia]. rewrite app_nil_r in T. exact T. }
    cbn [tree] in T. cbv zeta in T. destruct T as (TA & TB & _). cbn [Nat.pow] in L.
    assert (DV : exists q, Nat.pow 2 h = (Nat.pow 2 e * q)%nat).
    { exists (Nat.pow 2 (h - e)). rewrite <- Nat.pow_add_r. f_equal. lia. }
    destruct DV as (q & DV).
    destruct (Nat.lt_ge_cases m q) as [MQ|MQ].
    + assert (PB : (length P + length B <= Nat.pow 2 h)%nat) by nia.
      apply (IHh e m (firstn (Nat.pow 2 h) (P ++ B ++ S)) P B (firstn (Nat.pow 2 h - length P - length B) S)); auto; [|  |lia].
      * rewrite firstn_length, !app_length. lia.
      * rewrite !firstn_app. rewrite (firstn_all2 P), (firstn_all2 B) by lia. reflexivity.
    + assert (PB : (Nat.pow 2 h <= length P)%nat) by nia.
      apply (IHh e (m - q)%nat (skipn (Nat.pow 2 h) (P ++ B ++ S)) (skipn (Nat.pow 2 h) P) B S); auto; [| |lia|].
      * rewrite skipn_length, !app_length. lia.
      * rewrite skipn_app. replace (Nat.pow 2 h - length P)%nat with O by lia. reflexivity.
      * rewrite skipn_length. nia.
Qed.

(** The indices of an accepted solution are pairwise distinct, there are [2 ^ k] of them. *)
Theorem C43_distinct blake spare fuel c header soln : blake_ok blake -> In c shipped -> (16 < fuel)%nat ->
  bytes soln -> lenN soln < 2 ^ 32 -> Verify blake spare fuel c header soln = Done (Some true) ->
  NoDup (indices_of c soln) /\ lenN (indices_of c soln) = 2 ^ c_k c.
Proof.
  intros OK I FU B L E. apply C42_verify_shipped in E as (_ & LS & T & _); auto. split.
  - apply (tree_NoDup (digit_of_index blake c header) (N.to_nat (c_k c))); auto. rewrite LS. apply pow2_nat.
  - unfold lenN. lia.
Qed.
Print Assumptions C43_distinct.
(** Swap two sibling subtrees: [l] and [r] of [2 ^ d] indices each, at a position that is a multiple of
    [2 ^ (d + 1)].  A solution with the swapped indices is not accepted, under any header. *)
Theorem C43_no_swap blake spare fuel c header header' soln soln' (d m : nat) P l r S : blake_ok blake -> In c shipped -> (16 < fuel)%nat ->
  bytes soln -> lenN soln < 2 ^ 32 -> bytes soln' -> lenN soln' < 2 ^ 32 ->
  Verify blake spare fuel c header soln = Done (Some true) ->
  indices_of c soln = P ++ l ++ r ++ S -> length l = Nat.pow 2 d -> length r = Nat.pow 2 d -> length P = (Nat.pow 2 (d + 1) * m)%nat ->
  indices_of c soln' = P ++ r ++ l ++ S ->
  Verify blake spare fuel c header' soln' <> Done (Some true).
Proof.
  intros OK I FU B L B' L' E ES LL LR LP ES' E'.
  apply C42_verify_shipped in E as (_ & N1 & T1 & _); auto. apply C42_verify_shipped in E' as (_ & N2 & T2 & _); auto.
  rewrite pow2_nat in N1, N2.
  assert (DK : (Datatypes.S d <= N.to_nat (c_k c))%nat).
  { rewrite ES, !app_length, LL, LR in N1. destruct (Nat.le_gt_cases (Datatypes.S d) (N.to_nat (c_k c))) as [|Q]; [assumption|].
    assert (Nat.pow 2 (N.to_nat (c_k c)) <= Nat.pow 2 d)%nat by (apply Nat.pow_le_mono_r; lia).
    assert (1 <= Nat.pow 2 d)%nat by (clear; induction d; cbn [Nat.pow]; lia). lia. }
  assert (LP' : length P = (Nat.pow 2 (Datatypes.S d) * m)%nat) by (rewrite LP; do 2 f_equal; lia).
  assert (ORD : forall digit x y, length x = Nat.pow 2 d -> tree digit (Datatypes.S d) (x ++ y) -> hd 0 x < hd 0 y).
  { clear. intros digit x y X T. cbn [tree] in T. cbv zeta in T. destruct T as (_ & _ & H & _). rewrite <- X in H.
    rewrite firstn_app, skipn_app, Nat.sub_diag, firstn_O, app_nil_r, firstn_all, skipn_all in H. exact H. }
  assert (H1 : hd 0 l < hd 0 r).
  { apply (ORD (digit_of_index blake c header)); auto.
    apply (subtree _ (N.to_nat (c_k c)) (Datatypes.S d) m (indices_of c soln) P (l ++ r) S); auto.
    - rewrite ES, <- !app_assoc. reflexivity.
    - rewrite app_length. cbn [Nat.pow]. lia. }
  assert (H2 : hd 0 r < hd 0 l).
  { apply (ORD (digit_of_index blake c header')); auto.
    apply (subtree _ (N.to_nat (c_k c)) (Datatypes.S d) m (indices_of c soln') P (r ++ l) S); auto.
    - rewrite ES', <- !app_assoc. reflexivity.
    - rewrite app_length. cbn [Nat.pow]. lia. }
  lia.
Qed.
Print Assumptions C43_no_swap.
Lemma tree_ordered digit h : forall l, tree digit h l -> ordered h l.
Proof.
  induction h; intros l T; [exact I|]. cbn [tree] in T. cbn [ordered]. cbv zeta in *. destruct T as (A & B & O & D & _). auto.
Qed.
(** Every subtree starts with its smallest index. *)
Theorem C43_smallest_first blake spare fuel c header soln (e m : nat) p s r i : blake_ok blake -> In c shipped -> (16 < fuel)%nat ->
  bytes soln -> lenN soln < 2 ^ 32 -> Verify blake spare fuel c header soln = Done (Some true) ->
  indices_of c soln = p ++ s ++ r -> length s = Nat.pow 2 e -> length p = (Nat.pow 2 e * m)%nat -> In i s -> hd 0 s <= i.
Proof.
  intros OK I FU B L E ES LS LP J. apply C42_verify_shipped in E as (_ & N1 & T & _); auto. rewrite pow2_nat in N1.
  apply tree_ordered in T.
  assert (DK : (e <= N.to_nat (c_k c))%nat).
  { rewrite ES, !app_length, LS in N1. destruct (Nat.le_gt_cases e (N.to_nat (c_k c))) as [|Q]; [assumption|].
    assert (Nat.pow 2 (N.to_nat (c_k c)) < Nat.pow 2 e)%nat by (apply Nat.pow_lt_mono_r; lia). lia. }
  apply (ordered_smallest e); auto. apply (ordered_subtree (N.to_nat (c_k c)) e m (indices_of c soln) p s r); auto.
Qed.
Print Assumptions C43_smallest_first.
(** Of all solutions whose indices come from one another by swapping siblings, at any number of places, at most one
    is accepted, under whatever headers. *)
Theorem C43_one_arrangement blake spare fuel c header header' soln soln' : blake_ok blake -> In c shipped -> (16 < fuel)%nat ->
  bytes soln -> lenN soln < 2 ^ 32 -> bytes soln' -> lenN soln' < 2 ^ 32 ->
  Verify blake spare fuel c header soln = Done (Some true) -> Verify blake spare fuel c header' soln' = Done (Some true) ->
  rearranged (N.to_nat (c_k c)) (indices_of c soln) (indices_of c soln') -> soln = soln'.
Proof.
  intros OK I FU B L B' L' E E' R.
  apply C42_verify_shipped in E as (Q1 & N1 & T1 & _); auto. apply C42_verify_shipped in E' as (Q2 & N2 & T2 & _); auto.
  pose proof (ordered_one_arrangement _ _ _ R (tree_ordered _ _ _ T1) (tree_ordered _ _ _ T2)) as EQ.
  destruct (shipped_ok c I) as (_ & D & _ & RL & W & R32).
  apply be_inj; auto; [unfold lenN in Q1, Q2; lia|].
  unfold indices_of in EQ. set (b := digit_bits (c_n c) (c_k c) + 1) in *.
  rewrite <- (packed_groups b soln (2 ^ c_k c)), <- (packed_groups b soln' (2 ^ c_k c)), EQ; auto; lia.
Qed.
Print Assumptions C43_one_arrangement.
(** Such a swapped solution exists: the instance swaps indices 4-5 with 6-7 of the accepted solution above. *)
Example C43_instance :
  let soln := be_bytes 52 (packed 26 (tab 16 (fun i => i))) in
  let soln' := be_bytes 52 (packed 26 [0; 1; 2; 3; 6; 7; 4; 5; 8; 9; 10; 11; 12; 13; 14; 15]) in
  Verify toy_blake (fun _ => []) 17 NewFlux [] soln = Done (Some true) /\
  indices_of NewFlux soln = [0; 1; 2; 3] ++ [4; 5] ++ [6; 7] ++ [8; 9; 10; 11; 12; 13; 14; 15] /\
  indices_of NewFlux soln' = [0; 1; 2; 3] ++ [6; 7] ++ [4; 5] ++ [8; 9; 10; 11; 12; 13; 14; 15].
Proof. vm_compute. auto. Qed.

Example C43_arrangement_instance :
  rearranged 4 [0; 1; 2; 3; 4; 5; 6; 7; 8; 9; 10; 11; 12; 13; 14; 15] [8; 9; 10; 11; 12; 13; 15; 14; 0; 1; 2; 3; 6; 7; 4; 5].
Proof.
  pose proof (fun x => RaLeaf x) as R0.
  assert (R1 : forall x y, rearranged 1 [x; y] [x; y]) by (intros x y; exact (RaKeep 0 [x] [y] [x] [y] (R0 x) (R0 y))).
  apply (RaSwap 3 [0; 1; 2; 3; 4; 5; 6; 7] [8; 9; 10; 11; 12; 13; 14; 15] [0; 1; 2; 3; 6; 7; 4; 5] [8; 9; 10; 11; 12; 13; 15; 14]).
  - apply (RaKeep 2 [0; 1; 2; 3] [4; 5; 6; 7] [0; 1; 2; 3] [6; 7; 4; 5]).
    + apply (RaKeep 1 [0; 1] [2; 3] [0; 1] [2; 3]); apply R1.
    + apply (RaSwap 1 [4; 5] [6; 7] [4; 5] [6; 7]); apply R1.
  - apply (RaKeep 2 [8; 9; 10; 11] [12; 13; 14; 15] [8; 9; 10; 11] [12; 13; 15; 14]).
    + apply (RaKeep 1 [8; 9] [10; 11] [8; 9] [10; 11]); apply R1.
    + apply (RaKeep 1 [12; 13] [14; 15] [12; 13] [15; 14]); [apply R1|apply (RaSwap 0 [14] [15] [14] [15]); apply R0].
Qed.

(** ** C44 *)

(** For the widths 8 to 26, 28 and 32 and an input that is a whole number of groups, each group comes out
    as a big-endian number of [ceil(bitLen/8) + pad] bytes, and nothing else. *)
Theorem C44_exact b pad l : exact_width b = true -> bytes l -> 8 * (bytes_of_bits b + pad) * lenN l < 2 ^ 32 ->
  8 * lenN l mod b = 0 -> expandArray l b pad = Done (Some (expanded b pad l)).
Proof. apply expand_exact. Qed.
Print Assumptions C44_exact.
(** When bits are left over, the whole groups come out followed by some zero bytes, unless the output
    would be as long as the input. *)
Theorem C44_remainder b pad l : exact_width b = true -> bytes l -> 8 * (bytes_of_bits b + pad) * lenN l < 2 ^ 32 ->
  8 * (bytes_of_bits b + pad) * lenN l / b <> lenN l -> exists z,
  expandArray l b pad = Done (Some (expanded b pad l ++ zeros z)) /\ z < bytes_of_bits b + pad.
Proof.
  intros W B S NE. eexists. split; [apply expand_spec; auto|].
  assert (B0 : b <> 0) by (clear - W; unfold exact_width in W; lia).
  pose proof (N.div_mod (8 * lenN l) b B0) as D. pose proof (N.mod_lt (8 * lenN l) b B0) as M.
  set (q := 8 * lenN l / b) in *. set (r := 8 * lenN l mod b) in *. clearbody q r.
  assert (1 <= bytes_of_bits b + pad) by (clear - W; unfold exact_width in W; unfold bytes_of_bits; lia).
  set (W' := bytes_of_bits b + pad) in *. clearbody W'.
  replace (8 * W' * lenN l) with (W' * (b * q + r)) by lia.
  clear - B0 M H.
  assert (Z : (W' * (b * q + r)) / b < W' * q + W') by (apply N.div_lt_upper_bound; auto; nia).
  set (y := W' * (b * q + r) / b) in *. clearbody y. lia.
Qed.
Print Assumptions C44_remainder.
Theorem C44_error b pad l : b < 8 \/ 32 < b -> expandArray l b pad = Done None.
Proof.
  intros H. unfold expandArray. destruct (N.ltb_spec b 8); [reflexivity|]. destruct (N.ltb_spec 32 b); [reflexivity|lia].
Qed.
Print Assumptions C44_error.
(** No bits are lost on those widths: different inputs give different outputs. *)
Theorem C44_injective b pad l l' : exact_width b = true -> bytes l -> bytes l' -> lenN l = lenN l' ->
  8 * (bytes_of_bits b + pad) * lenN l < 2 ^ 32 -> 8 * lenN l mod b = 0 -> expandArray l b pad = expandArray l' b pad -> l = l'.
Proof.
  intros W B B' LE S M E. rewrite !expand_exact in E by (rewrite <- ?LE; auto). injection E as E.
  assert (B0 : b <> 0) by (clear - W; unfold exact_width in W; lia).
  assert (Q : 8 * lenN l = b * (8 * lenN l / b)) by (pose proof (N.div_mod (8 * lenN l) b B0); lia).
  assert (GE : groups b l = groups b l').
  { unfold expanded in E. pose proof (groups_lt b l) as F. pose proof (groups_lt b l') as F'.
    assert (LG : length (groups b l) = length (groups b l')) by (unfold groups; rewrite !tab_length, LE; reflexivity).
    revert E F F' LG. generalize (groups b l) (groups b l'). clear - W B0. intros x. induction x as [|v x IH]; intros [|v' y] E F F' LG; try discriminate; [reflexivity|].
    cbn [map concat] in E. rewrite <- !app_assoc in E. apply app_inv_head in E.
    apply Forall_cons_iff in F as (V & F). apply Forall_cons_iff in F' as (V' & F').
    apply (f_equal (fun z => (firstn (N.to_nat (bytes_of_bits b)) z, skipn (N.to_nat (bytes_of_bits b)) z))) in E.
    rewrite !firstn_app, !skipn_app, !be_bytes_length, !Nat.sub_diag, !firstn_O, !app_nil_r, !skipn_O in E.
    rewrite !firstn_all2, !skipn_all2 in E by (rewrite be_bytes_length; lia). cbn [app] in E. injection E as E1 E2. f_equal.
    - apply (be_bytes_inj (N.to_nat (bytes_of_bits b))); auto; rewrite N2Nat.id, pow256;
        (eapply N.lt_le_trans; [eassumption|apply N.pow_le_mono_r; [discriminate|unfold bytes_of_bits; lia]]).
    - apply IH; auto. }
  apply be_inj; auto; [unfold lenN in LE; lia|].
  rewrite <- (packed_groups b l _ B0 B Q), GE, (packed_groups b l' (8 * lenN l / b) B0 B'); auto. rewrite <- LE. exact Q.
Qed.
Print Assumptions C44_injective.
(** Refuted for the other widths between 8 and 32: for each there are two inputs of a whole number of
    groups with the same output. *)
Definition one_bit (b : N) : list N := let i := if b =? 27 then 6 else 3 in zeros i ++ [1] ++ zeros (b - 1 - i).
Theorem C44_other_widths_refuted b : 8 <= b <= 32 -> exact_width b = false ->
  exists l l', bytes l /\ bytes l' /\ lenN l = b /\ lenN l' = b /\ 8 * lenN l mod b = 0 /\ l <> l' /\
  expandArray l b 0 = expandArray l' b 0 /\ exists out, expandArray l b 0 = Done (Some out).
Proof.
  intros B W. exists (one_bit b), (zeros b).
  assert (b = 27 \/ b = 29 \/ b = 30 \/ b = 31) as [->|[->|[->| ->]]] by (unfold exact_width in W; lia);
  (split; [apply Forall_forall; intros x X; vm_compute in X; repeat (destruct X as [<-|X]; [reflexivity|]); contradiction|]);
  (split; [apply Forall_forall; intros x X; apply repeat_spec in X; subst; reflexivity|]);
  (split; [reflexivity|]); (split; [reflexivity|]); (split; [reflexivity|]); (split; [discriminate|]);
  (split; [vm_compute; reflexivity|eexists; vm_compute; reflexivity]).
Qed.
Print Assumptions C44_other_widths_refuted.
(** Refuted when the output would be as long as the input: the input is returned as it is. *)
Theorem C44_short_input_refuted : expandArray [255; 255] 11 0 = Done (Some [255; 255]) /\ expanded 11 0 [255; 255] = [7; 255].
Proof. split; reflexivity. Qed.
Print Assumptions C44_short_input_refuted.
Example C44_instance : exact_width 21 = true /\ expandArray (be_bytes 21 (packed 21 [1; 2; 3; 4; 5; 6; 7; 2097151])) 21 1 =
  Done (Some [0; 0; 0; 1; 0; 0; 0; 2; 0; 0; 0; 3; 0; 0; 0; 4; 0; 0; 0; 5; 0; 0; 0; 6; 0; 0; 0; 7; 0; 31; 255; 255]).
Proof. vm_compute. auto. Qed.

(** ** C45 *)

(** The twisted hash of every group but the last, for every hash, header and personalisation. *)
Theorem C45_twisted blake spare fuel n k personal header g : blake_ok blake -> 1 <= n <= 512 ->
  leaves_per_hash n * leaf_length n = 64 -> lenN personal <= 8 -> g < 2 ^ 32 - 1 -> (16 < fuel)%nat ->
  generateHash blake spare fuel header (personal ++ le_bytes 4 n ++ le_bytes 4 k) g 64 true =
  Done (twisted_hash blake n k personal header g).
Proof. intros OK N P L G F. apply generate_twisted; auto. lia. Qed.
Print Assumptions C45_twisted.
(** What that says of each byte: byte [4 i + j] is byte [j] of the sum of lanes [i] modulo [2 ^ 32], less
    its low three bits at positions 15, 31, 47 and 63. *)
Theorem C45_bytes blake n k personal header g i j : i < 16 -> j < 4 ->
  let first := g / 16 * 16 in
  let sum := fold_right N.add 0 (tab (g - first + 1) (fun t => lane (plain_hash blake n k personal header (first + t)) i)) in
  let v := sum / 256 ^ j mod 256 in
  nth (N.to_nat (4 * i + j)) (twisted_hash blake n k personal header g) 0 =
  if (4 * i + j) mod 16 =? 15 then v / 8 * 8 else v.
Proof.
  intros I J. cbv zeta. unfold twisted_hash. cbv zeta. set (first := g / 16 * 16).
  set (hs := tab (g - first + 1) (fun t => plain_hash blake n k personal header (first + t))).
  assert (LF : lenN (flat_map (le_bytes 4) (sum_lanes hs)) = 64) by reflexivity.
  unfold clear_low3. rewrite LF, nth_tab, N2Nat.id by lia. cbv zeta.
  set (S := fold_right N.add 0 (tab (g - first + 1) (fun t => lane (plain_hash blake n k personal header (first + t)) i))).
  assert (V : nth (N.to_nat (4 * i + j)) (flat_map (le_bytes 4) (sum_lanes hs)) 0 = S / 256 ^ j mod 256).
  { rewrite flat_map_concat_map.
    replace (N.to_nat (4 * i + j)) with (4 * N.to_nat i + N.to_nat j)%nat by lia.
    assert (CN : forall (ls : list N) a, (a < length ls)%nat -> nth (4 * a + N.to_nat j) (concat (map (le_bytes 4) ls)) 0 = nth (N.to_nat j) (le_bytes 4 (nth a ls 0)) 0).
    { clear - J. induction ls as [|x ls IH]; intros a A; cbn [length] in A; [lia|]. destruct a.
      - cbn [map concat]. rewrite app_nth1 by (rewrite le_bytes_length; lia). reflexivity.
      - cbn [map concat]. rewrite app_nth2 by (rewrite le_bytes_length; lia). rewrite le_bytes_length.
        replace (4 * Datatypes.S a + N.to_nat j - 4)%nat with (4 * a + N.to_nat j)%nat by lia. rewrite IH by lia. reflexivity. }
    rewrite CN by (unfold sum_lanes; rewrite tab_length; lia).
    unfold sum_lanes. rewrite nth_tab, N2Nat.id by lia.
    assert (SM : fold_right (fun h a => (lane h i + a) mod 2 ^ 32) 0 hs = S mod 2 ^ 32).
    { unfold S. replace (tab (g - first + 1) (fun t => lane (plain_hash blake n k personal header (first + t)) i))
        with (map (fun h => lane h i) hs) by (unfold hs; rewrite map_tab; reflexivity).
      clear. change (2 ^ 32) with 4294967296. induction hs as [|h hs IH]; [reflexivity|]. cbn [map fold_right]. rewrite IH, N.add_mod_idemp_r by discriminate. reflexivity. }
    rewrite SM, le_bytes_nth by lia. unfold CryptoSpec.byte_of. clearbody S. clear - J. rewrite N2Nat.id.
    change (2 ^ 32) with (256 ^ 4). assert (j = 0 \/ j = 1 \/ j = 2 \/ j = 3) as [->|[->|[->| ->]]] by lia.
    - change (256 ^ 0) with 1. change (256 ^ 4) with 4294967296. lia.
    - change (256 ^ 1) with 256. change (256 ^ 4) with 4294967296. lia.
    - change (256 ^ 2) with 65536. change (256 ^ 4) with 4294967296. lia.
    - change (256 ^ 3) with 16777216. change (256 ^ 4) with 4294967296. lia. }
  rewrite V. destruct ((4 * i + j) mod 16 =? 15); [|reflexivity]. clear. set (v := S / 256 ^ j mod 256). clearbody v. lia.
Qed.
Print Assumptions C45_bytes.
Definition byte_toy (size : N) (personal data : list N) : list N := tab size (fun i => (255 + 7 * i + 3 * nth (length data - 4) data 0) mod 256).
Lemma byte_toy_ok : blake_ok byte_toy.
Proof. intros size p d H. unfold byte_toy. split; [apply lenN_tab|]. apply words_tab. intros. apply N.mod_lt. discriminate. Qed.
Example C45_instance : leaves_per_hash 125 * leaf_length 125 = 64 /\
  generateHash byte_toy (fun _ => []) 17 [1; 2] ([9] ++ le_bytes 4 125 ++ le_bytes 4 4) 18 64 true =
  Done (twisted_hash byte_toy 125 4 [9] [1; 2] 18) /\
  nth 15 (twisted_hash byte_toy 125 4 [9] [1; 2] 18) 0 = 208.
Proof. vm_compute. auto. Qed.

(** ** C46 *)

(** Every client of usable parameters and a personalisation of at most 8 bytes returns, whatever the
    header and the solution. *)
Theorem C46_usable_returns blake spare fuel c header soln : blake_ok blake ->
  usable (c_n c) (c_k c) (c_twist c) = true -> lenN (c_personal c) <= 8 -> (16 < fuel)%nat -> bytes soln -> lenN soln < 2 ^ 32 ->
  exists r, Verify blake spare fuel c header soln = Done r.
Proof. intros OK U P F B L. destruct (C42_verify_usable blake spare fuel c header soln) as (r & E & _); auto. exists r. exact E. Qed.
Print Assumptions C46_usable_returns.
Theorem C46_shipped_returns blake spare fuel c header soln : blake_ok blake -> In c shipped -> (16 < fuel)%nat ->
  bytes soln -> lenN soln < 2 ^ 32 -> exists r, Verify blake spare fuel c header soln = Done r.
Proof.
  intros OK I F B L. destruct (shipped_ok c I) as (U & _ & P & _). apply C46_usable_returns; auto. lia.
Qed.
Print Assumptions C46_shipped_returns.
(** What the allocator leaves behind a digest plays no part for usable parameters. *)
Theorem C46_spare_ignored blake spare spare' fuel c header soln : blake_ok blake ->
  usable (c_n c) (c_k c) (c_twist c) = true -> lenN (c_personal c) <= 8 -> (16 < fuel)%nat -> bytes soln -> lenN soln < 2 ^ 32 ->
  Verify blake spare fuel c header soln = Verify blake spare' fuel c header soln.
Proof.
  intros OK U P F B L.
  destruct (C42_verify_usable blake spare fuel c header soln) as (r & E & N1 & T1); auto.
  destruct (C42_verify_usable blake spare' fuel c header soln) as (r' & E' & N2 & T2); auto.
  rewrite E, E'. f_equal. rewrite <- N2 in N1. rewrite <- T2 in T1. clear - N1 T1.
  destruct r as [[]|]; destruct r' as [[]|]; try reflexivity.
  - discriminate (proj1 T1 eq_refl).
  - discriminate (proj1 T1 eq_refl).
  - discriminate (proj2 T1 eq_refl).
  - exfalso. apply (proj1 N1); [discriminate|reflexivity].
  - discriminate (proj2 T1 eq_refl).
  - exfalso. apply (proj2 N1); [discriminate|reflexivity].
Qed.
Print Assumptions C46_spare_ignored.

(** Refuted for arbitrary parameters.  A [k] of [2 ^ 32 - 1] divides by zero at once. *)
Theorem C46_largest_k_panics_refuted blake spare fuel n personal twist header soln :
  Verify blake spare fuel (New n (2 ^ 32 - 1) personal twist) header soln = Panic.
Proof. reflexivity. Qed.
Print Assumptions C46_largest_k_panics_refuted.
(** With more than 512 bits no leaf fits in a hash: the first leaf of any solution of the right length
    divides by zero. *)
Lemma first_index n k soln : decodable n k = true -> lenN soln = solution_length n k ->
  exists i l, groups (digit_bits n k + 1) soln = i :: l.
Proof.
  intros D L. unfold decodable in D. apply andb_prop in D as (D & _). apply andb_prop in D as (_ & D4). apply N.eqb_eq in D4.
  pose proof (groups_len (digit_bits n k + 1) soln) as G. rewrite L in G. unfold solution_length in G.
  set (b := digit_bits n k + 1) in *. assert (b <> 0) by (unfold b; lia). clearbody b.
  assert (E : 8 * (2 ^ k * b / 8) = 2 ^ k * b).
  { pose proof (N.div_mod (2 ^ k * b) 8 ltac:(discriminate)) as Z. rewrite D4 in Z. clear - Z. lia. }
  rewrite E, N.div_mul in G by auto. pose proof (N.pow_nonzero 2 k ltac:(discriminate)).
  destruct (groups b soln) as [|i l]; [unfold lenN in G; cbn [length] in G; lia|]. eauto.
Qed.
Theorem C46_large_n_panics_refuted blake spare fuel n k personal twist header soln : decodable n k = true -> 512 < n ->
  bytes soln -> lenN soln < 2 ^ 32 -> lenN soln = solution_length n k ->
  Verify blake spare fuel (New n k personal twist) header soln = Panic.
Proof.
  intros D N B L LE. unfold Verify, verify, New. cbn [c_n c_k c_personal c_twist]. cbv zeta.
  rewrite indicesFromMinimal_spec by auto. rewrite LE, N.eqb_refl. cbn [bind].
  destruct (first_index n k soln D LE) as (i & l & ->). cbn [newNodes]. unfold newNode, indicesPerHashOutput, divc.
  destruct (N.eqb_spec n 0); [lia|]. cbn [bind]. rewrite N.div_small by auto. reflexivity.
Qed.
Print Assumptions C46_large_n_panics_refuted.
Example C46_large_n_instance : decodable 525 20 = true /\ solution_length 525 20 = 3407872.
Proof. vm_compute. auto. Qed.
(** A personalisation of more than 8 bytes is rejected by BLAKE2b. *)
Theorem C46_personal_panics_refuted blake spare fuel n k personal twist header soln : usable n k twist = true -> 8 < lenN personal ->
  (1 <= fuel)%nat -> bytes soln -> lenN soln < 2 ^ 32 -> lenN soln = solution_length n k ->
  Verify blake spare fuel (New n k personal twist) header soln = Panic.
Proof.
  intros U P F B L LE. destruct (usable_facts n k twist U) as (NP & D & EW & HO & HT).
  unfold Verify, verify, New. cbn [c_n c_k c_personal c_twist]. cbv zeta.
  rewrite indicesFromMinimal_spec by auto. rewrite LE, N.eqb_refl. cbn [bind].
  pose proof (groups_lt (digit_bits n k + 1) soln) as GL.
  destruct (first_index n k soln D LE) as (i & l & E). rewrite E in *. clear E. apply Forall_cons_iff in GL as (IL & _).
  cbn [newNodes]. unfold newNode. rewrite indicesPer_spec by lia. cbn [bind].
  pose proof (per_pos n NP). unfold divc. destruct (N.eqb_spec (leaves_per_hash n) 0); [lia|]. cbn [bind].
  rewrite hashOutput_spec by auto. cbn [bind].
  assert (PS : 16 <? lenN (personal ++ le_bytes 4 n ++ le_bytes 4 k) = true).
  { apply N.ltb_lt. unfold lenN in *. rewrite !app_length, !le_bytes_length. lia. }
  unfold generateHash. destruct twist; cbn [negb].
  - cbv zeta. unfold twistLoop. destruct fuel as [|f]; [lia|]. cbn [loop_fuel].
    set (g := i / leaves_per_hash n).
    assert (I32 : i < 2 ^ 32) by (eapply N.lt_le_trans; [exact IL|apply N.pow_le_mono_r; [discriminate|destruct (HT eq_refl); lia]]).
    assert (GI : g <= i) by (apply N.div_le_upper_bound; nia).
    rewrite round16 by lia. destruct (N.leb_spec (g / 16 * 16) g) as [Q|Q]; [|clear - Q; lia].
    unfold hashBlakeWithOffset, Blake2b. cbv zeta. rewrite PS, orb_true_r. reflexivity.
  - unfold hashBlakeWithOffset, Blake2b. cbv zeta. rewrite PS, orb_true_r. reflexivity.
Qed.
Print Assumptions C46_personal_panics_refuted.
Example C46_personal_instance : usable 200 9 false = true /\ solution_length 200 9 = 1344.
Proof. vm_compute. auto. Qed.
(** From [k = 32] on the expected length wraps to zero, and the empty solution indexes an empty list. *)
Theorem C46_empty_solution_panics_refuted blake spare fuel personal twist header :
  Verify blake spare fuel (New 231 32 personal twist) header [] = Panic.
Proof. reflexivity. Qed.
Print Assumptions C46_empty_solution_panics_refuted.
(** A twisted client whose indices have 32 bits does not return when the first index is [2 ^ 32 - 1]: no
    amount of fuel is enough. *)
Lemma twist_forever blake spare st ps : blake_ok blake -> lenN ps <= 16 ->
  forall fuel t h, lenN h = 16 -> t < 2 ^ 32 -> twistLoop blake spare fuel st ps (2 ^ 32 - 1) 64 t h = OutOfFuel.
Proof.
  intros OK P. induction fuel as [|f IH]; intros t h H T; [reflexivity|]. unfold twistLoop. cbn [loop_fuel].
  destruct (N.leb_spec t (2 ^ 32 - 1)); [|lia]. unfold hashBlakeWithOffset. rewrite Blake2b_spec by (auto; lia). cbn [bind].
  assert (A : exists h', addLanes spare (blake 64 ps (st ++ le_bytes 4 t)) h = Done h' /\ lenN h' = 16).
  { destruct (OK 64 ps (st ++ le_bytes 4 t) ltac:(lia)) as (LB & _). set (d := blake _ _ _) in *. clearbody d.
    unfold addLanes. apply (for_n_inv (fun _ h => lenN h = 16)); auto. intros j s J LS.
    rewrite slice_Done; [|lia|unfold lenN in *; rewrite app_length; lia]. cbn [bind].
    unfold le_u32. destruct (N.leb_spec 4 (lenN (firstn (N.to_nat ((j + 1) * 4 - j * 4)) (skipn (N.to_nat (j * 4)) (d ++ spare (lenN d)))))) as [Q|Q].
    2:{ unfold lenN in *. rewrite firstn_length, skipn_length, app_length in Q. lia. }
    cbn [bind]. rewrite (idx_Done s j 0) by lia. cbn [bind]. rewrite upd_Done by lia. eexists; split; [reflexivity|].
    unfold lenN in *. rewrite set_nth_length. exact LS. }
  destruct A as (h' & A & LH). rewrite A. cbn [bind]. apply IH; auto. unfold addw. rewrite trunc_mod. apply N.mod_lt. discriminate.
Qed.
Theorem C46_never_returns_refuted blake spare fuel personal header soln : blake_ok blake -> lenN personal <= 8 ->
  bytes soln -> lenN soln = 131072 -> firstn 4 soln = [255; 255; 255; 255] ->
  Verify blake spare fuel (New 511 15 personal true) header soln = OutOfFuel.
Proof.
  intros OK P B L F4. unfold Verify, verify, New. cbn [c_n c_k c_personal c_twist]. cbv zeta.
  assert (D : decodable 511 15 = true) by (vm_compute; reflexivity).
  rewrite indicesFromMinimal_spec; [|exact D|exact B|rewrite L; reflexivity]. rewrite L.
  change (131072 =? solution_length 511 15) with true. cbv iota. change (digit_bits 511 15 + 1) with 32. cbn [bind].
  assert (G : exists l, groups 32 soln = (2 ^ 32 - 1) :: l).
  { assert (Q : groups 32 soln = group 32 soln 0 :: tab 32767 (fun d => group 32 soln (1 + d))).
    { unfold groups. rewrite L. change (8 * 131072 / 32) with (32767 + 1). apply tab_S. }
    rewrite Q. eexists. f_equal. unfold group. rewrite L.
    rewrite <- (firstn_skipn 4 soln), F4, be_app. set (r := skipn 4 soln).
    assert (LR : lenN r = 131068) by (unfold r, lenN in *; rewrite skipn_length; lia). rewrite LR.
    assert (BR : be_value r < 2 ^ (8 * 131068)).
    { rewrite <- LR, <- pow256. apply be_value_lt. apply Forall_skipn_e. exact B. }
    change (8 * 131072 - 32 * (0 + 1)) with (8 * 131068). rewrite pow256.
    assert (DV : forall e v q, v < 2 ^ e -> (q * 2 ^ e + v) / 2 ^ e = q).
    { clear. intros e v q H. rewrite N.div_add_l by (apply N.pow_nonzero; discriminate). rewrite N.div_small by auto. lia. }
    rewrite DV by exact BR. reflexivity. }
  destruct G as (l & ->). cbn [newNodes]. unfold newNode. rewrite indicesPer_spec by lia. cbn [bind].
  change (leaves_per_hash 511) with 1. cbn [bind divc]. change (divc (2 ^ 32 - 1) 1) with (Done (2 ^ 32 - 1)). cbn [bind].
  change (hashOutput 511) with (Done 64). cbn [bind]. unfold generateHash. cbn [negb]. cbv zeta.
  rewrite twist_forever; auto; try reflexivity.
  unfold lenN in *. rewrite !app_length, !le_bytes_length. lia.
Qed.
Print Assumptions C46_never_returns_refuted.
Example C46_never_returns_instance : exists soln, bytes soln /\ lenN soln = 131072 /\ firstn 4 soln = [255; 255; 255; 255].
Proof.
  exists ([255; 255; 255; 255] ++ zeros 131068). split; [|split].
  - apply Forall_app; split; [repeat constructor; reflexivity|]. apply Forall_forall. intros x X. apply repeat_spec in X. subst. reflexivity.
  - rewrite lenN_app, lenN_zeros. reflexivity.
  - reflexivity.
Qed.
