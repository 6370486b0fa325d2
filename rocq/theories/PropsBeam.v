(** C47-C49: BeamHash III. *)
From Coq Require Import String Ascii NArith ZArith Arith List Lia Bool ZifyBool ZifyNat ZifyN.
From Verif Require Import Base BaseFacts CryptoModel CryptoSpec Ordered EquiModel EquiExpand EquiProofs BeamModel BeamSpec BeamProofs.
Import ListNotations.
Open Scope N_scope.
Ltac Zify.zify_post_hook ::= Z.div_mod_to_equations.

(** ** C47 *)
Lemma pack25_digits n : forall v, pack25 (tab n (fun i => v / 2 ^ (25 * i) mod 2 ^ 25)) = v mod 2 ^ (25 * n).
Proof.
  induction n as [|n IH] using N.peano_ind; intros v; [rewrite N.mul_0_r, N.mod_1_r; reflexivity|].
  rewrite <- N.add_1_r, tab_S. unfold pack25. cbn [fold_right]. fold (pack25 (tab n (fun d => v / 2 ^ (25 * (1 + d)) mod 2 ^ 25))).
  rewrite (tab_ext n _ (fun d => v / 2 ^ 25 / 2 ^ (25 * d) mod 2 ^ 25)).
  - rewrite IH. rewrite N.mul_0_r, N.div_1_r. replace (25 * (n + 1)) with (25 + 25 * n) by lia.
    rewrite N.pow_add_r, (N.mod_mul_r v) by (apply N.pow_nonzero; discriminate). reflexivity.
  - intros d _. rewrite N.div_div by (apply N.pow_nonzero; discriminate). rewrite <- N.pow_add_r. do 3 f_equal. lia.
Qed.
Lemma digits_pack25 l : Forall (fun i => i < 2 ^ 25) l -> tab (lenN l) (fun i => pack25 l / 2 ^ (25 * i) mod 2 ^ 25) = l.
Proof.
  induction 1 as [|x l X F IH]; [reflexivity|]. replace (lenN (x :: l)) with (lenN l + 1) by (unfold lenN; cbn [length]; lia).
  rewrite tab_S. unfold pack25. cbn [fold_right]. fold (pack25 l). f_equal.
  - rewrite N.mul_0_r, N.div_1_r. rewrite N.mul_comm, N.mod_add by discriminate. apply N.mod_small. exact X.
  - rewrite <- IH at 2. apply tab_ext. intros i _. replace (25 * (1 + i)) with (25 + 25 * i) by lia.
    rewrite N.pow_add_r, <- N.div_div by (apply N.pow_nonzero; discriminate). do 2 f_equal.
    rewrite N.mul_comm, N.div_add by discriminate. rewrite N.div_small by exact X. reflexivity.
Qed.

(** Decoding any solution of 104 bytes gives 32 indices of 25 bits which are, least significant first, the
    digits of its first 100 bytes read as a little-endian number. *)
Theorem C47_decode soln : bytes soln -> lenN soln = 104 -> exists l,
  beamIndices soln = Done l /\ length l = 32%nat /\ Forall (fun i => i < 2 ^ 25) l /\ pack25 l = le_value (firstn 100 soln).
Proof.
  intros B L. exists (beam_indices soln). split; [apply beamIndices_spec; auto|]. split; [reflexivity|]. split; [apply beam_indices_lt|].
  unfold beam_indices. rewrite pack25_digits. apply N.mod_small. change (2 ^ (25 * 32)) with (256 ^ 100).
  assert (L100 : lenN (firstn 100 soln) = 100) by (unfold lenN in *; rewrite firstn_length; lia).
  rewrite <- L100. apply le_value_lt. apply Forall_firstn_e. exact B.
Qed.
Print Assumptions C47_decode.
(** Every list of 32 indices of 25 bits and every nonce of 4 bytes come from exactly one solution. *)
Theorem C47_bijection l nonce : length l = 32%nat -> Forall (fun i => i < 2 ^ 25) l -> bytes nonce -> lenN nonce = 4 ->
  exists! soln, bytes soln /\ lenN soln = 104 /\ beamIndices soln = Done l /\ skipn 100 soln = nonce.
Proof.
  intros L F BN LN. exists (le_bytes 100 (pack25 l) ++ nonce).
  assert (LL : lenN l = 32) by (unfold lenN; lia).
  assert (PL : pack25 l < 256 ^ 100).
  { change (256 ^ 100) with (2 ^ (25 * 32)). rewrite <- LL. apply pack25_lt. exact F. }
  assert (F100 : firstn 100 (le_bytes 100 (pack25 l) ++ nonce) = le_bytes 100 (pack25 l)).
  { rewrite firstn_app, le_bytes_length, Nat.sub_diag, firstn_O, app_nil_r. apply firstn_all2. rewrite le_bytes_length. apply le_n. }
  assert (LS : lenN (le_bytes 100 (pack25 l) ++ nonce) = 104).
  { unfold lenN in *. rewrite app_length, le_bytes_length. lia. }
  split.
  - split; [apply Forall_app; split; [apply le_bytes_bytes|exact BN]|]. split; [exact LS|]. split.
    + rewrite beamIndices_spec by exact LS. f_equal. unfold beam_indices. rewrite F100, le_bytes_value.
      rewrite N.mod_small by exact PL. rewrite <- LL. apply digits_pack25. exact F.
    + rewrite skipn_app, le_bytes_length, Nat.sub_diag, skipn_O. rewrite skipn_all2 by (rewrite le_bytes_length; apply le_n). reflexivity.
  - intros s (B & LE & E & SK). destruct (C47_decode s B LE) as (l' & E' & _ & _ & PK). rewrite E' in E. injection E as ->.
    rewrite <- SK, PK. rewrite <- (firstn_skipn 100 s) at 3. f_equal.
    replace 100%nat with (length (firstn 100 s)) at 1 by (rewrite firstn_length; unfold lenN in LE; lia).
    apply le_value_bytes. apply Forall_firstn_e. exact B.
Qed.
Print Assumptions C47_bijection.
Example C47_instance : beamIndices (le_bytes 100 (pack25 (tab 32 (fun i => 33554431 - i * 1000003))) ++ [1; 2; 3; 4]) = Done (tab 32 (fun i => 33554431 - i * 1000003)).
Proof. vm_compute. reflexivity. Qed.

(** ** C48 *)
(** The leaves of a header and the nonce of a solution. *)
Definition leaves blake (c : beamClient) (header soln : list N) : N -> N :=
  beam_leaf (beam_key blake (bc_personal c) header (beam_nonce soln)).

(** Headers of 40 and solutions of 104 bytes: true exactly for solutions of the specification, an error
    exactly when some pair of siblings breaks a condition. *)
Theorem C48_verify blake c header soln : blake_ok blake -> lenN (bc_personal c) <= 8 -> bytes soln ->
  lenN header = 40 -> lenN soln = 104 ->
  exists r, BeamVerify blake c header soln = Done r /\
    (r <> None <-> btree (leaves blake c header soln) 5 (beam_indices soln)) /\
    (r = Some true <-> beam_solution (leaves blake c header soln) (beam_indices soln)).
Proof.
  intros OK P B LH LS. unfold BeamVerify. rewrite LH, LS. change (40 =? 40) with true. change (104 =? 104) with true. cbn [negb].
  apply beamVerify_spec; auto.
Qed.
Print Assumptions C48_verify.
Theorem C48_accepts blake c header soln : blake_ok blake -> lenN (bc_personal c) <= 8 -> bytes soln ->
  (BeamVerify blake c header soln = Done (Some true) <->
   lenN header = 40 /\ lenN soln = 104 /\ beam_solution (leaves blake c header soln) (beam_indices soln)).
Proof.
  intros OK P B. destruct (N.eq_dec (lenN header) 40) as [LH|LH].
  - destruct (N.eq_dec (lenN soln) 104) as [LS|LS].
    + destruct (C48_verify blake c header soln OK P B LH LS) as (r & E & _ & T). rewrite E, LH, LS. split.
      * intros Q. injection Q as Q. apply T in Q. auto.
      * intros (_ & _ & Q). apply T in Q. rewrite Q. reflexivity.
    + unfold BeamVerify. rewrite LH. apply N.eqb_neq in LS. rewrite LS. change (40 =? 40) with true. cbn [negb]. apply N.eqb_neq in LS.
      split; [discriminate|tauto].
  - unfold BeamVerify. apply N.eqb_neq in LH. rewrite LH. cbn [negb]. apply N.eqb_neq in LH. split; [discriminate|tauto].
Qed.
Print Assumptions C48_accepts.
Lemma leaves_eq blake c header soln : leaves blake c header soln = beam_leaf (beam_key blake (bc_personal c) header (skipn 100 soln)).
Proof. unfold leaves, beam_nonce. reflexivity. Qed.
(** The shipped client: the text that personalises the hash is Beam-PoW. *)
Theorem C48_beam blake header soln : blake_ok blake -> bytes soln ->
  (BeamVerify blake NewBeam header soln = Done (Some true) <->
   lenN header = 40 /\ lenN soln = 104 /\
   beam_solution (beam_leaf (beam_key blake (map N_of_ascii (list_ascii_of_string "Beam-PoW")) header (skipn 100 soln)))
     (beam_indices soln)).
Proof.
  intros OK B.
  assert (P : bc_personal NewBeam = map N_of_ascii (list_ascii_of_string "Beam-PoW")) by reflexivity.
  assert (L : lenN (bc_personal NewBeam) <= 8) by discriminate. rewrite <- P.
  rewrite <- leaves_eq. exact (C48_accepts blake NewBeam header soln OK L B).
Qed.
Print Assumptions C48_beam.
(** Other lengths give an error, for every client. *)
Theorem C48_lengths blake c header soln : lenN header <> 40 \/ lenN soln <> 104 -> BeamVerify blake c header soln = Done None.
Proof.
  intros H. unfold BeamVerify. destruct (N.eqb_spec (lenN header) 40) as [LH|LH]; [|reflexivity]. cbn [negb].
  destruct (N.eqb_spec (lenN soln) 104) as [LS|LS]; [|reflexivity]. destruct H; contradiction.
Qed.
Print Assumptions C48_lengths.
(** The shipped client always returns. *)
Theorem C48_returns blake header soln : blake_ok blake -> bytes soln -> exists r, BeamVerify blake NewBeam header soln = Done r.
Proof.
  intros OK B. destruct (N.eq_dec (lenN header) 40) as [LH|LH]; [|exists None; apply C48_lengths; auto].
  destruct (N.eq_dec (lenN soln) 104) as [LS|LS]; [|exists None; apply C48_lengths; auto].
  destruct (C48_verify blake NewBeam header soln OK ltac:(discriminate) B LH LS) as (r & E & _). exists r. exact E.
Qed.
Print Assumptions C48_returns.
(** A client made with a longer personalisation panics on all inputs of the right lengths. *)
Theorem C48_personal_panics_refuted blake c header soln : 8 < lenN (bc_personal c) -> lenN header = 40 -> lenN soln = 104 ->
  BeamVerify blake c header soln = Panic.
Proof.
  intros P LH LS. unfold BeamVerify. rewrite LH, LS. change (40 =? 40) with true. change (104 =? 104) with true. cbn [negb].
  unfold beamVerify, initializePrePow, slice_from. cbv zeta. rewrite slice_Done by lia. cbn [bind].
  unfold le_u32. match goal with |- context [4 <=? ?x] => destruct (N.leb_spec 4 x) as [Q|Q] end; [|reflexivity]. cbn [bind].
  unfold Blake2b. cbv zeta.
  assert (PS : 16 <? lenN (bc_personal c ++ le_bytes 4 workBitsSize ++ le_bytes 4 numRounds) = true).
  { apply N.ltb_lt. unfold lenN in *. rewrite !app_length, !le_bytes_length. lia. }
  rewrite PS, orb_true_r. reflexivity.
Qed.
Print Assumptions C48_personal_panics_refuted.
(** The numbers [n] and [k] of a client play no part. *)
Theorem C48_parameters_unused blake n k n' k' personal header soln :
  BeamVerify blake (NewClient n k personal) header soln = BeamVerify blake (NewClient n' k' personal) header soln.
Proof. reflexivity. Qed.
Print Assumptions C48_parameters_unused.
(** An accepted solution: the first vector of the test suite, with a hash that returns the digest of that
    header (VecBeam.v replays all three with the real BLAKE2b). *)
Definition fixed_hash (size : N) (personal data : list N) : list N :=
  firstn (N.to_nat size) (flat_map (le_bytes 8) [4089375540786847031; 8157496239873280954; 4442071692094228142; 14454583847008424381] ++ zeros 32).
Lemma fixed_hash_ok : blake_ok fixed_hash.
Proof.
  intros size p d H. unfold fixed_hash. split.
  - unfold lenN. rewrite firstn_length. set (l := _ ++ _). assert (L : length l = 64%nat) by reflexivity. rewrite L. lia.
  - apply Forall_firstn_e, Forall_app. split; [|apply Forall_forall; intros x X; apply repeat_spec in X; subst; reflexivity].
    cbn [flat_map]. repeat (apply Forall_app; split; [apply le_bytes_bytes|]). constructor.
Qed.
Definition vector_header : list N := zeros 40.
Definition vector_soln : list N :=
[15; 200; 28; 104; 75; 226; 41; 195; 107; 132; 78; 248; 41; 154; 151; 68;
 219; 184; 114; 114; 118; 191; 248; 203; 214; 16; 250; 116; 20; 251; 108;
 253; 103; 185; 37; 134; 248; 79; 139; 255; 174; 235; 153; 38; 105; 148; 215;
 157; 163; 251; 2; 106; 36; 18; 139; 132; 144; 31; 36; 75; 8; 238; 107; 107;
 149; 67; 114; 252; 176; 167; 211; 51; 24; 218; 107; 241; 133; 74; 228; 143;
 148; 254; 138; 242; 211; 20; 123; 220; 115; 2; 204; 18; 218; 161; 163; 6;
 81; 17; 34; 167; 0; 0; 0; 0].
Lemma vector_bytes : bytes vector_soln.
Proof. unfold vector_soln. repeat (constructor; [reflexivity|]). constructor. Qed.
Example C48_instance : BeamVerify fixed_hash NewBeam vector_header vector_soln = Done (Some true).
Proof. vm_compute. reflexivity. Qed.

(** ** C49 *)
Lemma btree_ordered leaf h : forall l, btree leaf h l -> ordered h l.
Proof.
  induction h; intros l T; [exact I|]. cbn [btree ordered] in *. cbv zeta in *. destruct T as (A & B & H & D & _).
  split; [apply IHh, A|]. split; [apply IHh, B|]. split; assumption.
Qed.
(** The 32 indices of an accepted solution are pairwise distinct. *)
Theorem C49_distinct blake c header soln : blake_ok blake -> lenN (bc_personal c) <= 8 -> bytes soln ->
  BeamVerify blake c header soln = Done (Some true) -> NoDup (beam_indices soln) /\ length (beam_indices soln) = 32%nat.
Proof.
  intros OK P B E. apply C48_accepts in E as (_ & _ & L & T & _); auto. split; [|exact L].
  apply (ordered_NoDup 5); [exact L|]. apply (btree_ordered _ _ _ T).
Qed.
Print Assumptions C49_distinct.
(** Every subtree starts with its smallest index. *)
Theorem C49_smallest_first blake c header soln (e m : nat) p s r i : blake_ok blake -> lenN (bc_personal c) <= 8 -> bytes soln ->
  BeamVerify blake c header soln = Done (Some true) ->
  beam_indices soln = p ++ s ++ r -> length s = Nat.pow 2 e -> length p = (Nat.pow 2 e * m)%nat -> In i s -> hd 0 s <= i.
Proof.
  intros OK P B E ES LS LP I. apply C48_accepts in E as (_ & _ & L & T & _); auto. apply btree_ordered in T.
  assert (E5 : (e <= 5)%nat).
  { rewrite ES, !app_length in L. destruct (Nat.le_gt_cases e 5) as [|Q]; [assumption|].
    assert (Nat.pow 2 6 <= Nat.pow 2 e)%nat by (apply Nat.pow_le_mono_r; lia). change (Nat.pow 2 6) with 64%nat in *. lia. }
  apply (ordered_smallest e); auto. apply (ordered_subtree 5 e m (beam_indices soln) p s r); auto.
Qed.
Print Assumptions C49_smallest_first.
(** Swapping two sibling subtrees gives indices that no solution is accepted with, under any header and nonce. *)
Theorem C49_no_swap blake c c' header header' soln soln' (d m : nat) P l r S : blake_ok blake -> lenN (bc_personal c) <= 8 ->
  lenN (bc_personal c') <= 8 -> bytes soln -> bytes soln' -> BeamVerify blake c header soln = Done (Some true) ->
  beam_indices soln = P ++ l ++ r ++ S -> length l = Nat.pow 2 d -> length r = Nat.pow 2 d -> length P = (Nat.pow 2 (d + 1) * m)%nat ->
  beam_indices soln' = P ++ r ++ l ++ S ->
  BeamVerify blake c' header' soln' <> Done (Some true).
Proof.
  intros OK P8 P8' B B' E ES LL LR LP ES' E'.
  apply C48_accepts in E as (_ & _ & N1 & T1 & _); auto. apply C48_accepts in E' as (_ & _ & N2 & T2 & _); auto.
  apply btree_ordered in T1, T2. rewrite ES in N1, T1. rewrite ES' in T2. exact (ordered_no_swap 5 d m P l r S N1 LL LR LP T1 T2).
Qed.
Print Assumptions C49_no_swap.
(** Of all solutions whose indices come from one another by swapping siblings, at any number of places, only those
    with the same first 100 bytes are accepted: what is left to vary is the nonce. *)
Theorem C49_one_arrangement blake c c' header header' soln soln' : blake_ok blake -> lenN (bc_personal c) <= 8 ->
  lenN (bc_personal c') <= 8 -> bytes soln -> bytes soln' ->
  BeamVerify blake c header soln = Done (Some true) -> BeamVerify blake c' header' soln' = Done (Some true) ->
  rearranged 5 (beam_indices soln) (beam_indices soln') -> firstn 100 soln = firstn 100 soln'.
Proof.
  intros OK P8 P8' B B' E E' R.
  apply C48_accepts in E as (_ & L1 & _ & T1 & _); auto. apply C48_accepts in E' as (_ & L2 & _ & T2 & _); auto.
  pose proof (ordered_one_arrangement _ _ _ R (btree_ordered _ _ _ T1) (btree_ordered _ _ _ T2)) as EQ.
  destruct (C47_decode soln B L1) as (l & D1 & _ & _ & P1). destruct (C47_decode soln' B' L2) as (l' & D2 & _ & _ & P2).
  rewrite beamIndices_spec in D1, D2 by auto. injection D1 as <-. injection D2 as <-. rewrite EQ, P2 in P1.
  assert (F : forall x, bytes x -> lenN x = 104 -> le_bytes 100 (le_value (firstn 100 x)) = firstn 100 x).
  { intros x X LX. replace 100%nat with (length (firstn 100 x)) at 1 by (rewrite firstn_length; unfold lenN in LX; lia).
    apply le_value_bytes. apply Forall_firstn_e. exact X. }
  rewrite <- (F soln B L1), <- (F soln' B' L2), P1. reflexivity.
Qed.
Print Assumptions C49_one_arrangement.
(** The swap of the first two indices of the accepted vector. *)
Definition vector_rest : list N :=
  [18542794; 20908496; 4815266; 26592986; 16636361; 28153841; 7666192; 11959690; 24009215; 33493188;
   15726772; 20238173; 22958500; 32982843; 2386434; 4343177; 13174756; 25018633; 3757750; 25682834;
   13586078; 14136368; 4883953; 21645298; 16556735; 26174106; 12592957; 17748118; 21240462; 21906466].
Definition vector_swapped : list N :=
  [180; 37; 241; 30; 144; 57; 40; 195; 107; 132; 78; 248; 41; 154; 151; 68; 219; 184; 114; 114; 118;
   191; 248; 203; 214; 16; 250; 116; 20; 251; 108; 253; 103; 185; 37; 134; 248; 79; 139; 255; 174; 235;
   153; 38; 105; 148; 215; 157; 163; 251; 2; 106; 36; 18; 139; 132; 144; 31; 36; 75; 8; 238; 107; 107;
   149; 67; 114; 252; 176; 167; 211; 51; 24; 218; 107; 241; 133; 74; 228; 143; 148; 254; 138; 242; 211;
   20; 123; 220; 115; 2; 204; 18; 218; 161; 163; 6; 81; 17; 34; 167; 0; 0; 0; 0].
Example C49_instance : beam_indices vector_soln = [] ++ [1886223] ++ [15803828] ++ vector_rest /\ bytes vector_swapped /\
  beam_indices vector_swapped = [] ++ [15803828] ++ [1886223] ++ vector_rest.
Proof.
  split; [vm_compute; reflexivity|]. split; [|vm_compute; reflexivity].
  unfold vector_swapped. repeat (constructor; [reflexivity|]). constructor.
Qed.
