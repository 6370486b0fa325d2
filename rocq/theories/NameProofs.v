(** Proofs about file names. *)
From Coq Require Import NArith ZArith Arith List Bool Lia ZifyBool ZifyN ZifyNat.
From Verif Require Import Base BaseFacts DagModel FileModel NameModel.
Import ListNotations.
Open Scope N_scope.
Ltac Zify.zify_post_hook ::= Z.div_mod_to_equations.

(** ** Numerals *)

Definition num_value (l : list N) : N := fold_left (fun a c => 10 * a + (c - 48)) l 0.

Lemma fold_value a l : fold_left (fun a c => 10 * a + (c - 48)) l a =
  a * 10 ^ lenN l + num_value l.
Proof.
  unfold num_value. revert a. induction l as [|c l IH] using rev_ind; intros a.
  - cbn [fold_left]. change (@lenN N []) with 0. lia.
  - rewrite !fold_left_app. cbn [fold_left]. rewrite IH. rewrite lenN_app. change (lenN [c]) with 1.
    rewrite N.pow_add_r. lia.
Qed.

Lemma digits_value fuel : forall n acc, n < 10 ^ N.of_nat fuel ->
  num_value (digits fuel n acc) = n * 10 ^ lenN acc + num_value acc.
Proof.
  induction fuel as [|fuel IH]; intros n acc H.
  - cbn in H. replace n with 0 by lia. cbn [digits]. lia.
  - cbn [digits]. assert (E : num_value ((48 + n mod 10) :: acc) = (n mod 10) * 10 ^ lenN acc + num_value acc).
    { unfold num_value at 1. cbn [fold_left]. rewrite fold_value. f_equal. f_equal. lia. }
    destruct (N.ltb_spec n 10).
    + rewrite E. rewrite N.mod_small; auto.
    + rewrite IH.
      * rewrite E. unfold lenN. cbn [length]. rewrite Nat2N.inj_succ, N.pow_succ_r'.
        fold (lenN acc). rewrite (N.div_mod n 10) at 3 by lia. lia.
      * rewrite Nat2N.inj_succ, N.pow_succ_r' in H. apply N.div_lt_upper_bound; lia.
Qed.

Lemma dec_N_value n : num_value (dec_N n) = n.
Proof.
  unfold dec_N. rewrite digits_value.
  - change (@lenN N []) with 0. change (num_value []) with 0. lia.
  - destruct n as [|p]; [cbn; lia|].
    apply N.lt_le_trans with (2 ^ N.of_nat (S (N.size_nat (N.pos p)))).
    + pose proof (N.size_gt (N.pos p)) as G. replace (N.size (N.pos p)) with (N.of_nat (N.size_nat (N.pos p))) in G.
      * rewrite Nat2N.inj_succ, N.pow_succ_r'. lia.
      * cbn. clear G. induction p; cbn; try lia; auto.
    + apply N.pow_le_mono_l. lia.
Qed.

Lemma digits_chars fuel : forall n acc, Forall (fun c => 48 <= c <= 57) acc ->
  Forall (fun c => 48 <= c <= 57) (digits fuel n acc).
Proof.
  induction fuel as [|fuel IH]; intros n acc H; cbn [digits]; auto.
  assert (A : Forall (fun c => 48 <= c <= 57) ((48 + n mod 10) :: acc)) by (constructor; auto; lia).
  destruct (n <? 10); auto.
Qed.
Lemma dec_N_chars n : Forall (fun c => 48 <= c <= 57) (dec_N n).
Proof. apply digits_chars. constructor. Qed.
Lemma digits_nonempty fuel : forall n acc, acc <> [] -> digits fuel n acc <> [].
Proof.
  induction fuel as [|fuel IH]; intros n acc H; cbn [digits]; auto.
  destruct (n <? 10); [discriminate|apply IH; discriminate].
Qed.
Lemma dec_N_nonempty n : dec_N n <> [].
Proof.
  unfold dec_N. cbn [digits]. destruct (n <? 10); [discriminate|apply digits_nonempty; discriminate].
Qed.
Lemma dec_N_numeral n : is_numeral (dec_N n).
Proof. split; [apply dec_N_nonempty|apply dec_N_chars]. Qed.

Lemma dec_Z_chars z : Forall (fun c => c = 45 \/ 48 <= c <= 57) (dec_Z z).
Proof.
  unfold dec_Z. assert (forall n, Forall (fun c => c = 45 \/ 48 <= c <= 57) (dec_N n)).
  { intros n. eapply Forall_impl; [|apply dec_N_chars]. cbn. auto. }
  destruct (z <? 0)%Z; auto.
Qed.

Lemma dec_Z_inj a b : dec_Z a = dec_Z b -> a = b.
Proof.
  unfold dec_Z. intros E.
  assert (NO : forall n l, dec_N n <> 45 :: l).
  { intros n l X. pose proof (dec_N_chars n) as C. rewrite X in C. inversion C; subst. lia. }
  destruct (Z.ltb_spec a 0), (Z.ltb_spec b 0).
  - inversion E as [E']. apply (f_equal num_value) in E'. rewrite !dec_N_value in E'. lia.
  - symmetry in E. destruct (NO _ _ E).
  - destruct (NO _ _ E).
  - apply (f_equal num_value) in E. rewrite !dec_N_value in E. lia.
Qed.

(** ** Hexadecimal *)

Lemma hex_length b : length (hex_bytes b) = (2 * length b)%nat.
Proof. unfold hex_bytes in *. induction b; cbn [flat_map app length]; auto. lia. Qed.
Lemma hexdigit_inj a b : a < 16 -> b < 16 -> hexdigit a = hexdigit b -> a = b.
Proof. unfold hexdigit. intros. destruct (N.ltb_spec a 10), (N.ltb_spec b 10); lia. Qed.
Lemma hex_inj a : forall b, bytes a -> bytes b -> hex_bytes a = hex_bytes b -> a = b.
Proof.
  induction a as [|x a IH]; intros [|y b] A B E; cbn in E; try discriminate; auto.
  inversion A; inversion B; subst. inversion E as [[E1 E2 E3]].
  unfold isw in *. apply hexdigit_inj in E1; [|lia..]. apply hexdigit_inj in E2; [|lia..].
  f_equal; [lia|]. apply IH; auto.
Qed.
Definition hexchar (c : N) : Prop := 48 <= c <= 57 \/ 97 <= c <= 102.
Lemma hex_chars b : bytes b -> Forall hexchar (hex_bytes b).
Proof.
  induction 1 as [|x b H _ IH]; cbn; constructor.
  - unfold hexchar, hexdigit, isw in *. destruct (N.ltb_spec (x / 16) 10); lia.
  - constructor; auto. unfold hexchar, hexdigit, isw in *. destruct (N.ltb_spec (x mod 16) 10); lia.
Qed.

(** ** Splitting *)

Lemma app_split {A} (a b c e : list A) : a ++ b = c ++ e -> length b = length e -> a = c /\ b = e.
Proof.
  intros E L.
  assert (length a = length c). { apply (f_equal (@length A)) in E. rewrite !app_length in E. lia. }
  revert c H E. induction a as [|x a IH]; intros [|y c] H E; cbn in *; try discriminate; auto.
  inversion E; subst. destruct (IH c); auto. subst. auto.
Qed.

Lemma last_marker (m : N) : forall a b c e,
  a ++ m :: b = c ++ m :: e -> ~ In m b -> ~ In m e -> a = c /\ b = e.
Proof.
  induction a as [|x a IH]; intros b [|y c] e E NB NE; cbn in E.
  - inversion E; auto.
  - inversion E; subst. exfalso. apply NB. apply in_or_app. right. left. auto.
  - inversion E; subst. exfalso. apply NE. apply in_or_app. right. left. auto.
  - inversion E; subst. destruct (IH b c e); auto. subst. auto.
Qed.

Lemma basename_inj k1 n1 r1 s1 k2 n2 r2 s2 :
  length s1 = 8%nat -> length s2 = 8%nat -> bytes s1 -> bytes s2 ->
  basename k1 n1 r1 s1 = basename k2 n2 r2 s2 -> k1 = k2 /\ n1 = n2 /\ r1 = r2 /\ s1 = s2.
Proof.
  intros L1 L2 B1 B2 E. unfold basename in E. rewrite !app_assoc in E.
  apply app_split in E; [|rewrite !hex_length; lia]. destruct E as [E ES].
  apply hex_inj in ES; auto.
  apply app_split in E; [|auto]. destruct E as [E _].
  rewrite <- !app_assoc in E. cbn [app] in E.
  assert (NR : forall z, ~ In 82 (dec_Z z)).
  { intros z I. pose proof (proj1 (Forall_forall _ _) (dec_Z_chars z) _ I) as [X|X]; lia. }
  replace (prefix k1 ++ n1 ++ 45 :: 82 :: dec_Z r1) with ((prefix k1 ++ n1 ++ [45]) ++ 82 :: dec_Z r1) in E
    by (rewrite <- !app_assoc; reflexivity).
  replace (prefix k2 ++ n2 ++ 45 :: 82 :: dec_Z r2) with ((prefix k2 ++ n2 ++ [45]) ++ 82 :: dec_Z r2) in E
    by (rewrite <- !app_assoc; reflexivity).
  apply last_marker in E; auto. destruct E as [E ER]. apply dec_Z_inj in ER.
  rewrite !app_assoc in E. apply app_split in E; auto. destruct E as [E _].
  destruct k1, k2; cbn in E; inversion E; auto.
Qed.

(** ** Paths *)

Definition no_slash (s : list N) : Prop := ~ In 47 s.

Lemma split_slash_plain s : forall cur, no_slash s -> split_slash s cur = [rev cur ++ s].
Proof.
  induction s as [|c s IH]; intros cur NS; cbn [split_slash].
  - rewrite app_nil_r. auto.
  - destruct (N.eqb_spec c 47) as [->|NE]; [exfalso; apply NS; left; auto|].
    rewrite IH by (intros I; apply NS; right; auto). cbn. rewrite <- app_assoc. auto.
Qed.

Lemma split_slash_app s t : forall cur, split_slash (s ++ 47 :: t) cur = split_slash s cur ++ split_slash t [].
Proof.
  induction s as [|c s IH]; intros cur; cbn [app split_slash]; auto.
  destruct (c =? 47); cbn; rewrite IH; auto.
Qed.

(** What stands before the last component. *)
Definition dir_prefix (dir : list N) : list N :=
  match dir with
  | [] => []
  | _ => let r := is_rooted dir in
         let st := clean_stack r (split_slash dir []) in
         (if r then [47] else []) ++
         match st with [] => [] | _ => render st ++ [47] end
  end.

Lemma render_push st c : render (c :: st) = match st with [] => [] | _ => render st ++ [47] end ++ c.
Proof.
  unfold render. cbn [rev]. destruct st as [|x st]; [cbn; rewrite app_nil_r; auto|].
  destruct (rev (x :: st)) as [|y l] eqn:E.
  - apply (f_equal (@length _)) in E. rewrite rev_length in E. discriminate.
  - cbn [app]. rewrite flat_map_app. cbn [flat_map]. rewrite app_nil_r, <- !app_assoc. reflexivity.
Qed.

Definition plain (nm : list N) : Prop :=
  no_slash nm /\ nm <> [] /\ nm <> [46] /\ nm <> [46; 46].

Lemma clean_step_plain r st nm : plain nm -> clean_step r st nm = nm :: st.
Proof.
  intros (_ & A & B & C). unfold clean_step.
  destruct (name_dec nm []); [contradiction|]. destruct (name_dec nm [46]); [contradiction|].
  destruct (name_dec nm [46; 46]); [contradiction|]. auto.
Qed.

Lemma Join_plain dir nm : plain nm -> Join dir nm = dir_prefix dir ++ nm.
Proof.
  intros P. assert (NS : no_slash nm) by apply P. assert (NE : nm <> []) by apply P.
  assert (BODY : forall st, render (nm :: st) <> []).
  { intros st. rewrite render_push. destruct st; cbn; auto. intros E.
    apply app_eq_nil in E. tauto. }
  unfold Join, dir_prefix. destruct dir as [|c dir].
  - destruct (name_dec nm []); [contradiction|]. unfold Clean.
    assert (R : is_rooted nm = false).
    { destruct nm as [|x nm]; auto. cbn. destruct x as [|p]; auto.
      destruct (N.eq_dec (N.pos p) 47) as [E|E]; [exfalso; apply NS; left; auto|].
      do 6 (destruct p; auto). congruence. }
    rewrite R. rewrite split_slash_plain by auto. cbn [rev app].
    unfold clean_stack. cbn [fold_left]. rewrite clean_step_plain by auto.
    rewrite render_push. cbn [app]. destruct (name_dec nm []); [contradiction|auto].
  - unfold Clean. assert (R : is_rooted ((c :: dir) ++ [47] ++ nm) = is_rooted (c :: dir)) by reflexivity.
    rewrite R. change ((c :: dir) ++ [47] ++ nm) with ((c :: dir) ++ 47 :: nm).
    rewrite split_slash_app. rewrite (split_slash_plain nm) by auto. cbn [rev app].
    unfold clean_stack. rewrite fold_left_app. cbn [fold_left]. rewrite clean_step_plain by auto.
    set (st := fold_left _ _ _). clearbody st.
    destruct (is_rooted (c :: dir)).
    + rewrite render_push. rewrite <- ?app_assoc. reflexivity.
    + destruct (name_dec (render (nm :: st)) []) as [E|_]; [destruct (BODY st E)|].
      rewrite render_push. rewrite <- ?app_assoc. reflexivity.
Qed.

Lemma basename_plain k nm r seed : no_slash nm -> bytes seed -> plain (basename k nm r seed).
Proof.
  intros NS B. unfold plain. split; [|destruct k; split; [|split| |split]; discriminate].
  unfold no_slash, basename. rewrite !in_app_iff. intros [I|[I|[I|[I|[I|I]]]]].
  - destruct k; cbn in I; intuition lia.
  - auto.
  - cbn in I. intuition lia.
  - pose proof (proj1 (Forall_forall _ _) (dec_Z_chars r) _ I) as [X|X]; lia.
  - cbn in I. intuition lia.
  - pose proof (proj1 (Forall_forall _ _) (hex_chars seed B) _ I) as [X|X]; lia.
Qed.

(** A temporary name never is a final name in the same directory. *)
Lemma temp_not_base k1 n1 r1 s1 r k2 n2 r2 s2 :
  length s1 = 8%nat -> length s2 = 8%nat -> bytes s1 -> bytes s2 -> is_numeral r ->
  temp_name (basename k1 n1 r1 s1) r <> basename k2 n2 r2 s2.
Proof.
  intros L1 L2 B1 B2 (NE & NUM) E. unfold temp_name, basename in E.
  set (a := prefix k1 ++ n1 ++ [45; 82] ++ dec_Z r1 ++ [45] ++ hex_bytes s1) in E.
  replace (prefix k2 ++ n2 ++ [45; 82] ++ dec_Z r2 ++ [45] ++ hex_bytes s2) with
    ((prefix k2 ++ n2 ++ [45; 82] ++ dec_Z r2) ++ 45 :: hex_bytes s2) in E
    by (rewrite <- !app_assoc; reflexivity).
  set (b := prefix k2 ++ n2 ++ [45; 82] ++ dec_Z r2) in E. cbn [app] in E.
  assert (X : In 46 (45 :: hex_bytes s2) \/ In 45 r).
  { clearbody a b. clear - E. revert b E. induction a as [|x a IH]; intros [|y b] E; cbn in E.
    - inversion E.
    - inversion E; subst. right. apply in_or_app. right. left. auto.
    - inversion E; subst. left. right. apply in_or_app. right. left. auto.
    - inversion E; subst. eapply IH; eauto. }
  destruct X as [[X|X]|X]; [discriminate| |].
  - pose proof (proj1 (Forall_forall _ _) (hex_chars s2 B2) _ X) as [Y|Y]; lia.
  - pose proof (proj1 (Forall_forall _ _) NUM _ X) as Y. cbn in Y. lia.
Qed.

Lemma location_eq k d seed : no_slash (cf_name d) -> bytes seed ->
  storageLocation k d seed = dir_prefix (cf_storage_dir d) ++ basename k (cf_name d) (cf_revision d) seed.
Proof. intros. unfold storageLocation. apply Join_plain. apply basename_plain; auto. Qed.

Lemma location_inj k1 d1 s1 k2 d2 s2 :
  cf_storage_dir d1 = cf_storage_dir d2 -> no_slash (cf_name d1) -> no_slash (cf_name d2) ->
  length s1 = 8%nat -> length s2 = 8%nat -> bytes s1 -> bytes s2 ->
  storageLocation k1 d1 s1 = storageLocation k2 d2 s2 ->
  k1 = k2 /\ cf_name d1 = cf_name d2 /\ cf_revision d1 = cf_revision d2 /\ s1 = s2.
Proof.
  intros D N1 N2 L1 L2 B1 B2 E. rewrite !location_eq in E by auto. rewrite D in E.
  apply app_inv_head in E. eapply basename_inj; eauto.
Qed.

Lemma location_temp k1 d1 s1 r k2 d2 s2 :
  cf_storage_dir d1 = cf_storage_dir d2 -> no_slash (cf_name d1) -> no_slash (cf_name d2) ->
  length s1 = 8%nat -> length s2 = 8%nat -> bytes s1 -> bytes s2 -> is_numeral r ->
  temp_name (storageLocation k1 d1 s1) r <> storageLocation k2 d2 s2.
Proof.
  intros D N1 N2 L1 L2 B1 B2 R E. rewrite !location_eq in E by auto. rewrite D in E.
  unfold temp_name in E. rewrite <- app_assoc in E. apply app_inv_head in E.
  eapply (temp_not_base k1 _ _ s1 r k2 _ _ s2); eauto.
Qed.
