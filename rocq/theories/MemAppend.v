(** append(dst, src...) in general: in place or in a new array. *)
From Coq Require Import NArith ZArith Arith List Bool Lia ZifyBool ZifyN ZifyNat.
From Verif Require Import Base BaseFacts CryptoModel MemModel MemProofs.
Import ListNotations.
Open Scope N_scope.
Ltac Zify.zify_post_hook ::= Z.div_mod_to_equations.

Lemma has_full m s l : has m s l -> exists z, has m (mkSl (s_loc s) (s_off s) (s_cap s) (s_cap s)) (l ++ z) /\ lenN (l ++ z) = s_cap s.
Proof.
  intros (L & C & B & E). exists (firstn (N.to_nat (s_cap s - s_len s)) (skipn (N.to_nat (s_off s + s_len s)) (m (s_loc s)))).
  assert (LZ : lenN (l ++ firstn (N.to_nat (s_cap s - s_len s)) (skipn (N.to_nat (s_off s + s_len s)) (m (s_loc s)))) = s_cap s).
  { unfold lenN in *. rewrite app_length, firstn_length, skipn_length. lia. }
  split; [|exact LZ]. unfold has. cbn [s_loc s_off s_len s_cap]. split; [symmetry; exact LZ|]. split; [lia|]. split; [exact B|].
  intros i Hi. rewrite LZ in Hi. destruct (N.ltb_spec i (lenN l)) as [Li|Li].
  - rewrite nth_error_app1 by (unfold lenN in *; lia). apply E. exact Li.
  - rewrite nth_error_app2 by (unfold lenN in *; lia). rewrite nth_error_firstn_if.
    replace (N.to_nat i - length l <? N.to_nat (s_cap s - s_len s))%nat with true by (symmetry; apply Nat.ltb_lt; unfold lenN in *; lia).
    rewrite nth_error_skipn_if. f_equal. unfold lenN in *. lia.
Qed.

Lemma sim_append_any me room dst src m n x y : (forall k, k <= room k) ->
  has m dst x -> has m src y ->
  sim me (append room dst src) m n (Done tt) (fun s _ m' n' =>
    has m' s (x ++ y) /\
    ((s_loc s = s_loc dst /\ others m m' dst /\ n' = n /\ s_cap s = s_cap dst) \/ (new me n n' s /\ kept me n m m' /\ n <= n'))).
Proof.
  intros RM HX HY. pose proof HX as (L & C & D & E). pose proof HY as (L' & C' & D' & E').
  destruct (N.leb_spec (s_len dst + s_len src) (s_cap dst)) as [IN|OUT].
  - unfold append, sim. rewrite run_bind, (run_read _ _ _ _ _ HY). replace (s_len dst + s_len src <=? s_cap dst) with true by lia.
    destruct (has_full _ _ _ HX) as (z & HF & LZ).
    destruct (run_stores me _ m n _ (s_len dst) y HF) as (m' & R & HV & O).
    { rewrite LZ. lia. }
    cbn [s_loc s_off] in R. rewrite run_bind, R. cbn [run]. split; [|left; cbn [s_loc s_cap]; auto].
    pose proof (has_cut _ _ _ 0 (s_len dst + s_len src) HV) as X. cbn [s_loc s_off s_cap] in X. rewrite !N.sub_0_r, N.add_0_r in X.
    assert (LO : (N.to_nat (s_len dst) + length y <= length (x ++ z))%nat) by (unfold lenN in *; lia).
    replace (firstn (N.to_nat (s_len dst + s_len src)) (skipn (N.to_nat 0) (overwrite (x ++ z) (N.to_nat (s_len dst)) y))) with (x ++ y) in X.
    { apply X; [lia|]. unfold lenN. rewrite overwrite_length by exact LO. unfold lenN in LZ. lia. }
    change (N.to_nat 0) with 0%nat. cbn [skipn]. unfold overwrite.
    assert (LX : N.to_nat (s_len dst) = length x) by (unfold lenN in *; lia). rewrite LX.
    rewrite (firstn_app (length x) x z), Nat.sub_diag, firstn_all. cbn [firstn]. rewrite app_nil_r.
    rewrite (firstn_all2 (n := length (x ++ z) - length x) y) by (unfold lenN in *; lia).
    rewrite firstn_app. replace (N.to_nat (s_len dst + s_len src) - length x)%nat with (length y) by (unfold lenN in *; lia).
    rewrite (firstn_all2 (n := N.to_nat (s_len dst + s_len src)) x) by (unfold lenN in *; lia).
    rewrite firstn_app, Nat.sub_diag, firstn_all. cbn [firstn]. rewrite app_nil_r. reflexivity.
  - destruct (N.eqb_spec (s_len src) 0) as [Z|NZ]; [lia|].
    assert (CUT : sim me (append room (mkSl (s_loc dst) (s_off dst) (s_len dst) (s_len dst)) src) m n (Done tt) (fun s _ m' n' =>
      has m' s (x ++ y) /\ new me n n' s /\ kept me n m m' /\ n <= n')).
    { apply sim_append; auto; [|cbn; lia]. unfold has. cbn [s_loc s_off s_len s_cap]. split; [exact L|]. split; [lia|]. split; [lia|exact E]. }
    unfold append, read in *. cbn [s_loc s_off s_len s_cap] in CUT. unfold sim in *. rewrite run_bind in *.
    destruct (run me (loads (s_loc src) (s_off src) (N.to_nat (s_len src))) m n) as [[[a| |] m1] n1]; auto.
    replace (s_len dst + s_len src <=? s_len dst) with false in CUT by lia. replace (s_len dst + s_len src <=? s_cap dst) with false by lia.
    destruct (run _ _ m1 n1) as [[[b| |] m2] n2]; auto. destruct CUT as (A1 & A2 & A3 & A4). auto.
Qed.

Lemma safe_append_nil me room d s : s_len d = 0 -> s_cap d = 0 -> readable me s -> s_len s <> 0 -> safe me (append room d s) (writable me).
Proof.
  intros L C R Z. unfold append. eapply safe_bind; [apply safe_read; exact R|]. intros x _. rewrite L, C.
  replace (0 + s_len s <=? 0) with false by lia. unfold read. rewrite L. cbn [N.to_nat loads pbind safe].
  intros l O. eapply safe_bind; [apply safe_stores; exact O|]. intros _ _. cbn. exact O.
Qed.
Lemma safe_hash_new_len me H n s : readable me s -> safe me (hash_new H n s) (fun r => writable me r /\ s_len r = n).
Proof.
  intros R. unfold hash_new. eapply safe_bind; [apply safe_read; exact R|]. intros x _. unfold make. cbn [pbind safe]. intros l O.
  eapply safe_bind; [apply safe_stores; exact O|]. intros _ _. cbn. auto.
Qed.
