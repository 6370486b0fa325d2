(** C02: XORBytes gives the same result on every architecture. *)
From Coq Require Import NArith ZArith Arith List Bool Lia ZifyBool ZifyN ZifyNat.
From Verif Require Import Base BaseFacts DagModel XorModel XorProofs.
Import ListNotations.
Open Scope N_scope.
Ltac Zify.zify_post_hook ::= Z.div_mod_to_equations.

(** ** Specification *)

(** A slice of bytes that the memory holds, in the address space. *)
Definition in_memory (m : mem) (s : gslice) : Prop :=
  (forall i, i < sl_len s -> exists v, m (sl_ptr s + i) = Some v /\ v < 256)
  /\ sl_ptr s + sl_len s < 2 ^ 64 /\ sl_len s < 2 ^ 63.
(** The first [n] bytes of two slices are the same memory or do not meet. *)
Definition same_or_apart (n : N) (s t : gslice) : Prop :=
  sl_ptr s = sl_ptr t \/ sl_ptr s + n <= sl_ptr t \/ sl_ptr t + n <= sl_ptr s.
(** Byte [i] of a slice. *)
Definition at_index (m : mem) (s : gslice) (i : N) : N := match m (sl_ptr s + i) with Some v => v | None => 0 end.
Definition contents (m : mem) (s : gslice) : list N := tab (sl_len s) (at_index m s).
(** The memory after: the xor in the first [n] bytes of the destination, nothing else changed. *)
Definition xored (n : N) (m : mem) (dst a b : gslice) (m' : mem) : Prop :=
  (forall i, i < n -> m' (sl_ptr dst + i) = Some (N.lxor (at_index m a i) (at_index m b i)))
  /\ (forall x, x < sl_ptr dst \/ sl_ptr dst + n <= x -> m' x = m x).
Definition common (a b : gslice) : N := N.min (sl_len a) (sl_len b).

(** Lengths and places with which XORBytes may be called. *)
Definition callable (m : mem) (dst a b : gslice) : Prop :=
  in_memory m dst /\ in_memory m a /\ in_memory m b
  /\ same_or_apart (common a b) dst a /\ same_or_apart (common a b) dst b.

(** ** Theorems *)
Section Setting.
Variables (m : mem) (dst a b : gslice).
Hypothesis Hdst : in_memory m dst.
Hypothesis Ha : in_memory m a.
Hypothesis Hb : in_memory m b.
Hypothesis Hda : same_or_apart (common a b) dst a.
Hypothesis Hdb : same_or_apart (common a b) dst b.
Hypothesis Hlen : common a b <= sl_len dst.

Lemma holds_xored m' : holds m (sl_ptr dst) (sl_ptr a) (sl_ptr b) (common a b) m' (fun _ => true) ->
  xored (common a b) m dst a b m'.
Proof.
  intros H. split.
  - intros i Hi. rewrite H. unfold image.
    replace ((sl_ptr dst <=? sl_ptr dst + i) && (sl_ptr dst + i <? sl_ptr dst + common a b)) with true by lia. cbn [andb].
    replace (sl_ptr dst + i - sl_ptr dst) with i by lia. reflexivity.
  - intros x Hx. rewrite H. unfold image.
    replace ((sl_ptr dst <=? x) && (x <? sl_ptr dst + common a b)) with false by lia. reflexivity.
Qed.
Lemma mapped s n : in_memory m s -> n <= sl_len s -> forall i, i < n -> m (sl_ptr s + i) <> None.
Proof. intros (H & _) Hn i Hi. destruct (H i ltac:(lia)) as (v & E & _). congruence. Qed.
Lemma is_byte s n : in_memory m s -> n <= sl_len s -> forall i, i < n -> byte m (sl_ptr s + i) < 256.
Proof. intros (H & _) Hn i Hi. destruct (H i ltac:(lia)) as (v & E & Hv). unfold byte. rewrite E. auto. Qed.
Lemma apart s t n : same_or_apart n s t -> forall i j, i < n -> j < n -> sl_ptr s + i = sl_ptr t + j -> i = j.
Proof. unfold same_or_apart. intros. lia. Qed.
Lemma xored_0 : common a b = 0 -> xored 0 m dst a b m.
Proof. intros. split; intros; [lia|reflexivity]. Qed.

Ltac hyps := first
  [ apply mapped; [assumption|unfold common in *; lia]
  | apply is_byte; [assumption|unfold common in *; lia]
  | apply apart; assumption
  | destruct Hdst as (_ & ? & ?), Ha as (_ & ? & ?), Hb as (_ & ? & ?); unfold common in *; lia ].

Lemma asm_case (asm : mem -> N -> N -> N -> N -> outcome mem) m' :
  (0 < common a b -> asm m (sl_ptr dst) (sl_ptr a) (sl_ptr b) (common a b) = Done m' /\ xored (common a b) m dst a b m') ->
  (common a b = 0 -> m' = m) ->
  XORBytes_asm asm m dst a b = Done (m', common a b) /\ xored (common a b) m dst a b m'.
Proof.
  intros H H0. unfold XORBytes_asm. change (N.min (sl_len a) (sl_len b)) with (common a b).
  destruct (N.eqb_spec (common a b) 0) as [E|E].
  - rewrite E at 1 2. rewrite H0 by auto. split; auto. split; intros; [lia|reflexivity].
  - replace (sl_len dst <? common a b) with false by lia. destruct (H ltac:(lia)) as [-> Hx]. auto.
Qed.

Lemma amd64_case (r : Amd64.state) : exists fuel m',
  (forall more, (fuel <= more)%nat -> XORBytes_amd64 more r m dst a b = Done (m', common a b))
  /\ xored (common a b) m dst a b m'.
Proof.
  destruct (N.eq_dec (common a b) 0) as [E|E].
  - exists 0%nat, m. rewrite E. split; [|apply xored_0; auto].
    intros. unfold XORBytes_amd64, XORBytes_asm. change (N.min (sl_len a) (sl_len b)) with (common a b). rewrite E. reflexivity.
  - destruct (amd64_ok m (sl_ptr dst) (sl_ptr a) (sl_ptr b) (common a b)) with (r := r) as (fuel & m' & E1 & H1); try hyps.
    exists fuel, m'. split; [|apply holds_xored; exact H1].
    intros more Hm. apply (asm_case (Amd64.call more r) m'); [|contradiction].
    intros _. split; [|apply holds_xored; exact H1].
    unfold Amd64.call, Amd64.run in *. eapply loop_fuel_mono; [exact Hm|]. exact E1.
Qed.

Lemma arm64_case (r : Arm64.state) : exists fuel m',
  (forall more, (fuel <= more)%nat -> XORBytes_arm64 more r m dst a b = Done (m', common a b))
  /\ xored (common a b) m dst a b m'.
Proof.
  destruct (N.eq_dec (common a b) 0) as [E|E].
  - exists 0%nat, m. rewrite E. split; [|apply xored_0; auto].
    intros. unfold XORBytes_arm64, XORBytes_asm. change (N.min (sl_len a) (sl_len b)) with (common a b). rewrite E. reflexivity.
  - destruct (arm64_ok m (sl_ptr dst) (sl_ptr a) (sl_ptr b) (common a b)) with (r := r) as (fuel & m' & E1 & H1); try hyps.
    exists fuel, m'. split; [|apply holds_xored; exact H1].
    intros more Hm. apply (asm_case (Arm64.call more r) m'); [|contradiction].
    intros _. split; [|apply holds_xored; exact H1].
    unfold Arm64.call, Arm64.run in *. eapply loop_fuel_mono; [exact Hm|]. exact E1.
Qed.

(** Word by word (with any word size) and byte by byte. *)
Lemma generic_case (supportsUnaligned : bool) (wordSize : N) : 0 < wordSize -> exists m',
  XORBytes_generic supportsUnaligned wordSize m dst a b = Done (m', common a b)
  /\ xored (common a b) m dst a b m'.
Proof.
  intros Hw. unfold XORBytes_generic. change (N.min (sl_len a) (sl_len b)) with (common a b).
  destruct (N.eqb_spec (common a b) 0) as [E|E].
  - exists m. rewrite E. split; auto. apply xored_0. auto.
  - assert (Sd : dst = mkSlice (sl_ptr dst) (sl_len dst)) by (destruct dst; reflexivity).
    assert (Sa : a = mkSlice (sl_ptr a) (sl_len a)) by (destruct a; reflexivity).
    assert (Sb : b = mkSlice (sl_ptr b) (sl_len b)) by (destruct b; reflexivity).
    destruct supportsUnaligned.
    + destruct (fast_ok m (sl_ptr dst) (sl_ptr a) (sl_ptr b) (common a b))
        with (da_len := sl_len dst) (aa_len := sl_len a) (ba_len := sl_len b) (w := wordSize) as (m' & E1 & H1); try hyps; auto.
      rewrite <- Sd, <- Sa, <- Sb in E1. rewrite E1. exists m'. split; [reflexivity|]. apply holds_xored. exact H1.
    + destruct (safe_ok m (sl_ptr dst) (sl_ptr a) (sl_ptr b) (common a b))
        with (da_len := sl_len dst) (aa_len := sl_len a) (ba_len := sl_len b) as (m' & E1 & H1); try hyps; auto.
      rewrite <- Sd, <- Sa, <- Sb in E1. rewrite E1. exists m'. split; [reflexivity|]. apply holds_xored. exact H1.
Qed.
End Setting.

(** amd64: the assembly terminates, whatever the registers hold at the call, and touches no other memory. *)
Theorem C02_amd64 : forall r m dst a b, callable m dst a b -> common a b <= sl_len dst ->
  exists fuel m',
    (forall more, (fuel <= more)%nat -> XORBytes_amd64 more r m dst a b = Done (m', common a b))
    /\ xored (common a b) m dst a b m'.
Proof. intros r m dst a b (H1 & H2 & H3 & H4 & H5) H6. apply amd64_case; auto. Qed.
Print Assumptions C02_amd64.

Theorem C02_arm64 : forall r m dst a b, callable m dst a b -> common a b <= sl_len dst ->
  exists fuel m',
    (forall more, (fuel <= more)%nat -> XORBytes_arm64 more r m dst a b = Done (m', common a b))
    /\ xored (common a b) m dst a b m'.
Proof. intros r m dst a b (H1 & H2 & H3 & H4 & H5) H6. apply arm64_case; auto. Qed.
Print Assumptions C02_arm64.

(** Other architectures: word by word, with any word size, or byte by byte. *)
Theorem C02_generic : forall supportsUnaligned wordSize m dst a b,
  0 < wordSize -> callable m dst a b -> common a b <= sl_len dst ->
  exists m', XORBytes_generic supportsUnaligned wordSize m dst a b = Done (m', common a b)
    /\ xored (common a b) m dst a b m'.
Proof. intros u w m dst a b Hw (H1 & H2 & H3 & H4 & H5) H6. apply generic_case; auto. Qed.
Print Assumptions C02_generic.

(** A destination shorter than both sources: all versions panic. *)
Theorem C02_short : forall fuel r q m dst a b, sl_len dst < common a b ->
  XORBytes_amd64 fuel r m dst a b = Panic /\ XORBytes_arm64 fuel q m dst a b = Panic
  /\ forall supportsUnaligned wordSize, XORBytes_generic supportsUnaligned wordSize m dst a b = Panic.
Proof.
  intros fuel r q m dst a b H. unfold XORBytes_amd64, XORBytes_arm64, XORBytes_asm, XORBytes_generic.
  change (N.min (sl_len a) (sl_len b)) with (common a b). replace (common a b =? 0) with false by lia.
  replace (sl_len dst <? common a b) with true by lia. split; [reflexivity|]. split; [reflexivity|].
  intros [|] w.
  - unfold fastXORBytes. replace (sl_len dst <? common a b) with true by lia. reflexivity.
  - rewrite safe_short by exact H. reflexivity.
Qed.
Print Assumptions C02_short.

(** The memory that satisfies [xored] holds in the destination the list that the model of the DAG uses
    (DagModel.XORBytes), so that model stands for every architecture. *)
Theorem C02_as_list : forall m dst a b m', common a b <= sl_len dst -> xored (common a b) m dst a b m' ->
  DagModel.XORBytes (contents m dst) (contents m a) (contents m b) = Done (contents m' dst).
Proof.
  intros m dst a b m' Hl (H1 & H2). unfold DagModel.XORBytes. unfold contents.
  rewrite !lenN_tab. change (N.min (sl_len a) (sl_len b)) with (common a b).
  replace (sl_len dst <? common a b) with false by lia.
  destruct (for_n_inv (fun i l => l = tab (sl_len dst) (fun j =>
      if j <? i then N.lxor (at_index m a j) (at_index m b j) else at_index m dst j)) (common a b)
    (fun i l => x <- idx (tab (sl_len a) (at_index m a)) i ;; y <- idx (tab (sl_len b) (at_index m b)) i ;;
       upd l i (N.lxor x y)) (tab (sl_len dst) (at_index m dst))) as (l & E & ->).
  - apply tab_ext. intros. replace (i <? 0) with false by lia. reflexivity.
  - intros i l Hi ->. unfold common in *.
    rewrite !idx_tab by lia. cbn [bind]. rewrite upd_Done by (rewrite lenN_tab; lia).
    eexists. split; [reflexivity|]. apply (list_eq_tab _ _ 0).
    + unfold lenN. rewrite set_nth_length, tab_length. lia.
    + intros j Hj. rewrite nth_set_nth by (rewrite tab_length; lia).
      destruct (Nat.eqb_spec (N.to_nat i) (N.to_nat j)) as [Hji|Hji].
      * replace j with i by lia. replace (i <? i + 1) with true by lia. reflexivity.
      * rewrite nth_tab, N2Nat.id by lia. replace (j <? i + 1) with (j <? i) by lia. reflexivity.
  - rewrite E. f_equal. apply tab_ext. intros i Hi. unfold at_index at 4.
    destruct (N.ltb_spec i (common a b)) as [Hc|Hc].
    + rewrite H1 by exact Hc. reflexivity.
    + rewrite H2 by lia. reflexivity.
Qed.
Print Assumptions C02_as_list.

(** When the destination overlaps a source without being it, the architectures differ. *)
Definition overlapping : mem := fun x => if x <? 8 then Some (x + 1) else None.
Definition regs0 : Amd64.state := Amd64.mkS 0 0 0 0 0 0 0 [] [] false false overlapping.
Theorem C02_overlap_refuted : exists m dst a b,
  in_memory m dst /\ in_memory m a /\ in_memory m b /\ common a b <= sl_len dst
  /\ exists m1 m2 fuel, XORBytes_amd64 fuel regs0 m dst a b = Done (m1, common a b)
     /\ XORBytes_generic false 8 m dst a b = Done (m2, common a b)
     /\ contents m1 dst <> contents m2 dst.
Proof.
  exists overlapping, (mkSlice 1 2), (mkSlice 0 2), (mkSlice 4 2).
  assert (A : forall p l, p + l <= 8 -> in_memory overlapping (mkSlice p l)).
  { intros p l H. split; cbn [sl_ptr sl_len]; [|lia]. intros i Hi. exists (p + i + 1). unfold overlapping.
    replace (p + i <? 8) with true by lia. split; [reflexivity|lia]. }
  do 3 (split; [apply A; discriminate|]). split; [discriminate|].
  exists (put (put overlapping 2 4) 1 4), (put (put overlapping 1 4) 2 2), 100%nat.
  split; [vm_compute; reflexivity|]. split; [vm_compute; reflexivity|]. vm_compute. discriminate.
Qed.
Print Assumptions C02_overlap_refuted.

(** ** Instances *)
Definition sample : mem := fun x => if x <? 400 then Some (x * 7 mod 256) else None.
Lemma sample_callable l k d : l <= 100 -> k <= 100 -> d <= 100 ->
  callable sample (mkSlice 200 d) (mkSlice 0 l) (mkSlice 100 k).
Proof.
  intros. unfold callable, in_memory, same_or_apart, common. cbn [sl_ptr sl_len].
  assert (A : forall p q, p + q < 400 -> exists v, sample (p + q) = Some v /\ v < 256).
  { intros p q Hp. unfold sample. replace (p + q <? 400) with true by lia. eexists. split; [reflexivity|]. lia. }
  assert (B : 200 + d < 2 ^ 64) by lia. assert (C : 0 + l < 2 ^ 64) by lia. assert (D : 100 + k < 2 ^ 64) by lia.
  assert (E : d < 2 ^ 63) by lia. assert (F : l < 2 ^ 63) by lia. assert (G : k < 2 ^ 63) by lia.
  repeat match goal with |- _ /\ _ => split end; try assumption; try (intros; apply A; lia); lia.
Qed.
(** In place: the destination is the first source. *)
Lemma in_place_callable l k : l <= 100 -> k <= 100 -> callable sample (mkSlice 0 l) (mkSlice 0 l) (mkSlice 100 k).
Proof.
  intros H1 H2. destruct (sample_callable l k 0 H1 H2 ltac:(lia)) as (_ & Ha & Hb & _).
  unfold callable. split; [exact Ha|]. split; [exact Ha|]. split; [exact Hb|].
  unfold same_or_apart, common. cbn [sl_ptr sl_len]. lia.
Qed.
Example C02_amd64_instance : exists fuel m',
  (forall more, (fuel <= more)%nat -> XORBytes_amd64 more regs0 sample (mkSlice 200 99) (mkSlice 0 77) (mkSlice 100 90) = Done (m', 77))
  /\ xored 77 sample (mkSlice 200 99) (mkSlice 0 77) (mkSlice 100 90) m'.
Proof. apply C02_amd64; [apply sample_callable; discriminate|discriminate]. Qed.
Definition aregs0 : Arm64.state := Arm64.mkS 0 (fun _ => 0) (fun _ => []) false overlapping.
Example C02_arm64_instance : exists fuel m',
  (forall more, (fuel <= more)%nat -> XORBytes_arm64 more aregs0 sample (mkSlice 200 99) (mkSlice 0 95) (mkSlice 100 96) = Done (m', 95))
  /\ xored 95 sample (mkSlice 200 99) (mkSlice 0 95) (mkSlice 100 96) m'.
Proof. apply C02_arm64; [apply sample_callable; discriminate|discriminate]. Qed.
Example C02_generic_instance :
  (exists m', XORBytes_generic true 8 sample (mkSlice 0 77) (mkSlice 0 77) (mkSlice 100 90) = Done (m', 77)
    /\ xored 77 sample (mkSlice 0 77) (mkSlice 0 77) (mkSlice 100 90) m')
  /\ XORBytes_generic false 8 sample (mkSlice 200 5) (mkSlice 0 7) (mkSlice 100 90) = Panic.
Proof.
  split; [apply C02_generic; [lia|apply in_place_callable; discriminate|discriminate]|].
  apply (C02_short 0 regs0 aregs0). reflexivity.
Qed.
