(** Proofs about the program cmd/gen-lookup. *)
From Coq Require Import NArith ZArith Arith List Bool Lia ZifyBool ZifyN ZifyNat String.
From Verif Require Import Base BaseFacts CryptoModel CryptoProofs DagModel DagSpec DagGen FileModel NameModel NameProofs GenModel GenSpec.
Import ListNotations.
Open Scope N_scope.
Ltac Zify.zify_post_hook ::= Z.div_mod_to_equations.

(** ** The text of a table *)
Lemma take5 (l : list N) n : (n + 5 <= List.length l)%nat ->
  firstn 5 (skipn n l) = [nth n l 0; nth (n + 1) l 0; nth (n + 2) l 0; nth (n + 3) l 0; nth (n + 4) l 0].
Proof.
  intros L. assert (LL : (5 <= List.length (skipn n l))%nat) by (rewrite skipn_length; lia).
  assert (E : forall k, nth k (skipn n l) 0 = nth (n + k) l 0) by (intros; apply nth_skipn).
  rewrite <- !E. replace (nth n l 0) with (nth 0 (skipn n l) 0) by (rewrite E; f_equal; lia).
  destruct (skipn n l) as [|a [|b [|c [|d [|e r]]]]]; cbn [List.length] in LL; try lia. reflexivity.
Qed.

Lemma format_literal l : formatLookupTable l 5 = Done (literal l).
Proof.
  unfold formatLookupTable, divc. change (5 =? 0) with false. cbv iota. cbn [bind].
  pose proof (N.mul_div_le (lenN l) 5 ltac:(lia)) as HB.
  assert (HR : N.to_nat (lenN l / 5) = (List.length l / 5)%nat).
  { unfold lenN. lia. }
  remember (lenN l / 5) as rows.
  match goal with |- context [for_n rows ?b []] =>
    destruct (for_n_inv (fun i t => t = flat_map (fun i => [9] ++ commas (firstn 5 (skipn (5 * i) l)) ++ [10]) (seq 0 (N.to_nat i)))
      rows b []) as (t & E & HT) end.
  - reflexivity.
  - intros i t Hi ->. cbv beta. unfold for_n. change (N.to_nat 5) with 5%nat. cbn [for_up].
    assert (IX : forall j, j < 5 -> (lenN l <=? i * 5 + j) = false /\ idx l (i * 5 + j) = Done (nth (5 * N.to_nat i + N.to_nat j) l 0)).
    { intros j Hj. split; [lia|]. rewrite (idx_Done _ _ 0) by lia. do 2 f_equal. lia. }
    destruct (IX 0 ltac:(lia)) as (-> & ->). cbn [bind].
    destruct (IX (0 + 1) ltac:(lia)) as (-> & ->). cbn [bind].
    destruct (IX (0 + 1 + 1) ltac:(lia)) as (-> & ->). cbn [bind].
    destruct (IX (0 + 1 + 1 + 1) ltac:(lia)) as (-> & ->). cbn [bind].
    destruct (IX (0 + 1 + 1 + 1 + 1) ltac:(lia)) as (-> & ->). cbn [bind].
    eexists. split; [reflexivity|].
    replace (N.to_nat (i + 1)) with (N.to_nat i + 1)%nat by lia.
    rewrite seq_app, flat_map_app. f_equal. cbn [seq flat_map Nat.add]. rewrite app_nil_r.
    rewrite take5 by (unfold lenN in *; lia). cbn [commas].
    change (0 <? 5 - 1) with true. change (0 + 1 <? 5 - 1) with true. change (0 + 1 + 1 <? 5 - 1) with true.
    change (0 + 1 + 1 + 1 <? 5 - 1) with true. change (0 + 1 + 1 + 1 + 1 <? 5 - 1) with false. cbv iota.
    change (N.to_nat 0) with 0%nat. change (N.to_nat (0 + 1)) with 1%nat. change (N.to_nat (0 + 1 + 1)) with 2%nat.
    change (N.to_nat (0 + 1 + 1 + 1)) with 3%nat. change (N.to_nat (0 + 1 + 1 + 1 + 1)) with 4%nat.
    rewrite Nat.add_0_r. repeat (progress (cbn [app]; rewrite <- ?app_assoc)). reflexivity.
  - rewrite E. cbn [bind]. rewrite HT, HR. unfold literal. reflexivity.
Qed.

Lemma literal_firstn l : literal (firstn (5 * (List.length l / 5)) l) = literal l.
Proof.
  unfold literal. do 3 f_equal.
  assert (B : (5 * (List.length l / 5) <= List.length l)%nat) by lia.
  rewrite firstn_length_le by auto.
  replace (5 * (List.length l / 5) / 5)%nat with (List.length l / 5)%nat by lia.
  rewrite !flat_map_concat_map. f_equal.
  apply map_ext_in. intros i Hi. apply in_seq in Hi. do 3 f_equal.
  rewrite skipn_firstn_comm, firstn_firstn. f_equal. lia.
Qed.

(** ** The command line *)
Section Flags.
Variable parse_int : list N -> option Z.
Variable parse_uint : list N -> option N.

(** [v] is a way to write the value of [o]. *)
Definition value_of (o : option_) (v : list N) : Prop :=
  match o with
  | Package p => v = p
  | Epochs z => parse_int v = Some z
  | MixBytes n | CacheInit n | CacheGrowth n | DatasetInit n | DatasetGrowth n => parse_uint v = Some n
  end.

Lemma set_flag_option f o v : value_of o v -> set_flag parse_int parse_uint f (option_name o) v = Set_ (apply_option f o).
Proof.
  intros V. destruct f, o; cbn in V; subst; unfold set_flag, option_name, uint_value, apply_option;
    repeat match goal with |- context [name_dec ?a ?b] => 
      let c := eval vm_compute in (if name_dec a b then true else false) in
      match c with true => destruct (name_dec a b) as [_|Q]; [|exfalso; apply Q; reflexivity]
                 | false => destruct (name_dec a b) as [Q|_]; [vm_compute in Q; discriminate Q|] end end;
    try rewrite V; reflexivity.
Qed.

Definition plain_text (l : list N) : Prop := Forall (fun c => c <> 61) l.
Lemma cut_none s acc : plain_text s -> cut_equals s acc = (rev acc ++ s, None).
Proof.
  revert acc. induction s as [|c s IH]; intros acc P; cbn [cut_equals]; [rewrite app_nil_r; reflexivity|].
  inversion P; subst. destruct (N.eqb_spec c 61); [contradiction|]. rewrite IH by auto. cbn [rev]. rewrite <- app_assoc. reflexivity.
Qed.
Lemma cut_some s v acc : plain_text s -> cut_equals (s ++ 61 :: v) acc = (rev acc ++ s, Some v).
Proof.
  revert acc. induction s as [|c s IH]; intros acc P; cbn [cut_equals app]; [rewrite app_nil_r; reflexivity|].
  inversion P; subst. destruct (N.eqb_spec c 61); [contradiction|]. rewrite IH by auto. cbn [rev]. rewrite <- app_assoc. reflexivity.
Qed.

Lemma option_name_shape o : exists c s, option_name o = c :: s /\ c <> 45 /\ c <> 61 /\ plain_text s.
Proof.
  destruct o; (eexists; eexists; split; [vm_compute; reflexivity|]; split; [discriminate|]; split; [discriminate|]);
    unfold plain_text; repeat constructor; discriminate.
Qed.

Lemma flag_text_plain o : flag_text (option_name o) = Flag (option_name o) None.
Proof.
  destruct (option_name_shape o) as (c & s & -> & A & B & P). cbn [flag_text].
  destruct (N.eqb_spec c 45); [contradiction|]. destruct (N.eqb_spec c 61); [contradiction|]. cbn [orb].
  rewrite cut_none by auto. reflexivity.
Qed.
Lemma flag_text_equals o v : flag_text (option_name o ++ txt "=" ++ v) = Flag (option_name o) (Some v).
Proof.
  destruct (option_name_shape o) as (c & s & -> & A & B & P). cbn [flag_text app].
  destruct (N.eqb_spec c 45); [contradiction|]. destruct (N.eqb_spec c 61); [contradiction|]. cbn [orb].
  change (txt "=" ++ v) with (61 :: v). rewrite cut_some by auto. reflexivity.
Qed.
Lemma one_dash o t : argument_of (txt "-" ++ option_name o ++ t) = flag_text (option_name o ++ t).
Proof.
  destruct (option_name_shape o) as (c & s & -> & A & B & P). change (txt "-") with [45]. cbn [app argument_of N.eqb negb].
  change (45 =? 45) with true. cbn [negb]. destruct (N.eqb_spec c 45); [contradiction|]. reflexivity.
Qed.
Lemma two_dashes o t : argument_of (txt "--" ++ option_name o ++ t) = flag_text (option_name o ++ t).
Proof.
  destruct (option_name_shape o) as (c & s & -> & A & B & P). change (txt "--") with [45; 45]. cbn [app argument_of].
  change (45 =? 45) with true. cbn [negb]. reflexivity.
Qed.

Lemma parse_option f o v s rest : value_of o v ->
  parse_args parse_int parse_uint (write_option s (option_name o) v ++ rest) f =
  parse_args parse_int parse_uint rest (apply_option f o).
Proof.
  intros V. pose proof (set_flag_option f o v V) as SF.
  pose proof (flag_text_plain o) as P1. pose proof (flag_text_equals o v) as P2.
  pose proof (one_dash o []) as D1. pose proof (two_dashes o []) as D2. rewrite !app_nil_r in D1, D2.
  pose proof (one_dash o (txt "=" ++ v)) as D3. pose proof (two_dashes o (txt "=" ++ v)) as D4.
  destruct s; cbn [write_option app parse_args].
  - rewrite D1, P1, SF. reflexivity.
  - rewrite D2, P1, SF. reflexivity.
  - rewrite D3, P2, SF. reflexivity.
  - rewrite D4, P2, SF. reflexivity.
Qed.

Lemma parse_options l f : Forall (fun '(o, v, _) => value_of o v) l ->
  parse_args parse_int parse_uint (flat_map (fun '(o, v, s) => write_option s (option_name o) v) l) f =
  Parsed (fold_left apply_option (map (fun '(o, _, _) => o) l) f).
Proof.
  revert f. induction l as [|[[o v] s] l IH]; intros f V; [reflexivity|]. inversion V; subst.
  cbn [flat_map map fold_left]. rewrite parse_option by auto. apply IH. auto.
Qed.

(** Nothing else is taken. *)
Definition no_flag (args : list (list N)) : Prop :=
  match args with [] => True | a :: _ => (List.length a < 2)%nat \/ hd 0 a <> 45 \/ a = txt "--" end.

Lemma cut_inv s : forall acc nm v, cut_equals s acc = (nm, v) ->
  match v with Some v => exists t, nm = rev acc ++ t /\ s = t ++ 61 :: v | None => nm = rev acc ++ s end.
Proof.
  induction s as [|c s IH]; intros acc nm v E; cbn [cut_equals] in E.
  - injection E as <- <-. rewrite app_nil_r. reflexivity.
  - destruct (N.eqb_spec c 61) as [->|NC].
    + injection E as <- <-. exists []. split; [rewrite app_nil_r; reflexivity|reflexivity].
    + apply IH in E. destruct v as [v|].
      * destruct E as (t & -> & ->). exists (c :: t). cbn [rev]. rewrite <- app_assoc. split; reflexivity.
      * rewrite E. cbn [rev]. rewrite <- app_assoc. reflexivity.
Qed.
Lemma flag_text_inv s nm v : flag_text s = Flag nm v ->
  s = match v with Some v => nm ++ txt "=" ++ v | None => nm end.
Proof.
  unfold flag_text. destruct s as [|c s]; [discriminate|]. destruct ((c =? 45) || (c =? 61)); [discriminate|].
  destruct (cut_equals s [c]) as (nm', v') eqn:E. intros Q. injection Q as <- <-. apply cut_inv in E. destruct v' as [v'|].
  - destruct E as (t & -> & ->). cbn. rewrite <- ?app_assoc. reflexivity.
  - rewrite E. reflexivity.
Qed.
Lemma argument_inv a nm v : argument_of a = Flag nm v ->
  let t := match v with Some v => nm ++ txt "=" ++ v | None => nm end in
  a = txt "-" ++ t \/ a = txt "--" ++ t.
Proof.
  unfold argument_of. destruct a as [|c [|c' rest]]; try discriminate. destruct (N.eqb_spec c 45) as [->|]; [|discriminate].
  cbn [negb]. destruct (N.eqb_spec c' 45) as [->|].
  - destruct rest as [|x rest]; [discriminate|]. intros E. apply flag_text_inv in E. right. cbn [app txt]. rewrite E. reflexivity.
  - intros E. apply flag_text_inv in E. left. cbn [app txt]. rewrite E. reflexivity.
Qed.
Lemma flag_text_flag s : s <> [] -> flag_text s <> Plain.
Proof.
  intros NE. unfold flag_text. destruct s as [|c s]; [congruence|]. destruct ((c =? 45) || (c =? 61)); [discriminate|].
  destruct (cut_equals s [c]); discriminate.
Qed.
Lemma argument_plain a rest : argument_of a = Plain <-> no_flag (a :: rest).
Proof.
  unfold argument_of, no_flag. destruct a as [|c [|c' r]].
  - split; [left; cbn; lia|reflexivity].
  - split; [left; cbn; lia|reflexivity].
  - cbn [hd List.length]. destruct (N.eqb_spec c 45) as [->|NC]; cbn [negb].
    2:{ split; [right; left; exact NC|reflexivity]. }
    destruct (N.eqb_spec c' 45) as [->|NC'].
    + destruct r as [|x r].
      * split; [right; right; reflexivity|reflexivity].
      * split; [intros E; destruct (flag_text_flag (x :: r)); [discriminate|exact E]|].
        intros [Q|[Q|Q]]; [lia|congruence|discriminate].
    + split; [intros E; destruct (flag_text_flag (c' :: r)); [discriminate|exact E]|].
      intros [Q|[Q|Q]]; [lia|congruence|]. change (txt "--") with [45; 45] in Q. congruence.
Qed.
Lemma set_flag_inv f nm v f' : set_flag parse_int parse_uint f nm v = Set_ f' ->
  exists o, nm = option_name o /\ value_of o v /\ f' = apply_option f o.
Proof.
  unfold set_flag, uint_value. destruct f as [p e m ci cg di dg].
  destruct (name_dec nm (txt "package")) as [->|_].
  { intros E. injection E as <-. exists (Package v). repeat split. }
  destruct (name_dec nm (txt "epochs")) as [->|_].
  { destruct (parse_int v) as [z|] eqn:Z; [|discriminate]. intros E. injection E as <-. exists (Epochs z). repeat split. exact Z. }
  destruct (name_dec nm (txt "mixBytes")) as [->|_].
  { destruct (parse_uint v) as [z|] eqn:Z; [|discriminate]. intros E. injection E as <-. exists (MixBytes z). repeat split. exact Z. }
  destruct (name_dec nm (txt "cacheInit")) as [->|_].
  { destruct (parse_uint v) as [z|] eqn:Z; [|discriminate]. intros E. injection E as <-. exists (CacheInit z). repeat split. exact Z. }
  destruct (name_dec nm (txt "cacheGrowth")) as [->|_].
  { destruct (parse_uint v) as [z|] eqn:Z; [|discriminate]. intros E. injection E as <-. exists (CacheGrowth z). repeat split. exact Z. }
  destruct (name_dec nm (txt "datasetInit")) as [->|_].
  { destruct (parse_uint v) as [z|] eqn:Z; [|discriminate]. intros E. injection E as <-. exists (DatasetInit z). repeat split. exact Z. }
  destruct (name_dec nm (txt "datasetGrowth")) as [->|_].
  { destruct (parse_uint v) as [z|] eqn:Z; [|discriminate]. intros E. injection E as <-. exists (DatasetGrowth z). repeat split. exact Z. }
  discriminate.
Qed.

Lemma parse_inv n : forall args f g, (List.length args < n)%nat -> parse_args parse_int parse_uint args f = Parsed g ->
  exists l tail, args = flat_map (fun '(o, v, s) => write_option s (option_name o) v) l ++ tail /\
    Forall (fun '(o, v, _) => value_of o v) l /\ no_flag tail /\ g = fold_left apply_option (map (fun '(o, _, _) => o) l) f.
Proof.
  induction n as [|n IH]; intros args f g LE E; [lia|].
  destruct args as [|a rest].
  { injection E as <-. exists [], []. split; [reflexivity|]. split; [constructor|]. split; [exact I|reflexivity]. }
  cbn [parse_args] in E. cbn [List.length] in LE.
  destruct (argument_of a) as [| |nm v] eqn:AR; [|discriminate|].
  { injection E as <-. exists [], (a :: rest). split; [reflexivity|]. split; [constructor|].
    split; [apply argument_plain; exact AR|reflexivity]. }
  assert (U : forall nm g, unknown nm <> Parsed g).
  { intros x y. unfold unknown. destruct (name_dec x (txt "help")); [discriminate|]. destruct (name_dec x (txt "h")); discriminate. }
  apply argument_inv in AR. destruct v as [v|].
  - destruct (set_flag parse_int parse_uint f nm v) as [| |f'] eqn:SF; [destruct (U _ _ E)|discriminate|].
    apply set_flag_inv in SF. destruct SF as (o & -> & V & ->).
    destruct (IH rest _ g ltac:(lia) E) as (l & tail & -> & F & NF & ->).
    destruct AR as [-> | ->];
      [exists ((o, v, OneDashEquals) :: l), tail|exists ((o, v, TwoDashesEquals) :: l), tail];
      (split; [reflexivity|]; split; [constructor; auto|]; split; [exact NF|reflexivity]).
  - destruct rest as [|v rest].
    { destruct (set_flag parse_int parse_uint f nm []); try discriminate. destruct (U _ _ E). }
    destruct (set_flag parse_int parse_uint f nm v) as [| |f'] eqn:SF; [destruct (U _ _ E)|discriminate|].
    apply set_flag_inv in SF. destruct SF as (o & -> & V & ->). cbn [List.length] in LE.
    destruct (IH rest _ g ltac:(lia) E) as (l & tail & -> & F & NF & ->).
    destruct AR as [-> | ->];
      [exists ((o, v, OneDash) :: l), tail|exists ((o, v, TwoDashes) :: l), tail];
      (split; [reflexivity|]; split; [constructor; auto|]; split; [exact NF|reflexivity]).
Qed.
Lemma parse_all l tail f : Forall (fun '(o, v, _) => value_of o v) l -> no_flag tail ->
  parse_args parse_int parse_uint (flat_map (fun '(o, v, s) => write_option s (option_name o) v) l ++ tail) f =
  Parsed (fold_left apply_option (map (fun '(o, _, _) => o) l) f).
Proof.
  revert f. induction l as [|[[o v] s] l IH]; intros f V NF.
  - cbn [flat_map app map fold_left]. destruct tail as [|a rest]; [reflexivity|]. apply argument_plain in NF.
    cbn [parse_args]. rewrite NF. reflexivity.
  - inversion V; subst. cbn [flat_map map fold_left]. rewrite <- app_assoc, parse_option by auto. apply IH; auto.
Qed.
End Flags.
