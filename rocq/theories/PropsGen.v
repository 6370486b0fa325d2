(** C73: the program cmd/gen-lookup, from its command line to the file it writes. *)
From Coq Require Import NArith ZArith Arith List Bool Lia ZifyBool ZifyN ZifyNat Znumtheory String.
From Verif Require Import Base BaseFacts CryptoModel DagModel DagSpec DagSize DagGen LookupTables TabEthashCache TabEthashDataset TabFiro TabOctopus
  FileModel NameModel NameProofs PropsDagSize PropsDir GenModel GenSpec GenProofs.
Import ListNotations.
Open Scope N_scope.
Ltac Zify.zify_post_hook ::= Z.div_mod_to_equations.

(** ** Numbers *)

(** A number is written with decimal digits, without leading zeros, and reads back. *)
Theorem C73_numbers v :
  Forall (fun c => 48 <= c <= 57) (decimal v) /\
  fold_left (fun x c => 10 * x + (c - 48)) (decimal v) 0 = v /\
  (nth 0 (decimal v) 0 = 48 -> decimal v = [48]).
Proof.
  unfold decimal.
  assert (G : forall f n acc, (0 < f)%nat -> n < 2 ^ N.of_nat f -> Forall (fun c => 48 <= c <= 57) acc ->
    Forall (fun c => 48 <= c <= 57) (dec_digits f n acc) /\
    (forall a, fold_left (fun x c => 10 * x + (c - 48)) (dec_digits f n acc) a =
       fold_left (fun x c => 10 * x + (c - 48)) acc (a * 10 ^ (lenN (dec_digits f n acc) - lenN acc) + n)) /\
    lenN acc < lenN (dec_digits f n acc) /\
    (nth 0 (dec_digits f n acc) 0 = 48 -> n = 0 /\ dec_digits f n acc = 48 :: acc)).
  { induction f as [|f IH]; intros n acc F H A; [lia|]. cbn [dec_digits].
    assert (M : n mod 10 < 10) by (apply N.mod_lt; lia).
    assert (D : n = 10 * (n / 10) + n mod 10) by (apply N.div_mod; lia).
    set (r := n mod 10) in *. set (q := n / 10) in *.
    destruct (N.eqb_spec q 0) as [Z|Z].
    - split; [constructor; auto; lia|]. split; [|split].
      + intros a. cbn [fold_left]. f_equal. replace (lenN (48 + r :: acc) - lenN acc) with 1 by (unfold lenN; cbn [List.length]; lia).
        rewrite N.pow_1_r. lia.
      + unfold lenN; cbn [List.length]; lia.
      + cbn [nth]. intros E. assert (r = 0) by lia. split; [lia|]. f_equal. lia.
    - destruct f as [|f]. { exfalso. change (2 ^ N.of_nat 1) with 2 in H. lia. }
      destruct (IH q (48 + r :: acc)) as (I1 & I2 & I3 & I4); [lia| |constructor; auto; lia|].
      { replace (N.of_nat (S (S f))) with (N.of_nat (S f) + 1) in H by lia.
        rewrite N.pow_add_r in H. change (2 ^ 1) with 2 in H. lia. }
      set (t := dec_digits (S f) q (48 + r :: acc)) in *.
      assert (LA : lenN (48 + r :: acc) = lenN acc + 1) by (unfold lenN; cbn [List.length]; lia).
      split; [exact I1|]. split; [|split; [lia|]].
      + intros a. rewrite I2. cbn [fold_left]. f_equal. rewrite LA.
        replace (lenN t - lenN acc) with (lenN t - (lenN acc + 1) + 1) by lia. rewrite N.pow_add_r, N.pow_1_r. nia.
      + intros E. destruct (I4 E). contradiction. }
  destruct (G (S (N.to_nat (N.size v))) v []) as (A & B & _ & D); [lia| |constructor|].
  { pose proof (N.size_gt v). eapply N.lt_le_trans; [eassumption|]. apply N.pow_le_mono_r; lia. }
  split; [exact A|]. split; [apply (B 0)|]. intros E. apply D in E. tauto.
Qed.
Print Assumptions C73_numbers.

(** ** Any command line *)
Section C73.
Variable parse_int : list N -> option Z.
Variable parse_uint : list N -> option N.

(** However the flags are written and in whatever order, each gets the last value given for it. *)
Theorem C73_flags l : Forall (fun '(o, v, _) => value_of parse_int parse_uint o v) l ->
  parse_args parse_int parse_uint (flat_map (fun '(o, v, s) => write_option s (option_name o) v) l) default_flags =
  Parsed (fold_left apply_option (map (fun '(o, _, _) => o) l) default_flags).
Proof. apply parse_options. Qed.

(** And nothing else is taken: a command line is read as flags exactly if it consists of flags with proper values,
    written in the four ways, up to its end or to the first argument that is no flag, which are "--", arguments
    without dash and arguments shorter than two bytes.  All others (an unknown flag, a bad number, a missing value, a
    malformed flag) end the program without a file. *)
Theorem C73_command_lines args f :
  parse_args parse_int parse_uint args default_flags = Parsed f <->
  exists l tail, args = flat_map (fun '(o, v, s) => write_option s (option_name o) v) l ++ tail /\
    Forall (fun '(o, v, _) => value_of parse_int parse_uint o v) l /\
    match tail with [] => True | a :: _ => (List.length a < 2)%nat \/ hd 0 a <> 45 \/ a = txt "--" end /\
    f = fold_left apply_option (map (fun '(o, _, _) => o) l) default_flags.
Proof.
  split.
  - intros E. exact (parse_inv parse_int parse_uint (S (List.length args)) args default_flags f (Nat.lt_succ_diag_r _) E).
  - intros (l & tail & -> & V & NF & ->). apply parse_all; auto.
Qed.
Theorem C73_bad_command_line pp fuel cwd args :
  (forall f, parse_args parse_int parse_uint args default_flags <> Parsed f) ->
  exists status, gen_main parse_int parse_uint pp fuel cwd args = Exits status.
Proof.
  intros NP. unfold gen_main. destruct (parse_args parse_int parse_uint args default_flags) as [f|st]; [destruct (NP f); reflexivity|].
  eexists. reflexivity.
Qed.

(** Sizes for which the search of C11 is defined. *)
Definition proper (unit init growth epochs : N) (fuel : nat) : Prop :=
  (exists a b, init = 2 * a * unit /\ growth = 2 * b * unit) /\ 4 * unit <= init /\
  init + growth * epochs < 2 ^ 64 /\ (N.to_nat ((init + growth * epochs) / unit) <= fuel)%nat.
(** The table of the first [epochs] sizes. *)
Definition size_table (unit init growth epochs : N) (t : list N) : Prop :=
  lenN t = epochs /\ forall e, e < epochs -> prime_size (init + growth * e) unit (nth (N.to_nat e) t 0).

Lemma cache_table pp fuel init growth epochs : primality_test pp -> proper 64 init growth epochs fuel ->
  exists t, genCacheLookupTable pp fuel init growth epochs = Done t /\ size_table 64 init growth epochs t.
Proof.
  intros PP ((a & b & EA & EB) & L & U & F). set (d := gen_config 0 init growth 0 0).
  assert (C : forall e, e < epochs -> exists s, CacheSize pp fuel d e = Done s /\ prime_size (init + growth * e) 64 s).
  { intros e He. apply (C11_cache_size_search pp fuel d e a b PP EA EB);
      change (cf_cache_init d) with init; change (cf_cache_growth d) with growth.
    - split; [nia|]. eapply N.le_lt_trans; [|exact U]. nia.
    - etransitivity; [|exact F].
      assert ((init + growth * e) / 64 <= (init + growth * epochs) / 64); [apply N.div_le_mono; nia|]. lia. }
  set (g := fun e => match CacheSize pp fuel d e with Done s => s | _ => 0 end).
  exists (tab epochs g). split; [|split; [apply lenN_tab|]].
  - unfold genCacheLookupTable. apply (gen_fill (fun i => CacheSize pp fuel d i)).
    intros e He. destruct (C e He) as (s & E & _). unfold g. rewrite E. auto.
  - intros e He. rewrite nth_tab, N2Nat.id by lia. unfold g. destruct (C e He) as (s & -> & S). exact S.
Qed.

Lemma dataset_table pp fuel mix init growth epochs : primality_test pp -> 0 < mix -> proper mix init growth epochs fuel ->
  exists t, genDatasetLookupTable pp fuel mix init growth epochs = Done t /\ size_table mix init growth epochs t.
Proof.
  intros PP HM ((a & b & EA & EB) & L & U & F). set (d := gen_config mix 0 0 init growth).
  assert (C : forall e, e < epochs -> exists s, DatasetSize pp fuel d e = Done s /\ prime_size (init + growth * e) mix s).
  { intros e He. apply (C11_dataset_size_search pp fuel d e a b PP HM EA EB);
      change (cf_dataset_init d) with init; change (cf_dataset_growth d) with growth; change (cf_mix_bytes d) with mix.
    - split; [nia|]. eapply N.le_lt_trans; [|exact U]. nia.
    - etransitivity; [|exact F].
      assert ((init + growth * e) / mix <= (init + growth * epochs) / mix); [apply N.div_le_mono; nia|]. lia. }
  set (g := fun e => match DatasetSize pp fuel d e with Done s => s | _ => 0 end).
  exists (tab epochs g). split; [|split; [apply lenN_tab|]].
  - unfold genDatasetLookupTable. apply (gen_fill (fun i => DatasetSize pp fuel d i)).
    intros e He. destruct (C e He) as (s & E & _). unfold g. rewrite E. auto.
  - intros e He. rewrite nth_tab, N2Nat.id by lia. unfold g. destruct (C e He) as (s & -> & S). exact S.
Qed.

(** With a package, a number of epochs that is not negative and proper sizes, the program writes the file of
    that package with the right sizes for the first epochs, up to the last multiple of five. *)
Theorem C73_right_file pp fuel dir args f :
  primality_test pp -> parse_args parse_int parse_uint args default_flags = Parsed f ->
  fl_package f <> [] -> (0 <= fl_epochs f)%Z -> 0 < fl_mix f ->
  let epochs := Z.to_N (fl_epochs f) in
  proper 64 (fl_cache_init f) (fl_cache_growth f) epochs fuel ->
  proper (fl_mix f) (fl_dataset_init f) (fl_dataset_growth f) epochs fuel ->
  exists c d, size_table 64 (fl_cache_init f) (fl_cache_growth f) (5 * (epochs / 5)) c /\
    size_table (fl_mix f) (fl_dataset_init f) (fl_dataset_growth f) (5 * (epochs / 5)) d /\
    gen_main parse_int parse_uint pp fuel (Some dir) args =
      Writes (Join dir (fl_package f ++ txt "_lookup.go")) (go_file (fl_package f) c d).
Proof.
  intros PP PA NE EP HM epochs P1 P2.
  destruct (cache_table pp fuel _ _ _ PP P1) as (c & E1 & L1 & T1).
  destruct (dataset_table pp fuel _ _ _ _ PP HM P2) as (d & E2 & L2 & T2).
  assert (CUT : forall unit init growth t, lenN t = epochs -> (forall e, e < epochs -> prime_size (init + growth * e) unit (nth (N.to_nat e) t 0)) ->
    size_table unit init growth (5 * (epochs / 5)) (firstn (5 * (List.length t / 5)) t)).
  { intros unit init growth t L T. unfold lenN in L. split.
    - unfold lenN. rewrite firstn_length_le by lia. lia.
    - intros e He. rewrite nth_firstn by lia. apply T. lia. }
  exists (firstn (5 * (List.length c / 5)) c), (firstn (5 * (List.length d / 5)) d).
  split; [apply CUT; auto|]. split; [apply CUT; auto|].
  unfold gen_main. rewrite PA. destruct (fl_package f) as [|p0 p] eqn:EPK; [contradiction|].
  destruct (Z.ltb_spec (fl_epochs f) 0); [lia|]. fold epochs. rewrite E1. cbn [bind]. rewrite E2. cbn [bind].
  rewrite !format_literal. cbn [bind]. unfold go_file. rewrite !literal_firstn. reflexivity.
Qed.

(** It writes nothing without a package, with a malformed flag or number, when make or a division panics, or
    when there is no working directory; a file that is written is the one for the flags. *)
Theorem C73_else_nothing pp fuel cwd args path content :
  gen_main parse_int parse_uint pp fuel cwd args = Writes path content ->
  exists f dir c d, parse_args parse_int parse_uint args default_flags = Parsed f /\ cwd = Some dir /\
    fl_package f <> [] /\ (0 <= fl_epochs f)%Z /\ (fl_epochs f = 0%Z \/ 0 < fl_mix f) /\
    List.length c = Z.to_nat (fl_epochs f) /\ List.length d = Z.to_nat (fl_epochs f) /\
    path = Join dir (fl_package f ++ txt "_lookup.go") /\ content = go_file (fl_package f) c d.
Proof.
  unfold gen_main. intros H.
  destruct (parse_args parse_int parse_uint args default_flags) as [f|st] eqn:PA; [|discriminate].
  destruct (fl_package f) as [|p0 p] eqn:EPK; [discriminate|].
  destruct (Z.ltb_spec (fl_epochs f) 0) as [|EP]; [discriminate|].
  destruct (genCacheLookupTable _ _ _ _ _) as [c| |] eqn:E1; cbn [bind] in H; try discriminate.
  destruct (genDatasetLookupTable _ _ _ _ _ _) as [d| |] eqn:E2; cbn [bind] in H; try discriminate.
  rewrite !format_literal in H. cbn [bind] in H. destruct cwd as [dir|]; [|discriminate]. injection H as <- <-.
  assert (LEN : forall (g : N -> outcome N) n t, for_n n (fun i t => s <- g i ;; upd t i s) (zeros n) = Done t -> lenN t = n).
  { intros g n t E. unfold for_n in E.
    assert (G : forall k i u t, for_up k i (fun i t => s <- g i ;; upd t i s) u = Done t -> lenN t = lenN u).
    { induction k as [|k IH]; intros i u t0 E0; cbn [for_up] in E0; [congruence|].
      destruct (g i) as [s| |]; cbn [bind] in E0; try discriminate.
      destruct (upd u i s) as [u'| |] eqn:EU; cbn [bind] in E0; try discriminate.
      apply IH in E0. rewrite E0. unfold upd in EU. destruct (i <? lenN u); [|discriminate]. injection EU as <-.
      unfold lenN. rewrite set_nth_length. auto. }
    apply G in E. rewrite E. apply lenN_zeros. }
  exists f, dir, c, d. unfold genCacheLookupTable in E1. unfold genDatasetLookupTable in E2.
  assert (L1 := LEN _ _ _ E1). assert (L2 := LEN _ _ _ E2). unfold lenN in L1, L2.
  split; [reflexivity|]. split; [reflexivity|]. rewrite EPK. split; [discriminate|]. split; [auto|].
  split; [|split; [lia|split; [lia|auto]]].
  destruct (Z.eq_dec (fl_epochs f) 0) as [|NZ]; [auto|]. right.
  destruct (N.eq_dec (fl_mix f) 0) as [Z|]; [|lia]. exfalso.
  unfold for_n in E2. destruct (N.to_nat (Z.to_N (fl_epochs f))) as [|k] eqn:EK; [lia|]. cbn [for_up] in E2.
  unfold DatasetSize in E2. cbn [cf_dataset_sizes gen_config] in E2. unfold calcDatasetSize in E2.
  cbn [cf_mix_bytes gen_config] in E2. rewrite Z in E2. destruct fuel; cbn [size_loop] in E2; discriminate.
Qed.

(** The name decides where it goes: below the working directory only if it has no slash. *)
Theorem C73_path up nm package : plain nm -> ~ In 47 package -> 
  Join (Join up nm) (package ++ txt "_lookup.go") = Join up nm ++ [47] ++ package ++ txt "_lookup.go".
Proof.
  intros P NS.
  assert (P' : plain (package ++ txt "_lookup.go")).
  { split; [|split; [|split]].
    - unfold no_slash. intros I. apply in_app_or in I. destruct I as [I|I]; [auto|vm_compute in I; intuition discriminate].
    - intros E. apply app_eq_nil in E. destruct E; discriminate.
    - intros E. apply (f_equal (@List.length N)) in E. rewrite app_length in E. cbn in E. lia.
    - intros E. apply (f_equal (@List.length N)) in E. rewrite app_length in E. cbn in E. lia. }
  rewrite (Join_plain (Join up nm)), prefix_join by auto. rewrite <- app_assoc. reflexivity.
Qed.
Theorem C73_path_refuted : exists dir package, package <> [] /\ dir = txt "/repo/ethash" /\
  Join dir (package ++ txt "_lookup.go") = txt "/repo/x_lookup.go".
Proof. exists (txt "/repo/ethash"), (txt "../x"). split; [discriminate|]. split; reflexivity. Qed.

(** ** go generate *)

(** What strconv makes of the numbers in the four comments. *)
Hypothesis numbers : forall n, n < 2 ^ 64 -> parse_uint (decimal n) = Some n.

Lemma same_prefix unit init growth n (t t' : list N) :
  size_table unit init growth n t -> lenN t' = n ->
  (forall e, e < n -> prime_size (init + growth * e) unit (nth (N.to_nat e) t' 0)) -> t = t'.
Proof.
  intros (L & T) L' T'. unfold lenN in *. apply (list_eq_nth _ _ 0); [lia|]. intros i Hi.
  replace i with (N.to_nat (N.of_nat i)) by lia. eapply prime_size_unique; [apply T; lia|apply T'; lia].
Qed.

Lemma generate pp fuel dir package mix ci cg di dg args c d :
  primality_test pp -> 
  parse_args parse_int parse_uint args default_flags = Parsed (mkFlags package 2048 mix ci cg di dg) -> package <> [] -> 0 < mix ->
  proper 64 ci cg 2048 fuel -> proper mix di dg 2048 fuel ->
  lenN c = 2045 -> (forall e, e < 2045 -> prime_size (ci + cg * e) 64 (nth (N.to_nat e) c 0)) ->
  lenN d = 2045 -> (forall e, e < 2045 -> prime_size (di + dg * e) mix (nth (N.to_nat e) d 0)) ->
  gen_main parse_int parse_uint pp fuel (Some dir) args =
  Writes (Join dir (package ++ txt "_lookup.go")) (go_file package c d).
Proof.
  intros PP PA NE HM P1 P2 LC TC LD TD.
  destruct (C73_right_file pp fuel dir args _ PP PA NE ltac:(cbn; lia) HM P1 P2) as (c' & d' & S1 & S2 & E).
  cbn [fl_package fl_epochs fl_mix fl_cache_init fl_cache_growth fl_dataset_init fl_dataset_growth] in *.
  change (5 * (Z.to_N 2048 / 5)) with 2045 in *.
  rewrite (same_prefix _ _ _ _ _ _ S1 LC TC), (same_prefix _ _ _ _ _ _ S2 LD TD) in E. exact E.
Qed.

Lemma parse_comment p v1 n1 v2 n2 v3 n3 v4 n4 v5 n5 :
  txt v1 = decimal n1 -> txt v2 = decimal n2 -> txt v3 = decimal n3 -> txt v4 = decimal n4 -> txt v5 = decimal n5 ->
  n1 < 2 ^ 64 -> n2 < 2 ^ 64 -> n3 < 2 ^ 64 -> n4 < 2 ^ 64 -> n5 < 2 ^ 64 ->
  parse_args parse_int parse_uint (map txt ["-package"; p; "-mixBytes"; v1; "-cacheInit"; v2; "-cacheGrowth"; v3;
     "-datasetInit"; v4; "-datasetGrowth"; v5]%string) default_flags = Parsed (mkFlags (txt p) 2048 n1 n2 n3 n4 n5).
Proof.
  intros E1 E2 E3 E4 E5 B1 B2 B3 B4 B5.
  refine (parse_options parse_int parse_uint
    [(Package (txt p), txt p, OneDash); (MixBytes n1, txt v1, OneDash); (CacheInit n2, txt v2, OneDash);
     (CacheGrowth n3, txt v3, OneDash); (DatasetInit n4, txt v4, OneDash); (DatasetGrowth n5, txt v5, OneDash)] default_flags _).
  repeat constructor; cbn [value_of]; rewrite ?E1, ?E2, ?E3, ?E4, ?E5; auto.
Qed.

(** The comments in the four packages make exactly the files that are there. *)
Theorem C73_go_generate pp fuel dir :
  primality_test pp -> 2 ^ 31 <= N.of_nat fuel ->
  let run := gen_main parse_int parse_uint pp fuel (Some dir) in
  run generate_ethash = Writes (Join dir (txt "ethash_lookup.go")) (go_file (txt "ethash") ethash_cacheSizes ethash_datasetSizes) /\
  run generate_kawpow = Writes (Join dir (txt "kawpow_lookup.go")) (go_file (txt "kawpow") kawpow_cacheSizes kawpow_datasetSizes) /\
  run generate_firopow = Writes (Join dir (txt "firopow_lookup.go")) (go_file (txt "firopow") firopow_cacheSizes firopow_datasetSizes) /\
  run generate_octopus = Writes (Join dir (txt "octopus_lookup.go")) (go_file (txt "octopus") octopus_cacheSizes octopus_datasetSizes).
Proof.
  intros PP HF. change (2 ^ 31) with 2147483648 in HF.
  assert (PR : forall unit a b, 0 < unit -> 2 <= a -> 2 * a + 2 * b * 2048 <= 2147483648 -> unit <= 256 ->
    proper unit (2 * a * unit) (2 * b * unit) 2048 fuel).
  { intros unit a b HU HA HS HX. split; [exists a, b; auto|]. split; [nia|].
    replace (2 * a * unit + 2 * b * unit * 2048) with ((2 * a + 2 * b * 2048) * unit) by lia. split.
    - change (2 ^ 64) with 18446744073709551616. nia.
    - rewrite N.div_mul by lia. lia. }
  cbv zeta. repeat split.
  - refine (generate pp fuel dir (txt "ethash") 128 16777216 131072 1073741824 8388608 _ _ _ PP _ _ eq_refl
      (PR 64 131072 1024 eq_refl _ _ _) (PR 128 4194304 32768 eq_refl _ _ _) ethash_cacheSizes_len ethash_cacheSizes_ok ethash_datasetSizes_len ethash_datasetSizes_ok);
      try lia; [|discriminate]. apply parse_comment; reflexivity.
  - rewrite kawpow_cacheSizes_eq, kawpow_datasetSizes_eq.
    refine (generate pp fuel dir (txt "kawpow") 128 16777216 131072 1073741824 8388608 _ _ _ PP _ _ eq_refl
      (PR 64 131072 1024 eq_refl _ _ _) (PR 128 4194304 32768 eq_refl _ _ _) ethash_cacheSizes_len ethash_cacheSizes_ok ethash_datasetSizes_len ethash_datasetSizes_ok);
      try lia; [|discriminate]. apply parse_comment; reflexivity.
  - rewrite firopow_cacheSizes_eq.
    refine (generate pp fuel dir (txt "firopow") 128 16777216 131072 1610612736 8388608 _ _ _ PP _ _ eq_refl
      (PR 64 131072 1024 eq_refl _ _ _) (PR 128 6291456 32768 eq_refl _ _ _) ethash_cacheSizes_len ethash_cacheSizes_ok firopow_datasetSizes_len firopow_datasetSizes_ok);
      try lia; [|discriminate]. apply parse_comment; reflexivity.
  - refine (generate pp fuel dir (txt "octopus") 256 16777216 65536 4294967296 16777216 _ _ _ PP _ _ eq_refl
      (PR 64 131072 512 eq_refl _ _ _) (PR 256 8388608 32768 eq_refl _ _ _) octopus_cacheSizes_len octopus_cacheSizes_ok octopus_datasetSizes_len octopus_datasetSizes_ok);
      try lia; [|discriminate]. apply parse_comment; reflexivity.
Qed.
End C73.
Print Assumptions C73_flags.
Print Assumptions C73_command_lines.
Print Assumptions C73_bad_command_line.
Print Assumptions C73_right_file.
Print Assumptions C73_else_nothing.
Print Assumptions C73_path.
Print Assumptions C73_path_refuted.
Print Assumptions C73_go_generate.

(** A reader for which the hypothesis holds. *)
Definition read_decimal (s : list N) : option N :=
  match s with
  | [] => None
  | _ => if forallb (fun c => (48 <=? c) && (c <=? 57)) s
         then let v := fold_left (fun x c => 10 * x + (c - 48)) s 0 in if v <? 2 ^ 64 then Some v else None
         else None
  end.
Example C73_numbers_instance : forall n, n < 2 ^ 64 -> read_decimal (decimal n) = Some n.
Proof.
  intros n H. destruct (C73_numbers n) as (A & B & _). unfold read_decimal.
  destruct (decimal n) as [|c l] eqn:E; [unfold decimal in E; cbn [dec_digits] in E; destruct (n / 10 =? 0); [discriminate|];
    rewrite <- (app_nil_r (dec_digits _ _ _)), dec_digits_app in E; exfalso|].
  - cbn [app] in E. assert (G : forall f m l, l <> [] -> dec_digits f m l <> []).
    { induction f; intros m l NE; cbn [dec_digits]; auto. destruct (m / 10 =? 0); [discriminate|]. apply IHf. discriminate. }
    revert E. apply G. discriminate.
  - replace (forallb _ (c :: l)) with true.
    2:{ symmetry. apply forallb_forall. intros x Hx. rewrite Forall_forall in A. specialize (A x Hx). lia. }
    rewrite B. destruct (N.ltb_spec n (2 ^ 64)); [reflexivity|lia].
Qed.
Definition inst_int (s : list N) : option Z := option_map Z.of_N (read_decimal s).
Definition inst_args : list (list N) := map txt
  ["--epochs=7"; "-package"; "y"; "-cacheInit"; "1024"; "--cacheGrowth"; "128"; "-datasetInit=1024"; "-datasetGrowth"; "256";
   "-package=x"; "rest"; "-epochs"]%string.
(** Seven epochs are asked for, five are written; the last value for a flag and nothing after "rest" counts. *)
Example C73_instance : gen_main inst_int read_decimal slow_prime 30 (Some (txt "/a/./b/")) inst_args =
  Writes (txt "/a/b/x_lookup.go") (go_file (txt "x") [832; 1088; 1216; 1216; 1472] [896; 896; 1408; 1664; 1664]).
Proof. vm_compute. reflexivity. Qed.
Example C73_no_file_instance :
  gen_main inst_int read_decimal slow_prime 30 (Some (txt "/a")) [] = Exits 1 /\
  gen_main inst_int read_decimal slow_prime 30 (Some (txt "/a")) [txt "-package"] = Exits 2 /\
  gen_main inst_int read_decimal slow_prime 30 (Some (txt "/a")) [txt "-h"] = Exits 0 /\
  gen_main inst_int read_decimal slow_prime 30 (Some (txt "/a")) (map txt ["-package"; "x"; "-mixBytes"; "0"; "-epochs"; "1"; "-cacheInit"; "1024"]%string) = Crashes.
Proof. repeat split; vm_compute; reflexivity. Qed.
Example C73_bad_command_line_instance :
  Forall (fun a => forall f, parse_args inst_int read_decimal a default_flags <> Parsed f)
    [[txt "-epochs=x"]; [txt "-epochs"]; [txt "-=3"]; [txt "---epochs=3"]; [txt "-epoch=3"]; map txt ["-package"; "x"; "-mixBytes"; "-1"]%string].
Proof. repeat (constructor; [intros f E; vm_compute in E; discriminate E|]). constructor. Qed.
