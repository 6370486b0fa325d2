(** Proofs about MemDag.v: the programs do what the models on lists do. *)
From Coq Require Import NArith ZArith Arith List Bool Lia ZifyBool ZifyN ZifyNat.
From Verif Require Import Base BaseFacts CryptoModel DagModel EthashModel MemModel MemProofs MemDag.
Import ListNotations.
Open Scope N_scope.
Ltac Zify.zify_post_hook ::= Z.div_mod_to_equations.

(** *** Discipline *)

Lemma safe_hasher me H k st dest data : writable me st -> writable me dest -> readable me data ->
  safe me (hasher H k st dest data) (fun _ => True).
Proof. intros W1 W2 R. unfold hasher. safe_go. Qed.
Lemma safe_FnvHash me mix data : writable me mix -> readable me data -> safe me (p_FnvHash mix data) (fun _ => True).
Proof. intros W R. unfold p_FnvHash. safe_go. Qed.
#[global] Hint Resolve safe_hasher safe_FnvHash writable_readable : safe.
Lemma safe_item me keccak512 d cache index st : readable me cache -> writable me st ->
  safe me (p_generateDatasetItem keccak512 d cache index st) (writable me).
Proof. intros R W. unfold p_generateDatasetItem. safe_go. Qed.
#[global] Hint Resolve safe_item : safe.
Lemma safe_item_uint me keccak512 d cache index size st : readable me cache -> writable me st ->
  safe me (p_generateDatasetItemUint keccak512 d cache index size st) (writable me).
Proof. intros R W. unfold p_generateDatasetItemUint. safe_go. Qed.
#[global] Hint Resolve safe_item_uint : safe.
Lemma safe_hashimoto me keccak512 keccak256 room hash nonce size lookup : readable me hash ->
  (forall i, safe me (lookup i) (writable me)) ->
  safe me (p_hashimoto keccak512 keccak256 room hash nonce size lookup) (fun r => writable me (fst r) /\ writable me (snd r)).
Proof. intros R LK. unfold p_hashimoto. safe_go. Qed.

(** *** Results *)

(** The sponge state of a hasher. *)
Definition state (m : memory) (st : sl) : Prop := exists v, has m st [v].

Lemma sim_hasher me H k st dest data m n l x : (forall y, lenN (H y) = k) -> k <> 0 ->
  state m st -> has m dest l -> has m data x -> s_cap dest = s_len dest -> s_loc st <> s_loc dest -> s_loc st <> s_loc data ->
  sim me (hasher H k st dest data) m n (hash_into H k l 0 x) (fun _ l' m' n' =>
    has m' dest l' /\ lenN l' = lenN l /\ state m' st /\ others2 m m' st dest /\ n' = n).
Proof.
  intros HK NZ (v & ST) HD HX CAP A1 A2. unfold hasher, hash_into. rewrite slice_from_eq. replace (0 <=? lenN l) with true by lia.
  change (N.to_nat 0) with 0%nat. cbn [skipn bind].
  eapply sim_left; [exact (sim_set me st 0 0 m n [v] ST)|].
  intros a1 m1 n1 (ST1 & _ & O1 & ->). change (set_nth [v] (N.to_nat 0) 0) with [0] in ST1.
  eapply sim_left; [apply sim_read; frame|]. intros a m2 n2 (-> & -> & ->).
  eapply sim_left; [exact (sim_set me st 0 1 m1 n [0] ST1)|].
  intros a2 m2 n2 (ST2 & _ & O2 & ->). change (set_nth [0] (N.to_nat 0) 1) with [1] in ST2.
  assert (HD2 : has m2 dest l) by frame. pose proof HD2 as (L & C & D & E).
  unfold cut_at. replace (k <=? s_cap dest) with (k <=? lenN l) by lia. replace (0 <=? k) with true by lia. cbn [andb].
  destruct (N.leb_spec k (lenN l)) as [B|B]; [|exact I]. cbn [pbind s_loc s_off].
  unfold copy_at. replace (0 <=? lenN l) with true by lia. unfold sim.
  destruct (run_stores me dest m2 n l 0 (H x) HD2) as (m3 & R & HV & O3); [rewrite HK; lia|]. rewrite R.
  split; [exact HV|]. split. { unfold lenN in *. rewrite overwrite_length; [reflexivity|]. specialize (HK x). lia. }
  split; [exists 1; frame|]. split; [|reflexivity].
  intros b N1 N2. rewrite O3, O2, O1 by auto. reflexivity.
Qed.

Lemma sim_FnvHash me mix data m n l x : has m mix l -> has m data x -> s_loc mix <> s_loc data ->
  sim me (p_FnvHash mix data) m n (FnvHash l x) (wrote m n mix l).
Proof.
  intros HM HD AP. unfold p_FnvHash, FnvHash. pose proof HM as (L & _). rewrite L.
  eapply sim_weaken.
  { apply (sim_for_n me (lenN l) _ _ tt l m n (fun _ _ l' m' n' => wrote m n mix l tt l' m' n')).
    - split; [exact HM|]. split; [reflexivity|]. split; [intros ? _; reflexivity|reflexivity].
    - intros j [] t m1 n1 Hj (HM1 & L1 & O1 & ->). sget. sget.
      eapply sim_weaken; [apply sim_set; frame|]. intros [] b m2 n2 (H2 & L2 & O2 & ->).
      split; [exact H2|]. split; [congruence|]. split; [|reflexivity]. intros a NE. rewrite O2, O1 by auto. reflexivity. }
  intros [] b m' n' X. exact X.
Qed.

Lemma sim_item me keccak512 d cache st index m n c : (forall x, lenN (keccak512 x) = 64) ->
  has m cache c -> owner (s_loc cache) <> me -> state m st -> writable me st -> old me n st ->
  sim me (p_generateDatasetItem keccak512 d cache index st) m n (generateDatasetItem keccak512 d c index) (fun s b m' n' =>
    has m' s b /\ new me n n' s /\ s_cap s = s_len s /\ state m' st /\ n <= n' /\ kept_but me n st m m').
Proof.
  intros HK HC OC HS WS OS. unfold p_generateDatasetItem, generateDatasetItem. pose proof HC as (LC & _). rewrite LC.
  set (rows := u32 (lenN c / hashWords)).
  apply sim_make. intros mix m1 EM NM HM KM. assert (CAP : s_cap mix = s_len mix) by (rewrite EM; reflexivity).
  assert (HC1 : has m1 cache c) by (unfold writable in *; frame).
  assert (HS1 : state m1 st) by (destruct HS as (v & HS); exists v; frame).
  apply sim_pure. intros r Hr. sget. rewrite put32_model_0.
  eapply sim_bind; [apply sim_put32; frame|]. intros ? b1 m2 n2 (H2 & L2 & O2 & ->).
  eapply sim_bind.
  { apply (sim_for me 15 1 _ _ tt b1 m2 (n + 1) (fun _ _ l' m' n' => has m' mix l' /\ others m1 m' mix /\ n' = n + 1)).
    - split; [exact H2|]. split; [exact O2|reflexivity].
    - intros j [] t m3 n3 J1 J2 (H3 & O3 & ->). sget. rewrite put32_model_end.
      eapply sim_weaken; [apply sim_put32_at; frame|]. intros [] b m4 n4 (H4 & L4 & O4 & ->).
      split; [exact H4|]. split; [|reflexivity]. eapply others_trans; eauto. }
  intros [] b2 m3 n3 (H3 & O3 & ->).
  eapply sim_bind.
  { apply sim_hasher; [exact HK|discriminate|destruct HS1 as (v' & HS1); exists v'; frame|frame|frame|exact CAP|apart|apart]. }
  intros [] b3 m4 n4 (H4 & L4 & ST4 & O4 & ->).
  apply sim_make. intros im m5 EI NI HI KI.
  assert (LI : s_len im = hashWords) by (rewrite EI; reflexivity).
  assert (H5 : has m5 mix b3) by frame.
  eapply sim_bind.
  { apply (sim_for_n me 16 _ _ tt (zeros hashWords) m5 (n + 1 + 1) (fun _ _ l' m' n' => has m' im l' /\ others m5 m' im /\ n' = n + 1 + 1)).
    - split; [exact HI|]. split; [apply others_refl|reflexivity].
    - intros j [] t m6 n6 J (H6 & O6 & ->).
      eapply sim_bind; [apply sim_cut_from; frame|]. intros s' l' ? ? (HC' & LC' & _ & -> & ->).
      sget32. eapply sim_weaken; [apply sim_set; frame|]. intros [] b m7 n7 (H7 & _ & O7 & ->).
      split; [exact H7|]. split; [|reflexivity]. eapply others_trans; eauto. }
  intros [] im1 m6 n6 (H6 & O6 & ->).
  assert (HC5 : has m5 cache c) by frame.
  eapply sim_bind.
  { apply (sim_for_n me (cf_dataset_parents d) _ _ tt im1 m6 (n + 1 + 1) (fun _ _ l' m' n' => has m' im l' /\ others m5 m' im /\ n' = n + 1 + 1)).
    - split; [exact H6|]. split; [exact O6|reflexivity].
    - intros j [] t m7 n7 J (H7 & O7 & ->). sget. apply sim_pure. intros parent _.
      eapply sim_bind; [apply sim_cut_from; frame|]. intros s' l' ? ? (HC' & LC' & _ & -> & ->).
      eapply sim_weaken; [apply sim_FnvHash; [frame|frame|rewrite LC'; apart]|]. intros [] b m8 n8 (H8 & _ & O8 & ->).
      split; [exact H8|]. split; [|reflexivity]. eapply others_trans; eauto. }
  intros [] im2 m7 n7 (H7 & O7 & ->).
  assert (H7m : has m7 mix b3) by frame. pose proof H7 as (L7 & _). rewrite L7.
  eapply sim_bind.
  { apply (sim_for_n me (lenN im2) _ _ tt b3 m7 (n + 1 + 1) (fun _ _ l' m' n' => has m' mix l' /\ others m7 m' mix /\ n' = n + 1 + 1)).
    - split; [exact H7m|]. split; [apply others_refl|reflexivity].
    - intros j [] t m8 n8 J (H8 & O8 & ->). sget. rewrite put32_model_end.
      eapply sim_weaken; [apply sim_put32_at; frame|]. intros [] b m9 n9 (H9 & _ & O9 & ->).
      split; [exact H9|]. split; [|reflexivity]. eapply others_trans; eauto. }
  intros [] b4 m8 n8 (H8 & O8 & ->).
  rewrite <- (bind_done (hash_into _ _ _ _ _)).
  eapply sim_bind.
  { apply sim_hasher; [exact HK|discriminate|destruct ST4 as (v' & ST4); exists v'; frame|frame|frame|exact CAP|apart|apart]. }
  intros [] b5 m9 n9 (H9 & L9 & ST9 & O9 & ->). apply sim_ret.
  split; [exact H9|]. split; [unfold new in *; lia|]. split; [exact CAP|]. split; [exact ST9|]. split; [lia|].
  intros a9 NA OA. rewrite O9 by (auto; apart). rewrite O8 by apart. rewrite O7 by apart. rewrite KI by lia. rewrite O4 by (auto; apart).
  rewrite O3 by apart. apply KM. lia.
Qed.

Lemma kept_but_trans me n n' st m m' m'' : n <= n' -> kept_but me n st m m' -> kept_but me n' st m' m'' -> kept_but me n st m m''.
Proof. intros LE K K' l NE O. rewrite K' by (auto; lia). apply K; auto. Qed.
Lemma kept_kept_but me n st m m' : kept me n m m' -> kept_but me n st m m'.
Proof. intros K l _ O. apply K. exact O. Qed.
Lemma others_kept_but me n s st m m' : others m m' s -> owner (s_loc s) = me -> n <= serial (s_loc s) -> kept_but me n st m m'.
Proof. intros K O LE l _ OL. apply K. intros ->. lia. Qed.

(** A lookup through a hasher. *)
Definition looked (me : N) (st : sl) (m : memory) (n : N) : sl -> list N -> memory -> N -> Prop :=
  fun s b m' n' => has m' s b /\ new me n n' s /\ s_cap s = s_len s /\ state m' st /\ n <= n' /\ kept_but me n st m m'.

Lemma sim_item_uint me keccak512 d cache st index size m n c : (forall x, lenN (keccak512 x) = 64) ->
  has m cache c -> owner (s_loc cache) <> me -> state m st -> writable me st -> old me n st ->
  sim me (p_generateDatasetItemUint keccak512 d cache index size st) m n (generateDatasetItemUint keccak512 d c index size) (looked me st m n).
Proof.
  intros HK HC OC HS WS OS. unfold p_generateDatasetItemUint, generateDatasetItemUint.
  apply sim_make. intros data m1 ED ND HD KD. assert (CAP : s_cap data = s_len data) by (rewrite ED; reflexivity).
  assert (HC1 : has m1 cache c) by (unfold writable in *; frame).
  assert (HS1 : state m1 st) by (destruct HS as (v & HS); exists v; frame).
  rewrite <- (bind_done (for_n _ _ _)). eapply sim_bind.
  { apply (sim_for_n me size _ _ tt (zeros (mulw 32 DagModel.hashWords size)) m1 (n + 1) (fun _ _ l' m' n' =>
      has m' data l' /\ state m' st /\ n + 1 <= n' /\ kept_but me n st m m')).
    - split; [exact HD|]. split; [exact HS1|]. split; [lia|]. apply kept_kept_but. exact KD.
    - intros j [] t m2 n2 J (H2 & S2 & LE2 & K2).
      eapply sim_bind; [apply (sim_item me keccak512 d cache st _ m2 n2 c HK); [frame|exact OC|exact S2|exact WS|unfold old, writable in *; lia]|].
      intros item b m3 n3 (H3 & N3 & C3 & S3 & LE3 & K3).
      assert (H3d : has m3 data t) by frame.
      eapply sim_weaken.
      { apply (sim_for_n me DagModel.hashWords _ _ tt t m3 n3 (fun _ _ l' m' n' => has m' data l' /\ others m3 m' data /\ n' = n3)).
        - split; [exact H3d|]. split; [apply others_refl|reflexivity].
        - intros i [] t4 m4 n4 Hi (H4 & O4 & ->).
          eapply sim_bind; [apply sim_cut_from; frame|]. intros s' l' ? ? (HC' & LC' & _ & -> & ->).
          sget32. eapply sim_weaken; [apply sim_set; frame|]. intros [] b5 m5 n5 (H5 & _ & O5 & ->).
          split; [exact H5|]. split; [|reflexivity]. eapply others_trans; eauto. }
      intros [] b6 m6 n6 (H6 & O6 & ->). split; [exact H6|]. split; [destruct S3 as (v & S3); exists v; frame|]. split; [lia|].
      eapply kept_but_trans; [|eapply kept_but_trans; [|exact K2|exact K3]|]; [| |apply (others_kept_but me n data); [exact O6|unfold new in ND; lia|unfold new in ND; lia]]; lia. }
  intros [] b m2 n2 (H2 & S2 & LE2 & K2). apply sim_ret.
  split; [exact H2|]. split; [unfold new in *; lia|]. split; [exact CAP|]. split; [exact S2|]. split; [lia|exact K2].
Qed.

(** *** hashimoto, with any lookup that behaves *)

Lemma sim_hashimoto me keccak512 keccak256 room st hash nonce size (lookup : N -> prog sl) (model : N -> outcome (list N)) m n h (ok : memory -> Prop) :
  (forall x, lenN (keccak512 x) = 64) -> (forall x, lenN (keccak256 x) = 32) -> (forall k, k <= room k) ->
  has m hash h -> owner (s_loc hash) <> me -> state m st -> writable me st -> old me n st -> ok m ->
  (forall m m', (forall l, owner l <> me -> m' l = m l) -> ok m -> ok m') ->
  (forall i m n, ok m -> state m st -> old me n st -> sim me (lookup i) m n (model i) (looked me st m n)) ->
  sim me (p_hashimoto keccak512 keccak256 room hash nonce size lookup) m n (hashimoto keccak512 keccak256 h nonce size model)
    (fun s b m' n' => has m' (fst s) (fst b) /\ has m' (snd s) (snd b) /\ new me n n' (fst s) /\ new me n n' (snd s) /\ s_loc (fst s) <> s_loc (snd s)).
Proof.
  intros HK HK' RM HH OH HS WS OS OK OKK LK. unfold p_hashimoto, hashimoto.
  set (rows := u32 (size / mixBytes)).
  apply sim_make. intros seed0 m1 E1 N1 H1 K1.
  eapply sim_bind; [apply sim_copy; [frame|frame]|]. intros [] b2 m2 n2 (H2 & L2 & O2 & ->).
  rewrite put64_model. apply sim_assoc.
  eapply sim_bind; [apply sim_put64_at; frame|]. intros [] b3 m3 n3 (H3 & L3 & O3 & ->).
  eapply sim_left; [apply sim_hash_new; [frame|apply HK]|]. intros seed m4 n4 (H4 & N4 & F4 & C4 & K4 & LE4).
  sget32.
  apply sim_make. intros mix m5 E5 N5 H5 K5. assert (LM : s_len mix = 32) by (rewrite E5; reflexivity). rewrite LM.
  change (mixBytes / 4) with 32. fold (zeros 32).
  assert (H5s : has m5 seed (keccak512 b3)) by frame.
  eapply sim_bind.
  { apply (sim_for_n me 32 _ _ tt (zeros 32) m5 (n4 + 1) (fun _ _ l' m' n' => has m' mix l' /\ others m5 m' mix /\ n' = n4 + 1)).
    - split; [exact H5|]. split; [apply others_refl|reflexivity].
    - intros j [] t m6 n6 J (H6 & O6 & ->).
      eapply sim_bind; [apply sim_cut_from; frame|]. intros s' l' ? ? (HC' & LC' & _ & -> & ->).
      sget32. eapply sim_weaken; [apply sim_set; frame|]. intros [] b m7 n7 (H7 & _ & O7 & ->).
      split; [exact H7|]. split; [|reflexivity]. eapply others_trans; eauto. }
  intros [] mix1 m6 n6 (H6 & O6 & ->).
  assert (LM1 : lenN mix1 = 32) by (destruct H6 as (X & _); lia). rewrite LM1.
  apply sim_make. intros temp m7 E7 N7 H7 K7.
  assert (AP : s_loc mix <> s_loc temp) by apart.
  assert (S7 : state m7 st) by (destruct HS as (v' & HS); exists v'; frame).
  assert (OK7 : ok m7).
  { eapply OKK; [|exact OK]. intros l OL. rewrite K7 by auto. rewrite O6 by (intros ->; unfold new in *; lia). rewrite K5 by auto.
    rewrite K4 by auto. rewrite O3 by (intros ->; unfold new in *; lia). rewrite O2 by (intros ->; unfold new in *; lia). apply K1. auto. }
  set (base := n4 + 1 + 1) in *.
  eapply sim_bind.
  { apply (sim_for_n me hashimotoRounds _ _ tt (mix1, zeros 32) m7 base (fun _ _ l' m' n' =>
      has m' mix (fst l') /\ has m' temp (snd l') /\ lenN (fst l') = 32 /\ has m' seed (keccak512 b3) /\ state m' st /\ ok m' /\ base <= n')).
    - cbn [fst snd]. split; [frame|]. split; [exact H7|]. split; [exact LM1|]. split; [frame|]. split; [exact S7|]. split; [exact OK7|lia].
    - intros j [] (x, y) m8 n8 J (H8 & H8t & L8 & H8s & S8 & OK8 & LE8). cbn [fst snd] in *. rewrite L8.
      sget. apply sim_pure. intros parent _.
      eapply sim_bind.
      { apply (sim_for_n me (mixBytes / hashBytes) _ _ tt y m8 n8 (fun _ _ l' m' n' =>
          has m' mix x /\ has m' temp l' /\ has m' seed (keccak512 b3) /\ state m' st /\ ok m' /\ base <= n')).
        - split; [exact H8|]. split; [exact H8t|]. split; [exact H8s|]. split; [exact S8|]. split; [exact OK8|exact LE8].
        - intros i [] t m9 n9 Hi (H9 & H9t & H9s & S9 & OK9 & LE9).
          eapply sim_bind; [apply LK; [exact OK9|exact S9|unfold old, writable in *; lia]|].
          intros item b m10 n10 (H10 & N10 & C10 & S10 & LE10 & K10).
          eapply sim_weaken; [apply sim_copy_at; frame|]. intros [] b11 m11 n11 (H11 & _ & O11 & ->).
          assert (H10s : has m11 seed (keccak512 b3)) by frame.
          split; [frame|]. split; [exact H11|]. split; [exact H10s|]. split; [destruct S10 as (v' & S10); exists v'; frame|]. split; [|lia].
          eapply OKK; [|exact OK9]. intros l OL. rewrite O11 by (intros ->; unfold new in *; lia). apply K10; [intros ->; unfold writable in *; lia|auto]. }
      intros [] temp1 m9 n9 (H9 & H9t & H9s & S9 & OK9 & LE9).
      eapply sim_weaken.
      { instantiate (1 := fun _ l' m' n' => wrote m9 n9 mix x tt (fst l') m' n' /\ snd l' = temp1).
        pose proof (sim_FnvHash me mix temp m9 n9 x temp1 ltac:(frame) ltac:(frame) AP) as F.
        unfold sim in *. destruct (run me (p_FnvHash mix temp) m9 n9) as [[[a1| |] ma] na], (FnvHash x temp1); cbn [bind]; auto. }
      intros [] (x', y') m10 n10 ((H10 & L10 & O10 & ->) & ->). cbn [fst snd] in *.
      split; [exact H10|]. split; [frame|]. split; [congruence|]. split; [frame|]. split; [destruct S9 as (v' & S9); exists v'; frame|]. split; [|lia].
      eapply OKK; [|exact OK9]. intros l OL. apply O10. intros ->. unfold new in *. lia. }
  intros [] (mix2, temp2) m8 n8 (H8 & H8t & L8 & H8s & S8 & OK8 & LE8). cbn [fst snd] in *. rewrite L8. change (32 / 4) with 8.
  eapply sim_bind.
  { apply (sim_for_n me 8 _ _ tt mix2 m8 n8 (fun _ _ l' m' n' => has m' mix l' /\ lenN l' = 32 /\ others m8 m' mix /\ n' = n8)).
    - split; [exact H8|]. split; [exact L8|]. split; [apply others_refl|reflexivity].
    - intros j [] t m9 n9 J (H9 & L9 & O9 & ->). cbv zeta. sget. sget. sget. sget.
      eapply sim_weaken; [apply sim_set; frame|]. intros [] b m10 n10 (H10 & L10 & O10 & ->).
      split; [exact H10|]. split; [congruence|]. split; [|reflexivity]. eapply others_trans; eauto. }
  intros [] mix3 m9 n9 (H9 & L9 & O9 & ->). rewrite L9. change (32 / 4) with 8.
  eapply sim_bind; [apply sim_cut_at; [frame|left; lia]|]. intros mixc mix4 ? ? (H9c & LC & _ & -> & ->).
  apply sim_make. intros digest m10 E10 N10 H10 K10.
  assert (H10c : has m10 mixc mix4) by frame. pose proof H10c as (L10c & _). rewrite L10c.
  eapply sim_bind.
  { apply (sim_for_n me (lenN mix4) _ _ tt (zeros 32) m10 (n8 + 1) (fun _ _ l' m' n' => has m' digest l' /\ lenN l' = 32 /\ others m10 m' digest /\ n' = n8 + 1)).
    - split; [exact H10|]. split; [apply zeros_lenN|]. split; [apply others_refl|reflexivity].
    - intros j [] t m11 n11 J (H11 & L11 & O11 & ->). sget. rewrite put32_model_end.
      eapply sim_weaken; [apply sim_put32_at; frame|]. intros [] b m12 n12 (H12 & L12 & O12 & ->).
      split; [exact H12|]. split; [congruence|]. split; [|reflexivity]. eapply others_trans; eauto. }
  intros [] dg m11 n11 (H11 & L11 & O11 & ->).
  assert (H11s : has m11 seed (keccak512 b3)) by frame.
  eapply sim_left; [apply (sim_append me room seed digest m11 (n8 + 1) (keccak512 b3) dg RM); [frame|frame|exact C4|lia]|].
  intros both m12 n12 (H12 & N12 & K12 & LE12).
  eapply sim_left; [apply sim_hash_new; [frame|apply HK']|]. intros res m13 n13 (H13 & N13 & F13 & C13 & K13 & LE13).
  apply sim_ret. cbn [fst snd]. split; [frame|]. split; [exact H13|]. unfold new in *. split; [lia|]. split; [lia|]. apart.
Qed.
