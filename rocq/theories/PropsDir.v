(** C68: where the default clients keep their files. *)
From Coq Require Import String Ascii NArith ZArith List Bool Lia.
From Verif Require Import Base BaseFacts DagModel FileModel NameModel NameProofs PropsDagSize DirModel.
Import ListNotations.
Open Scope N_scope.

(** ** A cleaned path is clean *)

Definition comp (c : list N) : Prop := no_slash c /\ c <> [] /\ c <> [46].
(** A stack that filepath.Clean builds: ".." stands only at the bottom, and not under a root. *)
Fixpoint neat (r : bool) (st : list (list N)) : Prop :=
  match st with
  | [] => True
  | c :: st => comp c /\ neat r st /\ (c = [46; 46] -> r = false /\ Forall (eq [46; 46]) st)
  end.

Lemma split_no_slash s : forall cur, no_slash cur -> Forall no_slash (split_slash s cur).
Proof.
  unfold no_slash. induction s as [|c s IH]; intros cur H; cbn [split_slash].
  - constructor; [|constructor]. rewrite <- in_rev. auto.
  - destruct (N.eqb_spec c 47) as [->|NE].
    + constructor; [rewrite <- in_rev; auto|apply IH; auto].
    + apply IH. intros [X|X]; [congruence|auto].
Qed.

Lemma step_neat r st c : neat r st -> no_slash c -> neat r (clean_step r st c).
Proof.
  intros H N. unfold clean_step.
  destruct (name_dec c []); auto. destruct (name_dec c [46]); auto.
  destruct (name_dec c [46; 46]) as [->|N2].
  - destruct st as [|x st].
    + destruct r; cbn; auto. split; [|auto]. split; [auto|split; discriminate].
    + destruct (name_dec x [46; 46]) as [->|NX]; [|apply H].
      cbn in H. destruct H as (C & H & D). destruct (D eq_refl) as (-> & F).
      cbn. split; [exact C|]. split; [auto|]. intros _. split; auto.
  - cbn. unfold comp. tauto.
Qed.
Lemma clean_neat r cs : Forall no_slash cs -> neat r (clean_stack r cs).
Proof.
  unfold clean_stack. assert (G : forall st, neat r st -> Forall no_slash cs -> neat r (fold_left (clean_step r) cs st)).
  { induction cs as [|c cs IH]; intros st H F; cbn; auto. inversion F; subst. apply IH; auto. apply step_neat; auto. }
  apply G. cbn. auto.
Qed.

Lemma split_render st : forall r, neat r st -> st <> [] -> split_slash (render st) [] = rev st.
Proof.
  induction st as [|c st IH]; intros r H NE; [congruence|].
  rewrite render_push. destruct H as ((NS & _ & _) & H & _). destruct st as [|x st].
  - cbn [app rev]. rewrite split_slash_plain by auto. reflexivity.
  - rewrite <- app_assoc. cbn [app]. rewrite split_slash_app, (IH r) by (auto; discriminate).
    rewrite split_slash_plain by auto. reflexivity.
Qed.
Lemma clean_again r st : neat r st -> clean_stack r (rev st) = st.
Proof.
  induction st as [|c st IH]; intros H; [reflexivity|]. destruct H as ((_ & C1 & C2) & H & D).
  unfold clean_stack in *. cbn [rev]. rewrite fold_left_app, IH by auto. cbn [fold_left].
  unfold clean_step. destruct (name_dec c []); [contradiction|]. destruct (name_dec c [46]); [contradiction|].
  destruct (name_dec c [46; 46]) as [->|]; auto.
  destruct (D eq_refl) as (-> & F). destruct st as [|x st]; auto.
  inversion F; subst. destruct (name_dec [46; 46] [46; 46]); [auto|congruence].
Qed.

Lemma neat_nonempty r st : neat r st -> ~ In [] st.
Proof. induction st as [|c st IH]; intros H []; cbn in H; [subst; unfold comp in H; tauto|tauto]. Qed.
Lemma is_rooted_spec s : is_rooted s = true <-> exists l, s = 47 :: l.
Proof.
  destruct s as [|y m]; [split; [discriminate|intros (l & E); discriminate]|].
  destruct (N.eq_dec y 47) as [->|NE]; [split; [eauto|reflexivity]|].
  split; [|intros (l & E); congruence]. cbn. destruct y as [|p]; [discriminate|].
  do 6 (destruct p; try discriminate). congruence.
Qed.
Lemma render_relative r st : neat r st -> is_rooted (render st) = false.
Proof.
  intros H. destruct (is_rooted (render st)) eqn:E; auto. exfalso. apply is_rooted_spec in E. destruct E as (l & E).
  assert (NE : st <> []) by (intros ->; discriminate).
  assert (SR := split_render _ _ H NE). rewrite E in SR. cbn [split_slash N.eqb Pos.eqb rev] in SR.
  apply (neat_nonempty _ _ H). apply in_rev. rewrite <- SR. left. reflexivity.
Qed.
Lemma render_nonempty nm st : nm <> [] -> render (nm :: st) <> [].
Proof. intros NE E. rewrite render_push in E. apply app_eq_nil in E. tauto. Qed.

(** A directory joined with a plain name. *)
Lemma join_shape dir nm : plain nm -> exists st, neat (is_rooted dir) (nm :: st) /\
  Join dir nm = (if is_rooted dir then [47] else []) ++ render (nm :: st).
Proof.
  intros P. assert (PN := P). destruct P as (NS & NE & N1 & N2).
  exists (match dir with [] => [] | _ => clean_stack (is_rooted dir) (split_slash dir []) end). split.
  - cbn [neat]. split; [split; auto|]. split; [|contradiction].
    destruct dir; [cbn; auto|]. apply clean_neat, split_no_slash. intros [].
  - rewrite Join_plain, render_push by auto. unfold dir_prefix. destruct dir as [|c dir]; [reflexivity|].
    rewrite <- !app_assoc. reflexivity.
Qed.

(** What stands before a name in a directory under a directory. *)
Lemma prefix_join dir nm : plain nm -> dir_prefix (Join dir nm) = Join dir nm ++ [47].
Proof.
  intros P. destruct (join_shape dir nm P) as (st & NT & ->).
  assert (NE : render (nm :: st) <> []) by (apply render_nonempty, P).
  assert (SR := split_render (nm :: st) _ NT ltac:(discriminate)). assert (RR := render_relative _ _ NT). assert (CA := clean_again _ _ NT).
  destruct (is_rooted dir).
  - cbn [app]. unfold dir_prefix. cbn [is_rooted].
    assert (X : split_slash (47 :: render (nm :: st)) [] = [] :: split_slash (render (nm :: st)) []) by reflexivity.
    rewrite X, SR. unfold clean_stack. cbn [fold_left]. change (clean_step true [] []) with (@nil (list N)).
    change (fold_left (clean_step true) (rev (nm :: st)) []) with (clean_stack true (rev (nm :: st))).
    rewrite CA. reflexivity.
  - cbn [app]. destruct (render (nm :: st)) as [|x l] eqn:EQ; [congruence|]. unfold dir_prefix. rewrite RR, SR, CA, EQ. reflexivity.
Qed.

Lemma dot_plain : plain dot_powcache.
Proof. unfold plain, no_slash, dot_powcache. cbn. intuition discriminate. Qed.

(** ** C68 *)

(** The directory of the default clients outside Windows is the cleaned home directory and the
    name.  It is never empty (so files are used), and relative to the working directory
    exactly if the home directory is. *)
Theorem C68_default_dir wj v nm home :
  en_windows v = false -> plain nm ->
  en_user v = Some home \/ en_user v = None /\ en_home v = home ->
  DefaultDir wj v nm = Clean (home ++ (match home with [] => [] | _ => [47] end) ++ nm) /\ DefaultDir wj v nm <> [] /\
  is_rooted (DefaultDir wj v nm) = is_rooted home.
Proof.
  intros W P U. assert (H : home = home_dir v) by (unfold home_dir; destruct U as [-> | (-> & ->)]; reflexivity). rewrite H. clear home U H.
  unfold DefaultDir. rewrite W. split; [|split].
  - unfold Join. destruct (home_dir v) as [|c h]; [|reflexivity].
    destruct (name_dec nm []) as [E|]; [|reflexivity]. destruct P as (_ & NE & _). contradiction.
  - rewrite Join_plain by auto. intros E. apply app_eq_nil in E. destruct P as (_ & NE & _). tauto.
  - destruct (join_shape (home_dir v) nm P) as (st & NT & ->).
    destruct (is_rooted (home_dir v)); [reflexivity|]. cbn [app]. apply (render_relative _ _ NT).
Qed.

(** Every file of a default client lies directly in that directory. *)
Theorem C68_files_inside wj v nm k d seed :
  en_windows v = false -> plain nm -> cf_storage_dir d = DefaultDir wj v nm ->
  ~ In 47 (cf_name d) -> bytes seed ->
  storageLocation k d seed = DefaultDir wj v nm ++ [47] ++ basename k (cf_name d) (cf_revision d) seed /\
  ~ In 47 (basename k (cf_name d) (cf_revision d) seed).
Proof.
  intros W P E NS B. split; [|apply basename_plain; auto].
  rewrite location_eq, E by auto. unfold DefaultDir. rewrite W, prefix_join by auto. rewrite <- app_assoc. reflexivity.
Qed.

(** A user can not move it with $HOME when user.Current works, ... *)
Theorem C68_home_ignored wj h h' u w nm :
  DefaultDir wj (mkEnv h (Some u) w) nm = DefaultDir wj (mkEnv h' (Some u) w) nm.
Proof. reflexivity. Qed.
(** ... on Windows it is AppData\PowCache of the same home directory, ... *)
Theorem C68_windows wj v nm home : en_windows v = true ->
  en_user v = Some home \/ en_user v = None /\ en_home v = home ->
  DefaultDir wj v nm = wj [home; map N_of_ascii (list_ascii_of_string "AppData"); map N_of_ascii (list_ascii_of_string "PowCache")].
Proof. intros W U. unfold DefaultDir, home_dir. rewrite W. destruct U as [-> | (-> & ->)]; reflexivity. Qed.
(** ... where the name given does not matter, ... *)
Theorem C68_windows_name_ignored wj v nm nm' :
  en_windows v = true -> DefaultDir wj v nm = DefaultDir wj v nm'.
Proof. intros W. unfold DefaultDir. rewrite W. reflexivity. Qed.
(** ... and without any home directory the files go below the working directory. *)
Theorem C68_no_home wj nm : plain nm -> DefaultDir wj (mkEnv [] None false) nm = nm.
Proof. intros P. unfold DefaultDir, home_dir. cbn [en_windows en_user en_home]. rewrite Join_plain by auto. reflexivity. Qed.
Print Assumptions C68_default_dir.
Print Assumptions C68_files_inside.
Print Assumptions C68_home_ignored.
Print Assumptions C68_windows.
Print Assumptions C68_windows_name_ignored.
Print Assumptions C68_no_home.

(** "/home//u/../x/" and ".powcache": "/home/x/.powcache"; the file of Ethereum's epoch 0. *)
Example C68_instance :
  let v := mkEnv [] (Some [47;104;111;109;101;47;47;117;47;46;46;47;120;47]) false in
  let dir := DefaultDir (fun _ => []) v dot_powcache in
  dir = [47;104;111;109;101;47;120;47] ++ dot_powcache /\ plain dot_powcache /\
  ~ In 47 (cf_name (cfg_ethereum dir)) /\
  storageLocation KCache (cfg_ethereum dir) (repeat 0 8) =
    [47;104;111;109;101;47;120;47] ++ dot_powcache ++ [47] ++ basename KCache (cf_name (cfg_ethereum dir)) (cf_revision (cfg_ethereum dir)) (repeat 0 8).
Proof.
  cbv zeta. split; [reflexivity|]. split; [exact dot_plain|]. split; [cbn; intuition discriminate|]. reflexivity.
Qed.
