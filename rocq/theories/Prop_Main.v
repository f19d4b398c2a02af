(** C85: the arguments of the tool *)
From Coq Require Import String Ascii List ZArith Lia Bool Arith.
From Verif Require Import Base Utf8 M_Builder M_CharCategory M_Lattice M_Tokenizer M_Bytes M_DicReader M_DicBuilder M_LexiconSet M_Front P_DicOpen S_Resource M_Resource M_Setup M_Command M_Tokenize M_Debug M_Main P_Main S_Main S_Debug Prop_Debug.
Import ListNotations.
Open Scope list_scope.
Open Scope Z_scope.

Ltac in_options := intros o _; destruct o as [f|[]|f|[]| | |[]]; reflexivity.
Lemma tokenize_run : forall os files,
  run_with Tokenize (map tstored os) files =
  RunTokenize (TokArgs (given is_version os) files (last_of S_Main.output_of os) (or_else (last_of S_Main.mode_of os) (txt "C")) (given is_all os) (last_of setting_of os) (last_of type_of os)) (given is_debug os).
Proof.
  intros os files. cbn [run_with].
  rewrite (flag_given _ tstored (lit "version") is_version) by in_options.
  rewrite (flag_given _ tstored (lit "a") is_all) by in_options.
  rewrite (flag_given _ tstored (lit "d") is_debug) by in_options.
  rewrite (value_last _ tstored (lit "fpath_out") S_Main.output_of) by (intros o _; destruct o as [f|[]|f|[]| | |[]]; (reflexivity || discriminate)).
  rewrite (value_last _ tstored (lit "mode") S_Main.mode_of) by (intros o _; destruct o as [f|[]|f|[]| | |[]]; (reflexivity || discriminate)).
  rewrite (value_last _ tstored (lit "fpath_setting") setting_of) by (intros o _; destruct o as [f|[]|f|[]| | |[]]; (reflexivity || discriminate)).
  rewrite (value_last _ tstored (lit "system_dict_type") type_of) by (intros o _; destruct o as [f|[]|f|[]| | |[]]; (reflexivity || discriminate)).
  reflexivity.
Qed.
Lemma build_run : forall os files,
  run_with Build (map bstored os) files =
  RunBuild (or_else (last_of to_of os) (txt "system.dic")) (or_else (last_of matrix_of os) []) files (or_else (last_of about_of os) []).
Proof.
  intros os files. cbn [run_with].
  rewrite (value_last _ bstored (lit "out_file") to_of) by (intros o _; destruct o; (reflexivity || discriminate)).
  rewrite (value_last _ bstored (lit "matrix_file") matrix_of) by (intros o _; destruct o; (reflexivity || discriminate)).
  rewrite (value_last _ bstored (lit "description") about_of) by (intros o _; destruct o; (reflexivity || discriminate)).
  reflexivity.
Qed.
Lemma ubuild_run : forall os files,
  run_with UserBuild (map ustored os) files =
  RunUserBuild (or_else (last_of uto_of os) (txt "user.dic")) (last_of system_of os) files (or_else (last_of uabout_of os) []).
Proof.
  intros os files. cbn [run_with].
  rewrite (value_last _ ustored (lit "out_file") uto_of) by (intros o _; destruct o; (reflexivity || discriminate)).
  rewrite (value_last _ ustored (lit "system_dic") system_of) by (intros o _; destruct o; (reflexivity || discriminate)).
  rewrite (value_last _ ustored (lit "description") uabout_of) by (intros o _; destruct o; (reflexivity || discriminate)).
  reflexivity.
Qed.

Lemma plain_all : forall l, Forall (fun f => is_option f = false) l <-> Forall no_option l.
Proof. intros l; split; intros F; (eapply Forall_impl; [|exact F]); intros x H; apply plain_iff; exact H. Qed.

Lemma parsed_tk : forall r ns files, parse_sub parser_tk r [] None false false = Parsed ns files <->
  exists os1 os2, r = flat_map written os1 ++ files ++ flat_map written os2 /\ Forall option_ok (os1 ++ os2) /\ Forall no_option files /\ ns = map tstored (os1 ++ os2).
Proof.
  intros r ns files. rewrite parse_iff. split.
  - intros (l1 & n1 & l2 & n2 & -> & W1 & W2 & -> & F & _ & _). apply wr_tk in W1, W2.
    destruct W1 as (os1 & -> & F1 & ->). destruct W2 as (os2 & -> & F2 & ->). exists os1, os2.
    rewrite map_app. repeat split; auto; [apply Forall_app; split; assumption|apply plain_all; exact F].
  - intros (os1 & os2 & -> & F & G & ->). apply Forall_app in F. destruct F as [F1 F2].
    exists (flat_map written os1), (map tstored os1), (flat_map written os2), (map tstored os2).
    repeat split; [apply wr_tk; eauto|apply wr_tk; eauto|apply map_app|apply plain_all; exact G|discriminate].
Qed.
Lemma required_matrix : forall os, required_ok parser_bd (map bstored os) = true <-> exists f, In (Matrix f) os.
Proof.
  intros os. unfold required_ok. cbn [sp_required parser_bd forallb]. rewrite andb_true_r, existsb_exists. split.
  - intros (x & I & T). apply in_map_iff in I. destruct I as ([f|f|f] & <- & I); [discriminate T|discriminate T|eauto].
  - intros (f & I). exists (bstored (Matrix f)). split; [apply in_map; exact I|reflexivity].
Qed.
Lemma parsed_bd : forall r ns files, parse_sub parser_bd r [] None false false = Parsed ns files <->
  exists os1 os2, r = flat_map bwritten os1 ++ files ++ flat_map bwritten os2 /\ Forall boption_ok (os1 ++ os2) /\ Forall no_option files /\ ns = map bstored (os1 ++ os2)
    /\ files <> [] /\ exists f, In (Matrix f) (os1 ++ os2).
Proof.
  intros r ns files. rewrite parse_iff. split.
  - intros (l1 & n1 & l2 & n2 & -> & W1 & W2 & -> & F & R & P). apply wr_bd in W1, W2.
    destruct W1 as (os1 & -> & F1 & ->). destruct W2 as (os2 & -> & F2 & ->). exists os1, os2.
    rewrite map_app. repeat split; auto; [apply Forall_app; split; assumption|apply plain_all; exact F|].
    apply required_matrix. rewrite map_app. exact R.
  - intros (os1 & os2 & -> & F & G & -> & N & M). apply Forall_app in F. destruct F as [F1 F2].
    exists (flat_map bwritten os1), (map bstored os1), (flat_map bwritten os2), (map bstored os2).
    repeat split; [apply wr_bd; eauto|apply wr_bd; eauto|apply map_app|apply plain_all; exact G|apply required_matrix; exact M|intros _; exact N].
Qed.
Lemma parsed_ubd : forall r ns files, parse_sub parser_ubd r [] None false false = Parsed ns files <->
  exists os1 os2, r = flat_map uwritten os1 ++ files ++ flat_map uwritten os2 /\ Forall uoption_ok (os1 ++ os2) /\ Forall no_option files /\ ns = map ustored (os1 ++ os2) /\ files <> [].
Proof.
  intros r ns files. rewrite parse_iff. split.
  - intros (l1 & n1 & l2 & n2 & -> & W1 & W2 & -> & F & R & P). apply wr_ubd in W1, W2.
    destruct W1 as (os1 & -> & F1 & ->). destruct W2 as (os2 & -> & F2 & ->). exists os1, os2.
    rewrite map_app. repeat split; auto; [apply Forall_app; split; assumption|apply plain_all; exact F].
  - intros (os1 & os2 & -> & F & G & -> & N). apply Forall_app in F. destruct F as [F1 F2].
    exists (flat_map uwritten os1), (map ustored os1), (flat_map uwritten os2), (map ustored os2).
    repeat split; [apply wr_ubd; eauto|apply wr_ubd; eauto|apply map_app|apply plain_all; exact G|intros _; exact N].
Qed.

Lemma modelled_app : forall a b, modelled (a ++ b) = modelled a && modelled b.
Proof. intros a b. apply forallb_app. Qed.
Lemma set_default_cases : forall args,
  (set_default_subparser args = args) \/ (set_default_subparser args = lit "tokenize" :: args /\ forall n, In n names -> ~ In n args).
Proof.
  intros args. unfold set_default_subparser. destruct (existsb is_help args); [left; reflexivity|].
  destruct (existsb _ args) eqn:E; [left; reflexivity|]. right. split; [reflexivity|]. intros n I J.
  apply named_iff in I. destruct I as (c & Q).
  assert (T : existsb (fun a => match command_of a with Some _ => true | None => false end) args = true) by (apply existsb_exists; exists n; rewrite Q; auto).
  rewrite T in E. discriminate.
Qed.
Lemma set_default_inserts : forall args, (forall n, In n names -> ~ In n args) -> existsb is_help args = false ->
  set_default_subparser args = lit "tokenize" :: args.
Proof.
  intros args N H. unfold set_default_subparser. rewrite H.
  destruct (existsb (fun a => match command_of a with Some _ => true | None => false end) args) eqn:E; [|reflexivity]. apply existsb_exists in E. destruct E as (n & I & T).
  destruct (command_of n) as [c|] eqn:Q; [|discriminate]. destruct (N n); [apply named_iff; eauto|exact I].
Qed.
Lemma written_nohelp : forall os, Forall option_ok os -> existsb is_help (flat_map written os) = false.
Proof.
  intros os F. induction F as [|o os K F IH]; [reflexivity|]. cbn [flat_map]. rewrite existsb_app, IH, orb_false_r.
  destruct o as [f|[]|f|[]| | |[]]; try reflexivity; cbn [option_ok] in K; apply plain_iff in K; cbn [written existsb];
    (destruct (is_help f) eqn:E; [apply help_option in E; congruence|reflexivity]).
Qed.
Lemma plain_nohelp : forall l, Forall no_option l -> existsb is_help l = false.
Proof.
  intros l F. destruct (existsb is_help l) eqn:E; [|reflexivity]. apply existsb_exists in E. destruct E as (x & I & H).
  rewrite Forall_forall in F. apply F, plain_iff in I. apply help_option in H. congruence.
Qed.

(** ** Theorems *)
(** C85 for the analysis: it runs exactly when the arguments are its options and files, in the
    forms the usage text gives, with the last value of each option *)
Theorem C85_tokenize : forall args a debug,
  invocation_of args = RunTokenize a debug <->
  exists os files, tokenize_args args os files /\ debug = given is_debug os /\
    a = TokArgs (given is_version os) files (last_of S_Main.output_of os) (or_else (last_of S_Main.mode_of os) (txt "C")) (given is_all os) (last_of setting_of os) (last_of type_of os).
Proof.
  intros args a debug. split.
  - intros H. apply runs_iff in H; [|discriminate..]. destruct H as (c & r & ns & files & S & P & E).
    destruct c; [|discriminate E|discriminate E]. apply parsed_tk in P. destruct P as (os1 & os2 & -> & F & G & ->).
    rewrite tokenize_run in E.
    exists (os1 ++ os2), files. split; [|split; [congruence|congruence]].
    destruct (set_default_cases args) as [D|[D N]]; rewrite D in S.
    + exists true, os1, os2. split; [reflexivity|]. split; [exact S|]. split; [discriminate|]. split; assumption.
    + exists false, os1, os2. split; [reflexivity|]. split; [exact (f_equal (@tl text) S)|]. split; [intros _; exact N|]. split; assumption.
  - intros (os & files & (named & os1 & os2 & -> & -> & N & F & G) & -> & ->).
    rewrite <- tokenize_run.
    assert (P : parse_sub parser_tk (flat_map written os1 ++ files ++ flat_map written os2) [] None false false = Parsed (map tstored (os1 ++ os2)) files)
      by (apply parsed_tk; exists os1, os2; auto).
    apply Forall_app in F. destruct F as [F1 F2].
    assert (M : modelled (flat_map written os1 ++ files ++ flat_map written os2) = true)
      by (rewrite !modelled_app, (proj1 (written_modelled os1 files F1 G)), (proj1 (written_modelled os2 files F2 G)), (proj2 (written_modelled os1 files F1 G)); reflexivity).
    destruct named.
    + apply (runs_named Tokenize); assumption.
    + cbn [app] in *. specialize (N eq_refl). rewrite <- (runs_named Tokenize _ _ _ M P). unfold invocation_of.
      assert (M' : modelled (command_name Tokenize :: flat_map written os1 ++ files ++ flat_map written os2) = true) by (unfold modelled in *; cbn [forallb]; rewrite M; reflexivity).
      rewrite M, M', set_default_named, set_default_inserts; [reflexivity|exact N|].
      rewrite !existsb_app, (written_nohelp _ F1), (written_nohelp _ F2), (plain_nohelp _ G). reflexivity.
Qed.
(** C85 for the building of a system dictionary *)
Theorem C85_build : forall args out matrix ins description,
  invocation_of args = RunBuild out matrix ins description <->
  exists os, build_args args os ins /\ last_of matrix_of os = Some matrix /\
    out = or_else (last_of to_of os) (txt "system.dic") /\ description = or_else (last_of about_of os) [].
Proof.
  intros args out matrix ins description. split.
  - intros H. apply runs_iff in H; [|discriminate..]. destruct H as (c & r & ns & files & S & P & E).
    destruct c; [discriminate E| |discriminate E]. apply parsed_bd in P. destruct P as (os1 & os2 & -> & F & G & -> & N & f & I).
    rewrite build_run in E.
    assert (S' : args = txt "build" :: flat_map bwritten os1 ++ files ++ flat_map bwritten os2) by (destruct (set_default_cases args) as [D|[D _]]; rewrite D in S; [exact S|discriminate S]).
    inversion E; subst. exists (os1 ++ os2). split; [exists os1, os2; repeat split; eauto|]. split; [|split; reflexivity].
    clear - I. revert I. generalize (os1 ++ os2). intros os I. induction os as [|o r IH]; [destruct I|]. cbn [last_of].
    destruct (last_of matrix_of r) eqn:Q; [reflexivity|]. destruct I as [->|I]; [reflexivity|]. specialize (IH I). cbn [or_else] in IH. discriminate IH.
  - intros (os & (os1 & os2 & -> & -> & F & G & N & M) & Q & -> & ->).
    replace matrix with (or_else (last_of matrix_of (os1 ++ os2)) []) by (rewrite Q; reflexivity). rewrite <- build_run.
    pose proof F as F'. apply Forall_app in F'. destruct F' as [F1 F2].
    apply (runs_named Build).
    + rewrite !modelled_app, (bwritten_modelled os1 F1), (bwritten_modelled os2 F2), (proj2 (written_modelled [] ins (Forall_nil _) G)). reflexivity.
    + apply parsed_bd. exists os1, os2. repeat split; auto.
Qed.
(** C85 for the building of a user dictionary *)
Theorem C85_ubuild : forall args out system ins description,
  invocation_of args = RunUserBuild out system ins description <->
  exists os, ubuild_args args os ins /\ system = last_of system_of os /\
    out = or_else (last_of uto_of os) (txt "user.dic") /\ description = or_else (last_of uabout_of os) [].
Proof.
  intros args out system ins description. split.
  - intros H. apply runs_iff in H; [|discriminate..]. destruct H as (c & r & ns & files & S & P & E).
    destruct c; [discriminate E|discriminate E|]. apply parsed_ubd in P. destruct P as (os1 & os2 & -> & F & G & -> & N).
    rewrite ubuild_run in E.
    assert (S' : args = txt "ubuild" :: flat_map uwritten os1 ++ files ++ flat_map uwritten os2) by (destruct (set_default_cases args) as [D|[D _]]; rewrite D in S; [exact S|discriminate S]).
    inversion E; subst. exists (os1 ++ os2). split; [exists os1, os2; repeat split; auto|]. repeat split.
  - intros (os & (os1 & os2 & -> & -> & F & G & N) & -> & -> & ->). rewrite <- ubuild_run.
    pose proof F as F'. apply Forall_app in F'. destruct F' as [F1 F2].
    apply (runs_named UserBuild).
    + rewrite !modelled_app, (uwritten_modelled os1 F1), (uwritten_modelled os2 F2), (proj2 (written_modelled [] ins (Forall_nil _) G)). reflexivity.
    + apply parsed_ubd. exists os1, os2. repeat split; auto.
Qed.

Lemma modelled_iff : forall args, modelled args = true <-> (forall x, In x args -> no_option x \/ In x option_strings).
Proof.
  intros args. unfold modelled. rewrite forallb_forall. split; intros H x I; specialize (H x I).
  - apply orb_true_iff in H. destruct H as [H|H]; [left; apply plain_iff; apply negb_true_iff; exact H|right].
    apply existsb_exists in H. destruct H as ([n y] & J & T). cbn [fst] in T. apply teqb_eq in T. subst.
    apply (in_map fst) in J. exact J.
  - destruct H as [H|H]; [apply plain_iff in H; rewrite H; reflexivity|]. apply orb_true_iff. right. apply existsb_exists.
    change option_strings with (map fst (sp_options parser_tk)) in H. apply in_map_iff in H. destruct H as (y & <- & J). exists y. split; [exact J|apply teqb_refl].
Qed.
Lemma written_plain : forall os x, Forall option_ok os -> In x (flat_map written os) -> is_help x = false.
Proof.
  intros os x F I. pose proof (written_nohelp os F) as N. destruct (is_help x) eqn:H; [|reflexivity].
  assert (T : existsb is_help (flat_map written os) = true) by (apply existsb_exists; eauto). congruence.
Qed.

Section main.
Variable join : text -> text -> text.
Variable is_absolute : text -> bool.
Variable DEFAULT_RESOURCEDIR : text.
Variable int16 int10 : text -> res Z.
Variable pop : list range -> option (range * list range).
Variable order : list cat -> list cat.
Variable lower : Z -> text.
Variable nfkc : text -> text.
Variable search : bytes -> bytes -> list (Z * nat).
Variable limit : nat.
Variable parse : text -> res conf.
Variable installed : text -> option text.
Variable dirname : text -> text.
Variable DEFAULT_SETTINGFILE : text.
Variable mentions : text -> json -> res bool.
Variable str : Z -> text.
Variable version : text.
Variable py_int : text -> res Z.
Variable is_digit : Z -> bool.
Variable trie_array : list (bytes * Z) -> res bytes.
Variable locale_decode : bytes -> res text.
(** The state of the process, standard input, the time, the system dictionary of the settings *)
Variable st : state.
Variable stdin : text.
Variable now : Z.
Variable default : res text.
Local Notation sudachipy := (main join is_absolute DEFAULT_RESOURCEDIR int16 int10 pop order lower nfkc search limit parse installed dirname DEFAULT_SETTINGFILE mentions str version
  py_int is_digit trie_array locale_decode st stdin now default).

(** Without the name of a command, the command is `tokenize` *)
Theorem C85_default : forall d args,
  (forall n, In n names -> ~ In n args) -> ~ In (txt "-h") args -> ~ In (txt "--help") args ->
  sudachipy d args = sudachipy d (txt "tokenize" :: args).
Proof.
  intros d args N H1 H2. unfold main.
  assert (E : invocation_of args = invocation_of (txt "tokenize" :: args)).
  { unfold invocation_of. change (txt "tokenize") with (command_name Tokenize).
    assert (M : modelled (command_name Tokenize :: args) = modelled args) by reflexivity. rewrite M.
    destruct (modelled args); [|reflexivity]. rewrite set_default_named, set_default_inserts; [reflexivity|exact N|].
    destruct (existsb is_help args) eqn:E; [|reflexivity]. apply existsb_exists in E. destruct E as (x & I & T). exfalso.
    apply orb_true_iff in T. destruct T as [T|T]; apply teqb_eq in T; subst; contradiction. }
  rewrite E. reflexivity.
Qed.
(** Arguments of none of the forms: the tool says so (or shows the help) and touches nothing *)
Theorem C85_otherwise : forall d args,
  (forall x, In x args -> no_option x \/ In x option_strings) ->
  (forall os files, ~ tokenize_args args os files) -> (forall os files, ~ build_args args os files) -> (forall os files, ~ ubuild_args args os files) ->
  sudachipy d args = Some (d, [], Exit 0) \/ sudachipy d args = Some (d, [], Exit 2).
Proof.
  intros d args M T B U. apply modelled_iff in M. unfold main. destruct (invocation_of args) eqn:E.
  - left; reflexivity.
  - right; reflexivity.
  - apply C85_tokenize in E. destruct E as (os & files & W & _). destruct (T _ _ W).
  - apply C85_build in E. destruct E as (os & W & _). destruct (B _ _ W).
  - apply C85_ubuild in E. destruct E as (os & W & _). destruct (U _ _ W).
  - exfalso. unfold invocation_of in E. rewrite M in E. revert E. generalize (set_default_subparser args), false.
    induction l as [|a l IH]; intros b; cbn [parse_root]; [destruct b; discriminate|].
    destruct (is_option a); [destruct (is_help a); [discriminate|apply IH]|]. destruct (command_of a) as [c|]; [|discriminate].
    destruct (parse_sub _ l [] None false false); [discriminate|discriminate|]. destruct b; [discriminate|]. destruct c; discriminate.
Qed.
(** Asking for help anywhere runs no command *)
Theorem C85_help : forall d args,
  (forall x, In x args -> no_option x \/ In x option_strings) -> In (txt "-h") args \/ In (txt "--help") args ->
  sudachipy d args = Some (d, [], Exit 0) \/ sudachipy d args = Some (d, [], Exit 2).
Proof.
  intros d args M H.
  assert (X : exists x, In x args /\ is_help x = true) by (destruct H; eexists; split; eauto).
  destruct X as (x & I & T).
  assert (G : forall l, Forall no_option l -> ~ In x l).
  { intros l F J. rewrite Forall_forall in F. apply F, plain_iff in J. apply help_option in T. congruence. }
  apply C85_otherwise; [exact M|intros os files W..].
  - destruct W as (named & os1 & os2 & -> & -> & _ & F & P). apply Forall_app in F. destruct F as [F1 F2].
    rewrite !in_app_iff in I. destruct I as [I|[I|[I|I]]].
    + destruct named; [|destruct I]. destruct I as [<-|[]]. discriminate T.
    + apply (written_plain _ _ F1) in I. congruence.
    + apply (G _ P I).
    + apply (written_plain _ _ F2) in I. congruence.
  - destruct W as (os1 & os2 & -> & -> & F & P & _). destruct I as [<-|I]; [discriminate T|]. rewrite !in_app_iff in I.
    assert (K : forall os, Forall boption_ok os -> ~ In x (flat_map bwritten os)).
    { intros os Fo J. apply in_flat_map in J. destruct J as (o & J & W). rewrite Forall_forall in Fo. apply Fo in J.
      destruct o; (destruct W as [<-|[<-|[]]]; [discriminate T|]); apply plain_iff in J; apply help_option in T; congruence. }
    apply Forall_app in F. destruct F as [F1 F2]. destruct I as [I|[I|I]]; [exact (K _ F1 I)|exact (G _ P I)|exact (K _ F2 I)].
  - destruct W as (os1 & os2 & -> & -> & F & P & _). destruct I as [<-|I]; [discriminate T|]. rewrite !in_app_iff in I.
    assert (K : forall os, Forall uoption_ok os -> ~ In x (flat_map uwritten os)).
    { intros os Fo J. apply in_flat_map in J. destruct J as (o & J & W). rewrite Forall_forall in Fo. apply Fo in J.
      destruct o; (destruct W as [<-|[<-|[]]]; [discriminate T|]); apply plain_iff in J; apply help_option in T; congruence. }
    apply Forall_app in F. destruct F as [F1 F2]. destruct I as [I|[I|I]]; [exact (K _ F1 I)|exact (G _ P I)|exact (K _ F2 I)].
Qed.
(** -v: the version and nothing else, whatever the other options and the files are *)
Theorem C85_version : forall d args os files, tokenize_args args os files -> given is_version os = true ->
  sudachipy d args = Some (d, [version], Done).
Proof.
  intros d args os files W V. unfold main.
  rewrite (proj2 (C85_tokenize args _ _) (ex_intro _ os (ex_intro _ files (conj W (conj eq_refl eq_refl))))).
  unfold command_debug, command_tokenize. cbn [ta_version]. rewrite V. destruct (given is_debug os); reflexivity.
Qed.

(** The command runs with these values, the disk and standard input as they are *)
Theorem C85_runs : forall d args,
  (forall os files, tokenize_args args os files -> given is_debug os = false ->
     sudachipy d args = Some (command_tokenize join is_absolute DEFAULT_RESOURCEDIR int16 int10 pop order lower nfkc search limit parse installed dirname DEFAULT_SETTINGFILE mentions str version st stdin d
       (TokArgs (given is_version os) files (last_of S_Main.output_of os) (or_else (last_of S_Main.mode_of os) (txt "C")) (given is_all os) (last_of setting_of os) (last_of type_of os)))) /\
  (forall os files matrix, build_args args os files -> last_of matrix_of os = Some matrix ->
     exists d' x, sudachipy d args = Some (d', [], x) /\
       command_build py_int is_digit trie_array locale_decode d (or_else (last_of to_of os) (txt "system.dic")) matrix files now (or_else (last_of about_of os) []) = (d', x)) /\
  (forall os files, ubuild_args args os files ->
     exists d' x, sudachipy d args = Some (d', [], x) /\
       command_user_build py_int is_digit trie_array search limit d default (last_of system_of os) (or_else (last_of uto_of os) (txt "user.dic")) files now (or_else (last_of uabout_of os) []) = (d', x)).
Proof.
  intros d args. split; [|split].
  - intros os files W D. unfold main.
    rewrite (proj2 (C85_tokenize args _ _) (ex_intro _ os (ex_intro _ files (conj W (conj eq_refl eq_refl))))), D. reflexivity.
  - intros os files matrix W M. unfold main.
    rewrite (proj2 (C85_build args _ matrix files _) (ex_intro _ os (conj W (conj M (conj eq_refl eq_refl))))).
    destruct (command_build _ _ _ _ _ _ _ _ _ _) as [d' x]. eauto.
  - intros os files W. unfold main.
    rewrite (proj2 (C85_ubuild args _ _ files _) (ex_intro _ os (conj W (conj eq_refl (conj eq_refl eq_refl))))).
    destruct (command_user_build _ _ _ _ _ _ _ _ _ _ _ _) as [d' x]. eauto.
Qed.
(** With -d: a run that ends well would do so without, and all that it writes then is among
    what it writes with -d, in the same order and in the same place *)
Theorem C85_debug : forall d args args' os os' files d1 rs1,
  tokenize_args args os files -> given is_debug os = true ->
  tokenize_args args' os' files -> os' = filter (fun o => negb (is_debug o)) os ->
  sudachipy d args = Some (d1, rs1, Done) ->
  exists d2 rs2, sudachipy d args' = Some (d2, rs2, Done) /\
    ((d1 = d /\ d2 = d /\ among rs2 rs1) \/
     (rs1 = [] /\ rs2 = [] /\ exists D p l1 l2, d1 = put_file D p (logged l1) /\ d2 = put_file D p (logged l2) /\ among l2 l1)).
Proof.
  intros d args args' os os' files d1 rs1 W D W' -> H. unfold main in *.
  rewrite (proj2 (C85_tokenize args _ _) (ex_intro _ os (ex_intro _ files (conj W (conj eq_refl eq_refl))))), D in H.
  rewrite (proj2 (C85_tokenize args' _ _) (ex_intro _ _ (ex_intro _ files (conj W' (conj eq_refl eq_refl))))).
  assert (G : forall (f : tokenize_option -> bool), (forall o, is_debug o = true -> f o = false) -> given f (filter (fun o => negb (is_debug o)) os) = given f os).
  { intros f F. unfold given. clear - F. induction os as [|o r IH]; [reflexivity|]. cbn [filter existsb]. destruct (is_debug o) eqn:E; cbn [negb]; [rewrite (F o E); exact IH|cbn [existsb]; rewrite IH; reflexivity]. }
  assert (L : forall (f : tokenize_option -> option text), (forall o, is_debug o = true -> f o = None) -> last_of f (filter (fun o => negb (is_debug o)) os) = last_of f os).
  { intros f F. clear - F. induction os as [|o r IH]; [reflexivity|]. cbn [filter last_of]. destruct (is_debug o) eqn:E; cbn [negb]; [rewrite (F o E), IH; destruct (last_of f r); reflexivity|cbn [last_of]; rewrite IH; reflexivity]. }
  assert (N : given is_debug (filter (fun o => negb (is_debug o)) os) = false).
  { unfold given. clear. induction os as [|o r IH]; [reflexivity|]. cbn [filter]. destruct (is_debug o) eqn:E; cbn [negb]; [exact IH|cbn [existsb]; rewrite E; exact IH]. }
  rewrite N, !G, !L by (intros []; (reflexivity || discriminate)).
  set (a := TokArgs _ _ _ _ _ _ _) in *. clearbody a. clear - H.
  unfold command_debug in H. unfold command_tokenize.
  destruct (ta_version a). { injection H as <- <-. eexists _, _. split; [reflexivity|]. left. split; [reflexivity|]. split; [reflexivity|]. repeat constructor. }
  destruct (negb _); [discriminate|]. unfold debug_records in H. unfold tokenize_records.
  destruct (snd (dictionary_on _ _ _ _ _ _ _ _ _ _ _ _ _ _ _ _ _ _ _ _)) as [m|e]; [|destruct (M_Tokenize.output_of a); discriminate].
  destruct (match ta_ins a with [] => _ | _ => _ end) as [lines e].
  destruct (logged_lines _ _ _ _ _ _ _ _ _ _ _ _) as [l1 x] eqn:E.
  destruct x as [x|]; [destruct (M_Tokenize.output_of a); discriminate|].
  destruct (C83_command order lower nfkc search limit str m _ _ _ _ _ _ E) as (l2 & -> & A).
  destruct (M_Tokenize.output_of a) as [p|]; injection H as <- <-; eexists _, _; (split; [reflexivity|]).
  - right. split; [reflexivity|]. split; [reflexivity|]. eexists _, _, _, _. eauto.
  - left. auto.
Qed.
End main.

(** An argument that is a command name is taken for the command although it stands for a file
    or for the value of an option; and files on both sides of an option are an error *)
Theorem C85_name_refuted :
  invocation_of [txt "tokenize"; txt "ubuild"; txt "words.csv"] = RunTokenize (TokArgs false [txt "ubuild"; txt "words.csv"] None (txt "C") false None None) false
  /\ invocation_of [txt "ubuild"; txt "words.csv"] = RunUserBuild (txt "user.dic") None [txt "words.csv"] []
  /\ invocation_of [txt "-o"; txt "build"; txt "a.txt"] = Usage
  /\ invocation_of [txt "tokenize"; txt "-o"; txt "build"; txt "a.txt"] = RunTokenize (TokArgs false [txt "a.txt"] (Some (txt "build")) (txt "C") false None None) false
  /\ invocation_of [txt "a.txt"; txt "-a"; txt "b.txt"] = Usage.
Proof. repeat split; reflexivity. Qed.

Print Assumptions C85_tokenize.
Print Assumptions C85_build.
Print Assumptions C85_ubuild.
Print Assumptions C85_default.
Print Assumptions C85_otherwise.
Print Assumptions C85_help.
Print Assumptions C85_version.
Print Assumptions C85_runs.
Print Assumptions C85_debug.
Print Assumptions C85_name_refuted.

(** Options twice, before and after the files *)
Example C85_nonvacuous :
  let args := [txt "-m"; txt "B"; txt "-o"; txt "x"; txt "a.txt"; txt "-"; txt "-m"; txt "A"; txt "-a"; txt "-o"; txt "y"] in
  tokenize_args args [Mode B; Output (txt "x"); Mode A; All; Output (txt "y")] [txt "a.txt"; txt "-"]
  /\ invocation_of args = RunTokenize (TokArgs false [txt "a.txt"; txt "-"] (Some (txt "y")) (txt "A") true None None) false.
Proof.
  assert (N : forall a b, no_option (a :: b) <-> (a <> 45 \/ b = [])).
  { intros a b. unfold no_option. split; [intros H; destruct (Z.eq_dec a 45) as [->|D]; [right; destruct b; [reflexivity|destruct H; eauto]|left; exact D]|].
    intros [D|D] (c & r & E); [congruence|subst b; discriminate E]. }
  cbn zeta. split; [|reflexivity].
  exists false, [Mode B; Output (txt "x")], [Mode A; All; Output (txt "y")]. split; [reflexivity|]. split; [reflexivity|]. split.
  - intros _ n [<-|[<-|[<-|[]]]] H; cbn in H; repeat (destruct H as [H|H]; [discriminate H|]); exact H.
  - split; repeat constructor; apply N; (left; discriminate) || (right; reflexivity).
Qed.
Example C85_build_nonvacuous :
  invocation_of [txt "build"; txt "-m"; txt "matrix.def"; txt "a.csv"; txt "b.csv"; txt "-d"; txt "words"]
  = RunBuild (txt "system.dic") (txt "matrix.def") [txt "a.csv"; txt "b.csv"] (txt "words")
  /\ invocation_of [txt "ubuild"; txt "-s"; txt "system.dic"; txt "-o"; txt "u.dic"; txt "a.csv"]
  = RunUserBuild (txt "u.dic") (Some (txt "system.dic")) [txt "a.csv"] []
  /\ invocation_of [txt "build"; txt "a.csv"] = Usage /\ invocation_of [txt "ubuild"] = Usage.
Proof. repeat split. Qed.
