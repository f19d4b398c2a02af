(** C78: the command `tokenize` on files. *)
From Coq Require Import String Ascii List ZArith Lia Bool Arith Sorting.Sorted Sorting.Permutation.
From Verif Require Import Base Utf8 M_Builder M_CharCategory M_InputText M_InputPlugins M_Lattice M_Oov M_Tokenizer M_NumericParser M_PathRewrite M_Morphemes
  M_Shipped M_Bytes M_DicReader M_DicBuilder M_LexiconSet M_Front M_Resource M_Setup M_Command M_Tokenize S_Command S_Text S_Plugins S_Lattice S_Resource
  P_Config P_Total P_DicOpen P_DicSource P_DicFile Prop_Format P_LexiconSet P_Resource Prop_Tokenizer Prop_Total Prop_CharCategory Prop_Source Prop_Lexicon Prop_Resource Prop_Shipped P_Words P_Setup P_System Prop_System P_DicToy
  Prop_Front P_Live Prop_Live Prop_Where Prop_Command.
Import ListNotations.
Open Scope list_scope.
Open Scope Z_scope.

(** ** Specification *)
Definition separated (c : Z) (l : list text) : text := match l with [] => [] | x :: r => x ++ flat_map (fun y => c :: y) r end.
(** The line for a morpheme: its columns are separated by tabs *)
Definition record (str : Z -> text) (all : bool) (f : fields) : text :=
  separated 9
    ([f_surface f; separated 44 (f_pos f); f_norm f] ++
     (if all then [f_dic f; f_reading f; str (f_dictionary f); txt "[" ++ separated 44 (map str (f_synonyms f)) ++ txt "]"] else []) ++
     (if all && f_oov f then [txt "(OOV)"] else [])).
(** What is printed for the analyses of the input lines: the lines of the morphemes, then EOS *)
Definition report (str : Z -> text) (all : bool) (analyses : list (list fields)) : list text :=
  flat_map (fun fs => map (record str all) fs ++ [txt "EOS"]) analyses.
(** The lines of the input files *)
Definition lines_of_files (d : disk) (ins : list text) (ls : list text) : Prop :=
  exists lss, Forall2 (fun p ls => exists b t, d p = Some b /\ decode b = Ok t /\ file_of ls t) ins lss /\ ls = concat lss.

(** ** Lemmas *)
Lemma join_separated c l : join_with c l = separated c l.
Proof.
  destruct l as [|x l]; [reflexivity|]. cbn [separated]. revert x. induction l as [|y l IH]; intros x; [cbn; now rewrite app_nil_r|].
  change (join_with c (x :: y :: l)) with (x ++ c :: join_with c (y :: l)). rewrite IH. reflexivity.
Qed.
Lemma line_is_record str all f : M_Front.line_of str all f = record str all f.
Proof.
  unfold M_Front.line_of, record. rewrite join_separated. rewrite !join_separated. destruct all; [|reflexivity]. cbn [andb]. destruct (f_oov f); reflexivity.
Qed.
Lemma collect_all {A B} (f : A -> res B) l fs : collect f l = (fs, None) <-> mapM f l = Ok fs.
Proof.
  revert fs. induction l as [|a l IH]; intros fs; cbn [collect mapM].
  - split; intros H; assert (fs = []) as -> by congruence; reflexivity.
  - destruct (f a) as [b|e]; cbn [bind]; [|split; discriminate]. destruct (collect f l) as [bs x] eqn:E. split.
    + intros H. assert (x = None) as -> by congruence. rewrite (proj1 (IH _) eq_refl). cbn [bind]. congruence.
    + intros H. apply bind_ok in H as (bs' & H & H'). apply IH in H. congruence.
Qed.
Lemma decode_cp_scalar b c r : decode_cp b = Ok (c, r) -> is_scalar c = true.
Proof.
  unfold decode_cp, is_scalar. destruct b as [|b0 b]; [intros H; discriminate H|].
  assert (S : forall x, 0 <= x -> x <= 0x10FFFF -> is_surrogate x = false -> (0 <=? x) && (x <=? 0x10FFFF) && negb (is_surrogate x) = true).
  { intros x A B C. rewrite C. leb_t 0 x. leb_t x 0x10FFFF. reflexivity. }
  unfold is_cont. destruct ((0 <=? b0) && (b0 <=? 0x7F)) eqn:E1.
  { intros [= <- _]. Zbool. apply S; [lia|lia|]. unfold is_surrogate. leb_f 0xD800 b0. reflexivity. }
  destruct ((0xC2 <=? b0) && (b0 <=? 0xDF)) eqn:E2.
  { destruct b as [|b1 b]; [intros H; discriminate H|]. match goal with |- (if ?x then _ else _) = _ -> _ => destruct x eqn:E3; [|intros H; discriminate H] end. intros [= <- _]. Zbool. apply S; [lia|lia|].
    unfold is_surrogate. leb_f 0xD800 ((b0 - 192) * 64 + (b1 - 128)). reflexivity. }
  destruct ((0xE0 <=? b0) && (b0 <=? 0xEF)) eqn:E4.
  { destruct b as [|b1 [|b2 b]]; try (intros H; discriminate H). match goal with |- (if ?x then _ else _) = _ -> _ => destruct x eqn:E5; [|intros H; discriminate H] end. match goal with |- (if ?x then _ else _) = _ -> _ => destruct x eqn:E6; [|intros H; discriminate H] end. intros [= <- _]. Zbool. apply S; [lia|lia|assumption]. }
  destruct ((0xF0 <=? b0) && (b0 <=? 0xF4)) eqn:E7; [|intros H; discriminate H].
  destruct b as [|b1 [|b2 [|b3 b]]]; try (intros H; discriminate H). match goal with |- (if ?x then _ else _) = _ -> _ => destruct x eqn:E8; [|intros H; discriminate H] end. match goal with |- (if ?x then _ else _) = _ -> _ => destruct x eqn:E9; [|intros H; discriminate H] end. intros [= <- _]. Zbool. apply S; [lia|lia|].
  unfold is_surrogate. apply andb_false_intro2. apply Z.leb_gt. lia.
Qed.
Lemma decode_scalar b t : decode b = Ok t -> scalar_text t.
Proof.
  unfold decode. generalize (length b) as n. intros n. revert b t. induction n as [|n IH]; intros b t H.
  - destruct b; [injection H as <-; constructor|discriminate].
  - cbn [decode_fuel] in H. destruct b as [|b0 b]; [injection H as <-; constructor|]. apply bind_ok in H as ((c & r) & H1 & H). apply bind_ok in H as (t' & H2 & [= <-]).
    constructor; [eapply decode_cp_scalar; eauto|eapply IH; eauto].
Qed.
Lemma file_of_lines ls f : file_of ls f -> Forall (fun l => ~ In 10 l) ls.
Proof. induction 1; constructor; auto. Qed.
Lemma file_of_chars ls f c : file_of ls f -> (exists l, In l ls /\ In c l) -> In c f.
Proof.
  induction 1 as [|l N A B|l e r ls A B E F IH]; intros (l' & Hl & Hc); [destruct Hl|destruct Hl as [<-|[]]; exact Hc|].
  destruct Hl as [<-|Hl]; apply in_or_app; [now left|right]. apply in_or_app. right. eauto.
Qed.
Lemma raw_lines ls f : file_of ls f -> map rstrip (lines_from [] (universal f)) = ls.
Proof.
  intros F. pose proof (file_lines_spec _ _ F) as S. pose proof (file_of_lines _ _ F) as N. change (file_lines f) with (lines_from [] (universal f)) in S. clear F.
  induction S as [|raw l raws ls E S IH]; [reflexivity|]. inversion N as [|? ? N1 N2]; subst. cbn [map]. rewrite (IH N2). f_equal. destruct (rstrip_shape l N1). destruct E as [-> | ->]; assumption.
Qed.

Lemma not_dash p : p <> txt "-" -> teqb p (lit "-") = false.
Proof. intros N. destruct (teqb p (lit "-")) eqn:E; [|reflexivity]. apply teqb_eq in E. exfalso. apply N. exact E. Qed.
Lemma file_input_lines d stdin ins : ~ In (txt "-") ins -> forall raws, file_input d stdin ins = (raws, None) <-> exists ts, Forall2 (fun p t => text_on d p = Ok t) ins ts /\ raws = input_lines ts.
Proof.
  induction ins as [|p ins IH]; intros ND raws; cbn [file_input].
  - split; [intros [= <-]; exists []; split; [constructor|reflexivity]|]. intros (ts & F & ->). inversion F; subst. reflexivity.
  - rewrite (not_dash p) by (intros ->; apply ND; now left). assert (ND' : ~ In (txt "-") ins) by (intros X; apply ND; now right). specialize (IH ND'). destruct (text_on d p) as [t|e] eqn:T.
    + destruct (file_input d stdin ins) as [ls x] eqn:E. split.
      * intros [= <- ->]. destruct (proj1 (IH ls) eq_refl) as (ts & F & ->). exists (t :: ts). split; [constructor; assumption|reflexivity].
      * intros (ts & F & ->). inversion F as [|? t' ? ts' H F']; subst. assert (t' = t) by congruence. subst t'. assert (X : (ls, x) = (input_lines ts', None)) by (apply IH; eauto). injection X as -> ->. reflexivity.
    + split; [discriminate|]. intros (ts & F & ->). inversion F; subst. congruence.
Qed.
Lemma lines_of_input d stdin ins raws : ~ In (txt "-") ins -> file_input d stdin ins = (raws, None) -> lines_of_files d ins (map rstrip raws).
Proof.
  intros ND H. apply file_input_lines in H as (ts & F & ->); [|exact ND]. clear ND. unfold input_lines. induction F as [|p t ins ts H F IH].
  - exists []. split; [constructor|reflexivity].
  - destruct IH as (lss & FL & E). destruct (file_of_exists t) as (ls & FO). exists (ls :: lss). split.
    + constructor; [|exact FL]. unfold text_on in H. destruct (d p) as [b|]; [|discriminate]. exists b, t. auto.
    + cbn [map concat]. rewrite map_app, E, (raw_lines _ _ FO). reflexivity.
Qed.
Lemma lines_input d stdin ins ls : ~ In (txt "-") ins -> lines_of_files d ins ls -> exists raws, file_input d stdin ins = (raws, None) /\ map rstrip raws = ls.
Proof.
  intros ND (lss & F & ->). induction F as [|p ls ins lss (b & t & D & T & FO) F IH]; cbn [file_input].
  - exists []. split; reflexivity.
  - destruct IH as (raws & E1 & E2); [intros X; apply ND; now right|]. rewrite (not_dash p) by (intros ->; apply ND; now left).
    unfold text_on. rewrite D, T, E1. eexists. split; [reflexivity|]. cbn [concat]. rewrite map_app, E2, (raw_lines _ _ FO). reflexivity.
Qed.
Lemma lines_of_put d o ins ls : ~ In o ins -> lines_of_files (put_file d o []) ins ls <-> lines_of_files d ins ls.
Proof.
  intros N. unfold lines_of_files. split; intros (rss & F & E); exists rss; (split; [|exact E]); clear E; induction F as [|p rows ps rss (b & t & D & H) F IH]; constructor;
    try (apply IH; intros X; apply N; now right); exists b, t; rewrite put_other in * by (intros X; apply N; now left); auto.
Qed.
Lemma logged_app a b : logged (a ++ b) = logged a ++ logged b.
Proof. unfold logged. now rewrite map_app, concat_app. Qed.

Section tokenize.
Variable join : text -> text -> text.
Variable is_absolute : text -> bool.
Variable DEFAULT_RESOURCEDIR : text.
Variable int16 int10 : text -> res Z.
Variable pop : list range -> option (range * list range).
Variable order : list cat -> list cat.
Variable lower : Z -> text.
Variable nfkc : text -> text.
Variable search : bytes -> bytes -> list (Z * nat).
Variable limit : nat.
Variable parse : text -> res conf.
Variable installed : text -> option text.
Variable dirname : text -> text.
Variable DEFAULT_SETTINGFILE : text.
Variable mentions : text -> json -> res bool.
Variable str : Z -> text.
Variable version : text.
Notation md_settings := (md_settings order lower nfkc search limit).
Notation created := (created order lower nfkc search limit).
Notation get_fields := (get_fields order lower nfkc search limit).
Notation tokenize_line := (tokenize_line order lower nfkc search limit).
Notation tokenize_lines := (tokenize_lines order lower nfkc search limit str).
Notation dictionary_on := (dictionary_on join is_absolute DEFAULT_RESOURCEDIR int16 int10 pop order lower nfkc search limit parse installed dirname DEFAULT_SETTINGFILE mentions).
Notation tokenize_records := (tokenize_records join is_absolute DEFAULT_RESOURCEDIR int16 int10 pop order lower nfkc search limit parse installed dirname DEFAULT_SETTINGFILE mentions str).
Notation command_tokenize := (command_tokenize join is_absolute DEFAULT_RESOURCEDIR int16 int10 pop order lower nfkc search limit parse installed dirname DEFAULT_SETTINGFILE mentions str version).
Notation tokenize_killed := (tokenize_killed join is_absolute DEFAULT_RESOURCEDIR int16 int10 pop order lower nfkc search limit parse installed dirname DEFAULT_SETTINGFILE mentions str).

(** The morphemes that a new tokenizer of the dictionary gives for the line alone *)
Definition alone (m : made) (md : mode) (line : text) (fs : list fields) : Prop :=
  exists lat r, M_Tokenizer.run (created m) new_lattice line md = (lat, Ok r) /\
    mapM (get_fields m (morphemes_of r)) (ml_iter (morphemes_of r)) = Ok fs.

Lemma line_alone m md lat t fs lat' : good_settings (md_settings m) -> P_Config.usable (created m) lat ->
  tokenize_line m md lat t = (lat', (fs, None)) -> alone m md t fs /\ P_Config.usable (created m) lat'.
Proof.
  intros G U H. unfold M_Tokenize.tokenize_line in H. destruct (M_Tokenizer.run (created m) lat t md) as [l r] eqn:E. destruct r as [r|e]; [|discriminate H]. injection H as <- H.
  pose proof (us_success _ _ _ _ _ _ U E) as U'. split; [|exact U']. apply collect_all in H. pose proof (C20_shipped_partial (md_settings m) lat t md G U) as S.
  change (shipped (md_settings m)) with (created m) in S. rewrite E in S. cbn [snd] in S. destruct (M_Tokenizer.run (created m) new_lattice t md) as [l2 r2] eqn:E2. cbn [snd] in S. subst r2.
  exists l2, r. split; [exact E2|exact H].
Qed.
Lemma lines_alone m md all (G : good_settings (md_settings m)) : forall lines lat e rs, P_Config.usable (created m) lat -> tokenize_lines m md all lat lines e = (rs, None) ->
  e = None /\ exists fss, Forall2 (alone m md) (map rstrip lines) fss /\ rs = report str all fss.
Proof.
  induction lines as [|l lines IH]; intros lat e rs U H; cbn [M_Tokenize.tokenize_lines] in H.
  - injection H as <- ->. split; [reflexivity|]. exists []. split; [constructor|reflexivity].
  - destruct (tokenize_line m md lat (rstrip l)) as [lat' [fs x]] eqn:E. destruct x as [x|]; [discriminate H|]. destruct (tokenize_lines m md all lat' lines e) as [rs' x'] eqn:E'. injection H as <- ->.
    destruct (line_alone _ _ _ _ _ _ G U E) as (A & U'). destruct (IH _ _ _ U' E') as (-> & fss & F & ->). split; [reflexivity|]. exists (fs :: fss). split; [constructor; assumption|].
    unfold report. cbn [flat_map]. rewrite <- app_assoc. cbn [app]. f_equal. apply map_ext. intros f. apply line_is_record.
Qed.
Lemma alone_line m md lat t fs : good_settings (md_settings m) -> P_Config.usable (created m) lat -> alone m md t fs -> exists lat', tokenize_line m md lat t = (lat', (fs, None)) /\ P_Config.usable (created m) lat'.
Proof.
  intros G U (l2 & r & E2 & H). pose proof (C20_shipped_partial (md_settings m) lat t md G U) as S. change (shipped (md_settings m)) with (created m) in S. rewrite E2 in S. cbn [snd] in S.
  unfold M_Tokenize.tokenize_line. destruct (M_Tokenizer.run (created m) lat t md) as [l r'] eqn:E. cbn [snd] in S. subst r'. exists l. apply collect_all in H. rewrite H. split; [reflexivity|]. eapply us_success; eauto.
Qed.
Lemma alone_lines m md all (G : good_settings (md_settings m)) : forall lines fss, Forall2 (alone m md) (map rstrip lines) fss -> forall lat, P_Config.usable (created m) lat ->
  tokenize_lines m md all lat lines None = (report str all fss, None).
Proof.
  induction lines as [|l lines IH]; intros fss F lat U; inversion F as [|? fs ? fss' A F']; subst; [reflexivity|]. cbn [M_Tokenize.tokenize_lines].
  destruct (alone_line _ _ lat _ _ G U A) as (lat' & E & U'). rewrite E, (IH _ F' _ U'). unfold report at 2. cbn [flat_map]. rewrite <- app_assoc. cbn [app]. f_equal. f_equal. apply map_ext. intros f. apply line_is_record.
Qed.

(** A line at which the tokenizer or one of the morphemes raises [e], after the morphemes
    [part] *)
Definition fails (m : made) (md : mode) (line : text) (part : list fields) (e : exn) : Prop :=
  (part = [] /\ snd (M_Tokenizer.run (created m) new_lattice line md) = Err e) \/
  (exists lat r before i after, M_Tokenizer.run (created m) new_lattice line md = (lat, Ok r) /\ ml_iter (morphemes_of r) = before ++ i :: after /\
     mapM (get_fields m (morphemes_of r)) before = Ok part /\ get_fields m (morphemes_of r) i = Err e).
Lemma collect_fails {A B} (f : A -> res B) e : forall l part, collect f l = (part, Some e) -> exists before a after, l = before ++ a :: after /\ mapM f before = Ok part /\ f a = Err e.
Proof.
  induction l as [|a l IH]; intros part H; cbn [collect] in H; [discriminate|]. destruct (f a) as [b|x] eqn:E.
  - destruct (collect f l) as [bs y]. injection H as <- ->. destruct (IH _ eq_refl) as (l1 & a' & l2 & -> & H1 & H2). exists (a :: l1), a', l2. cbn [mapM]. rewrite E, H1. auto.
  - injection H as <- ->. exists [], a, l. auto.
Qed.
Lemma lines_fail m md all (G : good_settings (md_settings m)) x : forall lines lat rs, P_Config.usable (created m) lat -> tokenize_lines m md all lat lines None = (rs, Some x) ->
  exists before line after analyses part, map rstrip lines = before ++ line :: after /\ Forall2 (alone m md) before analyses /\ fails m md line part x /\ rs = report str all analyses ++ map (record str all) part.
Proof.
  induction lines as [|l lines IH]; intros lat rs U H; cbn [M_Tokenize.tokenize_lines] in H; [discriminate|].
  destruct (tokenize_line m md lat (rstrip l)) as [lat' [fs y]] eqn:E. destruct y as [y|].
  - injection H as <- ->. exists [], (rstrip l), (map rstrip lines), [], fs. split; [reflexivity|]. split; [constructor|]. split; [|cbn [report flat_map app]; apply map_ext; intros; apply line_is_record].
    pose proof (C20_shipped_partial (md_settings m) lat (rstrip l) md G U) as S. change (shipped (md_settings m)) with (created m) in S. unfold M_Tokenize.tokenize_line in E.
    destruct (M_Tokenizer.run (created m) lat (rstrip l) md) as [l1 [r|z]]; cbn [snd] in S; [right|left].
    + injection E as <- E. destruct (M_Tokenizer.run (created m) new_lattice (rstrip l) md) as [l2 r2] eqn:E2. cbn [snd] in S. subst r2. destruct (collect_fails _ _ _ _ E) as (b & i & a & E3 & E4 & E5). exists l2, r, b, i, a. split; [first [exact E2|reflexivity]|auto].
    + assert (fs = []) by congruence. assert (z = x) by congruence. subst fs z. auto.
  - destruct (tokenize_lines m md all lat' lines None) as [rs' y] eqn:E'. injection H as <- ->. destruct (line_alone _ _ _ _ _ _ G U E) as (A & U').
    destruct (IH _ _ U' E') as (before & line & after & fss & part & E1 & F & FA & ->). exists (rstrip l :: before), line, after, (fs :: fss), part. cbn [map]. rewrite E1. split; [reflexivity|]. split; [constructor; assumption|]. split; [exact FA|].
    unfold report. cbn [flat_map]. rewrite <- !app_assoc. cbn [app]. f_equal. apply map_ext. intros f. apply line_is_record.
Qed.

Section command.
Variables (st : state) (stdin : text) (d : disk) (a : tok_args) (o : text).
Hypothesis NV : ta_version a = false.
Hypothesis OUT : output_of a = Some o.
Hypothesis INS : ta_ins a <> [].
Hypothesis APART : ~ In o (ta_ins a).
(** "-" stands for the standard input *)
Hypothesis NODASH : ~ In (txt "-") (ta_ins a).

Lemma mode_named_of name md : mode_named name md <-> md = mode_of name.
Proof.
  unfold mode_of. destruct (teqb name (lit "A")) eqn:EA; [apply teqb_eq in EA; subst name|destruct (teqb name (lit "B")) eqn:EB; [apply teqb_eq in EB; subst name|]].
  - split; [destruct md; cbn; [reflexivity|discriminate|intros (H & _); congruence]|intros ->; reflexivity].
  - split; [destruct md; cbn; [discriminate|reflexivity|intros (_ & H); congruence]|intros ->; reflexivity].
  - split; [destruct md; cbn; [intros ->; discriminate EA|intros ->; discriminate EB|reflexivity]|]. intros ->. cbn. split; intros ->; [discriminate EA|discriminate EB].
Qed.

(** The command ends well exactly when the Dictionary can be made, the files can be read and
    every line of them is analysed; then the output file has for each line of the input the
    lines of its morphemes - those that a new tokenizer would give for this line alone - and
    an EOS. *)
Theorem C78_output_partial m md : mode_named (ta_mode a) md ->
  snd (dictionary_on (put_file d o []) st (ta_conf a) (ta_type a)) = Ok m -> good_settings (md_settings m) -> (forall p, In p (ta_ins a) -> d p <> None) ->
  forall b,
  (exists d' shown, command_tokenize st stdin d a = (d', shown, Done) /\ d' o = Some b) <->
  (exists lines analyses, lines_of_files d (ta_ins a) lines /\ Forall2 (alone m md) lines analyses /\ b = logged (report str (ta_all a) analyses)).
Proof.
  intros MN HM G EX b. apply mode_named_of in MN. subst md. unfold M_Tokenize.command_tokenize. rewrite NV.
  assert (F : forallb (exists_file d) (ta_ins a) = true). { apply forallb_forall. intros p Hp. unfold exists_file. specialize (EX p Hp). destruct (d p); congruence. }
  rewrite F. cbn [negb]. unfold opened, M_Tokenize.tokenize_records. rewrite OUT, HM. destruct (ta_ins a) as [|i0 ins] eqn:EI; [congruence|]. rewrite <- EI in *. clear EI.
  split.
  - intros (d' & shown & H & B). destruct (file_input (put_file d o []) stdin (ta_ins a)) as [raws e] eqn:E. destruct (tokenize_lines m (mode_of (ta_mode a)) (ta_all a) new_lattice raws e) as [rs x] eqn:ER.
    injection H as <- _ H. destruct x as [x|]; [discriminate H|]. rewrite put_same in B. injection B as <-.
    destruct (lines_alone _ _ _ G _ _ _ _ (us_new _) ER) as (-> & fss & FF & ->). exists (map rstrip raws), fss. split; [|auto]. apply (lines_of_put d o _ _ APART), (lines_of_input _ stdin), E; exact NODASH.
  - intros (lines & fss & L & FF & ->). apply (lines_of_put d o _ _ APART) in L. destruct (lines_input _ stdin _ _ NODASH L) as (raws & -> & <-). rewrite (alone_lines _ _ _ G _ _ FF _ (us_new _)).
    eexists _, _. split; [reflexivity|apply put_same].
Qed.

(** A line that cannot be analysed ends the command; the output file has then the lines
    before it, and the morphemes of it that answered. *)
Theorem C78_broken_off m md lines d' shown e : mode_named (ta_mode a) md ->
  snd (dictionary_on (put_file d o []) st (ta_conf a) (ta_type a)) = Ok m -> good_settings (md_settings m) -> lines_of_files d (ta_ins a) lines ->
  command_tokenize st stdin d a = (d', shown, Raised e) ->
  exists before line after analyses part, lines = before ++ line :: after /\ Forall2 (alone m md) before analyses /\ fails m md line part e /\
    d' o = Some (logged (report str (ta_all a) analyses ++ map (record str (ta_all a)) part)).
Proof.
  intros MN HM G LF H. apply mode_named_of in MN. subst md. unfold M_Tokenize.command_tokenize in H. rewrite NV in H. destruct (negb _); [discriminate H|]. unfold opened, M_Tokenize.tokenize_records in H. rewrite OUT, HM in H. destruct (ta_ins a) as [|i0 ins] eqn:EI; [congruence|]. rewrite <- EI in *. clear EI.
  apply (lines_of_put d o _ _ APART) in LF. destruct (lines_input _ stdin _ _ NODASH LF) as (raws & E & <-). rewrite E in H. destruct (tokenize_lines m (mode_of (ta_mode a)) (ta_all a) new_lattice raws None) as [rs x] eqn:ER. destruct x as [x|]; [|discriminate H]. injection H as <- _ ->.
  destruct (lines_fail _ _ _ G _ _ _ _ (us_new _) ER) as (before & line & after & fss & part & E1 & F & FA & ->). exists before, line, after, fss, part. rewrite put_same. auto.
Qed.

(** The disk: only the output file changes, at whatever moment the command ends; when it is
    killed the output file is the beginning of what the command would have written. *)
Theorem C78_only_output d' p : tokenize_killed st stdin d a d' -> p <> o -> d' p = d p.
Proof.
  intros [|q b c Hq _] N; [reflexivity|]. rewrite OUT in Hq. injection Hq as <-. unfold opened. rewrite OUT. now rewrite !put_other.
Qed.
Theorem C78_killed d' : (forall p, In p (ta_ins a) -> d p <> None) -> tokenize_killed st stdin d a d' ->
  d' = d \/ exists b c d'' shown x, d' o = Some b /\ command_tokenize st stdin d a = (d'', shown, x) /\ d'' o = Some (b ++ c).
Proof.
  intros EX [|q b c Hq E]; [now left|]. right. rewrite OUT in Hq. injection Hq as <-. unfold opened in E. rewrite OUT in E.
  unfold M_Tokenize.command_tokenize. rewrite NV.
  assert (F : forallb (exists_file d) (ta_ins a) = true). { apply forallb_forall. intros p Hp. unfold exists_file. specialize (EX p Hp). destruct (d p); congruence. }
  rewrite F. cbn [negb]. unfold opened. rewrite OUT. destruct (tokenize_records (put_file d o []) st stdin a) as [rs x] eqn:ER. cbn [fst] in E.
  exists b, c. eexists _, _, _. split; [apply put_same|]. split; [reflexivity|]. rewrite put_same, E. reflexivity.
Qed.
(** An input file that is missing is noticed before anything is written. *)
Theorem C78_missing p : In p (ta_ins a) -> d p = None -> command_tokenize st stdin d a = (d, [], Exit 1).
Proof.
  intros Hp D. unfold M_Tokenize.command_tokenize. rewrite NV. destruct (forallb (exists_file d) (ta_ins a)) eqn:F; [|reflexivity].
  rewrite forallb_forall in F. specialize (F p Hp). unfold exists_file in F. rewrite D in F. discriminate F.
Qed.
End command.
End tokenize.
Print Assumptions C78_output_partial.
Print Assumptions C78_broken_off.
Print Assumptions C78_only_output.
Print Assumptions C78_killed.
Print Assumptions C78_missing.

(** ** What the lines say *)
Section morphemes.
Variable order : list cat -> list cat.
Variable lower : Z -> text.
Variable nfkc : text -> text.
Variable search : bytes -> bytes -> list (Z * nat).
Variable limit : nat.
Notation md_settings := (md_settings order lower nfkc search limit).
Notation created := (created order lower nfkc search limit).
Notation get_fields := (get_fields order lower nfkc search limit).
Notation alone := (alone order lower nfkc search limit).

Lemma fields_str m md line fs lat r : M_Tokenizer.run (created m) new_lattice line md = (lat, Ok r) -> mapM (get_fields m (morphemes_of r)) (ml_iter (morphemes_of r)) = Ok fs ->
  ml_str (morphemes_of r) = Ok line -> concat (map f_surface fs) = line.
Proof.
  intros E H X. unfold ml_str in X. apply bind_ok in X as (ss & X & X'). assert (LL : concat ss = line) by congruence. rewrite <- LL. f_equal. clear X' LL.
  revert fs ss H X. generalize (ml_iter (morphemes_of r)) as is. induction is as [|i is IH]; intros fs ss H X; cbn [mapM] in H, X; [injection H as <-; injection X as <-; reflexivity|].
  apply bind_ok in H as (f & Hf & H). apply bind_ok in H as (fs' & H & [= <-]). apply bind_ok in X as (s & Xs & X). apply bind_ok in X as (ss' & X & [= <-]). cbn [map]. f_equal; [|eauto].
  unfold M_Tokenize.get_fields in Hf. rewrite Xs in Hf. cbn [bind] in Hf. repeat (apply bind_ok in Hf as (? & _ & Hf)). now injection Hf as <-.
Qed.

(** In mode C the surfaces of a line make up the line. *)
Theorem C78_surfaces m line fs : good_settings (md_settings m) -> alone m ModeC line fs -> concat (map f_surface fs) = line.
Proof.
  intros G (lat & r & E & H). destruct (C23_shipped (md_settings m) new_lattice line lat r G (us_new _) E) as (X & _). eapply fields_str; eauto.
Qed.
End morphemes.
Print Assumptions C78_surfaces.

Section system.
Variable text_file : text -> res text.
Variable binary_file : text -> res bytes.
Variable join : text -> text -> text.
Variable is_absolute : text -> bool.
Variable DEFAULT_RESOURCEDIR : text.
Variable int16 int10 : text -> res Z.
Variable pop : list range -> option (range * list range).
Variable order : list cat -> list cat.
Variable lower : Z -> text.
Variable nfkc : text -> text.
Variable search : bytes -> bytes -> list (Z * nat).
Variable limit : nat.
Variable py_int : text -> res Z.
Variable is_digit : Z -> bool.
Variable trie_array : list (bytes * Z) -> res bytes.
Variable parse : text -> res conf.
Variable installed : text -> option text.
Variable dirname : text -> text.
Variable DEFAULT_SETTINGFILE : text.
Variable mentions : text -> json -> res bool.
Variable str : Z -> text.
Variable version : text.
Notation make_dictionary := (make_dictionary text_file binary_file join is_absolute DEFAULT_RESOURCEDIR int16 int10 pop order lower nfkc search limit).
Notation md_settings := (md_settings order lower nfkc search limit).
Notation created := (created order lower nfkc search limit).
Notation get_fields := (get_fields order lower nfkc search limit).
Notation alone := (alone order lower nfkc search limit).
Notation built_from := (built_from binary_file join is_absolute search limit py_int is_digit trie_array).
Notation plain_resources := (plain_resources text_file join is_absolute int16).
Notation interpreter := (interpreter pop order lower nfkc).
Notation given_pos := (given_pos text_file join int10).
Notation command_tokenize := (command_tokenize join is_absolute DEFAULT_RESOURCEDIR int16 int10 pop order lower nfkc search limit parse installed dirname DEFAULT_SETTINGFILE mentions str version).

Section one.
Variables (c : conf) (rd : text) (m : made) (g0 : grammar) (sys_id : text -> Z -> text -> res Z) (system : dic) (users : list dic).
Hypothesis BF : built_from c rd g0 sys_id system users.
Hypothesis MK : make_dictionary c rd = Ok m.
Hypothesis IN : interpreter.
Hypothesis PR : plain_resources c rd.

(** The columns of a dictionary word are those of its row in the source of the dictionary of
    that number; other words have a part of speech that the settings give. *)
Theorem C78_columns md line fs f : alone m md line fs -> In f fs -> f_dictionary f <> -1 ->
  exists u j row cs, 0 <= f_dictionary f /\ nth_error (system :: users) (Z.to_nat (f_dictionary f)) = Some u /\ nth_error (dc_rows u) j = Some row /\
    Forall2 (fun c c' => unescape c = Ok c') row cs /\ f_oov f = false /\ f_pos f = slice cs 5 11 /\
    let col n := nth n cs [] in
    f_reading f = (match col 11%nat with [] => col 4%nat | _ => col 11%nat end) /\
    f_norm f = (match col 12%nat with [] => col 4%nat | _ => col 12%nat end) /\
    (col 13%nat = [42] -> f_dic f = col 4%nat) /\
    (forall n row' cs', col 13%nat <> [42] -> py_int (col 13%nat) = Ok (Z.of_nat n) -> nth_error (dc_rows u) n = Some row' ->
       Forall2 (fun c c' => unescape c = Ok c') row' cs' -> f_dic f = nth 4 cs' []).
Proof.
  intros (lat & r & E & H) Hf NK. apply mapM_Forall2 in H. destruct (in_forall2 _ _ _ _ H Hf) as (i & _ & Hi). unfold M_Tokenize.get_fields in Hi.
  apply bind_ok in Hi as (s & _ & Hi). apply bind_ok in Hi as (pos & Hp & Hi). apply bind_ok in Hi as (wi & Hw & Hi). apply bind_ok in Hi as (k & Hk & Hi). apply bind_ok in Hi as (o & Ho & Hi). injection Hi as <-. cbn in NK |- *.
  destruct (C69_dictionary_words _ _ _ _ _ _ _ _ _ _ _ _ _ _ _ _ _ _ _ _ _ _ _ BF MK IN PR new_lattice line md lat r i k (us_new _) E Hk NK) as (u & j & row & cs & wi' & A1 & A2 & A3 & A4 & _ & A5 & A6 & A7 & A8).
  exists u, j, row, cs. assert (wi' = wi) by congruence. subst wi'. assert (o = false) by congruence. assert (pos = slice cs 5 11) by congruence. repeat (split; [assumption|]). exact A8.
Qed.
Theorem C78_made_up_partial md line fs f : (forall b v, given_pos c rd b v -> known system v) -> alone m md line fs -> In f fs -> f_dictionary f = -1 -> given_pos c rd (f_oov f) (strings (f_pos f)).
Proof.
  intros KN (lat & r & E & H) Hf NK. apply mapM_Forall2 in H. destruct (in_forall2 _ _ _ _ H Hf) as (i & _ & Hi). unfold M_Tokenize.get_fields in Hi.
  apply bind_ok in Hi as (s & _ & Hi). apply bind_ok in Hi as (pos & Hp & Hi). apply bind_ok in Hi as (wi & Hw & Hi). apply bind_ok in Hi as (k & Hk & Hi). apply bind_ok in Hi as (o & Ho & Hi). injection Hi as <-. cbn in NK |- *. subst k.
  destruct (C70_part_of_speech_partial _ _ _ _ _ _ _ _ _ _ _ _ _ _ _ _ _ _ _ _ _ _ _ BF MK IN PR KN new_lattice line md lat r i (us_new _) E Hk) as (o' & pos' & A1 & A2 & A3). congruence.
Qed.

Hypothesis FS : file_system text_file binary_file.
Hypothesis SI : scalar_interpreter lower nfkc.
Hypothesis CP : complete text_file join is_absolute int16 int10 py_int c rd g0 system users.
Hypothesis KN : forall b v, given_pos c rd b v -> known system v.

Section mode.
Variable md : mode.
(** the morphemes have surfaces; in mode C they always have *)
Hypothesis SURF : forall line lat r i, M_Tokenizer.run (created m) new_lattice line md = (lat, Ok r) -> (i < ml_len (morphemes_of r))%nat -> exists s, ml_surface (morphemes_of r) i = Ok s.

Lemma alone_total line : scalar_text line -> (forall it, run_prepare (created m) line = Ok it -> Z.of_nat (length (it_bytes it)) <= 32766) -> exists fs, alone m md line fs.
Proof.
  intros S L. destruct line as [|x line]; [exists [], new_lattice, None; split; reflexivity|].
  destruct (C71_analyses_partial _ _ _ _ _ _ _ _ _ _ _ _ _ _ _ _ _ _ _ _ _ _ _ BF MK IN PR FS SI CP new_lattice (x :: line) md (us_new _) S) as (it & E & H); [discriminate|].
  destruct (H (L it E)) as (lat & r & ER & _ & _ & A).
  assert (X : exists fs, mapM (get_fields m (morphemes_of r)) (ml_iter (morphemes_of r)) = Ok fs).
  { assert (B : Forall (fun i => exists f, get_fields m (morphemes_of r) i = Ok f) (ml_iter (morphemes_of r))).
    { apply Forall_forall. intros i Hi. apply in_seq in Hi. destruct (A i) as ((wi & A1) & (o & A2) & _ & A4); [unfold ml_len; lia|]. destruct (SURF _ _ _ i ER) as (s & A3'); [unfold ml_len; lia|]. destruct (A4 KN) as (pos & A4').
      unfold M_Tokenize.get_fields. rewrite A3'. cbn [bind]. rewrite A4'. cbn [bind]. rewrite A1. cbn [bind]. unfold ml_is_oov in A2. apply bind_ok in A2 as (w & Ew & A2). unfold ml_dictionary_id. rewrite Ew. cbn [bind]. unfold ml_is_oov. rewrite Ew. cbn [bind]. eauto. }
    clear -B. induction B as [|i is (f & Hf) B (fs & IH)]; cbn [mapM]; [eauto|]. rewrite Hf, IH. cbn [bind]. eauto. }
  destruct X as (fs & X). exists fs, lat, r. auto.
Qed.

Lemma command_total st st' stdin d a o lines :
  ta_version a = false -> output_of a = Some o -> ta_ins a <> [] -> ~ In o (ta_ins a) -> ~ In (txt "-") (ta_ins a) -> mode_named (ta_mode a) md ->
  let d1 := put_file d o [] in
  set_up (fun path => t <- text_on d1 path ;; parse t) installed dirname DEFAULT_SETTINGFILE mentions st (ta_conf a) None (ta_type a) = (st', Ok tt) ->
  st_dict st' = Some c -> st_resource_dir st' = Some rd ->
  (forall p, named_binary join is_absolute c rd p -> binary_file p = binary_on d1 p) ->
  (forall p, named_text join is_absolute DEFAULT_RESOURCEDIR c rd p -> text_file p = text_on d1 p) ->
  lines_of_files d (ta_ins a) lines ->
  (forall line it, In line lines -> run_prepare (created m) line = Ok it -> Z.of_nat (length (it_bytes it)) <= 32766) ->
  exists d' analyses, command_tokenize st stdin d a = (d', [], Done) /\ Forall2 (alone m md) lines analyses /\
    d' o = Some (logged (report str (ta_all a) analyses)) /\ (forall p, p <> o -> d' p = d p).
Proof.
  intros NV OUT INS AP ND MD d1 SU SC SR NB NT LF LEN. subst d1. pose proof (settings_good _ _ _ _ _ _ _ _ _ _ _ _ _ _ _ _ _ _ _ _ _ _ _ BF MK IN PR) as G.
  assert (HM : snd (dictionary_on join is_absolute DEFAULT_RESOURCEDIR int16 int10 pop order lower nfkc search limit parse installed dirname DEFAULT_SETTINGFILE mentions (put_file d o []) st (ta_conf a) (ta_type a)) = Ok m).
  { unfold dictionary_on, new_dictionary. rewrite SU, SC, SR. cbn [snd].
    rewrite <- (C74_files text_file (text_on (put_file d o [])) binary_file (binary_on (put_file d o [])) join is_absolute DEFAULT_RESOURCEDIR int16 int10 pop order lower nfkc search limit c rd NB NT). exact MK. }
  assert (FA : exists fss, Forall2 (alone m md) lines fss).
  { assert (SL : Forall scalar_text lines).
    { destruct LF as (lss & F & ->). clear -F. induction F as [|p ls ps lss (b & t & D & T & FO) F IH]; [constructor|]. cbn [concat]. apply Forall_app. split; [|exact IH]. apply decode_scalar in T.
      apply Forall_forall. intros l Hl. apply Forall_forall. intros x Hx. unfold scalar_text in T. rewrite Forall_forall in T. apply T. eapply file_of_chars; eauto. }
    clear LF. induction lines as [|l ls IH]; [exists []; constructor|]. apply Forall_cons_iff in SL as (S1 & S2). destruct IH as (fss & F); [intros; eapply LEN; eauto; now right|assumption|].
    destruct (alone_total l) as (fs & A); [assumption|intros it E; exact (LEN l it (or_introl eq_refl) E)|]. exists (fs :: fss). constructor; assumption. }
  destruct FA as (fss & FA).
  assert (EX : forall p, In p (ta_ins a) -> d p <> None).
  { destruct LF as (lss & F & _). clear -F. induction F as [|p ls ps lss (b & t & D & _) F IH]; intros q Hq; [destruct Hq|]. destruct Hq as [<-|Hq]; [congruence|exact (IH q Hq)]. }
  destruct (proj2 (C78_output_partial join is_absolute DEFAULT_RESOURCEDIR int16 int10 pop order lower nfkc search limit parse installed dirname DEFAULT_SETTINGFILE mentions str version st stdin d a o NV OUT INS AP ND m md MD HM G EX (logged (report str (ta_all a) fss)))) as (d' & shown & E & B).
  { exists lines, fss. auto. }
  assert (shown = [] /\ forall p, p <> o -> d' p = d p) as (-> & O).
  { clear -E OUT NV. unfold M_Tokenize.command_tokenize in E. rewrite NV in E. destruct (negb _); [discriminate E|]. destruct (M_Tokenize.tokenize_records _ _ _ _ _ _ _ _ _ _ _ _ _ _ _ _ _ _ _ _ _) as [rs x]. unfold opened in E. rewrite OUT in E.
    assert (E1 : put_file (put_file d o []) o (logged rs) = d') by congruence. assert (E2 : [] = shown) by congruence. split; [congruence|]. intros p N. subst d'. now rewrite !put_other. }
  exists d', fss. auto.
Qed.
End mode.

(** The command from files to files: with settings, dictionaries and resources of C71, every
    input is analysed to its end in mode C.  The files that the settings name are on the disk,
    and the output file is none of them. *)
Theorem C78_total_partial st st' stdin d a o lines :
  ta_version a = false -> output_of a = Some o -> ta_ins a <> [] -> ~ In o (ta_ins a) -> ~ In (txt "-") (ta_ins a) -> mode_named (ta_mode a) ModeC ->
  let d1 := put_file d o [] in
  set_up (fun path => t <- text_on d1 path ;; parse t) installed dirname DEFAULT_SETTINGFILE mentions st (ta_conf a) None (ta_type a) = (st', Ok tt) ->
  st_dict st' = Some c -> st_resource_dir st' = Some rd ->
  (forall p, named_binary join is_absolute c rd p -> binary_file p = binary_on d1 p) ->
  (forall p, named_text join is_absolute DEFAULT_RESOURCEDIR c rd p -> text_file p = text_on d1 p) ->
  lines_of_files d (ta_ins a) lines ->
  (forall line it, In line lines -> run_prepare (created m) line = Ok it -> Z.of_nat (length (it_bytes it)) <= 32766) ->
  exists d' analyses, command_tokenize st stdin d a = (d', [], Done) /\ Forall2 (alone m ModeC) lines analyses /\
    d' o = Some (logged (report str (ta_all a) analyses)) /\ (forall p, p <> o -> d' p = d p).
Proof.
  intros NV OUT INS AP ND MD. pose proof (settings_good _ _ _ _ _ _ _ _ _ _ _ _ _ _ _ _ _ _ _ _ _ _ _ BF MK IN PR) as G. eapply command_total; eauto.
  intros line lat r i E Hi. destruct (C23_shipped (md_settings m) new_lattice line lat r G (us_new _) E) as (_ & X). destruct (X i Hi) as (b & e & _ & _ & _ & Q & _). eauto.
Qed.
End one.
End system.
Print Assumptions C78_columns.
Print Assumptions C78_made_up_partial.
Print Assumptions C78_total_partial.

(** ** The hypotheses are met: the toy Dictionary of Prop_System on a disk *)
Definition toy_lines : list text := [[26481; 20140; 37117; 65; 66]; []; [0x30A2; 0x30A2; 0x30A2]].
(** the second line ends with CR LF, the last one with the file *)
Definition toy_input : text := [26481; 20140; 37117; 65; 66; 10; 13; 10; 0x30A2; 0x30A2; 0x30A2].
Definition run_disk (old : option bytes) : disk := fun p =>
  if teqb p (txt "/res/system.dic") then Some (dc_file toy_system) else if teqb p (txt "/res/a.dic") then Some (dc_file (nth 0 toy_users toy_system))
  else if teqb p (txt "/b.dic") then Some (dc_file (nth 1 toy_users toy_system)) else if teqb p (txt "/res/char.def") then Some (bytes_of toy_char_def)
  else if teqb p (txt "/res/unk.def") then Some (bytes_of toy_unk_def) else if teqb p (txt "/res/conf.json") then Some []
  else if teqb p (txt "i") then Some (bytes_of toy_input) else if teqb p (txt "o") then old else None.
Definition toy_parse (t : text) : res conf := Ok toy_conf.
Definition toy_str (z : Z) : text := [48 + z].
Definition toy_args (ins : list text) (conf_path : text) : tok_args := TokArgs false ins (Some (txt "o")) (txt "C") true (Some conf_path) None.
Definition toy_tokenize d a :=
  command_tokenize toy_join toy_absolute (txt "/default") sample_int16 sample_int10 pop_first (fun l => l) (fun x => [x]) (fun t => t) toy_search 10 toy_parse (fun _ => None) (fun _ => toy_dir) (txt "/default/conf.json")
    (fun _ _ => Ok false) toy_str (txt "1") fresh [] d a.
Definition toy_alone := alone (fun l => l) (fun x => [x]) (fun t => t) toy_search 10 toy_made.

Lemma run_binary old p : named_binary toy_join toy_absolute toy_conf toy_dir p -> toy_binary_file p = binary_on (put_file (run_disk old) (txt "o") []) p.
Proof.
  intros H. inversion H as [q E|l q E I]; subst; vm_compute in E; injection E as <-; [reflexivity|]. destruct I as [I|[I|[]]]; injection I as <-; reflexivity.
Qed.
Lemma run_text old p : named_text toy_join toy_absolute (txt "/default") toy_conf toy_dir p -> toy_text_file p = text_on (put_file (run_disk old) (txt "o") []) p.
Proof.
  intros H. inversion H as [q E|l ob k q E I K1 K2 K3|l ob E I K]; subst; vm_compute in E; try discriminate E; injection E as <-; [vm_compute; reflexivity|].
  destruct I as [I|[I|[]]]; injection I as <-; vm_compute in K1; try discriminate K1. destruct K2 as [<-|[<-|[]]]; vm_compute in K3; injection K3 as <-; vm_compute; reflexivity.
Qed.
Lemma run_lines old : lines_of_files (run_disk old) [txt "i"] toy_lines.
Proof.
  assert (E : file_input (run_disk old) [] [txt "i"] = ([[26481; 20140; 37117; 65; 66; 10]; [10]; [0x30A2; 0x30A2; 0x30A2]], None)) by (vm_compute; reflexivity). refine (lines_of_input _ _ _ _ _ E). intros [X|[]]; discriminate X.
Qed.
Definition toy_run_args := toy_args [txt "i"] (txt "/res/conf.json").
Lemma run_short line it : In line toy_lines -> run_prepare toy_created line = Ok it -> Z.of_nat (length (it_bytes it)) <= 32766.
Proof. intros [<-|[<-|[<-|[]]]] E; vm_compute in E; injection E as <-; vm_compute; discriminate. Qed.
Example C78_nonvacuous old :
  exists d' analyses, toy_tokenize (run_disk old) toy_run_args = (d', [], Done) /\ Forall2 (toy_alone ModeC) toy_lines analyses /\ d' (txt "o") = Some (logged (report toy_str true analyses)) /\ (forall p, p <> txt "o" -> d' p = run_disk old p).
Proof.
  pose proof toy_is_made as MK. unfold toy_make in MK.
  refine (C78_total_partial toy_text_file toy_binary_file toy_join toy_absolute (txt "/default") sample_int16 sample_int10 pop_first (fun l => l) (fun x => [x]) (fun t => t) toy_search 10 toy_int toy_digit toy_array
    toy_parse (fun _ => None) (fun _ => toy_dir) (txt "/default/conf.json") (fun _ _ => Ok false) toy_str (txt "1") toy_conf toy_dir toy_made toy_grammar toy_sys_id toy_system toy_users toy_built_from MK toy_interpreter toy_plain toy_files toy_scalar toy_complete C70_nonvacuous
    fresh (State true (Some toy_conf) (Some (txt "/res/conf.json")) (Some toy_dir)) [] (run_disk old) toy_run_args (txt "o") toy_lines
    eq_refl eq_refl _ _ _ _ _ eq_refl eq_refl (run_binary old) (run_text old) (run_lines old) run_short).
  - discriminate.
  - intros [H|[]]; discriminate H.
  - intros [H|[]]; discriminate H.
  - split; discriminate.
  - vm_compute. reflexivity.
Qed.
(** and what is in the file: the words of three dictionaries, AB from unk.def and the joined
    katakana, with -a *)
Example C78_output_nonvacuous :
  let '(d, _, _) := toy_tokenize (run_disk None) toy_run_args in
  match d (txt "o") with Some b => decode b | None => Err EIO end = Ok (
    [26481] ++ [9; 38917] ++ txt ",d,*,*,*,*" ++ [9; 26481; 9; 26481; 9; 1; 9] ++ txt "2" ++ [9] ++ txt "[]" ++ lf ++
    [20140] ++ [9; 21205] ++ txt ",b,*,*,*,*" ++ [9; 2; 3; 9; 26481; 9; 20140; 9] ++ txt "0" ++ [9] ++ txt "[]" ++ lf ++
    [37117] ++ [9; 22320] ++ txt ",c,*,*,*,*" ++ [9; 37117; 9; 37117; 9; 6; 9] ++ txt "1" ++ [9] ++ txt "[]" ++ lf ++
    txt "AB" ++ [9; 21205] ++ txt ",b,*,*,*,*" ++ [9] ++ txt "AB" ++ [9] ++ txt "AB" ++ [9; 9; 47; 9] ++ txt "[]" ++ [9] ++ txt "(OOV)" ++ lf ++
    txt "EOS" ++ lf ++ txt "EOS" ++ lf ++
    [0x30A2; 0x30A2; 0x30A2] ++ [9; 21205] ++ txt ",b,*,*,*,*" ++ [9; 0x30A2; 0x30A2; 0x30A2; 9; 0x30A2; 0x30A2; 0x30A2; 9; 9; 47; 9] ++ txt "[]" ++ [9] ++ txt "(OOV)" ++ lf ++
    txt "EOS" ++ lf).
Proof. vm_compute. reflexivity. Qed.

(** Without the provider for every other character a line may have no analysis: the second
    line here. *)
Definition lean_conf : conf := map (fun kv => if teqb (fst kv) (txt "oovProviderPlugin") then (fst kv, match snd kv with JList (x :: _) => JList [x] | v => v end) else kv)
  (filter (fun kv => negb (teqb (fst kv) (txt "userDict"))) toy_conf).
Definition lean_made : made := match toy_make lean_conf toy_dir with Ok m => m | Err _ => Made toy_set [] [] [] [] end.
Lemma lean_is_made : toy_make lean_conf toy_dir = Ok lean_made.
Proof.
  unfold lean_made. destruct (toy_make lean_conf toy_dir) eqn:E; [reflexivity|].
  assert (X : match toy_make lean_conf toy_dir with Ok _ => true | Err _ => false end = true) by (vm_compute; reflexivity). rewrite E in X. discriminate X.
Qed.
Lemma lean_built_from : built_from toy_binary_file toy_join toy_absolute toy_search 10 toy_int toy_digit toy_array lean_conf toy_dir toy_grammar toy_sys_id toy_system [].
Proof.
  assert (K1 : conf_get lean_conf DICT_PATH_KEY = conf_get toy_conf DICT_PATH_KEY) by (vm_compute; reflexivity).
  destruct toy_built_from as [B1 (sp & B2 & B2') B3 B4 _ B6 B7 B8]. constructor; try assumption; [exists sp; rewrite K1; auto|exists []; split; [left; split; vm_compute; reflexivity|constructor]|constructor|].
  intros u i [<-|[]]. apply B8. now left.
Qed.
Lemma lean_plain : plain_resources toy_text_file toy_join toy_absolute sample_int16 lean_conf toy_dir.
Proof.
  assert (K : conf_get lean_conf CHAR_DEF_KEY = conf_get toy_conf CHAR_DEF_KEY) by (vm_compute; reflexivity).
  destruct toy_plain as [(p & f & ls & rs & P1 & P) _]. constructor; [exists p, f, ls, rs; rewrite K; auto|]. intros o v (objs & E & _). vm_compute in E. discriminate E.
Qed.
Definition lean_disk : disk := put_file (run_disk None) (txt "i") (bytes_of ([26481; 20140; 10; 28450; 10; 37117; 10])).
Definition lean_parse (t : text) : res conf := Ok lean_conf.
Definition lean_tokenize d a :=
  command_tokenize toy_join toy_absolute (txt "/default") sample_int16 sample_int10 pop_first (fun l => l) (fun x => [x]) (fun t => t) toy_search 10 lean_parse (fun _ => None) (fun _ => toy_dir) (txt "/default/conf.json")
    (fun _ _ => Ok false) toy_str (txt "1") fresh [] d a.
Example C78_broken_off_nonvacuous :
  good_settings (md_settings (fun l => l) (fun x => [x]) (fun t => t) toy_search 10 lean_made) /\
  lines_of_files lean_disk [txt "i"] [[26481; 20140]; [28450]; [37117]] /\
  (let '(d', shown, x) := lean_tokenize lean_disk toy_run_args in (shown, x, match d' (txt "o") with Some b => decode b | None => Err EIO end)) =
    ([], Raised ERuntime, Ok ([26481; 20140; 9; 21517] ++ txt ",a,*,*,*,*" ++ [9; 5; 9; 26481; 20140; 9; 4; 9] ++ txt "0" ++ [9] ++ txt "[]" ++ lf ++ txt "EOS" ++ lf)).
Proof.
  split; [|split].
  - pose proof lean_is_made as MK. unfold toy_make in MK. exact (settings_good _ _ _ _ _ _ _ _ _ _ _ _ _ _ _ _ _ _ _ _ _ _ _ lean_built_from MK toy_interpreter lean_plain).
  - assert (E : file_input lean_disk [] [txt "i"] = ([[26481; 20140; 10]; [28450; 10]; [37117; 10]], None)) by (vm_compute; reflexivity). refine (lines_of_input _ _ _ _ _ E). intros [X|[]]; discriminate X.
  - vm_compute. reflexivity.
Qed.

(** ** What does not hold *)
(** The output file is emptied before the settings are read: when they cannot be, its old
    contents are lost although nothing was analysed. *)
Theorem C78_lost_refuted : exists d a d' old e, toy_tokenize d a = (d', [], Raised e) /\ d (txt "o") = Some old /\ old <> [] /\ d' (txt "o") = Some [].
Proof.
  exists (run_disk (Some [65])), (toy_args [txt "i"] (txt "/res/none.json")). eexists _, [65], EIO. split; [reflexivity|]. split; [reflexivity|]. split; [discriminate|reflexivity].
Qed.
(** An input file that is also the output file is emptied before it is read, and the command
    ends as if all was well. *)
Theorem C78_alias_refuted : exists d a d' old, toy_tokenize d a = (d', [], Done) /\ ta_ins a = [txt "o"] /\ output_of a = Some (txt "o") /\ d (txt "o") = Some old /\ old <> [] /\ d' (txt "o") = Some [].
Proof.
  exists (run_disk (Some [65])), (toy_args [txt "o"] (txt "/res/conf.json")).
  destruct (toy_tokenize (run_disk (Some [65])) (toy_args [txt "o"] (txt "/res/conf.json"))) as [[d' s] x] eqn:E.
  assert (X : (let '(d, s, x) := toy_tokenize (run_disk (Some [65])) (toy_args [txt "o"] (txt "/res/conf.json")) in (s, x, d (txt "o"))) = ([], Done, Some [])) by (vm_compute; reflexivity).
  rewrite E in X. injection X as -> -> X. exists d', [65]. split; [reflexivity|]. repeat (split; [first [reflexivity|discriminate]|]). exact X.
Qed.
(** A file with the name "-" is asked for and never read: the standard input is analysed. *)
Definition dash_disk : disk := put_file (run_disk None) (txt "-") (bytes_of toy_input).
Theorem C78_dash_refuted : exists a d' lines, toy_tokenize dash_disk a = (d', [], Done) /\ ta_ins a = [txt "-"] /\ lines_of_files dash_disk (ta_ins a) lines /\ lines <> [] /\ d' (txt "o") = Some [] /\
  toy_tokenize (run_disk None) a = (run_disk None, [], Exit 1).
Proof.
  exists (toy_args [txt "-"] (txt "/res/conf.json")).
  destruct (toy_tokenize dash_disk (toy_args [txt "-"] (txt "/res/conf.json"))) as [[d' s] x] eqn:E.
  assert (X : (let '(d, s, x) := toy_tokenize dash_disk (toy_args [txt "-"] (txt "/res/conf.json")) in (s, x, d (txt "o"))) = ([], Done, Some [])) by (vm_compute; reflexivity).
  rewrite E in X. injection X as -> -> X. exists d', toy_lines. split; [reflexivity|]. split; [reflexivity|]. split; [|split; [discriminate|split; [exact X|reflexivity]]].
  exists [toy_lines]. split; [|reflexivity]. constructor; [|constructor]. exists (bytes_of toy_input), toy_input. split; [reflexivity|]. split; [vm_compute; reflexivity|].
  destruct (run_lines None) as (lss & F & L). inversion F as [|? ls ? ? (b & t & D & T & FO) F']; subst. inversion F'; subst. cbn [concat] in L. rewrite app_nil_r in L. subst ls.
  assert (Db : run_disk None (txt "i") = Some (bytes_of toy_input)) by (vm_compute; reflexivity). assert (b = bytes_of toy_input) by congruence. subst b.
  assert (T' : decode (bytes_of toy_input) = Ok toy_input) by (vm_compute; reflexivity). assert (t = toy_input) by congruence. subst t. exact FO.
Qed.
Print Assumptions C78_dash_refuted.
Print Assumptions C78_lost_refuted.
Print Assumptions C78_alias_refuted.
