(** Making a Dictionary: settings and files with which it succeeds. *)
From Coq Require Import String Ascii List ZArith Lia Bool Arith Sorting.Sorted Sorting.Permutation.
From Verif Require Import Base Utf8 M_Builder M_CharCategory M_InputText M_InputPlugins M_Lattice M_Oov M_Tokenizer M_NumericParser M_PathRewrite M_Morphemes
  M_Shipped M_Bytes M_DicReader M_DicBuilder M_LexiconSet M_Front M_Resource M_Setup S_Text S_Plugins S_Lattice S_Resource
  P_Builder P_InputText P_Accessors P_Lattice P_Tokenizer P_Path P_Config P_Total P_CharCategory P_Bytes P_DicFormat P_DicWrite P_DicOpen P_DicGrammar P_DicSource P_DicLexicon P_DicFile Prop_Format P_LexiconSet P_Resource
  Prop_Text Prop_Tokenizer Prop_Total Prop_CharCategory Prop_Source Prop_Lexicon Prop_Resource Prop_Shipped P_Words P_Setup P_System Prop_System P_Live Prop_Live.
Import ListNotations.
Open Scope list_scope.
Open Scope Z_scope.

Lemma mapM_total {A B} (f : A -> res B) l : Forall (fun a => exists b, f a = Ok b) l -> exists l', mapM f l = Ok l'.
Proof. induction 1 as [|a l (b & E) F (l' & IH)]; cbn [mapM]; [eauto|]. rewrite E, IH. cbn [bind]. eauto. Qed.
Lemma mapM_back {A B} (f : A -> res B) l l' : Forall2 (fun a b => f a = Ok b) l l' -> mapM f l = Ok l'.
Proof. induction 1 as [|a b l l' E F IH]; cbn [mapM]; [reflexivity|]. now rewrite E, IH. Qed.

(** ** Automatic costs *)
Lemma set_nth_total {A} (l : list A) a i x : get l i = Ok x -> exists l', set_nth l i a = Ok l'.
Proof.
  revert i. induction l as [|y l IH]; intros i H; [destruct i; discriminate H|]. destruct i as [|i]; cbn [set_nth]; [eauto|].
  destruct (IH i H) as (l' & ->). cbn [bind]. eauto.
Qed.
Lemma calculate_total limit internal n : forall a lx,
  (forall w, (a <= w < a + n)%nat -> exists c, get (lx_params lx) (3 * w + 2) = Ok c /\
     (c = -32768 -> exists info x, lx_word_info limit lx (Z.of_nat w) = Ok info /\ internal (wi_surface info) = Ok x)) ->
  exists lx', foldM (calculate_one limit internal) lx (seq a n) = Ok lx'.
Proof.
  induction n as [|n IH]; intros a lx H; cbn [seq foldM]; [eauto|].
  destruct (H a ltac:(lia)) as (c & Ec & X). unfold calculate_one at 1, lx_cost. rewrite Nat2Z.id, Ec. cbn [bind].
  destruct (Z.eqb_spec c (-32768)) as [E|N]; cbn [negb bind]; [|apply IH; intros w Hw; apply H; lia].
  destruct (X E) as (info & (i & m) & Ei & Ex). rewrite Ei. cbn [bind]. rewrite Ex. cbn [bind]. unfold lx_set_cost.
  pose proof (auto_cost_range i m). leb_t (-32768) (auto_cost i m). leb_t (auto_cost i m) 32767. cbn [andb]. rewrite Nat2Z.id.
  destruct (set_nth_total (lx_params lx) (auto_cost i m) _ _ Ec) as (ps & Eps). rewrite Eps. cbn [bind].
  apply IH. intros w Hw. destruct (H w ltac:(lia)) as (c' & Ec' & X'). exists c'. cbn [lx_params]. split; [rewrite (set_nth_other _ _ _ _ _ Eps) by lia; exact Ec'|exact X'].
Qed.

Section system.
Variable text_file : text -> res text.
Variable binary_file : text -> res bytes.
Variable join : text -> text -> text.
Variable is_absolute : text -> bool.
Variable DEFAULT_RESOURCEDIR : text.
Variable int16 int10 : text -> res Z.
Variable pop : list range -> option (range * list range).
Variable order : list cat -> list cat.
Variable lower : Z -> text.
Variable nfkc : text -> text.
Variable search : bytes -> bytes -> list (Z * nat).
Variable limit : nat.
Variable py_int : text -> res Z.
Variable is_digit : Z -> bool.
Variable trie_array : list (bytes * Z) -> res bytes.
Notation make_dictionary := (make_dictionary text_file binary_file join is_absolute DEFAULT_RESOURCEDIR int16 int10 pop order lower nfkc search limit).
Notation internal_cost := (internal_cost order lower nfkc search limit).
Notation located := (located join is_absolute).
Notation created := (created order lower nfkc search limit).
Notation built_from := (built_from binary_file join is_absolute search limit py_int is_digit trie_array).
Notation plain_resources := (plain_resources text_file join is_absolute int16).
Notation interpreter := (interpreter pop order lower nfkc).
Notation complete := (complete text_file join is_absolute int16 int10 py_int).
Notation furnished := (furnished text_file join is_absolute int16 int10 py_int).
Notation construction := (construction text_file binary_file join is_absolute DEFAULT_RESOURCEDIR int16 int10 pop order lower nfkc search limit).

(** What a construction needs is all that it needs. *)
Lemma make_ok c d m sf ufs g ins oovs paths : construction c d m sf ufs g ins oovs paths -> make_dictionary c d = Ok m.
Proof.
  intros [(sp & E1 & E2) (cp & cf & E3 & E4 & E5) (us & E6 & E7) E8 (dict & E9 & E10) (E11 & E12) (E13 & E14 & E15) (E16 & E17)].
  unfold M_Setup.make_dictionary. rewrite E1. cbn [as_path bind].
  change (to_absolute_resource_path join is_absolute d sp) with (located d sp). rewrite E2. cbn [bind].
  unfold load_dictionaries in E8. unfold read_system_dictionary in *. rewrite E9 in *. cbn [bind] in *. rewrite E10 in *. cbn [bind] in *.
  unfold char_def_path. rewrite E3. cbn [as_path bind].
  change (to_absolute_resource_path join is_absolute d cp) with (located d cp). rewrite E4. cbn [bind]. rewrite E5. cbn [bind].
  rewrite E11. cbn [bind]. rewrite (mapM_back _ _ _ E12). cbn [bind]. rewrite E13. cbn [bind].
  assert (X : (oovs' <- mapM (set_up_oov text_file join int10 g d) oovs ;;
    paths <- get_plugins get_path_rewrite_plugin c "pathRewritePlugin" ;; paths <- mapM (set_up_path g) paths ;;
    ups <- (match conf_get c USER_DICT_PATH_KEY with
            | Some (JList l) => mapM (fun v => p <- as_path v ;; Ok (to_absolute_resource_path join is_absolute d p)) l
            | Some _ => Err EType
            | None => Ok []
            end) ;;
    ds <- foldM (fun ds p => f <- binary_file p ;; read_user_dictionary limit (internal_cost (md_table m) (md_inputs m) oovs') ds f) (DictSet g (lexset_init (0%nat, d_lexicon dict))) ups ;;
    Ok (Made ds (md_table m) (md_inputs m) oovs' paths)) = Ok m).
  2: { destruct oovs; [congruence|exact X]. }
  rewrite (mapM_back _ _ _ E15). cbn [bind]. rewrite E16. cbn [bind]. rewrite (mapM_back _ _ _ E17). cbn [bind].
  assert (Y : (match conf_get c USER_DICT_PATH_KEY with
            | Some (JList l) => mapM (fun v => p <- as_path v ;; Ok (to_absolute_resource_path join is_absolute d p)) l
            | Some _ => Err EType
            | None => Ok []
            end) = Ok (map (located d) us)).
  { destruct E6 as [(-> & ->)| ->]; [reflexivity|]. clear. induction us as [|p us IH]; [reflexivity|]. cbn [map mapM as_path bind]. rewrite IH. reflexivity. }
  rewrite Y. cbn [bind].
  assert (Z : forall ds, foldM (fun ds p => f <- binary_file p ;; read_user_dictionary limit (internal_cost (md_table m) (md_inputs m) (md_providers m)) ds f) ds (map (located d) us) =
    foldM (read_user_dictionary limit (internal_cost (md_table m) (md_inputs m) (md_providers m))) ds ufs).
  { clear - E7. induction E7 as [|p f us ufs E F IH]; intros ds; [reflexivity|]. cbn [map foldM]. rewrite E. cbn [bind]. destruct (read_user_dictionary _ _ ds f); [apply IH|reflexivity]. }
  rewrite Z, E8. cbn [bind]. destruct m; reflexivity.
Qed.

Section one.
Variables (c : conf) (d : text) (g0 : grammar) (sys_id : text -> Z -> text -> res Z) (system : dic) (users : list dic).

(** ** Items that the plugins accept *)
Definition input_item (o : list (text * json)) : Prop :=
  (conf_get o (txt "class") = Some (JStr (txt "sudachipy.plugin.input_text.DefaultInputTextPlugin")) /\
   exists f ls kept replaced, text_file (join DEFAULT_RESOURCEDIR (txt "rewrite.def")) = Ok f /\ file_of ls f /\ rewrite_def ls kept replaced) \/
  (conf_get o (txt "class") = Some (JStr (txt SOUND_MARKS)) /\
   (conf_get o (txt "prolongedSoundMarks") = None \/ exists cs, conf_get o (txt "prolongedSoundMarks") = Some (JList (map (fun ch => JStr [ch]) cs))) /\
   (conf_get o (txt "replacementSymbol") = None \/ exists t, conf_get o (txt "replacementSymbol") = Some (JStr t))).
Definition oov_item (o : list (text * json)) : Prop :=
  (conf_get o (txt "class") = Some (JStr (txt "sudachipy.plugin.oov.MeCabOovProviderPlugin")) /\
   exists a b cf uf cls ps uls us, conf_get o (txt "charDef") = Some (JStr a) /\ conf_get o (txt "unkDef") = Some (JStr b) /\
     text_file (join d a) = Ok cf /\ text_file (join d b) = Ok uf /\ file_of cls cf /\ file_of uls uf /\
     property_file (fun t n => int10 t = Ok n) cls ps /\ unknown_file (fun t n => int10 t = Ok n) uls us /\ Forall (fun u => In (u_cat u) (map p_cat ps)) us) \/
  (conf_get o (txt "class") = Some (JStr (txt "sudachipy.plugin.oov.SimpleOovProviderPlugin")) /\
   exists l r k pos, conf_get o (txt "leftId") = Some (JNum l) /\ conf_get o (txt "rightId") = Some (JNum r) /\ conf_get o (txt "cost") = Some (JNum k) /\ conf_get o (txt "oovPOS") = Some pos).
Definition path_item (o : list (text * json)) : Prop :=
  conf_get o (txt "class") = Some (JStr (txt "sudachipy.plugin.path_rewrite.JoinNumericPlugin")) \/
  (conf_get o (txt "class") = Some (JStr (txt "sudachipy.plugin.path_rewrite.JoinKatakanaOovPlugin")) /\
   (exists v, conf_get o (txt "oovPOS") = Some v /\ known system v) /\
   (conf_get o (txt "minLength") = None \/ exists n, conf_get o (txt "minLength") = Some (JNum n))).
Definition items (key : string) (item : list (text * json) -> Prop) : Prop :=
  conf_get c (txt key) = None \/ exists os, conf_get c (txt key) = Some (JList (map JObj os)) /\ Forall item os.

(** The settings without user dictionaries *)
Definition without_users : conf := (USER_DICT_PATH_KEY, JList []) :: c.

Record makeable : Prop := {
  mk_chars : exists rs, char_def_ranges text_file join is_absolute int16 c d rs /\ rs <> [];
  mk_inputs : items "inputTextPlugin" input_item;
  mk_oovs : items "oovProviderPlugin" oov_item;
  mk_paths : items "pathRewritePlugin" path_item;
  (* a word whose cost is calculated has a text that can be analysed *)
  mk_costs : forall u row cs, In u users -> In row (dc_rows u) -> Forall2 (fun c c' => unescape c = Ok c') row cs -> py_int (nth 3 cs []) = Ok (-32768) ->
    nth 4 cs [] <> [] /\ scalar_text (nth 4 cs []) /\
    forall m it, make_dictionary without_users d = Ok m -> run_prepare (created m) (nth 4 cs []) = Ok it -> Z.of_nat (length (it_bytes it)) <= 32766;
}.

Hypothesis BF : built_from c d g0 sys_id system users.
Hypothesis IN : interpreter.
Hypothesis PR : plain_resources c d.
Hypothesis FS : file_system text_file binary_file.
Hypothesis SI : scalar_interpreter lower nfkc.
Hypothesis CP : complete c d g0 system users.
Hypothesis MA : makeable.

Lemma get_plugins_ok {A B} (make : json -> res A) (set_up : A -> res B) key item : items key item -> (forall o, item o -> exists s p, make (JObj o) = Ok s /\ set_up s = Ok p) ->
  exists specs made, get_plugins make c key = Ok specs /\ Forall2 (fun s p => set_up s = Ok p) specs made.
Proof.
  intros I H. unfold get_plugins. change (lit key) with (txt key). destruct I as [->|(os & -> & F)]; [exists [], []; split; [reflexivity|constructor]|]. cbn [jitems bind].
  induction F as [|o os Ho F (ss & ps & IH1 & IH2)]; [exists [], []; split; [reflexivity|constructor]|].
  destruct (H o Ho) as (s & p & E1 & E2). exists (s :: ss), (p :: ps). split; [|constructor; auto]. cbn [map mapM]. rewrite E1. cbn [bind]. rewrite IH1. reflexivity.
Qed.

Lemma inputs_made o : input_item o -> exists s p, get_input_text_plugin (JObj o) = Ok s /\ set_up_input text_file join DEFAULT_RESOURCEDIR s = Ok p.
Proof.
  intros [(CL & f & ls & kept & replaced & Ef & FO & RD)|(CL & E1 & E2)]; unfold get_input_text_plugin; cbn [jget]; change (lit "class") with (txt "class"); rewrite CL; cbn [bind].
  - change (is_class _ "sudachipy.plugin.input_text.DefaultInputTextPlugin") with true. cbv iota. exists WantDefault. cbn [set_up_input]. change (lit "rewrite.def") with (txt "rewrite.def"). rewrite Ef. cbn [bind].
    destruct (C66_rewrite_file lower nfkc f ls kept replaced [] (builder_init []) (in_lower _ _ _ _ IN) (in_nfkc _ _ _ _ IN)) as (cfg & _ & E & _); [constructor|exact FO|exact RD|].
    rewrite E. cbn [bind]. eexists. split; reflexivity.
  - change (is_class _ "sudachipy.plugin.input_text.DefaultInputTextPlugin") with false. change (is_class _ "sudachipy.plugin.input_text.ProlongedSoundMarkInputTextPlugin") with true. cbv iota.
    assert (X : exists k, sound_marks (JObj o) = Ok k).
    { unfold sound_marks. cbn [jfind]. change (lit "prolongedSoundMarks") with (txt "prolongedSoundMarks"). change (lit "replacementSymbol") with (txt "replacementSymbol").
      assert (Y : exists l, (match conf_get o (txt "prolongedSoundMarks") with Some v => items <- jitems v ;; mapM ord items | None => Ok [] end) = Ok l).
      { destruct E1 as [->|(cs & ->)]; [eauto|]. cbn [jitems bind]. apply mapM_total. apply Forall_forall. intros v Hv. apply in_map_iff in Hv as (ch & <- & _). cbn [ord]. eauto. }
      destruct Y as (l & ->). cbn [bind]. destruct E2 as [->|(t & ->)]; cbn [bind]; eauto. }
    destruct X as (k & ->). cbn [bind key_error]. exists (WantSoundMarks k), (SoundMarks k). split; reflexivity.
Qed.

Lemma oovs_made g o : oov_item o -> exists s p, get_oov_plugin (JObj o) = Ok s /\ set_up_oov text_file join int10 g d s = Ok p.
Proof.
  intros [(CL & a & b & cf & uf & cls & ps & uls & us & Ea & Eb & Ec & Eu & FC & FU & HP & HU & D)|(CL & l & r & k & pos & El & Er & Ek & Ep)];
    unfold get_oov_plugin; cbn [jget]; change (lit "class") with (txt "class"); rewrite CL; cbn [bind].
  - change (is_class _ "sudachipy.plugin.oov.MeCabOovProviderPlugin") with true. cbv iota. change (lit "charDef") with (txt "charDef"). change (lit "unkDef") with (txt "unkDef"). rewrite Ea, Eb. cbn [bind key_error].
    destruct (C65_set_up int10 g cf cls ps uf uls us FC HP FU HU D) as (cfg & E & _). exists (WantMeCab (JStr a) (JStr b)), (MeCab cfg). split; [reflexivity|].
    cbn [set_up_oov as_path bind]. rewrite Ec. cbn [bind].
    assert (X : exists props, read_character_property int10 cf = Ok props).
    { unfold mecab_set_up in E. apply bind_ok in E as (props & E & _). eauto. }
    destruct X as (props & ->). cbn [bind]. rewrite Eu. cbn [bind]. rewrite E. reflexivity.
  - change (is_class _ "sudachipy.plugin.oov.MeCabOovProviderPlugin") with false. change (is_class _ "sudachipy.plugin.oov.SimpleOovProviderPlugin") with true. cbv iota.
    change (lit "leftId") with (txt "leftId"). change (lit "rightId") with (txt "rightId"). change (lit "cost") with (txt "cost"). change (lit "oovPOS") with (txt "oovPOS").
    rewrite El, Er, Ek, Ep. cbn [bind as_int key_error]. eexists _, _. split; reflexivity.
Qed.

Lemma paths_made o : path_item o -> exists s p, get_path_rewrite_plugin (JObj o) = Ok s /\ set_up_path g0 s = Ok p.
Proof.
  intros [CL|(CL & (v & Ev & KV) & En)]; unfold get_path_rewrite_plugin; cbn [jget]; change (lit "class") with (txt "class"); rewrite CL; cbn [bind].
  - change (is_class _ "sudachipy.plugin.path_rewrite.JoinNumericPlugin") with true. cbv iota. cbn [key_error]. eexists _, _. split; reflexivity.
  - change (is_class _ "sudachipy.plugin.path_rewrite.JoinNumericPlugin") with false. change (is_class _ "sudachipy.plugin.path_rewrite.JoinKatakanaOovPlugin") with true. cbv iota.
    change (lit "oovPOS") with (txt "oovPOS"). rewrite Ev. cbn [bind jfind]. change (lit "minLength") with (txt "minLength").
    assert (X : exists n, (match conf_get o (txt "minLength") with Some v => as_int v | None => Ok 1 end) = Ok n) by (destruct En as [->|(n & ->)]; cbn [as_int]; eauto).
    destruct X as (n & ->). cbn [bind key_error]. exists (WantKatakana v n). cbn [set_up_path].
    destruct (known_pos _ _ _ _ _ _ _ _ _ _ _ _ _ _ BF v KV) as (pos & -> & Hp). destruct (json_pos g0 (strings pos) pos eq_refl Hp) as (P1 & P2).
    assert (NE : pos <> []).
    { pose proof (bf_grammar _ _ _ _ _ _ _ _ _ _ _ _ _ _ BF) as GO. rewrite (g0_pos _ _ _ _ (bf_contract _ _ _ _ _ _ _ _ _ _ _ _ _ _ BF) _ _ (bf_system _ _ _ _ _ _ _ _ _ _ _ _ _ _ BF) GO) in Hp.
      unfold own_pos in Hp. apply in_map_iff in Hp as (t & <- & _). intros X. apply (f_equal (@length text)) in X. rewrite split_on_length in X. discriminate X. }
    assert (T : truthy (strings pos) = true) by (destruct pos; [congruence|reflexivity]). rewrite T.
    replace (json_pos_id g0 (strings pos) <? 0) with false by (symmetry; apply Z.ltb_ge; lia). eexists. split; reflexivity.
Qed.

(** ** Some of the user dictionaries, and no path rewriting *)
Definition with_users (ps : list text) : conf := (USER_DICT_PATH_KEY, JList (map JStr ps)) :: (txt "pathRewritePlugin", JList []) :: c.
Notation file_paths := (Forall2 (fun p u => binary_file (located d p) = Ok (dc_file u))).

Lemma some_built ps us : file_paths ps us -> incl us users -> built_from (with_users ps) d g0 sys_id system us.
Proof.
  intros F I. destruct BF as [B1 B2 B3 B4 B5 B6 B7 B8]. constructor; auto.
  - exists ps. split; [right; reflexivity|exact F].
  - rewrite Forall_forall in *. auto.
  - intros u i [<-|Hu]; [apply B8; now left|apply B8; right; auto].
Qed.
Lemma some_plain ps : plain_resources (with_users ps) d.
Proof. constructor; [exact (pr_chars _ _ _ _ _ _ PR)|exact (pr_symbol _ _ _ _ _ _ PR)]. Qed.
Lemma some_furnished (CF : furnished c d g0 system users) ps us : incl us users -> (length us <= length users)%nat -> furnished (with_users ps) d g0 system us.
Proof.
  intros I L.
  assert (I' : forall u, In u (system :: us) -> In u (system :: users)) by (intros u [<-|H]; [now left|right; auto]).
  destruct CF as [P1 P2 P3 P4 P5 P6 P7 P8 P10 P11 P12 P13]. constructor.
  - exact P1.
  - exact P2.
  - exact P3.
  - exact P4.
  - exact P5.
  - exact P6.
  - intros rs u row cs x CR Hx Hu. exact (P7 rs u row cs x CR Hx (I' u Hu)).
  - intros objs o E H. change (conf_get (with_users ps) (txt "pathRewritePlugin")) with (Some (JList [])) in E. injection E as <-. destruct H.
  - exact P10.
  - destruct P11 as (I1 & I2). split; [|exact I2]. intros u row cs l r Hu. exact (I1 u row cs l r (I' u Hu)).
  - lia.
  - exact P13.
Qed.
Lemma some_complete ps us : incl us users -> (length us <= length users)%nat -> complete (with_users ps) d g0 system us.
Proof. intros I L. split; [exact (some_furnished CP ps us I L)|exact (cp_matrix _ _ _ _ _ _ _ _ _ _ _ CP)]. Qed.

Section prefixes.
Variables (table : list range) (ispecs : list input_spec) (ins : list input_plugin) (ospecs : list oov_spec) (oovs : list provider) (pspecs : list path_spec) (paths : list rewriter).
Hypothesis HT : exists cp cf, conf_get c CHAR_DEF_KEY = Some (JStr cp) /\ text_file (located d cp) = Ok cf /\ read_character_definition int16 pop cf = Ok table.
Hypothesis HI : get_plugins get_input_text_plugin c "inputTextPlugin" = Ok ispecs /\ Forall2 (fun s p => set_up_input text_file join DEFAULT_RESOURCEDIR s = Ok p) ispecs ins.
Hypothesis HO : get_plugins get_oov_plugin c "oovProviderPlugin" = Ok ospecs /\ ospecs <> [] /\ Forall2 (fun s p => set_up_oov text_file join int10 g0 d s = Ok p) ospecs oovs.
Hypothesis HP : get_plugins get_path_rewrite_plugin c "pathRewritePlugin" = Ok pspecs /\ Forall2 (fun s p => set_up_path g0 s = Ok p) pspecs paths.
Notation load := (load_dictionaries limit (internal_cost table ins oovs) (dc_file system)).

Lemma files_map ps us : file_paths ps us -> Forall2 (fun p f => binary_file (located d p) = Ok f) ps (map dc_file us).
Proof. induction 1; cbn [map]; constructor; auto. Qed.

Lemma make_some ps us ds : file_paths ps us -> load (map dc_file us) = Ok ds -> make_dictionary (with_users ps) d = Ok (Made ds table ins oovs []).
Proof.
  intros F L. apply (make_ok _ _ _ (dc_file system) (map dc_file us) g0 ispecs ospecs []).
  constructor; cbn [md_table md_inputs md_providers md_set md_rewriters].
  - exact (bf_system_file _ _ _ _ _ _ _ _ _ _ _ _ _ _ BF).
  - exact HT.
  - exists ps. split; [right; reflexivity|now apply files_map].
  - exact L.
  - exact (bf_grammar _ _ _ _ _ _ _ _ _ _ _ _ _ _ BF).
  - exact HI.
  - exact HO.
  - split; [reflexivity|constructor].
Qed.
Lemma make_without ds : load [] = Ok ds -> make_dictionary without_users d = Ok (Made ds table ins oovs paths).
Proof.
  intros L. apply (make_ok _ _ _ (dc_file system) [] g0 ispecs ospecs pspecs).
  constructor; cbn [md_table md_inputs md_providers md_set md_rewriters].
  - exact (bf_system_file _ _ _ _ _ _ _ _ _ _ _ _ _ _ BF).
  - exact HT.
  - exists []. split; [right; reflexivity|constructor].
  - exact L.
  - exact (bf_grammar _ _ _ _ _ _ _ _ _ _ _ _ _ _ BF).
  - exact HI.
  - exact HO.
  - exact HP.
Qed.
Lemma load_none : exists ds, load [] = Ok ds.
Proof.
  destruct (bf_grammar _ _ _ _ _ _ _ _ _ _ _ _ _ _ BF) as (dict & E & Eg). unfold load_dictionaries, read_system_dictionary. rewrite E. cbn [bind]. rewrite Eg. cbn [bind foldM]. eauto.
Qed.

(** With the dictionaries so far, a text can be analysed. *)
Lemma internal_total ps us ds t : file_paths ps us -> incl us users -> (length us <= length users)%nat -> load (map dc_file us) = Ok ds ->
  t <> [] -> scalar_text t ->
  (forall m it, make_dictionary without_users d = Ok m -> run_prepare (created m) t = Ok it -> Z.of_nat (length (it_bytes it)) <= 32766) ->
  exists x, internal_cost table ins oovs (ds_grammar ds) (ds_lexicon ds) t = Ok x.
Proof.
  intros F I Ln L Ht Hs Hn. set (m := Made ds table ins oovs []). pose proof (make_some ps us ds F L) as MK.
  destruct (C71_analyses_partial _ _ _ _ _ _ _ _ _ _ _ _ _ _ _ _ _ _ m _ _ _ _ (some_built ps us F I) MK IN (some_plain ps) FS SI (some_complete ps us I Ln) new_lattice t ModeC) as (it & Ep & A); [constructor|exact Hs|exact Ht|].
  destruct load_none as (ds0 & L0). destruct A as (lat' & r & Er & _ & Nr & _); [exact (Hn _ it (make_without ds0 L0) Ep)|].
  unfold M_Setup.internal_cost. change (shipped (tokenizer_settings order lower nfkc search limit (ds_grammar ds) (ds_lexicon ds) table ins oovs [])) with (created m).
  rewrite Er. cbn [snd bind]. unfold ml_len in Nr. unfold ml_internal_cost. destruct (ml_path (morphemes_of r)) as [|a l] eqn:E; [cbn in Nr; lia|].
  destruct (rev (a :: l)) as [|b l'] eqn:E'; [apply (f_equal (@length wnode)) in E'; rewrite rev_length in E'; discriminate|]. cbn [bind]. eauto.
Qed.

Lemma load_total rest : forall done ds ps, users = done ++ rest -> file_paths ps done -> load (map dc_file done) = Ok ds ->
  (exists ps', file_paths ps' rest) ->
  exists ds', foldM (read_user_dictionary limit (internal_cost table ins oovs)) ds (map dc_file rest) = Ok ds'.
Proof.
  induction rest as [|u rest IH]; intros done ds ps EU F L (ps' & F'); cbn [map foldM]; [eauto|].
  inversion F' as [|p ? ps1 ? Ep F1]; subst.
  assert (I : incl done users) by (intros x Hx; rewrite EU; apply in_or_app; now left).
  assert (Hu : In u users) by (rewrite EU; apply in_or_app; right; now left).
  assert (Ln : (S (length done) <= length users)%nat) by (rewrite EU, app_length; cbn [length]; lia).
  pose proof (bf_contract _ _ _ _ _ _ _ _ _ _ _ _ _ _ BF) as CT. pose proof (bf_users _ _ _ _ _ _ _ _ _ _ _ _ _ _ BF) as UB. pose proof (bf_system _ _ _ _ _ _ _ _ _ _ _ _ _ _ BF) as SB. pose proof (bf_grammar _ _ _ _ _ _ _ _ _ _ _ _ _ _ BF) as GO.
  pose proof UB as UB'. rewrite Forall_forall in UB'. pose proof (UB' u Hu) as B.
  assert (UD : Forall (built py_int is_digit trie_array (UserDic g0 sys_id (length (s_entries (dc_source system))))) done) by (apply Forall_forall; auto).
  pose proof (load_ok _ _ _ _ CT _ _ _ _ _ _ SB GO eq_refl _ _ UD L) as LD.
  assert (X : exists ds1, read_user_dictionary limit (internal_cost table ins oovs) ds (dc_file u) = Ok ds1).
  { unfold read_user_dictionary, ls_is_full. rewrite (ld_count _ _ _ _ _ _ _ _ _ LD). pose proof (cp_users _ _ _ _ _ _ _ _ _ _ _ CP) as U7.
    replace (MAX_DICTIONARIES <=? S (length done))%nat with false by (symmetry; apply Nat.leb_gt; unfold MAX_DICTIONARIES; lia).
    destruct (built_opens _ _ _ _ CT _ _ B) as (SO & dict & g & _ & Eg & E & G1 & LO & LS). rewrite E. cbn [bind].
    assert (Y : exists lx, calculate_cost limit (internal_cost table ins oovs (ds_grammar ds) (ds_lexicon ds)) (d_lexicon dict) = Ok lx).
    { unfold calculate_cost. apply calculate_total. rewrite (lo_size _ _ _ _ _ _ LO). intros w Hw.
      destruct (nth_error (s_entries (dc_source u)) w) as [e|] eqn:Ee; [|apply nth_error_None in Ee; lia].
      destruct (lexicon_params _ _ _ _ _ _ _ _ LO Ee) as (_ & _ & C). exists (e_cost e). unfold lx_cost in C. rewrite Nat2Z.id in C. split; [exact C|]. intros EC.
      destruct (bf_forms _ _ _ _ _ _ _ _ _ _ _ _ _ _ BF u w (or_intror Hu)) as (n & Hn & CE); [lia|].
      pose proof B as (_ & _ & _ & _ & _ & _ & _ & _ & _ & FT & _).
      destruct (lexicon_word_info _ _ _ _ _ _ limit n w 0 LO LS FT CE Hn ltac:(lia)) as (e0 & wi & Hi0 & INF & P). rewrite Ee in Hi0. injection Hi0 as <-.
      destruct INF as (e1 & ia & ib & ic & t1 & t2 & t3 & t4 & Hi1 & _ & _ & _ & ->). rewrite Ee in Hi1. injection Hi1 as <-.
      pose proof (In_nth_error _ _ Hu) as (k & Hk).
      destruct (entry_row _ _ _ _ _ _ _ _ _ _ _ _ _ _ BF (S k) u w e Hk Ee) as (row & tb & tb' & Hr & HPL). apply nth_error_In in Hr.
      destruct (C58_accepted _ _ _ _ _ _ HPL) as (_ & cs & Fc & _ & _ & _ & _ & A3 & A4 & _).
      destruct (mk_costs MA u row cs Hu Hr Fc) as (M1 & M2 & M3); [rewrite A3, EC; reflexivity|].
      destruct (internal_total ps done ds (nth 4 cs []) F I ltac:(lia) L M1 M2 M3) as (x & Ex).
      eexists _, x. split; [unfold lx_word_info; rewrite P; reflexivity|]. cbn [set_dictionary_form entry_info wi_surface]. rewrite A4. exact Ex. }
    destruct Y as (lx & ->). cbn [bind]. eauto. }
  destruct X as (ds1 & E1). rewrite E1. cbn [bind]. apply (IH (done ++ [u]) ds1 (ps ++ [p])).
  - now rewrite <- app_assoc.
  - apply Forall2_app; [exact F|constructor; [exact Ep|constructor]].
  - unfold load_dictionaries in *. apply bind_ok in L as (d0 & E0 & L). rewrite E0. cbn [bind]. rewrite map_app, foldM_app, L. cbn [bind map foldM]. rewrite E1. reflexivity.
  - exists ps1. exact F1.
Qed.
End prefixes.
End one.
End system.
