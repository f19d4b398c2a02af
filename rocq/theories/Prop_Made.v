(** Property C80: a Dictionary is made from usable settings and files, and what it needs. *)
From Coq Require Import String Ascii List ZArith Lia Bool Arith Sorting.Sorted Sorting.Permutation.
From Verif Require Import Base Utf8 M_Builder M_CharCategory M_InputText M_InputPlugins M_Lattice M_Oov M_Tokenizer M_NumericParser M_PathRewrite M_Morphemes
  M_Shipped M_Bytes M_DicReader M_DicBuilder M_LexiconSet M_Front M_Resource M_Setup S_Text S_Plugins S_Lattice S_Resource
  P_Builder P_InputText P_Accessors P_Lattice P_Tokenizer P_Path P_Config P_Total P_CharCategory P_Bytes P_DicFormat P_DicWrite P_DicOpen P_DicGrammar P_DicSource P_DicLexicon P_DicFile P_DicToy Prop_Format P_LexiconSet P_Resource
  Prop_Text Prop_Tokenizer Prop_Total Prop_CharCategory Prop_Source Prop_Lexicon Prop_Resource Prop_Shipped P_Words P_Setup P_System Prop_System P_Live Prop_Live P_Made.
Import ListNotations.
Open Scope list_scope.
Open Scope Z_scope.

Section system.
Variable text_file : text -> res text.
Variable binary_file : text -> res bytes.
Variable join : text -> text -> text.
Variable is_absolute : text -> bool.
Variable DEFAULT_RESOURCEDIR : text.
Variable int16 int10 : text -> res Z.
Variable pop : list range -> option (range * list range).
Variable order : list cat -> list cat.
Variable lower : Z -> text.
Variable nfkc : text -> text.
Variable search : bytes -> bytes -> list (Z * nat).
Variable limit : nat.
Variable py_int : text -> res Z.
Variable is_digit : Z -> bool.
Variable trie_array : list (bytes * Z) -> res bytes.
Notation make_dictionary := (make_dictionary text_file binary_file join is_absolute DEFAULT_RESOURCEDIR int16 int10 pop order lower nfkc search limit).
Notation internal_cost := (internal_cost order lower nfkc search limit).
Notation located := (located join is_absolute).
Notation created := (created order lower nfkc search limit).
Notation built_from := (built_from binary_file join is_absolute search limit py_int is_digit trie_array).
Notation plain_resources := (plain_resources text_file join is_absolute int16).
Notation interpreter := (interpreter pop order lower nfkc).
Notation complete := (complete text_file join is_absolute int16 int10 py_int).
Notation construction := (construction text_file binary_file join is_absolute DEFAULT_RESOURCEDIR int16 int10 pop order lower nfkc search limit).

Notation makeable := (makeable text_file binary_file join is_absolute DEFAULT_RESOURCEDIR int16 int10 pop order lower nfkc search limit py_int).

Section one.
Variables (c : conf) (d : text) (g0 : grammar) (sys_id : text -> Z -> text -> res Z) (system : dic) (users : list dic).
Hypothesis BF : built_from c d g0 sys_id system users.

(** ** C80 *)
(** From dictionary files that the builder wrote, resource files that are complete (C71) and
    plugins that are described as they should be, a Dictionary is made, and its tokenizers
    analyse every text (up to 32766 bytes once normalised) in every mode. *)
Theorem C80_makes_partial :
  interpreter -> plain_resources c d -> file_system text_file binary_file -> scalar_interpreter lower nfkc ->
  complete c d g0 system users -> makeable c d system users ->
  exists m, make_dictionary c d = Ok m /\
    forall lat t md, P_Config.usable (created m) lat -> scalar_text t -> t <> [] ->
      exists it, run_prepare (created m) t = Ok it /\
        (Z.of_nat (length (it_bytes it)) <= 32766 ->
         exists lat' r, M_Tokenizer.run (created m) lat t md = (lat', Ok r) /\ P_Config.usable (created m) lat' /\ (0 < ml_len (morphemes_of r))%nat).
Proof.
  intros IN PR FS SI CP MA.
  assert (MK : exists m, make_dictionary c d = Ok m).
  { destruct (mk_chars _ _ _ _ _ _ _ _ _ _ _ _ _ _ _ _ _ _ MA) as (rs & (cp & cf & ls & E1 & E2 & FO & CD) & NE).
    destruct (C64_definition_file int16 pop cf ls rs (in_pop _ _ _ _ IN) FO CD NE) as (table & ET & _).
    assert (HT : exists cp cf, conf_get c CHAR_DEF_KEY = Some (JStr cp) /\ text_file (located d cp) = Ok cf /\ read_character_definition int16 pop cf = Ok table) by (exists cp, cf; auto).
    destruct (get_plugins_ok c get_input_text_plugin (set_up_input text_file join DEFAULT_RESOURCEDIR) _ _ (mk_inputs _ _ _ _ _ _ _ _ _ _ _ _ _ _ _ _ _ _ MA)) as (ispecs & ins & HI1 & HI2).
    { intros o Ho. eapply inputs_made; eauto. }
    destruct (get_plugins_ok c get_oov_plugin (set_up_oov text_file join int10 g0 d) _ _ (mk_oovs _ _ _ _ _ _ _ _ _ _ _ _ _ _ _ _ _ _ MA)) as (ospecs & oovs & HO1 & HO2).
    { intros o Ho. apply oovs_made. exact Ho. }
    destruct (get_plugins_ok c get_path_rewrite_plugin (set_up_path g0) _ _ (mk_paths _ _ _ _ _ _ _ _ _ _ _ _ _ _ _ _ _ _ MA)) as (pspecs & paths & HP1 & HP2).
    { intros o Ho. eapply paths_made; eauto. }
    assert (HO3 : ospecs <> []).
    { intros ->. destruct (cp_last _ _ _ _ _ _ _ _ _ _ _ CP) as (objs & o & Ec & _). unfold get_plugins in HO1. change (lit "oovProviderPlugin") with (txt "oovProviderPlugin") in HO1. rewrite Ec in HO1. cbn [jitems bind] in HO1.
      apply mapM_all in HO1. inversion HO1 as [X|]. destruct objs; discriminate X. }
    destruct (bf_user_files _ _ _ _ _ _ _ _ _ _ _ _ _ _ BF) as (ups & UP & UF).
    destruct (load_none binary_file join is_absolute order lower nfkc search limit py_int is_digit trie_array c d g0 sys_id system users BF table ins oovs) as (ds0 & L0).
    destruct (load_total text_file binary_file join is_absolute DEFAULT_RESOURCEDIR int16 int10 pop order lower nfkc search limit py_int is_digit trie_array c d g0 sys_id system users BF IN PR FS SI CP MA
      table ispecs ins ospecs oovs pspecs paths HT (conj HI1 HI2) (conj HO1 (conj HO3 HO2)) (conj HP1 HP2) users [] ds0 [] eq_refl (Forall2_nil _) L0) as (ds & L); [eauto|].
    exists (Made ds table ins oovs paths). apply (make_ok _ _ _ _ _ _ _ _ _ _ _ _ _ _ _ _ (dc_file system) (map dc_file users) g0 ispecs ospecs pspecs).
    constructor; cbn [md_table md_inputs md_providers md_set md_rewriters].
    - exact (bf_system_file _ _ _ _ _ _ _ _ _ _ _ _ _ _ BF).
    - exact HT.
    - exists ups. split; [exact UP|]. clear - UF. induction UF; cbn [map]; constructor; auto.
    - unfold load_dictionaries in *. apply bind_ok in L0 as (d1 & E & L0). cbn [map foldM] in L0. injection L0 as <-. rewrite E. exact L.
    - exact (bf_grammar _ _ _ _ _ _ _ _ _ _ _ _ _ _ BF).
    - auto.
    - auto.
    - auto. }
  destruct MK as (m & MK). exists m. split; [exact MK|]. intros lat t md U Hs Ht.
  destruct (C71_analyses_partial _ _ _ _ _ _ _ _ _ _ _ _ _ _ _ _ _ _ m _ _ _ _ BF MK IN PR FS SI CP lat t md U Hs Ht) as (it & Ep & A). exists it. split; [exact Ep|].
  intros L. destruct (A L) as (lat' & r & Er & U' & N & _). exists lat', r. auto.
Qed.

(** A Dictionary that was made had at least one OOV provider, of one of the two classes; the
    part of speech of joined katakana words is one of the system dictionary; and no user
    word whose cost is to be calculated is without a text. *)
Theorem C80_needs m : make_dictionary c d = Ok m ->
  (exists objs, conf_get c (txt "oovProviderPlugin") = Some (JList objs) /\ objs <> [] /\
     forall x, In x objs -> exists o, x = JObj o /\
       (conf_get o (txt "class") = Some (JStr (txt "sudachipy.plugin.oov.SimpleOovProviderPlugin")) \/ conf_get o (txt "class") = Some (JStr (txt "sudachipy.plugin.oov.MeCabOovProviderPlugin")))) /\
  (forall o, plugin c "pathRewritePlugin" "sudachipy.plugin.path_rewrite.JoinKatakanaOovPlugin" o -> exists pos, conf_get o (txt "oovPOS") = Some (strings pos) /\ In pos (g_pos g0)) /\
  (forall u row cs, In u users -> In row (dc_rows u) -> Forall2 (fun c c' => unescape c = Ok c') row cs -> py_int (nth 3 cs []) = Ok (-32768) -> nth 4 cs [] <> []).
Proof.
  intros MK. destruct (make_inv _ _ _ _ _ _ _ _ _ _ _ _ _ _ _ _ MK) as (sf & ufs & g & ins & oovs & paths & C).
  assert (g = g0).
  { destruct (co_system _ _ _ _ _ _ _ _ _ _ _ _ _ _ _ _ _ _ _ _ _ _ C) as (sp & E1 & E2). destruct (bf_system_file _ _ _ _ _ _ _ _ _ _ _ _ _ _ BF) as (sp' & E1' & E2').
    destruct (co_grammar _ _ _ _ _ _ _ _ _ _ _ _ _ _ _ _ _ _ _ _ _ _ C) as (dict & E3 & E4). destruct (bf_grammar _ _ _ _ _ _ _ _ _ _ _ _ _ _ BF) as (dict' & E3' & E4').
    assert (sp' = sp) by congruence. subst sp'. assert (sf = dc_file system) by congruence. subst sf. assert (dict' = dict) by congruence. subst dict'. congruence. }
  subst g. split; [|split].
  - destruct (live_providers _ _ _ _ _ _ _ _ _ _ _ _ _ _ _ _ MK) as (objs & g & Ec & F). exists objs. split; [exact Ec|]. split.
    + intros ->. destruct (co_oovs _ _ _ _ _ _ _ _ _ _ _ _ _ _ _ _ _ _ _ _ _ _ C) as (O1 & NE & _). unfold get_plugins in O1. change (lit "oovProviderPlugin") with (txt "oovProviderPlugin") in O1. rewrite Ec in O1. cbn in O1. congruence.
    + intros x Hx. assert (X : exists o s p, x = JObj o /\ get_oov_plugin x = Ok s /\ set_up_oov text_file join int10 g d s = Ok p).
      { clear - F Hx. induction F as [|y p l l' (o & s & A) F IH]; [destruct Hx|]. destruct Hx as [<-|Hx]; [exists o, s, p; exact A|auto]. }
      destruct X as (o & s & p & -> & E1 & E2). exists o. split; [reflexivity|]. destruct (oov_source _ _ _ _ _ _ _ _ E1 E2) as [(X & _)|(X & _)]; auto.
  - intros o (objs & Ec & Ho & CL). destruct (co_paths _ _ _ _ _ _ _ _ _ _ _ _ _ _ _ _ _ _ _ _ _ _ C) as (Q1 & Q2). unfold get_plugins in Q1. change (lit "pathRewritePlugin") with (txt "pathRewritePlugin") in Q1. rewrite Ec in Q1. cbn [jitems bind] in Q1.
    apply mapM_all in Q1. assert (X : exists s p, get_path_rewrite_plugin (JObj o) = Ok s /\ set_up_path g0 s = Ok p).
    { clear - Q1 Q2 Ho. revert Q2. generalize (md_rewriters m). induction Q1 as [|x s l l' E F IH]; intros ps Q2; [destruct Ho|]. inversion Q2 as [|? p ? ps' Ep Q3]; subst. destruct Ho as [->|Ho]; [eauto|eapply IH; eauto]. }
    destruct X as (s & p & Es & Ep). apply key_error_ok in Es. cbn [jget] in Es. change (lit "class") with (txt "class") in Es. rewrite CL in Es. cbn [bind] in Es.
    change (is_class _ "sudachipy.plugin.path_rewrite.JoinNumericPlugin") with false in Es. change (is_class _ "sudachipy.plugin.path_rewrite.JoinKatakanaOovPlugin") with true in Es. cbv iota in Es.
    apply bind_ok in Es as (v & Ev & Es). apply bind_ok in Es as (n & _ & [= <-]). change (lit "oovPOS") with (txt "oovPOS") in Ev. destruct (conf_get o (txt "oovPOS")) as [v'|] eqn:Eo; [|discriminate]. injection Ev as ->.
    cbn [set_up_path] in Ep. destruct (truthy v); [|discriminate]. destruct (json_pos_id g0 v <? 0) eqn:EN; [discriminate|]. apply Z.ltb_ge in EN.
    unfold json_pos_id in EN. destruct v as [| | | |l|]; try lia. destruct (as_strings l) as [ts|] eqn:Ea; [|lia]. apply as_strings_inv in Ea as ->. exists ts. split; [reflexivity|].
    destruct (in_dec (list_eq_dec (list_eq_dec Z.eq_dec)) ts (g_pos g0)) as [H|H]; [exact H|]. apply pos_id_unknown in H. lia.
  - intros u row cs Hu Hr Fc Ek E4. apply in_split in Hu as (ua & ub & EU).
    pose proof (files_loaded _ _ _ _ _ _ _ _ _ _ _ _ _ _ _ _ _ _ _ _ _ _ _ BF MK) as FL. unfold load_dictionaries in FL. apply bind_ok in FL as (ds0 & _ & FL). rewrite EU, map_app, foldM_app in FL. apply bind_ok in FL as (ds1 & _ & FL).
    cbn [map foldM] in FL. apply bind_ok in FL as (ds2 & E2 & _). unfold read_user_dictionary in E2. destruct (ls_is_full _); [discriminate|]. apply bind_ok in E2 as (dict & Ed & E2). apply bind_ok in E2 as (lx & El & _).
    pose proof (bf_contract _ _ _ _ _ _ _ _ _ _ _ _ _ _ BF) as CT. pose proof (bf_users _ _ _ _ _ _ _ _ _ _ _ _ _ _ BF) as UB. rewrite Forall_forall in UB.
    assert (Hu : In u users) by (rewrite EU; apply in_or_app; right; now left). pose proof (UB u Hu) as B.
    destruct (built_opens _ _ _ _ CT _ _ B) as (SO & dict' & g' & _ & Eg & E & G1 & LO & LS). rewrite Ed in E. injection E as <-.
    apply In_nth_error in Hr as (w & Hr).
    assert (Hw : (w < length (s_entries (dc_source u)))%nat).
    { destruct B as (_ & _ & _ & _ & _ & _ & HB & _). destruct (build_rows _ _ _ _ _ HB) as (_ & LN & _ & _). cbn [new_source s_entries length Nat.add] in LN. assert (w < length (dc_rows u))%nat by (apply nth_error_Some; congruence). lia. }
    destruct (nth_error (s_entries (dc_source u)) w) as [e|] eqn:Ee; [|apply nth_error_None in Ee; lia].
    pose proof (In_nth_error _ _ Hu) as (k & Hk).
    destruct (entry_row _ _ _ _ _ _ _ _ _ _ _ _ _ _ BF (S k) u w e Hk Ee) as (row' & tb & tb' & Hr' & HPL). assert (row' = row) by congruence. subst row'.
    destruct (C58_accepted _ _ _ _ _ _ HPL) as (_ & cs' & Fc' & _ & _ & _ & _ & A3 & A4 & _). apply (columns_eq _ _ _ Fc) in Fc' as ->. rewrite Ek in A3. injection A3 as A3.
    destruct (lexicon_params _ _ _ _ _ _ _ _ LO Ee) as (_ & _ & CC). unfold lx_cost in CC. rewrite Nat2Z.id in CC.
    destruct (calculate_fold _ _ _ _ _ _ El) as (_ & _ & W). destruct (W w) as (x & Ex & _ & X); [rewrite (lo_size _ _ _ _ _ _ LO); lia|].
    assert (x = -32768) by congruence. destruct (X H) as (_ & info & ic & n & I1 & I2 & _).
    destruct (bf_forms _ _ _ _ _ _ _ _ _ _ _ _ _ _ BF u w (or_intror Hu) Hw) as (q & Hq & CE).
    pose proof B as (_ & _ & _ & _ & _ & _ & _ & _ & _ & FT & _).
    destruct (lexicon_word_info _ _ _ _ _ _ limit q w 0 LO LS FT CE Hq ltac:(lia)) as (e0 & wi & Hi0 & INF & P). rewrite Ee in Hi0. injection Hi0 as <-.
    destruct INF as (e1 & ia & ib & ic' & t1 & t2 & t3 & t4 & Hi1 & _ & _ & _ & ->). rewrite Ee in Hi1. injection Hi1 as <-.
    unfold lx_word_info in I1. rewrite P in I1. cbn [snd] in I1. injection I1 as <-. cbn [set_dictionary_form entry_info wi_surface] in I2. rewrite A4, E4 in I2.
    unfold M_Setup.internal_cost in I2. cbn in I2. discriminate I2.
Qed.
End one.
End system.
Print Assumptions C80_makes_partial.
Print Assumptions C80_needs.

(** ** The hypotheses are met by the Dictionary of Prop_System (one of whose user words has a
    calculated cost). *)
Lemma toy_makeable : makeable toy_text_file toy_binary_file toy_join toy_absolute (txt "/default") sample_int16 sample_int10 pop_first (fun l => l) (fun x => [x]) (fun t => t) toy_search 10 toy_int
  toy_conf toy_dir toy_system toy_users.
Proof.
  destruct (file_of_exists toy_char_def) as (ls & F). destruct (file_of_exists toy_unk_def) as (uls & FU).
  constructor.
  - destruct (pr_chars _ _ _ _ _ _ toy_plain) as (p & f & ls' & rs & E1 & E2 & F' & CD & _). exists rs. split; [exists p, f, ls'; auto|]. intros ->.
    vm_compute in E1. injection E1 as <-. change (toy_text_file _) with (@Ok text toy_char_def) in E2. injection E2 as <-.
    pose proof (char_ranges_ok sample_int16 _ _ (file_lines_spec _ _ F') _ CD) as Y. vm_compute in Y. discriminate Y.
  - left. reflexivity.
  - right. eexists [_; _]. split; [reflexivity|]. constructor; [|constructor; [|constructor]].
    + left. split; [reflexivity|].
      assert (E : exists cfg, mecab_set_up sample_int10 toy_grammar toy_char_def toy_unk_def = Ok cfg).
      { assert (X : match mecab_set_up sample_int10 toy_grammar toy_char_def toy_unk_def with Ok _ => true | Err _ => false end = true) by (vm_compute; reflexivity). revert X. generalize (mecab_set_up sample_int10 toy_grammar toy_char_def toy_unk_def). intros [x|] X; [eauto|discriminate]. }
      destruct E as (cfg & E). destruct (C65_nothing_else _ _ _ _ _ _ _ F FU E) as (ps & us & HP & HU & D).
      exists (txt "char.def"), (txt "unk.def"), toy_char_def, toy_unk_def, ls, ps, uls, us. split; [reflexivity|]. split; [reflexivity|]. split; [reflexivity|]. split; [reflexivity|]. auto.
    + right. split; [reflexivity|]. exists 0, 1, 6000, (strings P1). repeat split.
  - right. eexists [_]. split; [reflexivity|]. constructor; [|constructor]. right. split; [reflexivity|]. split; [|right; exists 3; reflexivity].
    exists (strings P2). split; [reflexivity|]. exists P2, (nth 1 toy_rows []). split; [reflexivity|]. split; [right; now left|]. exists (nth 1 toy_rows []). split; [repeat constructor|reflexivity].
  - intros u row cs Hu Hr Fc Ek.
    assert (V : forallb (fun u => forallb (fun row => match mapM unescape row with
        | Ok cs => match nth 4 cs [] with [] => false | _ => true end && forallb is_scalar (nth 4 cs []) &&
            match M_Setup.make_dictionary toy_text_file toy_binary_file toy_join toy_absolute (txt "/default") sample_int16 sample_int10 pop_first (fun l => l) (fun x => [x]) (fun t => t) toy_search 10 (without_users toy_conf) toy_dir with
            | Ok m => match run_prepare (M_Setup.created (fun l => l) (fun x => [x]) (fun t => t) toy_search 10 m) (nth 4 cs []) with Ok it => Z.of_nat (length (it_bytes it)) <=? 32766 | Err _ => true end
            | Err _ => true end
        | Err _ => false end) (dc_rows u)) toy_users = true) by (vm_compute; reflexivity).
    rewrite forallb_forall in V. specialize (V u Hu). rewrite forallb_forall in V. specialize (V row Hr).
    destruct (mapM unescape row) as [cs'|] eqn:E; [|discriminate]. apply mapM_Forall2 in E. apply (columns_eq _ _ _ Fc) in E as ->.
    apply andb_true_iff in V as (V & V3). apply andb_true_iff in V as (V1 & V2). split; [intros X; rewrite X in V1; discriminate V1|]. split; [now apply Forall_forall, forallb_forall|].
    intros m it Em Ei. rewrite Em in V3. cbv beta iota in V3. rewrite Ei in V3. now apply Z.leb_le.
Qed.
Example C80_nonvacuous :
  (exists u row cs, In u toy_users /\ In row (dc_rows u) /\ Forall2 (fun c c' => unescape c = Ok c') row cs /\ toy_int (nth 3 cs []) = Ok (-32768)) /\
  exists m, toy_make toy_conf toy_dir = Ok m.
Proof.
  split.
  - exists (toy_dic toy_kind user_rows1 None), (nth 1 user_rows1 []), (nth 1 user_rows1 []). split; [now left|]. split; [right; now left|]. split; [repeat constructor|]. vm_compute. reflexivity.
  - destruct (C80_makes_partial toy_text_file toy_binary_file toy_join toy_absolute (txt "/default") sample_int16 sample_int10 pop_first (fun l => l) (fun x => [x]) (fun t => t) toy_search 10 toy_int toy_digit toy_array
      toy_conf toy_dir toy_grammar toy_sys_id toy_system toy_users toy_built_from toy_interpreter toy_plain toy_files toy_scalar toy_complete toy_makeable) as (m & E & _). exists m. exact E.
Qed.

(** "Every user dictionary that the builder writes can be used" fails: with a word that has
    no text of its own (an empty fifth column) and asks for a calculated cost, making the
    Dictionary raises IndexError. *)
Definition silent_rows : list (list text) := [ [[37117]; [49]; [49]; [45; 51; 50; 55; 54; 56]; []] ++ P3 ++ [[6]; [37117]; star; [67]; star; star; star] ].
Definition silent_conf : conf := (txt "userDict", JList [JStr (txt "c.dic")]) :: toy_conf.
Definition silent_binary_file (p : text) : res bytes := if teqb p (txt "/res/c.dic") then Ok (dc_file (toy_dic toy_kind silent_rows None)) else toy_binary_file p.
Definition silent_make := M_Setup.make_dictionary toy_text_file silent_binary_file toy_join toy_absolute (txt "/default") sample_int16 sample_int10 pop_first (fun l => l) (fun x => [x]) (fun t => t) toy_search 10.
Theorem C80_silent_word_refuted :
  built_from silent_binary_file toy_join toy_absolute toy_search 10 toy_int toy_digit toy_array silent_conf toy_dir toy_grammar toy_sys_id toy_system [toy_dic toy_kind silent_rows None] /\
  (exists m, silent_make toy_conf toy_dir = Ok m) /\ silent_make silent_conf toy_dir = Err EIndex.
Proof.
  split; [|split].
  - destruct toy_built_from as [B1 B2 B3 B4 B5 B6 B7 B8]. constructor; [exact B1| |exact B3|exact B4| | |exact B7|].
    + exists (txt "system.dic"). split; reflexivity.
    + exists [txt "c.dic"]. split; [right; reflexivity|]. constructor; [reflexivity|constructor].
    + destruct C38_nonvacuous as (_ & _ & A3 & _). rewrite <- A3. fold toy_kind. constructor; [|constructor]. apply toy_built_tac; [vm_compute; reflexivity|vm_compute; reflexivity| | | |vm_compute; discriminate].
      * vm_compute s_table; repeat constructor; vm_compute; (reflexivity || lia || discriminate).
      * intros m E; discriminate E.
      * vm_compute s_entries; repeat constructor; vm_compute; (reflexivity || discriminate).
    + intros u i [<-|[<-|[]]] Hi; [apply B8; [now left|exact Hi]|].
      assert (L : length (s_entries (dc_source (toy_dic toy_kind silent_rows None))) = 1%nat) by (vm_compute; reflexivity). rewrite L in Hi. exists 1%nat. split; [lia|].
      destruct i as [|i]; [|lia]; (eapply CE_end; [vm_compute; reflexivity|]; left; vm_compute; reflexivity).
  - assert (X : match silent_make toy_conf toy_dir with Ok _ => true | Err _ => false end = true) by (vm_compute; reflexivity). revert X. generalize (silent_make toy_conf toy_dir). intros [x|] X; [eauto|discriminate].
  - assert (X : match silent_make silent_conf toy_dir with Err EIndex => true | _ => false end = true) by (vm_compute; reflexivity). revert X. generalize (silent_make silent_conf toy_dir). intros [x|[]] X; try discriminate. reflexivity.
Qed.
Print Assumptions C80_silent_word_refuted.
