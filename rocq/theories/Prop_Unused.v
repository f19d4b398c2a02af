(** Property C93: user dictionaries whose words a text does not have do not change its analysis. *)
From Coq Require Import String Ascii List ZArith Lia Bool Arith Sorting.Sorted Sorting.Permutation.
From Verif Require Import Base Utf8 M_Builder M_CharCategory M_InputText M_InputPlugins M_Lattice M_Oov M_Tokenizer M_NumericParser M_PathRewrite M_Morphemes
  M_Shipped M_Bytes M_DicReader M_DicBuilder M_LexiconSet M_Front M_Resource M_Setup S_Text S_Plugins S_Lattice S_Resource
  P_Builder P_InputText P_Accessors P_Lattice P_Tokenizer P_Path P_Config P_Total P_CharCategory P_Bytes P_DicFormat P_DicWrite P_DicOpen P_DicGrammar P_DicSource P_DicLexicon P_DicFile P_DicToy Prop_Format P_LexiconSet P_Resource
  Prop_Text Prop_Tokenizer Prop_Total Prop_CharCategory Prop_Source Prop_Lexicon Prop_Resource Prop_Shipped P_Words P_Setup P_System Prop_System P_Live Prop_Live P_Made Prop_Lattice Prop_Best Prop_AutoCost P_Agree.
Import ListNotations.
Open Scope list_scope.
Open Scope Z_scope.

(** ** Lexicon sets that go on *)
Definition goes_on (s s' : lexset) : Prop := exists xs ys, ls_lexicons s' = ls_lexicons s ++ xs /\ ls_offsets s' = ls_offsets s ++ ys.
Lemma users_go_on limit analyse fs : forall ds ds', foldM (read_user_dictionary limit analyse) ds fs = Ok ds' -> goes_on (ds_lexicon ds) (ds_lexicon ds').
Proof.
  induction fs as [|f fs IH]; intros ds ds' H; cbn [foldM] in H; [injection H as <-; exists [], []; now rewrite !app_nil_r|].
  apply bind_ok in H as (ds1 & H1 & H). apply IH in H as (xs & ys & E1 & E2). unfold read_user_dictionary in H1. destruct (ls_is_full _); [discriminate|].
  apply bind_ok in H1 as (dict & _ & H1). apply bind_ok in H1 as (lx & _ & H1). injection H1 as <-. cbn [ds_lexicon] in *. unfold ls_add in *.
  destruct (existsb _ _); [exists xs, ys; auto|]. cbn [ls_lexicons ls_offsets] in *. rewrite <- app_assoc in E1, E2. eexists _, _. split; [exact E1|exact E2].
Qed.
Lemma params_go_on s s' wid p : goes_on s s' -> ls_params s wid = Ok p -> ls_params s' wid = Ok p.
Proof.
  intros (xs & ys & E & _) H. unfold ls_params, ls_left_id, ls_right_id, ls_cost, ls_lexicon in *.
  destruct (get (ls_lexicons s) (Z.to_nat (ls_dictionary_id wid))) as [lx|] eqn:El; [|discriminate]. rewrite E, (get_prefix _ _ _ _ El). exact H.
Qed.
Lemma info_goes_on limit s s' wid wi : goes_on s s' -> ls_word_info limit s wid = Ok wi -> ls_word_info limit s' wid = Ok wi.
Proof.
  intros (xs & ys & EL & EO) H.
  assert (B : forall k w id, ls_build_word_id s k w = Ok id -> ls_build_word_id s' k w = Ok id).
  { intros k w id. unfold ls_build_word_id. rewrite EL, app_length. destruct (_ <? w); [auto|].
    destruct (_ <? k) eqn:E1; [discriminate|]. apply Z.ltb_ge in E1. replace (_ <? k) with false by (symmetry; apply Z.ltb_ge; lia). auto. }
  assert (CS : forall l k l', ls_convert_split s l k = Ok l' -> ls_convert_split s' l k = Ok l').
  { intros l k l'. unfold ls_convert_split. apply mapM_le. intros x y. destruct (0 <? _); [apply B|auto]. }
  unfold ls_word_info, ls_lexicon in *. apply bind_ok in H as (l & Hl & H). apply bind_ok in Hl as (l0 & Hl & El).
  rewrite EL, (get_prefix _ _ _ _ Hl). cbn [bind]. injection El as <-. apply bind_ok in H as (wi0 & Hwi & H). rewrite Hwi. cbn [bind].
  apply bind_ok in H as (pos & Hpos & H).
  assert (Hp' : (if 0 <? ls_dictionary_id wid then
            first <- get (ls_offsets s') 1 ;;
            if first <=? wi_pos wi0 then own <- get (ls_offsets s') (Z.to_nat (ls_dictionary_id wid)) ;; Ok (wi_pos wi0 - first + own) else Ok (wi_pos wi0)
          else Ok (wi_pos wi0)) = Ok pos).
  { rewrite EO. destruct (0 <? ls_dictionary_id wid); [|exact Hpos]. apply bind_ok in Hpos as (first & Hf & Hpos).
    rewrite (get_prefix _ _ _ _ Hf). cbn [bind]. destruct (first <=? _); [|exact Hpos]. apply bind_ok in Hpos as (own & Ho & Hpos).
    rewrite (get_prefix _ _ _ _ Ho). exact Hpos. }
  rewrite Hp'. cbn [bind]. apply bind_ok in H as (a & Ha & H). apply bind_ok in H as (b & Hb & H). apply bind_ok in H as (c & Hc & H).
  rewrite (CS _ _ _ Ha), (CS _ _ _ Hb), (CS _ _ _ Hc). exact H.
Qed.
Lemma lookup_goes_on search s xs t off : ls_lexicons s <> [] ->
  let fine := Forall (fun lx => snd (lx_lookup search (snd lx) t off) = None /\ Forall small (fst (lx_lookup search (snd lx) t off))) in
  forall s', ls_lexicons s' = ls_lexicons s ++ xs -> fine (ls_lexicons s') -> Forall (fun lx => fst (lx_lookup search (snd lx) t off) = []) xs ->
  ls_lookup search s' t off = ls_lookup search s t off.
Proof.
  intros NE fine s' E F X. assert (F0 : fine (ls_lexicons s)) by (rewrite E in F; apply Forall_app in F; apply F).
  rewrite (ls_lookup_ok search s t off NE F0), (ls_lookup_ok search s' t off); [|rewrite E; destruct (ls_lexicons s); [congruence|discriminate]|exact F].
  f_equal. unfold turns. rewrite E. destruct (ls_lexicons s) as [|lx r]; [congruence|]. cbn [app]. rewrite !map_app, !concat_app. f_equal.
  generalize 1%nat as a. clear - X. induction r as [|y r IH]; intros a; cbn [app length seq map combine concat].
  - revert a. induction X as [|x xs Hx X IH]; intros a; [reflexivity|]. cbn [length seq map combine concat fst snd]. rewrite Hx. cbn [map app]. apply IH.
  - f_equal. apply IH.
Qed.

Section system.
Variable text_file : text -> res text.
Variable binary_file : text -> res bytes.
Variable join : text -> text -> text.
Variable is_absolute : text -> bool.
Variable DEFAULT_RESOURCEDIR : text.
Variable int16 int10 : text -> res Z.
Variable pop : list range -> option (range * list range).
Variable order : list cat -> list cat.
Variable lower : Z -> text.
Variable nfkc : text -> text.
Variable search : bytes -> bytes -> list (Z * nat).
Variable limit : nat.
Variable py_int : text -> res Z.
Variable is_digit : Z -> bool.
Variable trie_array : list (bytes * Z) -> res bytes.
Notation make_dictionary := (make_dictionary text_file binary_file join is_absolute DEFAULT_RESOURCEDIR int16 int10 pop order lower nfkc search limit).
Notation internal_cost := (internal_cost order lower nfkc search limit).
Notation md_settings := (md_settings order lower nfkc search limit).
Notation created := (created order lower nfkc search limit).
Notation built_from := (built_from binary_file join is_absolute search limit py_int is_digit trie_array).
Notation plain_resources := (plain_resources text_file join is_absolute int16).
Notation interpreter := (interpreter pop order lower nfkc).

Section one.
Variables (c c' : conf) (d : text) (m m' : made) (g0 : grammar) (sys_id : text -> Z -> text -> res Z) (system : dic) (users more : list dic).
(** Two settings that differ in the user dictionaries only: the second names some more, after
    those of the first. *)
Hypothesis SAME : forall k, k <> USER_DICT_PATH_KEY -> conf_get c' k = conf_get c k.
Hypothesis BF : built_from c d g0 sys_id system users.
Hypothesis BF' : built_from c' d g0 sys_id system (users ++ more).
Hypothesis MK : make_dictionary c d = Ok m.
Hypothesis MK' : make_dictionary c' d = Ok m'.
Hypothesis IN : interpreter.
Hypothesis PR : plain_resources c d.

Lemma same_plugins {A} (make : json -> res A) key : txt key <> USER_DICT_PATH_KEY -> get_plugins make c' key = get_plugins make c key.
Proof. intros N. unfold get_plugins. change (lit key) with (txt key). now rewrite (SAME _ N). Qed.
Lemma functional {A B} (f : A -> res B) l l1 : Forall2 (fun a b => f a = Ok b) l l1 -> forall l2, Forall2 (fun a b => f a = Ok b) l l2 -> l2 = l1.
Proof. induction 1 as [|a b l l1 E F IH]; intros l2 F2; inversion F2; subst; [reflexivity|]. f_equal; [congruence|auto]. Qed.

Lemma same_made : md_table m' = md_table m /\ md_inputs m' = md_inputs m /\ md_providers m' = md_providers m /\ md_rewriters m' = md_rewriters m.
Proof.
  destruct (make_inv _ _ _ _ _ _ _ _ _ _ _ _ _ _ _ _ MK) as (sf & ufs & g & ins & oovs & paths & C).
  destruct (make_inv _ _ _ _ _ _ _ _ _ _ _ _ _ _ _ _ MK') as (sf' & ufs' & g' & ins' & oovs' & paths' & C').
  destruct (co_system _ _ _ _ _ _ _ _ _ _ _ _ _ _ _ _ _ _ _ _ _ _ C) as (sp & A1 & A2). destruct (co_system _ _ _ _ _ _ _ _ _ _ _ _ _ _ _ _ _ _ _ _ _ _ C') as (sp' & A1' & A2').
  rewrite SAME, A1 in A1' by discriminate. injection A1' as <-. rewrite A2 in A2'. injection A2' as <-.
  destruct (co_grammar _ _ _ _ _ _ _ _ _ _ _ _ _ _ _ _ _ _ _ _ _ _ C) as (dict & B1 & B2). destruct (co_grammar _ _ _ _ _ _ _ _ _ _ _ _ _ _ _ _ _ _ _ _ _ _ C') as (dict' & B1' & B2').
  assert (dict' = dict) by congruence. subst dict'. assert (g' = g) by congruence. subst g'.
  split; [|split; [|split]].
  - destruct (co_chars _ _ _ _ _ _ _ _ _ _ _ _ _ _ _ _ _ _ _ _ _ _ C) as (cp & cf & D1 & D2 & D3). destruct (co_chars _ _ _ _ _ _ _ _ _ _ _ _ _ _ _ _ _ _ _ _ _ _ C') as (cp' & cf' & D1' & D2' & D3').
    rewrite SAME, D1 in D1' by discriminate. injection D1' as <-. congruence.
  - destruct (co_inputs _ _ _ _ _ _ _ _ _ _ _ _ _ _ _ _ _ _ _ _ _ _ C) as (D1 & D2). destruct (co_inputs _ _ _ _ _ _ _ _ _ _ _ _ _ _ _ _ _ _ _ _ _ _ C') as (D1' & D2').
    rewrite same_plugins, D1 in D1' by discriminate. injection D1' as <-. eapply functional; eauto.
  - destruct (co_oovs _ _ _ _ _ _ _ _ _ _ _ _ _ _ _ _ _ _ _ _ _ _ C) as (D1 & _ & D2). destruct (co_oovs _ _ _ _ _ _ _ _ _ _ _ _ _ _ _ _ _ _ _ _ _ _ C') as (D1' & _ & D2').
    rewrite same_plugins, D1 in D1' by discriminate. injection D1' as <-. eapply functional; eauto.
  - destruct (co_paths _ _ _ _ _ _ _ _ _ _ _ _ _ _ _ _ _ _ _ _ _ _ C) as (D1 & D2). destruct (co_paths _ _ _ _ _ _ _ _ _ _ _ _ _ _ _ _ _ _ _ _ _ _ C') as (D1' & D2').
    rewrite same_plugins, D1 in D1' by discriminate. injection D1' as <-. eapply functional; eauto.
Qed.

Lemma more_loaded : goes_on (ds_lexicon (md_set m)) (ds_lexicon (md_set m')).
Proof.
  destruct same_made as (E1 & E2 & E3 & _).
  pose proof (files_loaded _ _ _ _ _ _ _ _ _ _ _ _ _ _ _ _ _ _ _ _ _ _ _ BF MK) as FL. pose proof (files_loaded _ _ _ _ _ _ _ _ _ _ _ _ _ _ _ _ _ _ _ _ _ _ _ BF' MK') as FL'.
  rewrite E1, E2, E3, map_app in FL'. unfold load_dictionaries in FL, FL'. apply bind_ok in FL as (ds0 & H0 & FL). apply bind_ok in FL' as (ds0' & H0' & FL').
  assert (ds0' = ds0) by congruence. subst ds0'. apply fold_prefix in FL' as (ds1 & H1 & H2). rewrite FL in H1. injection H1 as <-. eapply users_go_on; eauto.
Qed.

Let n0 := length (s_entries (dc_source system)).
Lemma loaded_less : loaded py_int is_digit search g0 sys_id n0 system users (md_set m).
Proof.
  eapply load_ok; [exact (bf_contract _ _ _ _ _ _ _ _ _ _ _ _ _ _ BF)|exact (bf_system _ _ _ _ _ _ _ _ _ _ _ _ _ _ BF)|exact (bf_grammar _ _ _ _ _ _ _ _ _ _ _ _ _ _ BF)|reflexivity|exact (bf_users _ _ _ _ _ _ _ _ _ _ _ _ _ _ BF)|
    exact (files_loaded _ _ _ _ _ _ _ _ _ _ _ _ _ _ _ _ _ _ _ _ _ _ _ BF MK)].
Qed.
Lemma loaded_more : loaded py_int is_digit search g0 sys_id n0 system (users ++ more) (md_set m').
Proof.
  eapply load_ok; [exact (bf_contract _ _ _ _ _ _ _ _ _ _ _ _ _ _ BF')|exact (bf_system _ _ _ _ _ _ _ _ _ _ _ _ _ _ BF')|exact (bf_grammar _ _ _ _ _ _ _ _ _ _ _ _ _ _ BF')|reflexivity|exact (bf_users _ _ _ _ _ _ _ _ _ _ _ _ _ _ BF')|
    exact (files_loaded _ _ _ _ _ _ _ _ _ _ _ _ _ _ _ _ _ _ _ _ _ _ _ BF' MK')].
Qed.

Lemma entry_info_ok wid : entry_id system users wid -> (exists p, ls_params (ds_lexicon (md_set m)) wid = Ok p) /\ exists wi, ls_word_info limit (ds_lexicon (md_set m)) wid = Ok wi.
Proof.
  intros (k & u & i & e & Hk & Hi & ->).
  pose proof (bf_contract _ _ _ _ _ _ _ _ _ _ _ _ _ _ BF) as CT. pose proof (bf_system _ _ _ _ _ _ _ _ _ _ _ _ _ _ BF) as SB. pose proof (bf_grammar _ _ _ _ _ _ _ _ _ _ _ _ _ _ BF) as GO. pose proof (bf_users _ _ _ _ _ _ _ _ _ _ _ _ _ _ BF) as UB.
  pose proof (files_loaded _ _ _ _ _ _ _ _ _ _ _ _ _ _ _ _ _ _ _ _ _ _ _ BF MK) as FL.
  destruct (bf_forms _ _ _ _ _ _ _ _ _ _ _ _ _ _ BF u i (nth_error_In _ _ Hk)) as (n & Hn & CE); [apply nth_error_Some; congruence|]. split.
  - destruct (C43_loaded _ _ _ _ CT _ _ _ _ _ _ _ _ SB GO eq_refl UB FL k u i e Hk Hi) as (A1 & A2 & x & A3 & _). unfold ls_params. rewrite A1. cbn [bind]. rewrite A2. cbn [bind]. rewrite A3. cbn [bind]. eauto.
  - destruct (C40_other_columns _ _ _ _ CT _ _ _ _ _ _ _ _ SB GO eq_refl UB FL k u i e n Hk Hi CE Hn) as (wi & E & _). eauto.
Qed.

(** ** C93 *)
(** The row [row] of the dictionary [u], with the columns [cs], can be found in texts and its
    headword (column 0) is in the normalised text [it]. *)
Definition headword_in (u : dic) (it : input_text) : Prop :=
  exists row cs a b, In row (dc_rows u) /\ Forall2 (fun x x' => unescape x = Ok x') row cs /\ nth 1 cs [] <> [45; 49] /\
    (a <= b <= length (it_bytes it))%nat /\ encode (nth 0 cs []) = Ok (slice (it_bytes it) a b).

Lemma lookup_same it i : (forall u, In u more -> ~ headword_in u it) -> (i <= length (it_bytes it))%nat ->
  ls_lookup search (ds_lexicon (md_set m')) (it_bytes it) i = ls_lookup search (ds_lexicon (md_set m)) (it_bytes it) i.
Proof.
  intros NO Hi. destruct more_loaded as (xs & ys & EL & _).
  pose proof (bf_contract _ _ _ _ _ _ _ _ _ _ _ _ _ _ BF') as CT. pose proof (bf_system _ _ _ _ _ _ _ _ _ _ _ _ _ _ BF') as SB. pose proof (bf_grammar _ _ _ _ _ _ _ _ _ _ _ _ _ _ BF') as GO. pose proof (bf_users _ _ _ _ _ _ _ _ _ _ _ _ _ _ BF') as UB.
  pose proof (files_loaded _ _ _ _ _ _ _ _ _ _ _ _ _ _ _ _ _ _ _ _ _ _ _ BF' MK') as FL.
  pose proof (ld_count _ _ _ _ _ _ _ _ _ loaded_less) as LN. pose proof (ld_count _ _ _ _ _ _ _ _ _ loaded_more) as LN'.
  eapply lookup_goes_on; [intros X; rewrite X in LN; discriminate LN|exact EL|exact (all_lookups _ _ _ _ CT _ _ _ _ _ _ _ _ SB GO eq_refl UB FL (it_bytes it) i)|].
  rewrite Forall_forall. intros (id & lx) Hx. cbn [snd]. apply In_nth_error in Hx as (j & Hj).
  set (k := (S (length users) + j)%nat). assert (Hk : nth_error (ls_lexicons (ds_lexicon (md_set m'))) k = Some (id, lx)).
  { rewrite EL, nth_error_app2 by lia. replace (k - _)%nat with j by lia. exact Hj. }
  assert (Lk : (k < length (system :: users ++ more))%nat) by (cbn [length]; rewrite <- LN'; apply nth_error_Some; congruence).
  destruct (nth_error (system :: users ++ more) k) as [u|] eqn:Eu; [|apply nth_error_None in Eu; lia].
  destruct (dic_lookup _ _ _ _ CT _ _ _ _ _ _ _ _ SB GO eq_refl UB FL k u lx id (it_bytes it) i Eu Hk) as (_ & _ & F & _).
  destruct (fst (lx_lookup search lx (it_bytes it) i)) as [|(w & e) r]; [reflexivity|]. exfalso.
  destruct (proj1 (F Hi w e) (or_introl eq_refl)) as (q & x & h & -> & He & Hq & Hh & Hs).
  assert (Mu : In u more). { unfold k in Eu. cbn [nth_error Nat.add] in Eu. rewrite nth_error_app2 in Eu by lia. eapply nth_error_In; eauto. }
  apply (NO u Mu). destruct (entry_row _ _ _ _ _ _ _ _ _ _ _ _ _ _ BF' k u q x Eu Hq) as (row & tb & tb' & Hr & HP).
  destruct (C58_accepted _ _ _ _ _ _ HP) as (_ & cs & Fc & _ & A0 & _). rewrite Hh in A0. destruct (teqb (nth 1 cs []) [45; 49]) eqn:T; [discriminate A0|]. injection A0 as ->.
  exists row, cs, i, e. split; [eapply nth_error_In; eauto|]. split; [exact Fc|]. split; [|split; [exact He|exact Hs]].
  intros X. rewrite X in T. discriminate T.
Qed.

(** When no headword of the additional dictionaries is in the normalised text, it is analysed
    as without them, in every mode, whatever the tokenizers have analysed before; every
    morpheme has the same word info, and the same part of speech.  (The number of a part of
    speech is negative only for the words of a plugin whose part of speech is unknown, C70.) *)
Theorem C93_unused lat lat2 t md it :
  P_Config.usable (created m) lat -> P_Config.usable (created m') lat2 ->
  run_prepare (created m) t = Ok it -> (forall u, In u more -> ~ headword_in u it) ->
  snd (M_Tokenizer.run (created m') lat2 t md) = snd (M_Tokenizer.run (created m) lat t md) /\
  forall r i, snd (M_Tokenizer.run (created m) lat t md) = Ok r ->
    let l := morphemes_of r in
    ml_word_info (s_lexinfo (md_settings m')) l i = ml_word_info (s_lexinfo (md_settings m)) l i /\
    forall wi pos, ml_word_info (s_lexinfo (md_settings m)) l i = Ok wi -> 0 <= wi_pos wi ->
      M_Setup.ml_part_of_speech order lower nfkc search limit m l i = Ok pos ->
      M_Setup.ml_part_of_speech order lower nfkc search limit m' l i = Ok pos.
Proof.
  intros U U2 Ep NO. destruct same_made as (E1 & E2 & E3 & E4).
  pose proof (settings_good _ _ _ _ _ _ _ _ _ _ _ _ _ _ _ _ _ _ _ _ _ _ _ BF MK IN PR) as G.
  assert (PR' : plain_resources c' d).
  { destruct PR as [P1 P2]. constructor.
    - destruct P1 as (p & f & ls & rs & X & Y). exists p, f, ls, rs. rewrite SAME by discriminate. auto.
    - intros o v (objs & X & Y). apply (P2 o v). exists objs. rewrite SAME in X by discriminate. auto. }
  pose proof (settings_good _ _ _ _ _ _ _ _ _ _ _ _ _ _ _ _ _ _ _ _ _ _ _ BF' MK' IN PR') as G'.
  pose proof more_loaded as MO.
  assert (DI : forall wid, entry_id system users wid -> s_lexinfo (md_settings m) wid = s_lexinfo (md_settings m') wid).
  { intros wid H. destruct (entry_info_ok wid H) as (_ & wi & X). cbn [M_Setup.md_settings tokenizer_settings s_lexinfo]. rewrite X. symmetry. eapply info_goes_on; eauto. }
  assert (RUN : forall lat, P_Config.usable (created m) lat -> M_Tokenizer.run (created m) lat t md = M_Tokenizer.run (created m') lat t md).
  { clear lat U. intros lat U. apply (run_agree (md_settings m) (md_settings m') G) with (D := entry_id system users) (it := it); auto.
    - cbn [M_Setup.md_settings tokenizer_settings s_view]. destruct (ld_matrix _ _ _ _ _ _ _ _ _ loaded_less) as (A1 & A2 & A3). destruct (ld_matrix _ _ _ _ _ _ _ _ _ loaded_more) as (B1 & B2 & B3).
      unfold get_connect_cost. now rewrite A1, A2, A3, B1, B2, B3.
    - cbn [M_Setup.md_settings tokenizer_settings s_category]. now rewrite E1.
    - intros wid H. destruct (entry_info_ok wid H) as ((p & X) & _). cbn [M_Setup.md_settings tokenizer_settings s_params]. rewrite X. symmetry. eapply params_go_on; eauto.
    - intros wid wi. apply (split_entries _ _ _ _ _ _ _ _ _ _ _ _ _ _ _ _ _ _ _ _ _ _ _ BF MK).
    - intros i Hi. cbn [M_Setup.md_settings tokenizer_settings s_lookup]. symmetry. apply lookup_same; [exact NO|lia].
    - intros i wid e H. destruct (found_entries _ _ _ _ _ _ _ _ _ _ _ _ _ _ _ _ _ _ _ _ _ _ _ BF MK _ _ _ _ H) as (_ & k & u & j & x & h & A & B & C & _). exists k, u, j, x. auto. }
  split.
  - pose proof (C20_shipped_partial (md_settings m') lat2 t md G' U2) as X'. pose proof (C20_shipped_partial (md_settings m) lat t md G U) as X.
    change (shipped (md_settings m')) with (created m') in X'. change (shipped (md_settings m)) with (created m) in X. rewrite X', X, RUN; [reflexivity|constructor].
  - intros r i Er. cbn zeta. destruct (M_Tokenizer.run (created m) lat t md) as [lat' r'] eqn:E. cbn [snd] in Er. subst r'. destruct r as [(it' & p)|]; [|cbn [morphemes_of]; unfold ml_word_info; cbn [ml_path]; destruct i; cbn; split; [reflexivity|discriminate|reflexivity|discriminate]].
    pose proof (words _ _ _ _ _ _ _ _ _ _ _ _ _ _ _ _ _ _ _ _ _ _ _ BF MK IN PR lat t md lat' it' p U E) as F. cbn [morphemes_of].
    assert (X : ml_word_info (s_lexinfo (md_settings m')) (Morphemes (Some it') p) i = ml_word_info (s_lexinfo (md_settings m)) (Morphemes (Some it') p) i).
    { unfold ml_word_info. cbn [ml_path]. destruct (get p i) as [w|] eqn:Ew; [|reflexivity]. cbn [bind]. apply get_ok, nth_error_In in Ew. rewrite Forall_forall in F.
      symmetry. eapply info_agree; [exact DI|]. destruct (F w Ew) as [W|(o & pos & W & _)]; eauto. }
    split; [exact X|]. intros wi pos Hw Hp. unfold M_Setup.ml_part_of_speech. rewrite X, Hw. cbn [bind]. unfold part_of_speech. apply Z.leb_le in Hp. rewrite Hp.
    rewrite (ld_pos _ _ _ _ _ _ _ _ _ loaded_less), (ld_pos _ _ _ _ _ _ _ _ _ loaded_more), map_app, concat_app, app_assoc. apply get_prefix.
Qed.
End one.
End system.
Print Assumptions C93_unused.

(** ** The hypotheses are met *)
(** The settings of Prop_System with the first user dictionary only; the second one has the
    word 東.  The text is 都AB; 都 is a word of the first. *)
Definition less_conf : conf := (USER_DICT_PATH_KEY, JList [JStr (txt "a.dic")]) :: toy_conf.
Definition less_made : made := match toy_make less_conf toy_dir with Ok m => m | Err _ => Made toy_set [] [] [] [] end.

Example C93_nonvacuous :
  let u1 := toy_dic toy_kind user_rows1 None in
  let u2 := toy_dic toy_kind user_rows2 None in
  let t := [37117; 65; 66] in
  toy_users = [u1] ++ [u2] /\
  (forall k, k <> USER_DICT_PATH_KEY -> conf_get toy_conf k = conf_get less_conf k) /\
  built_from toy_binary_file toy_join toy_absolute toy_search 10 toy_int toy_digit toy_array less_conf toy_dir toy_grammar toy_sys_id toy_system [u1] /\
  toy_make less_conf toy_dir = Ok less_made /\
  plain_resources toy_text_file toy_join toy_absolute sample_int16 less_conf toy_dir /\
  exists it, run_prepare (created (fun l => l) (fun x => [x]) (fun t => t) toy_search 10 less_made) t = Ok it /\ (forall u, In u [u2] -> ~ headword_in u it) /\
    answers less_made t ModeC = Ok [([37117], 1, 2 ^ 28, false, P3); ([65; 66], -1, 0, true, P2)].
Proof.
  cbv zeta. split; [reflexivity|]. split; [|split; [|split; [|split]]].
  - intros k N. unfold less_conf, conf_get. cbn [find fst]. destruct (teqb USER_DICT_PATH_KEY k) eqn:E; [apply teqb_eq in E; congruence|reflexivity].
  - destruct toy_built_from as [B1 B2 B3 B4 B5 B6 B7 B8]. constructor; auto.
    + exists [txt "a.dic"]. split; [right; reflexivity|]. constructor; [reflexivity|constructor].
    + inversion B6; subst. constructor; [assumption|constructor].
    + intros u i [<-|[<-|[]]]; apply B8; [now left|right; now left].
  - unfold less_made. destruct (toy_make less_conf toy_dir) eqn:E; [reflexivity|].
    assert (X : match toy_make less_conf toy_dir with Ok _ => true | Err _ => false end = true) by (vm_compute; reflexivity). rewrite E in X. discriminate X.
  - destruct toy_plain as [P1 P2]. constructor; [exact P1|exact P2].
  - assert (X : (it <- run_prepare (created (fun l => l) (fun x => [x]) (fun t => t) toy_search 10 less_made) [37117; 65; 66] ;; Ok (it_bytes it)) = Ok [233; 131; 189; 65; 66]) by (vm_compute; reflexivity).
    apply bind_ok in X as (it & E & X). injection X as X. exists it. split; [exact E|]. split; [|vm_compute; reflexivity].
    intros u [<-|[]] (row & cs & a & b & Hr & Fc & _ & _ & S). destruct Hr as [<-|[]].
    assert (C0 : nth 0 cs [] = [26481]) by (inversion Fc as [|? y ? ? H1 _]; subst; injection H1 as <-; reflexivity). rewrite C0 in S. rewrite X in S.
    assert (I : In 230 (slice [233; 131; 189; 65; 66] a b)) by (injection S as <-; now left).
    unfold slice in I. assert (J : In 230 [233; 131; 189; 65; 66]).
    { rewrite <- (firstn_skipn b [233; 131; 189; 65; 66]). apply in_or_app. left. rewrite <- (firstn_skipn a (firstn b [233; 131; 189; 65; 66])). apply in_or_app. now right. }
    cbn [In] in J. repeat (destruct J as [J|J]; [discriminate J|]). exact J.
Qed.
Print Assumptions C93_nonvacuous.
(** For a text that has the word, the dictionary does change the analysis. *)
Example C93_used : answers less_made [26481] ModeC <> answers toy_made [26481] ModeC.
Proof. vm_compute. discriminate. Qed.
