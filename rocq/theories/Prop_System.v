(** C69 and C70: a Dictionary made from files, from the rows of the sources to the answers of
    morphemes. *)
From Coq Require Import String Ascii List ZArith Lia Bool Arith Sorting.Sorted Sorting.Permutation.
From Verif Require Import Base Utf8 M_Builder M_CharCategory M_InputText M_InputPlugins M_Lattice M_Oov M_Tokenizer M_NumericParser M_PathRewrite M_Morphemes
  M_Shipped M_Bytes M_DicReader M_DicBuilder M_LexiconSet M_Front M_Resource M_Setup S_Text S_Resource
  P_Builder P_InputText P_Accessors P_Tokenizer P_Config P_CharCategory P_Bytes P_DicFormat P_DicWrite P_DicOpen P_DicGrammar P_DicSource P_DicLexicon P_DicFile Prop_Format
  P_DicToy P_LexiconSet P_Resource Prop_Text Prop_Tokenizer Prop_CharCategory Prop_Source Prop_Lexicon Prop_Resource Prop_Shipped P_Words P_Setup P_System.
Import ListNotations.
Open Scope list_scope.
Open Scope Z_scope.

Section system.
Variable text_file : text -> res text.
Variable binary_file : text -> res bytes.
Variable join : text -> text -> text.
Variable is_absolute : text -> bool.
Variable DEFAULT_RESOURCEDIR : text.
Variable int16 int10 : text -> res Z.
Variable pop : list range -> option (range * list range).
Variable order : list cat -> list cat.
Variable lower : Z -> text.
Variable nfkc : text -> text.
Variable search : bytes -> bytes -> list (Z * nat).
Variable limit : nat.
Variable py_int : text -> res Z.
Variable is_digit : Z -> bool.
Variable trie_array : list (bytes * Z) -> res bytes.
Notation make_dictionary := (make_dictionary text_file binary_file join is_absolute DEFAULT_RESOURCEDIR int16 int10 pop order lower nfkc search limit).
Notation located := (located join is_absolute).
Notation md_settings := (md_settings order lower nfkc search limit).
Notation created := (created order lower nfkc search limit).
Notation ml_part_of_speech := (ml_part_of_speech order lower nfkc search limit).
Notation built_from := (built_from binary_file join is_absolute search limit py_int is_digit trie_array).
Notation plain_resources := (plain_resources text_file join is_absolute int16).
Notation interpreter := (interpreter pop order lower nfkc).

Section one.
Variables (c : conf) (d : text) (m : made) (g0 : grammar) (sys_id : text -> Z -> text -> res Z) (system : dic) (users : list dic).
Hypothesis BF : built_from c d g0 sys_id system users.
Hypothesis MK : make_dictionary c d = Ok m.
Hypothesis IN : interpreter.
Hypothesis PR : plain_resources c d.

(** Where the parts of speech of words that are in no dictionary come from *)
Definition made_pos (oov : bool) (pos : Z) : Prop :=
  (oov = true /\ exists p, In p (md_providers m) /\ gives p pos) \/
  (oov = true /\ exists k, In (JoinKatakana k) (md_rewriters m) /\ pos = jk_pos k) \/
  (oov = false /\ exists k, In (JoinNumeric k) (md_rewriters m) /\ pos = jn_pos k).
Definition word (w : wnode) : Prop :=
  (lexical w /\ entry_id system users (w_id w)) \/ exists o pos, made_up w o pos /\ made_pos o pos.

Lemma words lat t md lat' it p : P_Config.usable (created m) lat -> M_Tokenizer.run (created m) lat t md = (lat', Ok (Some (it, p))) -> Forall word p.
Proof.
  intros U E. pose proof (settings_good _ _ _ _ _ _ _ _ _ _ _ _ _ _ _ _ _ _ _ _ _ _ _ BF MK IN PR) as G.
  destruct (run_inv _ _ _ _ _ _ E) as [(_ & [=])|(it' & lat1 & p0 & p1 & p2 & Ht & Ep & Ea & Ef & El & Es & [= <- <-])].
  eapply (split_words (md_settings m)) with (D := entry_id system users) (m := md) (p := p1); [| | | |exact Es].
  - intros wid wi. apply (split_entries _ _ _ _ _ _ _ _ _ _ _ _ _ _ _ _ _ _ _ _ _ _ _ BF MK).
  - intros w L H. left. auto.
  - intros w [H|(o & pos & H & _)]; [left; exact H|right; eauto].
  - eapply (path_words (md_settings m) G); eauto.
    + intros w L H _ _ _. left. split; [exact L|]. destruct (found_entries _ _ _ _ _ _ _ _ _ _ _ _ _ _ _ _ _ _ _ _ _ _ _ BF MK _ _ _ _ H) as (_ & k & u & i & x & h & A & B & C & _).
      exists k, u, i, x. auto.
    + intros q pos w Hq Hg Hw. right. exists true, pos. split; [exact Hw|]. left. split; [reflexivity|]. exists q. auto.
    + intros k w Hk Hw. right. exists true, (jk_pos k). split; [exact Hw|]. right. left. split; [reflexivity|]. exists k. auto.
    + intros k w Hk Hw. right. exists false, (jn_pos k). split; [exact Hw|]. right. right. split; [reflexivity|]. exists k. auto.
Qed.

Lemma entry_row k u i e : nth_error (system :: users) k = Some u -> nth_error (s_entries (dc_source u)) i = Some e ->
  exists row tb tb', nth_error (dc_rows u) i = Some row /\ parse_line (kind_of g0 sys_id (length (s_entries (dc_source system))) k) py_int tb row = Ok (e, tb').
Proof.
  intros Hk Hi. pose proof (dic_built _ _ _ _ _ _ _ _ (bf_system _ _ _ _ _ _ _ _ _ _ _ _ _ _ BF) (bf_users _ _ _ _ _ _ _ _ _ _ _ _ _ _ BF) k u Hk) as B.
  destruct B as (_ & _ & _ & _ & _ & _ & HB & _). destruct (build_rows _ _ _ _ _ HB) as (_ & LN & _ & R). cbn [new_source s_entries length Nat.add] in LN.
  destruct (nth_error (dc_rows u) i) as [row|] eqn:Er; [|apply nth_error_None in Er; assert (i < length (s_entries (dc_source u)))%nat by (apply nth_error_Some; congruence); lia].
  destruct (R i row Er) as (e' & tb & tb' & He & Hp & _). cbn [new_source s_entries length Nat.add] in He. assert (e' = e) by congruence. subst e'. exists row, tb, tb'. auto.
Qed.

(** ** C69 *)
(** A morpheme that says it is from dictionary [k] is one of its rows: the word id names the
    row, part of speech, reading, normalised form and dictionary form are those of its columns
    (an empty reading or normalised form stands for the surface, column 4). *)
Theorem C69_dictionary_words lat t md lat' r i k :
  P_Config.usable (created m) lat -> M_Tokenizer.run (created m) lat t md = (lat', Ok r) ->
  let l := morphemes_of r in
  ml_dictionary_id l i = Ok k -> k <> -1 ->
  exists u j row cs wi, 0 <= k /\ nth_error (system :: users) (Z.to_nat k) = Some u /\ nth_error (dc_rows u) j = Some row /\
    Forall2 (fun c c' => unescape c = Ok c') row cs /\
    ml_word_id l i = Ok (k * 2 ^ 28 + Z.of_nat j) /\ ml_is_oov l i = Ok false /\
    ml_part_of_speech m l i = Ok (slice cs 5 11) /\
    ml_word_info (s_lexinfo (md_settings m)) l i = Ok wi /\
    let col n := nth n cs [] in
    wi_reading wi = (match col 11%nat with [] => col 4%nat | _ => col 11%nat end) /\
    wi_norm wi = (match col 12%nat with [] => col 4%nat | _ => col 12%nat end) /\
    (col 13%nat = [42] -> wi_dic wi = col 4%nat) /\
    (forall n row' cs', col 13%nat <> [42] -> py_int (col 13%nat) = Ok (Z.of_nat n) -> nth_error (dc_rows u) n = Some row' ->
       Forall2 (fun c c' => unescape c = Ok c') row' cs' -> wi_dic wi = nth 4 cs' []).
Proof.
  intros U E. cbn zeta. destruct r as [[it p]|]; [|intros H; destruct i; discriminate H]. cbn [morphemes_of]. unfold ml_dictionary_id, ml_word_id, ml_is_oov, M_Setup.ml_part_of_speech, ml_word_info. cbn [ml_path].
  destruct (get p i) as [w|] eqn:Ew; cbn [bind]; [|discriminate]. intros [= <-] NK. apply get_ok, nth_error_In in Ew.
  pose proof (words _ _ _ _ _ _ U E) as F. rewrite Forall_forall in F. destruct (F w Ew) as [((W1 & W2 & W3) & (kk & u & j & e & Hk & Hj & Eid))|(o & pos & (_ & _ & wi & W & _) & _)].
  2: { unfold node_dictionary_id in NK. rewrite W in NK. congruence. }
  pose proof (bf_contract _ _ _ _ _ _ _ _ _ _ _ _ _ _ BF) as CT. pose proof (bf_system _ _ _ _ _ _ _ _ _ _ _ _ _ _ BF) as SB. pose proof (bf_grammar _ _ _ _ _ _ _ _ _ _ _ _ _ _ BF) as GO. pose proof (bf_users _ _ _ _ _ _ _ _ _ _ _ _ _ _ BF) as UB.
  pose proof (files_loaded _ _ _ _ _ _ _ _ _ _ _ _ _ _ _ _ _ _ _ _ _ _ _ BF MK) as FL.
  destruct (bf_forms _ _ _ _ _ _ _ _ _ _ _ _ _ _ BF u j (nth_error_In _ _ Hk)) as (n & Hn & CE); [apply nth_error_Some; congruence|].
  destruct (entry_row _ _ _ _ Hk Hj) as (row & tb & tb' & Hr & HP).
  destruct (C58_accepted _ _ _ _ _ _ HP) as (_ & cs & Fc & _ & A0 & _ & _ & _ & A4 & A11 & A12 & _ & A13 & A13' & _).
  assert (SP : source_pos row (slice cs 5 11)) by (exists cs; auto).
  destruct (C39_part_of_speech _ _ _ _ CT _ _ _ _ _ _ _ _ SB GO eq_refl UB FL kk u j row _ n Hk Hr SP CE Hn) as (wi & Ewi & Pn & Ps).
  destruct (C40_other_columns _ _ _ _ CT _ _ _ _ _ _ _ _ SB GO eq_refl UB FL kk u j e n Hk Hj CE Hn) as (wi' & Ewi' & _ & _ & On & Or & Od & Od' & _).
  rewrite Ewi in Ewi'. injection Ewi' as <-.
  assert (SZ : (Z.of_nat j < 2 ^ 28)).
  { pose proof (dic_built _ _ _ _ _ _ _ _ SB UB kk u Hk) as B. destruct B as (_ & _ & _ & _ & _ & _ & _ & _ & _ & _ & SZ). assert (j < length (s_entries (dc_source u)))%nat by (apply nth_error_Some; congruence). lia. }
  assert (ED : node_dictionary_id w = Z.of_nat kk).
  { unfold node_dictionary_id. rewrite W2, W3, Eid. cbn [negb]. apply (dictionary_id_pack (Z.of_nat kk) (Z.of_nat j)). lia. }
  assert (NI : node_info (s_lexinfo (md_settings m)) w = Ok wi).
  { unfold node_info. rewrite W2, W3. cbn [negb M_Setup.md_settings tokenizer_settings s_lexinfo]. rewrite Eid. exact Ewi. }
  exists u, j, row, cs, wi. rewrite ED. rewrite NI, W1, Eid, Nat2Z.id. cbn [bind]. split; [lia|]. split; [exact Hk|]. split; [exact Hr|]. split; [exact Fc|]. split; [reflexivity|]. split; [reflexivity|].
  split. { unfold part_of_speech. leb_t 0 (wi_pos wi). exact Ps. }
  split; [reflexivity|]. rewrite A4, A11 in Or. rewrite A4, A12 in On. split; [exact Or|]. split; [exact On|]. split.
  - intros X. rewrite Od by (rewrite (A13 X); lia). exact A4.
  - intros n' row' cs' X Y Hr' Fc'.
    destruct (nth_error (s_entries (dc_source u)) n') as [e'|] eqn:He'.
    + rewrite (Od' n' e'); [|specialize (A13' X); congruence|exact He'].
      destruct (entry_row _ _ _ _ Hk He') as (row2 & tb2 & tb2' & Hr2 & HP2). assert (row2 = row') by congruence. subst row2.
      destruct (C58_accepted _ _ _ _ _ _ HP2) as (_ & cs2 & Fc2 & _ & _ & _ & _ & _ & B4 & _).
      rewrite B4. f_equal. clear - Fc' Fc2. revert cs' Fc'. induction Fc2 as [|a b r q H F IH]; intros cs' Fc'; inversion Fc'; subst; [reflexivity|]. f_equal; [congruence|auto].
    + exfalso. apply nth_error_None in He'. pose proof (dic_built _ _ _ _ _ _ _ _ SB UB kk u Hk) as B. destruct B as (_ & _ & _ & _ & _ & _ & HB & _).
      destruct (build_rows _ _ _ _ _ HB) as (_ & LN & _ & _). cbn [new_source s_entries length Nat.add] in LN. assert (n' < length (dc_rows u))%nat by (apply nth_error_Some; congruence). lia.
Qed.

(** In mode C the headword (column 0) of such a row is the normalised text that the morpheme
    covers; without input text plugins it is its surface. *)
Theorem C69_headwords lat t lat' r i k :
  P_Config.usable (created m) lat -> M_Tokenizer.run (created m) lat t ModeC = (lat', Ok r) ->
  let l := morphemes_of r in
  ml_dictionary_id l i = Ok k -> k <> -1 ->
  exists u j row cs it w, nth_error (system :: users) (Z.to_nat k) = Some u /\ nth_error (dc_rows u) j = Some row /\
    Forall2 (fun c c' => unescape c = Ok c') row cs /\ ml_word_id l i = Ok (k * 2 ^ 28 + Z.of_nat j) /\
    ml_text l = Some it /\ nth_error (ml_path l) i = Some w /\ encode (nth 0 cs []) = Ok (slice (it_bytes it) (w_begin w) (w_end w)) /\
    (md_inputs m = [] -> ml_surface l i = Ok (nth 0 cs [])).
Proof.
  intros U E. cbn zeta. pose proof (settings_good _ _ _ _ _ _ _ _ _ _ _ _ _ _ _ _ _ _ _ _ _ _ _ BF MK IN PR) as G. pose proof (shipped_sane _ G) as SA.
  destruct (run_inv _ _ _ _ _ _ E) as [(_ & ->)|(it & lat1 & p0 & p1 & p2 & Ht & Ep & Ea & Ef & El & Es & ->)]; [intros H; destruct i; discriminate H|].
  cbn [morphemes_of]. injection Es as <-. unfold ml_dictionary_id, ml_word_id. cbn [ml_path ml_text].
  destruct (get p1 i) as [w|] eqn:Ew; cbn [bind]; [|discriminate]. intros [= <-] NK. pose proof Ew as Ew0. apply get_ok in Ew. pose proof (nth_error_In _ _ Ew) as Hin.
  pose (K := fun w => (exists o pos, made_up w o pos) \/
    (lexical w /\ can_bow it (w_begin w) = Ok true /\ ((w_end w < length (it_bytes it))%nat -> can_bow it (w_end w) = Ok true) /\ (w_begin w < w_end w <= length (it_bytes it))%nat /\
     exists k u j e h, nth_error (system :: users) k = Some u /\ nth_error (s_entries (dc_source u)) j = Some e /\ w_id w = Z.of_nat k * 2 ^ 28 + Z.of_nat j /\ e_headword e = Some h /\ encode h = Ok (slice (it_bytes it) (w_begin w) (w_end w)))).
  assert (F : Forall K p1).
  { eapply (path_words (md_settings m) G); eauto; try (intros; left; eauto; fail).
    intros v L H _ B1 B2. right. split; [exact L|]. split; [exact B1|]. split; [exact B2|].
    destruct (found_entries _ _ _ _ _ _ _ _ _ _ _ _ _ _ _ _ _ _ _ _ _ _ _ BF MK _ _ _ _ H) as (R & k & u & j & x & h & A & B & C & D & I). split; [exact R|]. exists k, u, j, x, h. auto 8. }
  rewrite Forall_forall in F. destruct (F w Hin) as [(o & pos & _ & _ & wi & W & _)|((W1 & W2 & W3) & B1 & B2 & LE & kk & u & j & e & h & Hk & Hj & Eid & Hh & Henc)].
  { unfold node_dictionary_id in NK. rewrite W in NK. congruence. }
  destruct (entry_row _ _ _ _ Hk Hj) as (row & tb & tb' & Hr & HP).
  destruct (C58_accepted _ _ _ _ _ _ HP) as (_ & cs & Fc & _ & A0 & _).
  assert (h = nth 0 cs []) by (rewrite Hh in A0; destruct (teqb _ _); congruence). subst h.
  assert (SZ : (Z.of_nat j < 2 ^ 28)).
  { pose proof (dic_built _ _ _ _ _ _ _ _ (bf_system _ _ _ _ _ _ _ _ _ _ _ _ _ _ BF) (bf_users _ _ _ _ _ _ _ _ _ _ _ _ _ _ BF) kk u Hk) as B. destruct B as (_ & _ & _ & _ & _ & _ & _ & _ & _ & _ & SZ).
    assert (j < length (s_entries (dc_source u)))%nat by (apply nth_error_Some; congruence). lia. }
  assert (ED : node_dictionary_id w = Z.of_nat kk).
  { unfold node_dictionary_id. rewrite W2, W3, Eid. cbn [negb]. apply (dictionary_id_pack (Z.of_nat kk) (Z.of_nat j)). lia. }
  exists u, j, row, cs, it, w. rewrite ED, Nat2Z.id, Eid. split; [exact Hk|]. split; [exact Hr|]. split; [exact Fc|]. split; [reflexivity|]. split; [reflexivity|]. split; [exact Ew|]. split; [exact Henc|].
  intros NI. unfold ml_surface, ml_begin, ml_end, ml_input. cbn [ml_text ml_path bind]. rewrite Ew0. cbn [bind].
  assert (IT : exists bd, bd = builder_init t /\ build (s_category (md_settings m)) bd = Ok it).
  { unfold run_prepare, prepare in Ep. cbn [M_Setup.created shipped cf_inputs cf_category M_Setup.md_settings tokenizer_settings s_inputs] in Ep. rewrite NI in Ep. cbn [map foldM bind] in Ep. eauto. }
  destruct IT as (bd & -> & Eb).
  assert (Hs : scalar_text t). { unfold build in Eb. apply bind_ok in Eb as (bs & Ebs & _). cbn in Ebs. eapply encode_scalar; eauto. }
  destruct (build_spec (s_category (md_settings m)) t (builder_init t) (rewritten_wf _ _ (rw_init t)) Hs (fun c _ => gs_category _ G c)) as (it' & Eb' & B).
  rewrite Eb in Eb'. injection Eb' as <-. cbn [builder_init b_mod b_m2o] in B.
  assert (ST : forall q, (q <= length (it_bytes it))%nat -> ((q < length (it_bytes it))%nat -> can_bow it q = Ok true) -> exists a, (a <= length t)%nat /\ q = char_start t a).
  { intros q Hq Hb. destruct (char_pos_exists B q Hq) as (a & [Ha|(-> & ->)]).
    - destruct (can_bow_spec B q a Ha) as (b & Eb' & Hiff). pose proof (in_char_lt B q a Ha) as Hlt. rewrite (Hb Hlt) in Eb'. injection Eb' as <-. destruct Hiff as (Hiff & _). destruct (Hiff eq_refl) as (-> & _).
      exists a. split; [destruct Ha; lia|reflexivity].
    - exists (length t). split; [lia|]. symmetry. apply (len_bytes B). }
  destruct (ST (w_begin w)) as (a & La & Ea'); [lia|auto|]. destruct (ST (w_end w)) as (b & Lb & Eb''); [lia|exact B2|].
  assert (Hab : (a <= b)%nat). { destruct (Nat.le_gt_cases a b) as [H|H]; [exact H|]. pose proof (char_start_mono t b a ltac:(lia)). lia. }
  assert (GI : forall x, (x <= length t)%nat -> get_original_index it (char_start t x) = Ok x).
  { intros x Hx. unfold get_original_index. rewrite get_ok, (off_start B x Hx). rewrite (nth_error_nth' _ 0%nat) by (rewrite seq_length; lia). now rewrite seq_nth by lia. }
  rewrite Ea', Eb'', !GI by auto. cbn [bind]. rewrite (bt_orig B). f_equal.
  rewrite Ea', Eb'' in Henc. eapply encode_inj; [|exact Henc]. exact (slice_encode B a b Hab Lb).
Qed.
(** ** C70 *)
(** What the configuration gives words that are in no dictionary as part of speech: [true] for
    OOV words, [false] for numbers that were joined. *)
Notation plugin := (P_Setup.plugin c).
Definition strings (ts : list text) : json := JList (map JStr ts).
Inductive given_pos : bool -> json -> Prop :=
| GP_simple o v : plugin "oovProviderPlugin" "sudachipy.plugin.oov.SimpleOovProviderPlugin" o -> conf_get o (txt "oovPOS") = Some v -> given_pos true v
| GP_mecab o p f ls us u : plugin "oovProviderPlugin" "sudachipy.plugin.oov.MeCabOovProviderPlugin" o -> conf_get o (txt "unkDef") = Some (JStr p) ->
    text_file (join d p) = Ok f -> file_of ls f -> unknown_file (fun t n => int10 t = Ok n) ls us -> In u us -> given_pos true (strings (u_pos u))
| GP_katakana o v : plugin "pathRewritePlugin" "sudachipy.plugin.path_rewrite.JoinKatakanaOovPlugin" o -> conf_get o (txt "oovPOS") = Some v -> given_pos true v
| GP_numeric o : plugin "pathRewritePlugin" "sudachipy.plugin.path_rewrite.JoinNumericPlugin" o -> given_pos false (strings [[0x540D; 0x8A5E]; [0x6570; 0x8A5E]; [42]; [42]; [42]; [42]]).
(** It is a part of speech that a row of the system dictionary has. *)
Definition known (v : json) : Prop := exists pos row, v = strings pos /\ In row (dc_rows system) /\ source_pos row pos.

Lemma as_strings_inv l ts : as_strings l = Some ts -> l = map JStr ts.
Proof.
  revert ts. induction l as [|v l IH]; intros ts H; cbn [as_strings] in H; [injection H as <-; reflexivity|]. destruct v; try discriminate H.
  destruct (as_strings l) as [ts'|]; [|discriminate]. injection H as <-. cbn [map]. now rewrite (IH _ eq_refl).
Qed.
Lemma as_strings_strings ts : as_strings (map JStr ts) = Some ts.
Proof. induction ts as [|t ts IH]; [reflexivity|]. cbn [map as_strings]. now rewrite IH. Qed.


Lemma first_table : exists ds0, load_dictionaries limit (fun _ _ _ => Err EFuel) (dc_file system) [] = Ok ds0 /\ ds_grammar ds0 = g0.
Proof.
  destruct (bf_grammar _ _ _ _ _ _ _ _ _ _ _ _ _ _ BF) as (dict & E & Eg). exists (DictSet g0 (lexset_init (0%nat, d_lexicon dict))).
  unfold load_dictionaries, read_system_dictionary. rewrite E. cbn [bind]. rewrite Eg. cbn [bind foldM]. auto.
Qed.
Lemma known_pos v : known v -> exists pos, v = strings pos /\ In pos (g_pos g0).
Proof.
  intros (pos & row & -> & Hr & SP). exists pos. split; [reflexivity|]. apply In_nth_error in Hr as (i & Hi).
  pose proof (bf_contract _ _ _ _ _ _ _ _ _ _ _ _ _ _ BF) as CT. pose proof (bf_system _ _ _ _ _ _ _ _ _ _ _ _ _ _ BF) as SB. pose proof (bf_grammar _ _ _ _ _ _ _ _ _ _ _ _ _ _ BF) as GO.
  destruct first_table as (ds0 & L0 & G0).
  assert (LE : (i < length (s_entries (dc_source system)))%nat).
  { destruct SB as (_ & _ & _ & _ & _ & _ & HB & _). destruct (build_rows _ _ _ _ _ HB) as (_ & LN & _ & _). cbn [new_source s_entries length Nat.add] in LN. assert (i < length (dc_rows system))%nat by (apply nth_error_Some; congruence). lia. }
  destruct (bf_forms _ _ _ _ _ _ _ _ _ _ _ _ _ _ BF system i (or_introl eq_refl) LE) as (n & Hn & CE).
  destruct (C39_part_of_speech _ _ _ _ CT limit _ g0 sys_id _ system [] ds0 SB GO eq_refl (Forall_nil _) L0 0%nat system i row pos n eq_refl Hi SP CE Hn) as (wi & _ & _ & E).
  rewrite G0 in E. unfold get_part_of_speech_string in E. apply get_ok in E. now apply nth_error_In in E.
Qed.
Lemma table_grows z pos : part_of_speech g0 z = Ok pos -> 0 <= z -> part_of_speech (ds_grammar (md_set m)) z = Ok pos.
Proof.
  intros H Hz. pose proof (bf_contract _ _ _ _ _ _ _ _ _ _ _ _ _ _ BF) as CT. pose proof (bf_system _ _ _ _ _ _ _ _ _ _ _ _ _ _ BF) as SB. pose proof (bf_grammar _ _ _ _ _ _ _ _ _ _ _ _ _ _ BF) as GO. pose proof (bf_users _ _ _ _ _ _ _ _ _ _ _ _ _ _ BF) as UB.
  pose proof (files_loaded _ _ _ _ _ _ _ _ _ _ _ _ _ _ _ _ _ _ _ _ _ _ _ BF MK) as FL.
  assert (L : loaded py_int is_digit search g0 sys_id (length (s_entries (dc_source system))) system users (md_set m)) by (eapply load_ok; eauto). destruct L as [LP].
  unfold part_of_speech in *. revert H. leb_t 0 z. intros H. rewrite LP, <- (g0_pos _ _ _ _ CT _ _ SB GO). apply get_ok in H. apply get_ok. rewrite nth_error_app1; [exact H|]. apply nth_error_Some. congruence.
Qed.

Lemma json_pos g v pos : v = strings pos -> In pos (g_pos g) -> part_of_speech g (json_pos_id g v) = Ok pos /\ 0 <= json_pos_id g v.
Proof. intros -> H. cbn [strings json_pos_id]. rewrite as_strings_strings. now apply pos_id_spec. Qed.

Hypothesis KN : forall b v, given_pos b v -> known v.
Lemma made_given o z : made_pos o z -> exists pos, part_of_speech (ds_grammar (md_set m)) z = Ok pos /\ given_pos o (strings pos).
Proof.
  intros H. destruct (make_inv _ _ _ _ _ _ _ _ _ _ _ _ _ _ _ _ MK) as (sf & ufs & g & ins & oovs & paths & C).
  assert (g = g0).
  { destruct (co_system _ _ _ _ _ _ _ _ _ _ _ _ _ _ _ _ _ _ _ _ _ _ C) as (sp & E1 & E2). destruct (bf_system_file _ _ _ _ _ _ _ _ _ _ _ _ _ _ BF) as (sp' & E1' & E2').
    destruct (co_grammar _ _ _ _ _ _ _ _ _ _ _ _ _ _ _ _ _ _ _ _ _ _ C) as (dict & E3 & E4). destruct (bf_grammar _ _ _ _ _ _ _ _ _ _ _ _ _ _ BF) as (dict' & E3' & E4').
    assert (sp' = sp) by congruence. subst sp'. assert (sf = dc_file system) by congruence. subst sf. assert (dict' = dict) by congruence. subst dict'. congruence. }
  subst g. destruct (co_oovs _ _ _ _ _ _ _ _ _ _ _ _ _ _ _ _ _ _ _ _ _ _ C) as (O1 & _ & O2). destruct (co_paths _ _ _ _ _ _ _ _ _ _ _ _ _ _ _ _ _ _ _ _ _ _ C) as (Q1 & Q2).
  apply plugins_inv in O1, Q1. rewrite Forall_forall in O1, Q1.
  assert (FIN : forall b v, given_pos b v -> exists pos, part_of_speech (ds_grammar (md_set m)) (json_pos_id g0 v) = Ok pos /\ given_pos b (strings pos)).
  { intros b v Hv. destruct (known_pos _ (KN _ _ Hv)) as (pos & E & Hp). destruct (json_pos _ _ _ E Hp) as (X & Y). exists pos. split; [now apply table_grows|]. rewrite <- E. exact Hv. }
  destruct H as [(-> & p & Hp & Hg)|[(-> & k & Hk & ->)|(-> & k & Hk & ->)]].
  - destruct (in_forall2 _ _ _ _ O2 Hp) as (s & Hs & Es). destruct (O1 _ Hs) as (objs & l & Ec & Ej & x & Hx & Ex). apply key_error_ok in Ex. apply bind_ok in Ex as (cl & Ecl & Ex).
    destruct (item_inv _ _ _ _ _ Ej Hx Ecl) as (f & -> & -> & Ef).
    destruct (is_class cl "sudachipy.plugin.oov.MeCabOovProviderPlugin") eqn:I1.
    + apply is_class_inv in I1 as ->. apply bind_ok in Ex as (a & Ea & Ex). apply bind_ok in Ex as (b & Eb & Ex). injection Ex as <-.
      cbn [set_up_oov] in Es. apply bind_ok in Es as (ap & Eap & Es). apply bind_ok in Es as (cf & Ecf & Es). apply bind_ok in Es as (props & Epr & Es). apply bind_ok in Es as (bp & Ebp & Es). apply bind_ok in Es as (uf & Euf & Es).
      apply bind_ok in Es as (mc & Emc & [= <-]). apply as_path_ok in Ebp as ->. cbn [gives] in Hg. destruct Hg as (ct & os & e & Hos & He & ->).
      destruct (file_of_exists cf) as (cls & FC). destruct (file_of_exists uf) as (uls & FU).
      destruct (C65_nothing_else _ _ _ _ _ _ _ FC FU Emc) as (ps & us & HP & HU & D). destruct (C65_set_up int10 g0 _ _ _ _ _ _ FC HP FU HU D) as (mc' & Emc' & _ & HO).
      rewrite Emc in Emc'. injection Emc' as <-. specialize (HO ct). rewrite Hos in HO. 
      assert (X : exists u, In u (filter (fun u => cat_eqb (u_cat u) ct) us) /\ (In (u_pos u) (g_pos g0) -> part_of_speech g0 (oe_pos e) = Ok (u_pos u) /\ 0 <= oe_pos e)).
      { clear - HO He. induction HO as [|o' u os us' P F IH]; [destruct He|]. destruct He as [->|He]; [exists u; split; [now left|apply P]|]. destruct (IH He) as (u' & Hu & R). exists u'. split; [now right|exact R]. }
      destruct X as (u & Hu & Hpos). apply filter_In in Hu as (Hu & _).
      assert (GV : given_pos true (strings (u_pos u))).
      { eapply GP_mecab; eauto; [exists l; split; [exact Ec|]; split; [exact Hx|exact Ef]|]. change (txt "unkDef") with (lit "unkDef"). destruct (jget_inv _ _ _ Eb) as (f' & [= <-] & E). exact E. }
      exists (u_pos u). split; [|exact GV]. destruct (known_pos _ (KN _ _ GV)) as (pos & E & Hpos'). assert (u_pos u = pos) by (injection E as E; apply (map_inj JStr) in E; [exact E|intros ? ? [= ->]; reflexivity]).
      subst pos. destruct (Hpos Hpos') as (X & Y). now apply table_grows.
    + destruct (is_class cl "sudachipy.plugin.oov.SimpleOovProviderPlugin") eqn:I2; [|discriminate]. apply is_class_inv in I2 as ->.
      apply bind_ok in Ex as (a1 & _ & Ex). apply bind_ok in Ex as (a2 & _ & Ex). apply bind_ok in Ex as (a3 & _ & Ex). apply bind_ok in Ex as (v & Ev & Ex). apply bind_ok in Ex as (b1 & _ & Ex). apply bind_ok in Ex as (b2 & _ & Ex). apply bind_ok in Ex as (b3 & _ & [= <-]).
      cbn [set_up_oov] in Es. injection Es as <-. cbn [gives so_pos] in Hg. subst z. apply FIN. eapply GP_simple; [exists l; split; [exact Ec|]; split; [exact Hx|exact Ef]|]. destruct (jget_inv _ _ _ Ev) as (f' & [= <-] & E). exact E.
  - destruct (in_forall2 _ _ _ _ Q2 Hk) as (s & Hs & Es). destruct (Q1 _ Hs) as (objs & l & Ec & Ej & x & Hx & Ex). apply key_error_ok in Ex. apply bind_ok in Ex as (cl & Ecl & Ex).
    destruct (item_inv _ _ _ _ _ Ej Hx Ecl) as (f & -> & -> & Ef).
    destruct (is_class cl "sudachipy.plugin.path_rewrite.JoinNumericPlugin") eqn:I1; [injection Ex as <-; discriminate Es|].
    destruct (is_class cl "sudachipy.plugin.path_rewrite.JoinKatakanaOovPlugin") eqn:I2; [|discriminate]. apply is_class_inv in I2 as ->.
    apply bind_ok in Ex as (v & Ev & Ex). apply bind_ok in Ex as (n & _ & [= <-]). cbn [set_up_path] in Es. destruct (truthy v); [|discriminate]. cbn zeta in Es. destruct (json_pos_id g0 v <? 0); [discriminate|]. injection Es as <-. cbn [jk_pos].
    apply FIN. eapply GP_katakana; [exists l; split; [exact Ec|]; split; [exact Hx|exact Ef]|]. destruct (jget_inv _ _ _ Ev) as (f' & [= <-] & E). exact E.
  - destruct (in_forall2 _ _ _ _ Q2 Hk) as (s & Hs & Es). destruct (Q1 _ Hs) as (objs & l & Ec & Ej & x & Hx & Ex). apply key_error_ok in Ex. apply bind_ok in Ex as (cl & Ecl & Ex).
    destruct (item_inv _ _ _ _ _ Ej Hx Ecl) as (f & -> & -> & Ef).
    destruct (is_class cl "sudachipy.plugin.path_rewrite.JoinNumericPlugin") eqn:I1.
    + apply is_class_inv in I1 as ->. injection Ex as <-. cbn [set_up_path] in Es. injection Es as <-. cbn [jn_pos].
      assert (GV : given_pos false (strings NUMERIC_POS)) by (eapply (GP_numeric f); exists l; split; [exact Ec|]; split; [exact Hx|exact Ef]).
      destruct (FIN _ _ GV) as (pos & X & Y). exists pos. split; [|exact Y]. cbn [strings json_pos_id] in X. rewrite as_strings_strings in X. exact X.
    + destruct (is_class cl "sudachipy.plugin.path_rewrite.JoinKatakanaOovPlugin"); [|discriminate]. apply bind_ok in Ex as (v & Ev & Ex). apply bind_ok in Ex as (n & _ & [= <-]). cbn [set_up_path] in Es. destruct (truthy v); [|discriminate]. cbn zeta in Es. destruct (json_pos_id g0 v <? 0); discriminate.
Qed.

(** When the system dictionary knows all of them, a word that is in no dictionary has one
    that the configuration gives words of its sort. *)
Theorem C70_part_of_speech_partial lat t md lat' r i :
  P_Config.usable (created m) lat -> M_Tokenizer.run (created m) lat t md = (lat', Ok r) ->
  let l := morphemes_of r in
  ml_dictionary_id l i = Ok (-1) ->
  exists oov pos, ml_is_oov l i = Ok oov /\ ml_part_of_speech m l i = Ok pos /\ given_pos oov (strings pos).
Proof.
  intros U E. cbn zeta. destruct r as [[it p]|]; [|intros H; destruct i; discriminate H]. cbn [morphemes_of]. unfold ml_dictionary_id, ml_is_oov, M_Setup.ml_part_of_speech, ml_word_info. cbn [ml_path].
  destruct (get p i) as [w|] eqn:Ew; cbn [bind]; [|discriminate]. intros [= NK]. apply get_ok, nth_error_In in Ew.
  pose proof (words _ _ _ _ _ _ U E) as F. rewrite Forall_forall in F. destruct (F w Ew) as [((W1 & W2 & W3) & (kk & u & j & e & Hk & Hj & Eid))|(o & pos & (W1 & W2 & wi & W & Wp & _) & HM)].
  { exfalso. assert (SZ : (Z.of_nat j < 2 ^ 28)).
    { pose proof (dic_built _ _ _ _ _ _ _ _ (bf_system _ _ _ _ _ _ _ _ _ _ _ _ _ _ BF) (bf_users _ _ _ _ _ _ _ _ _ _ _ _ _ _ BF) kk u Hk) as B. destruct B as (_ & _ & _ & _ & _ & _ & _ & _ & _ & _ & SZ). assert (j < length (s_entries (dc_source u)))%nat by (apply nth_error_Some; congruence). lia. }
    assert (ED : node_dictionary_id w = Z.of_nat kk) by (unfold node_dictionary_id; rewrite W2, W3, Eid; cbn [negb]; apply (dictionary_id_pack (Z.of_nat kk) (Z.of_nat j)); lia). lia. }
  destruct (made_given _ _ HM) as (ps & Eps & GV). exists o, ps. rewrite W1. split; [reflexivity|].
  unfold node_info. rewrite W. rewrite W2. cbn [negb bind]. rewrite Wp. auto.
Qed.
End one.
End system.
Print Assumptions C69_dictionary_words.
Print Assumptions C69_headwords.
Print Assumptions C70_part_of_speech_partial.

(** ** The hypotheses are met: the dictionaries of Prop_Lexicon in a resource directory *)
Definition toy_json (fields : list (string * json)) : json := JObj (map (fun x => (txt (fst x), snd x)) fields).
Definition toy_conf : conf :=
  [ (txt "systemDict", JStr (txt "system.dic")); (txt "userDict", JList [JStr (txt "a.dic"); JStr (txt "/b.dic")]); (txt "characterDefinitionFile", JStr (txt "char.def"));
    (txt "oovProviderPlugin", JList [
       toy_json [("class", JStr (txt "sudachipy.plugin.oov.MeCabOovProviderPlugin")); ("charDef", JStr (txt "char.def")); ("unkDef", JStr (txt "unk.def"))]%string;
       toy_json [("class", JStr (txt "sudachipy.plugin.oov.SimpleOovProviderPlugin")); ("leftId", JNum 0); ("rightId", JNum 1); ("cost", JNum 6000); ("oovPOS", strings P1)]%string ]);
    (txt "pathRewritePlugin", JList [toy_json [("class", JStr (txt "sudachipy.plugin.path_rewrite.JoinKatakanaOovPlugin")); ("oovPOS", strings P2); ("minLength", JNum 3)]%string ]) ].
Definition toy_dir : text := txt "/res".
Definition toy_join (a b : text) : text := a ++ txt "/" ++ b.
Definition toy_absolute (p : text) : bool := match p with 47 :: _ => true | _ => false end.
Definition toy_binary_file (p : text) : res bytes :=
  if teqb p (txt "/res/system.dic") then Ok (dc_file toy_system) else if teqb p (txt "/res/a.dic") then Ok (dc_file (nth 0 toy_users toy_system))
  else if teqb p (txt "/b.dic") then Ok (dc_file (nth 1 toy_users toy_system)) else Err EIO.
Definition toy_char_def : text :=
  txt "DEFAULT 0 1 0" ++ lf ++ txt "ALPHA 1 1 0" ++ lf ++ txt "0x0041..0x005A ALPHA" ++ lf ++ txt "0x4E00..0x9FA5 KANJI" ++ lf ++ txt "0x30A1..0x30FA KATAKANA" ++ lf.
Definition toy_unk_def : text := txt "ALPHA,1,1,50," ++ [21205] ++ txt ",b,*,*,*,*" ++ lf.
Definition toy_text_file (p : text) : res text :=
  if teqb p (txt "/res/char.def") then Ok toy_char_def else if teqb p (txt "/res/unk.def") then Ok toy_unk_def else Err EIO.
Definition toy_make := make_dictionary toy_text_file toy_binary_file toy_join toy_absolute (txt "/default") sample_int16 sample_int10 pop_first (fun l => l) (fun x => [x]) (fun t => t) toy_search 10.
Definition toy_made : made := match toy_make toy_conf toy_dir with Ok m => m | Err _ => Made toy_set [] [] [] [] end.
Definition toy_created := created (fun l => l) (fun x => [x]) (fun t => t) toy_search 10 toy_made.
(** 東京都, AB (OOV of unk.def), アアア (joined) *)
Definition toy_text : text := [26481; 20140; 37117; 65; 66; 0x30A2; 0x30A2; 0x30A2].
Definition answers (m : made) (t : text) (md : mode) :=
  let r := M_Tokenizer.run (created (fun l => l) (fun x => [x]) (fun t => t) toy_search 10 m) new_lattice t md in
  r' <- snd r ;;
  let l := morphemes_of r' in
  mapM (fun i => s <- ml_surface l i ;; k <- ml_dictionary_id l i ;; w <- ml_word_id l i ;; o <- ml_is_oov l i ;; p <- ml_part_of_speech (fun l => l) (fun x => [x]) (fun t => t) toy_search 10 m l i ;; Ok (s, k, w, o, p)) (seq 0 (ml_len l)).

Lemma toy_sys_small h p r id : toy_sys_id h p r = Ok id -> id < Z.of_nat (length (s_entries (dc_source toy_system))).
Proof. intros H. pose proof (proj1 C40_nonvacuous _ _ _ _ H) as X. rewrite toy_system_entries. cbn in X. lia. Qed.
Lemma toy_built_from : built_from toy_binary_file toy_join toy_absolute toy_search 10 toy_int toy_digit toy_array toy_conf toy_dir toy_grammar toy_sys_id toy_system toy_users.
Proof.
  destruct C38_nonvacuous as (A1 & A2 & A3 & A4 & _ & A6). constructor.
  - exact A6.
  - exists (txt "system.dic"). split; [reflexivity|reflexivity].
  - exact A1.
  - exact A2.
  - exists [txt "a.dic"; txt "/b.dic"]. split; [right; reflexivity|]. constructor; [reflexivity|]. constructor; [reflexivity|constructor].
  - rewrite <- A3. exact A4.
  - exact toy_sys_small.
  - intros u i [<-|[<-|[<-|[]]]] Hi.
    + rewrite toy_system_entries in Hi. exists (match i with 1%nat => 2 | _ => 1 end)%nat. split; [destruct i as [|[|i]]; lia|]. destruct i as [|[|[|i]]]; [| | |lia].
      * eapply CE_end; [vm_compute; reflexivity|]. left. vm_compute. reflexivity.
      * eapply CE_step with (j := 0%nat); [vm_compute; reflexivity|vm_compute; reflexivity|lia|].
        eapply CE_end; [vm_compute; reflexivity|]. left. vm_compute. reflexivity.
      * eapply CE_end; [vm_compute; reflexivity|]. left. vm_compute. reflexivity.
    + assert (L : length (s_entries (dc_source (toy_dic toy_kind user_rows1 None))) = 2%nat) by (vm_compute; reflexivity). rewrite L in Hi. exists 1%nat. split; [lia|].
      destruct i as [|[|i]]; [| |lia]; (eapply CE_end; [vm_compute; reflexivity|]; left; vm_compute; reflexivity).
    + assert (L : length (s_entries (dc_source (toy_dic toy_kind user_rows2 None))) = 1%nat) by (vm_compute; reflexivity). rewrite L in Hi. exists 1%nat. split; [lia|].
      destruct i as [|i]; [|lia]; (eapply CE_end; [vm_compute; reflexivity|]; left; vm_compute; reflexivity).
Qed.
Lemma toy_is_made : toy_make toy_conf toy_dir = Ok toy_made.
Proof.
  unfold toy_made. destruct (toy_make toy_conf toy_dir) eqn:E; [reflexivity|].
  assert (X : match toy_make toy_conf toy_dir with Ok _ => true | Err _ => false end = true) by (vm_compute; reflexivity). rewrite E in X. discriminate X.
Qed.
Lemma toy_interpreter : interpreter pop_first (fun l => l) (fun x => [x]) (fun t => t).
Proof. constructor; [exact pop_first_ok|auto|discriminate|auto]. Qed.
Lemma toy_plain : plain_resources toy_text_file toy_join toy_absolute sample_int16 toy_conf toy_dir.
Proof.
  constructor; [|intros o v (objs & E & _); vm_compute in E; discriminate E].
  destruct (file_of_exists toy_char_def) as (ls & F).
  assert (E : exists table, read_character_definition sample_int16 pop_first toy_char_def = Ok table) by (eexists; vm_compute; reflexivity). destruct E as (table & E).
  unfold read_character_definition in E. apply bind_ok in E as (rs & Hr & E).
  destruct (char_ranges_inv _ _ _ (file_lines_spec _ _ F) _ Hr) as (rs' & D & Er). exists (txt "char.def"), toy_char_def, ls, rs'.
  split; [reflexivity|]. split; [reflexivity|]. split; [exact F|]. split; [exact D|].
  assert (X : forallb (fun r => match r_cats r with [] => false | _ => true end) rs = true).
  { replace rs with (match char_ranges sample_int16 (file_lines toy_char_def) with Ok r => r | Err _ => [] end) by now rewrite Hr. vm_compute. reflexivity. }
  subst rs. rewrite forallb_forall in X. apply Forall_forall. intros ((low, high), cs) H. specialize (X (range_of (low, high, cs)) (in_map _ _ _ H)). cbn in X |- *. destruct cs; [discriminate|discriminate].
Qed.

Example C69_nonvacuous :
  built_from toy_binary_file toy_join toy_absolute toy_search 10 toy_int toy_digit toy_array toy_conf toy_dir toy_grammar toy_sys_id toy_system toy_users /\
  toy_make toy_conf toy_dir = Ok toy_made /\ interpreter pop_first (fun l => l) (fun x => [x]) (fun t => t) /\
  plain_resources toy_text_file toy_join toy_absolute sample_int16 toy_conf toy_dir /\
  md_inputs toy_made = [] /\
  P_Config.usable toy_created new_lattice /\
  exists r, snd (M_Tokenizer.run toy_created new_lattice toy_text ModeC) = Ok r /\
    map (fun i => (ml_dictionary_id (morphemes_of r) i, ml_is_oov (morphemes_of r) i, ml_surface (morphemes_of r) i)) (seq 0 5) =
    [(Ok 2, Ok false, Ok [26481]); (Ok 0, Ok false, Ok [20140]); (Ok 1, Ok false, Ok [37117]); (Ok (-1), Ok true, Ok [65; 66]); (Ok (-1), Ok true, Ok [0x30A2; 0x30A2; 0x30A2])].
Proof.
  split; [exact toy_built_from|]. split; [exact toy_is_made|]. split; [exact toy_interpreter|]. split; [exact toy_plain|]. split; [vm_compute; reflexivity|]. split; [constructor|].
  assert (X : (r <- snd (M_Tokenizer.run toy_created new_lattice toy_text ModeC) ;; Ok (map (fun i => (ml_dictionary_id (morphemes_of r) i, ml_is_oov (morphemes_of r) i, ml_surface (morphemes_of r) i)) (seq 0 5))) =
    Ok [(Ok 2, Ok false, Ok [26481]); (Ok 0, Ok false, Ok [20140]); (Ok 1, Ok false, Ok [37117]); (Ok (-1), Ok true, Ok [65; 66]); (Ok (-1), Ok true, Ok [0x30A2; 0x30A2; 0x30A2])]) by (vm_compute; reflexivity).
  apply bind_ok in X as (r & E & X). exists r. split; [exact E|]. assert (Y : forall A (x y : A), Ok x = Ok y -> x = y) by (intros A x y Z; now injection Z). exact (Y _ _ _ X).
Qed.

(** C70: the configured parts of speech are known to the system dictionary. *)
Example C70_nonvacuous b v : given_pos toy_text_file toy_join sample_int10 toy_conf toy_dir b v -> known toy_system v.
Proof.
  assert (K1 : known toy_system (strings P1)). { exists P1, (nth 0 toy_rows []). split; [reflexivity|]. split; [now left|]. exists (nth 0 toy_rows []). split; [repeat constructor|reflexivity]. }
  assert (K2 : known toy_system (strings P2)). { exists P2, (nth 1 toy_rows []). split; [reflexivity|]. split; [right; now left|]. exists (nth 1 toy_rows []). split; [repeat constructor|reflexivity]. }
  intros H. destruct H as [o v (objs & E1 & H1 & C1) E|o p f ls us u (objs & E1 & H1 & C1) E Ef F U Hu|o v (objs & E1 & H1 & C1) E|o (objs & E1 & H1 & C1)];
    vm_compute in E1; injection E1 as <-; cbn [In] in H1.
  - destruct H1 as [[= <-]|[[= <-]|[]]]; [vm_compute in C1; discriminate|]. vm_compute in E. injection E as <-. exact K1.
  - destruct H1 as [[= <-]|[[= <-]|[]]]; [|vm_compute in C1; discriminate]. vm_compute in E. injection E as <-.
    change (toy_text_file (toy_join toy_dir [117; 110; 107; 46; 100; 101; 102])) with (@Ok text toy_unk_def) in Ef. injection Ef as <-.
    destruct U as (os & HU & ->). pose (props := map (fun c => (c, CatInfo true true 0)) [DEFAULT; SPACE; KANJI; SYMBOL; NUMERIC; ALPHA; HIRAGANA; KATAKANA; KANJINUMERIC; GREEK; CYRILLIC; USER1; USER2; USER3; USER4; NOOOVBOW]).
    pose proof (unknowns_read sample_int10 toy_grammar props _ _ (file_lines_spec _ _ F) os [] HU) as R. cbn zeta in R. set (us := concat _) in *.
    assert (RR : foldM (read_unk_line sample_int10 toy_grammar props) [] (file_lines toy_unk_def) = Ok [(ALPHA, OovEntry 1 1 50 1)]) by (vm_compute; reflexivity).
    rewrite RR in R. cbn [app] in R.
    assert (Z2 : part_of_speech toy_grammar 1 = Ok P2) by (vm_compute; reflexivity). clear RR. generalize toy_grammar R Z2. clear R Z2. intros g R Z2.
    assert (Y : Ok [(ALPHA, OovEntry 1 1 50 1)] = Ok (map (entry_of g) us)) by (apply R; apply Forall_forall; intros x _; destruct x as [[]]; cbn; tauto). injection Y as Y.
    assert (EU : In (entry_of g u) [(ALPHA, OovEntry 1 1 50 1)]) by (rewrite Y; now apply in_map). destruct EU as [EU|[]]. unfold entry_of in EU. injection EU as _ _ _ _ EU.
    assert (DP : In (u_pos u) (g_pos g) \/ ~ In (u_pos u) (g_pos g)) by (destruct (in_dec (list_eq_dec (list_eq_dec Z.eq_dec)) (u_pos u) (g_pos g)); auto).
    destruct DP as [DP|DP]; [|apply pos_id_unknown in DP; lia]. destruct (pos_id_spec _ _ DP) as (Z1 & _). rewrite <- EU in Z1.
    rewrite Z2 in Z1. injection Z1 as EP. unfold known. rewrite <- EP. exact K2.
  - destruct H1 as [[= <-]|[]]. vm_compute in E. injection E as <-. exact K2.
  - destruct H1 as [[= <-]|[]]. vm_compute in C1. discriminate.
Qed.

(** Without the hypothesis the property fails, and silently: an OOV word whose configured
    part of speech the system dictionary does not have, and a number where it does not have
    名詞,数詞, show the last part of speech of the last user dictionary instead. *)
Definition odd_conf : conf :=
  [ (txt "systemDict", JStr (txt "system.dic")); (txt "userDict", JList [JStr (txt "a.dic"); JStr (txt "/b.dic")]); (txt "characterDefinitionFile", JStr (txt "char.def"));
    (txt "oovProviderPlugin", JList [
       toy_json [("class", JStr (txt "sudachipy.plugin.oov.SimpleOovProviderPlugin")); ("leftId", JNum 0); ("rightId", JNum 1); ("cost", JNum 6000); ("oovPOS", strings (map txt ["x"; "*"; "*"; "*"; "*"; "*"]))]%string ]) ].
Definition odd_made : made := match toy_make odd_conf toy_dir with Ok m => m | Err _ => Made toy_set [] [] [] [] end.
Theorem C70_unknown_refuted :
  toy_make odd_conf toy_dir = Ok odd_made /\
  (forall b v, given_pos toy_text_file toy_join sample_int10 odd_conf toy_dir b v -> v = strings (map txt ["x"; "*"; "*"; "*"; "*"; "*"]%string)) /\
  answers odd_made (txt "AB") ModeC = Ok [(txt "AB", -1, 0, true, P4)] /\ P4 <> map txt ["x"; "*"; "*"; "*"; "*"; "*"]%string.
Proof.
  split. { unfold odd_made. destruct (toy_make odd_conf toy_dir) eqn:E; [reflexivity|]. assert (X : match toy_make odd_conf toy_dir with Ok _ => true | Err _ => false end = true) by (vm_compute; reflexivity). rewrite E in X. discriminate X. }
  split.
  { intros b v H. destruct H as [o v (objs & E1 & H1 & C1) E|o p f ls us u (objs & E1 & H1 & C1) E Ef F U Hu|o v (objs & E1 & H1 & C1) E|o (objs & E1 & H1 & C1)];
      vm_compute in E1; [injection E1 as <-|injection E1 as <-|discriminate|discriminate]; cbn [In] in H1; (destruct H1 as [[= <-]|[]]).
    - vm_compute in E. injection E as <-. reflexivity.
    - vm_compute in C1. discriminate. }
  split; [vm_compute; reflexivity|discriminate].
Qed.
Print Assumptions C70_unknown_refuted.
