(** A Dictionary made from files analyses every text: the conditions of C21 from the files. *)
From Coq Require Import String Ascii List ZArith Lia Bool Arith Sorting.Sorted Sorting.Permutation.
From Verif Require Import Base Utf8 M_Builder M_CharCategory M_InputText M_InputPlugins M_Lattice M_Oov M_Tokenizer M_NumericParser M_PathRewrite M_Morphemes
  M_Shipped M_Bytes M_DicReader M_DicBuilder M_LexiconSet M_Front M_Resource M_Setup S_Text S_Plugins S_Lattice S_Resource
  P_Builder P_InputText P_Accessors P_Lattice P_Tokenizer P_Path P_Config P_Total P_CharCategory P_Bytes P_DicFormat P_DicWrite P_DicOpen P_DicGrammar P_DicSource P_DicLexicon P_DicFile Prop_Format P_LexiconSet P_Resource
  Prop_Text Prop_Tokenizer Prop_Total Prop_CharCategory Prop_Source Prop_Lexicon Prop_Resource Prop_Shipped P_Words P_Setup P_System Prop_System.
Import ListNotations.
Open Scope list_scope.
Open Scope Z_scope.

(** ** Splitting raises nothing *)
Lemma split_total s (D : Z -> Prop) m p :
  (forall wid, D wid -> -2147483648 <= wid <= 2147483647 /\ exists wi, s_lexinfo s wid = Ok wi /\ Forall D (wi_a wi ++ wi_b wi)) ->
  Forall (fun w => (lexical w /\ D (w_id w)) \/ exists o pos, made_up w o pos) p -> exists q, split_path (s_lexinfo s) m p = Ok q.
Proof.
  intros HD F.
  assert (SN : forall wids b, Forall D wids -> exists ns, split_nodes (s_lexinfo s) b wids = Ok ns).
  { induction wids as [|x wids IH]; intros b Fx; cbn [split_nodes]; [eauto|]. inversion Fx; subst. destruct (HD x) as (R & wi & E & _); [assumption|].
    unfold lex_node, to_int. leb_t (-2147483648) x. leb_t x 2147483647. cbn [andb bind]. unfold node_info. cbn [w_extra w_defined w_id negb]. rewrite E. cbn [bind].
    destruct (IH (b + wi_length wi)%nat) as (ns & En); [assumption|]. rewrite En. cbn [bind]. eauto. }
  assert (S1 : forall w, (lexical w /\ D (w_id w)) \/ (exists o pos, made_up w o pos) -> exists ns, split_one (s_lexinfo s) m w = Ok ns).
  { intros w [((_ & X & D1) & D2)|(o & pos & _ & D1 & wi & X & _ & A & B)]; unfold split_one, node_info; rewrite D1, X; cbn [negb bind].
    - destruct (HD _ D2) as (_ & wi & E & Fd). rewrite E. cbn [bind]. destruct (_ <=? 1)%nat; [eauto|]. apply SN. apply Forall_app in Fd as (F1 & F2). now destruct m.
    - replace (length _ <=? 1)%nat with true; [eauto|]. destruct m; rewrite ?A, ?B; reflexivity. }
  assert (S2 : exists nss, mapM (split_one (s_lexinfo s) m) p = Ok nss).
  { induction F as [|w p Hw F IH]; cbn [mapM]; [eauto|]. destruct (S1 w Hw) as (a & ->). destruct IH as (b & ->). cbn [bind]. eauto. }
  destruct S2 as (nss & E). destruct m; cbn [split_path]; rewrite ?E; cbn [bind]; eauto.
Qed.

(** ** The bytes of a range of characters *)
Lemma encode_range t bs i j : encode t = Ok bs -> (i <= j)%nat -> (j <= length t)%nat -> encode (slice t i j) = Ok (slice bs (char_start t i) (char_start t j)).
Proof.
  intros He Hij Hj.
  assert (E1 : t = firstn i t ++ slice t i j ++ skipn j t) by (rewrite app_assoc, firstn_skipn_slice by lia; symmetry; apply firstn_skipn).
  rewrite E1 in He. apply encode_app_inv in He as (b1 & b2' & H1 & H2 & Hb). apply encode_app_inv in H2 as (b2 & b3 & H2 & H3 & ->).
  assert (L1 : length b1 = char_start t i) by (rewrite <- (char_start_all _ (length (firstn i t)) _ H1) by lia; unfold char_start; rewrite firstn_all; reflexivity).
  assert (L2 : length (b1 ++ b2) = char_start t j).
  { assert (H12 : encode (firstn j t) = Ok (b1 ++ b2)) by (rewrite <- (firstn_skipn_slice t i j) by lia; now apply encode_app).
    rewrite <- (char_start_all _ (length (firstn j t)) _ H12) by lia. unfold char_start. rewrite firstn_all. reflexivity. }
  rewrite H2. f_equal. rewrite Hb. unfold slice. rewrite app_assoc, firstn_app, <- L2, Nat.sub_diag, firstn_all. simpl. rewrite app_nil_r.
  rewrite <- L1, skipn_app, skipn_all, Nat.sub_diag. reflexivity.
Qed.

(** ** The cells of a matrix that was read are shorts. *)
Lemma shorts_range b : forall l, Forall (fun x => 0 <= x < 256) b -> shorts b = Ok l -> Forall short_range l.
Proof.
  assert (G : forall n b l, (length b <= n)%nat -> Forall (fun x => 0 <= x < 256) b -> shorts b = Ok l -> Forall short_range l); [|intros l; now apply (G (length b))].
  induction n as [|n IH]; intros [|x [|y r]] l Hn F H; cbn [shorts length] in *; try lia; try discriminate; try (injection H as <-; constructor).
  apply bind_ok in H as (l' & Hl & H). assert (l = unle_signed [x; y] :: l') by congruence. subst l. inversion F as [|? ? X F1]; subst. inversion F1 as [|? ? Y F2]; subst. constructor; [|apply (IH r); auto; lia].
  assert (E : unle_signed [x; y] = if 2 * (x + 256 * (y + 256 * 0)) <? 65536 then x + 256 * (y + 256 * 0) else x + 256 * (y + 256 * 0) - 65536) by reflexivity.
  rewrite E. unfold short_range. destruct (Z.ltb_spec (2 * (x + 256 * (y + 256 * 0))) 65536); lia.
Qed.
Lemma grammar_range d off p p' g : Forall (fun x => 0 <= x < 256) d -> prun d p (read_grammar d off) = (p', Ok g) -> Forall short_range (g_matrix g).
Proof.
  intros F H. unfold read_grammar in H.
  repeat (rewrite prun_bind in H; match type of H with context [match ?x with _ => _ end] => destruct x as [? [?|?]] eqn:?; [|discriminate H] end).
  cbn [prun] in H. injection H as _ <-. cbn [g_matrix].
  match goal with X : prun d _ (plift (view_matrix d ?o ?l ?r)) = _ |- _ => unfold plift in X; destruct (view_matrix d o l r) as [cells|] eqn:E; [|discriminate X]; cbn [prun] in X; injection X as _ -> end.
  unfold view_matrix in E. destruct (_ =? 0); [injection E as <-; constructor|]. destruct (_ || _); [discriminate|]. destruct (_ =? _)%nat; [|discriminate].
  eapply shorts_range; [|exact E]. unfold slice. apply Forall_forall. intros x Hx. rewrite Forall_forall in F. apply F. match type of Hx with In _ (skipn ?a (firstn ?b d)) => apply (in_firstn x b); rewrite <- (firstn_skipn a (firstn b d)); apply in_or_app; right; exact Hx end.
Qed.
Lemma shorts_length : forall n b l, (length b <= n)%nat -> shorts b = Ok l -> length b = (2 * length l)%nat.
Proof.
  induction n as [|n IH]; intros [|x [|y r]] l Hn H; cbn [shorts length] in *; try lia; try discriminate; try (injection H as <-; reflexivity).
  apply bind_ok in H as (l' & Hl & H). assert (l = unle_signed [x; y] :: l') by congruence. subst l. apply IH in Hl; [|lia]. cbn [length]. lia.
Qed.
Lemma grammar_size d off p p' g : prun d p (read_grammar d off) = (p', Ok g) -> 0 < g_lsize g -> (length (g_matrix g) = Z.to_nat (g_lsize g) * Z.to_nat (g_rsize g))%nat.
Proof.
  intros H. unfold read_grammar in H.
  repeat (rewrite prun_bind in H; match type of H with context [match ?x with _ => _ end] => destruct x as [? [?|?]] eqn:?; [|discriminate H] end).
  cbn [prun] in H. injection H as _ <-. cbn [g_matrix g_lsize g_rsize].
  match goal with X : prun d _ (plift (view_matrix d ?o ?l ?r)) = _ |- _ => unfold plift in X; destruct (view_matrix d o l r) as [cells|] eqn:E; [|discriminate X]; cbn [prun] in X; injection X as _ -> end.
  clear - E. revert E. unfold view_matrix. match goal with |- (if ?l * ?r =? 0 then _ else _) = _ -> _ => generalize l r end. clear. intros l r E L.
  destruct (Z.eqb_spec (l * r) 0) as [Z0|Z0]; [injection E as <-; cbn [length]; nia|]. destruct (_ || _) eqn:S; [discriminate|]. destruct (_ =? _)%nat eqn:Y; [|discriminate]. apply Nat.eqb_eq in Y.
  apply (shorts_length _ _ _ (le_n _)) in E. apply orb_false_iff in S as (S1 & S2). apply Z.ltb_ge in S1, S2. nia.
Qed.
Lemma system_size f dict g : from_system_dictionary f = Ok dict -> d_grammar dict = Some g -> 0 < g_lsize g -> (length (g_matrix g) = Z.to_nat (g_lsize g) * Z.to_nat (g_rsize g))%nat.
Proof.
  intros H Hg. unfold from_system_dictionary in H. apply bind_ok in H as (x & Hx & H). destruct (is_system_dictionary _); [|discriminate]. injection H as ->.
  unfold read_dictionary in Hx. destruct f as [|b0 f]; [discriminate|]. remember (b0 :: f) as d. apply bind_ok in Hx as (h & _ & Hx). destruct (negb _); [discriminate|].
  destruct (has_grammar (h_version h)).
  - destruct (prun d 0 (read_grammar d HEADER_SIZE)) as [p [g'|]] eqn:E; cbn [bind] in Hx; [|discriminate].
    apply bind_ok in Hx as (lx & _ & [= <-]). cbn [d_grammar] in Hg. injection Hg as ->. eapply grammar_size; eauto.
  - cbn [bind] in Hx. apply bind_ok in Hx as (lx & _ & [= <-]). discriminate Hg.
Qed.
Lemma system_range f dict g : Forall (fun x => 0 <= x < 256) f -> from_system_dictionary f = Ok dict -> d_grammar dict = Some g -> Forall short_range (g_matrix g).
Proof.
  intros F H Hg. unfold from_system_dictionary in H. apply bind_ok in H as (x & Hx & H). destruct (is_system_dictionary _); [|discriminate]. injection H as ->.
  unfold read_dictionary in Hx. destruct f as [|b0 f]; [discriminate|]. remember (b0 :: f) as d. apply bind_ok in Hx as (h & _ & Hx). destruct (negb _); [discriminate|].
  destruct (has_grammar (h_version h)).
  - destruct (prun d 0 (read_grammar d HEADER_SIZE)) as [p [g'|]] eqn:E; cbn [bind] in Hx; [|discriminate].
    apply bind_ok in Hx as (lx & _ & [= <-]). cbn [d_grammar] in Hg. injection Hg as ->. eapply grammar_range; eauto.
  - cbn [bind] in Hx. apply bind_ok in Hx as (lx & _ & [= <-]). discriminate Hg.
Qed.

(** ** The values of rewrite.def are pieces of the file. *)
Lemma words_from_in c : forall t acc w, In w (words_from acc t) -> In c w -> In c acc \/ In c t.
Proof.
  induction t as [|x t IH]; intros acc w Hw Hc; cbn [words_from] in Hw.
  - destruct acc as [|a acc]; [destruct Hw|]. destruct Hw as [<-|[]]. left. rewrite in_rev. exact Hc.
  - destruct (is_space x).
    + assert (X : In w (words_from [] t) \/ (acc <> [] /\ w = rev acc)). { destruct acc; [now left|]. destruct Hw as [<-|Hw]; [right; split; [discriminate|reflexivity]|now left]. }
      destruct X as [X|(_ & ->)]; [destruct (IH _ _ X Hc) as [[]|Y]; right; now right|left; rewrite in_rev; exact Hc].
    + destruct (IH _ _ Hw Hc) as [[->|Y]|Y]; [right; now left|now left|right; now right].
Qed.
Lemma line_in ls f l c : file_of ls f -> In l ls -> In c l -> In c f.
Proof.
  induction 1 as [|l' N A B|l' e r ls A B E F IH]; intros Hl Hc; [destruct Hl|destruct Hl as [->|[]]; exact Hc|].
  apply in_or_app. destruct Hl as [->|Hl]; [now left|right]. apply in_or_app. right. auto.
Qed.
Lemma rewrite_pieces f cfg k v c : read_rewrite_def f = Ok cfg -> In (k, v) (d_map cfg) -> In c v -> In c f.
Proof.
  intros H Hkv Hc. destruct (file_of_exists f) as (ls & F). unfold read_rewrite_def, read_rewrite_lists in H.
  assert (G : forall cols cfg0 cfg, foldM read_line cfg0 cols = Ok cfg -> In (k, v) (d_map cfg) -> In (k, v) (d_map cfg0) \/ In [k; v] cols).
  { clear. induction cols as [|l cols IH]; intros cfg0 cfg H Hin; cbn [foldM] in H; [injection H as <-; now left|].
    apply bind_ok in H as (cfg1 & H1 & H). destruct (IH _ _ H Hin) as [X|X]; [|right; now right].
    destruct l as [|a [|b [|e l]]]; cbn [read_line] in H1; try discriminate.
    - destruct (_ =? 1)%nat; [|discriminate]. injection H1 as <-. now left.
    - destruct (assoc_text a (d_map cfg0)); [discriminate|]. destruct a as [|a0 a]; [discriminate|]. injection H1 as <-. cbn [d_map] in X. destruct X as [[= <- <-]|X]; [right; now left|now left]. }
  destruct (G _ _ _ H Hkv) as [[]|X]. apply in_concat in X as (l & Hl & X). apply in_map_iff in Hl as (raw & <- & Hraw).
  unfold rewrite_columns in X. destruct (strip raw) as [|s0 sr] eqn:Es; [destruct X|]. destruct (M_Resource.starts hash _); [destruct X|]. rewrite <- Es, words_strip in X. destruct X as [X|[]].
  assert (Hv : In v (M_Resource.words raw)) by (rewrite X; right; now left).
  pose proof (file_lines_spec _ _ F) as FL. clear - FL Hraw Hv Hc F.
  assert (Y : exists l, In l ls /\ (raw = l ++ [10] \/ raw = l)).
  { clear F. induction FL as [|r l raws ls E FL IH]; [destruct Hraw|]. destruct Hraw as [->|Hr]; [exists l; split; [now left|exact E]|]. destruct (IH Hr) as (l' & A & B). exists l'. split; [now right|exact B]. }
  destruct Y as (l & Hl & E). rewrite (words_eol _ _ E) in Hv. destruct (words_from_in c l [] v Hv Hc) as [[]|Z]. eapply line_in; eauto.
Qed.

Lemma columns_eq row cs cs' : Forall2 (fun c c' => unescape c = Ok c') row cs -> Forall2 (fun c c' => unescape c = Ok c') row cs' -> cs' = cs.
Proof. intros F. revert cs'. induction F as [|a b r q H F IH]; intros cs' F'; inversion F'; subst; [reflexivity|]. f_equal; [congruence|auto]. Qed.
(** Decoded files have no surrogates, and bytes are bytes. *)
Record file_system (text_file : text -> res text) (binary_file : text -> res bytes) : Prop := {
  fs_text : forall p f, text_file p = Ok f -> scalar_text f;
  fs_bytes : forall p f, binary_file p = Ok f -> Forall (fun b => 0 <= b < 256) f;
}.
(** lower() and NFKC make no surrogates. *)
Record scalar_interpreter (lower : Z -> text) (nfkc : text -> text) : Prop := {
  si_lower : forall c, is_scalar c = true -> scalar_text (lower c);
  si_nfkc : forall t, scalar_text t -> scalar_text (nfkc t);
}.

(** The ranges [rs] of a character definition give [ch] the category [x]. *)
Definition category_in (rs : list (Z * Z * list cat)) (ch : Z) (x : cat) : Prop := exists low high cs, In (low, high, cs) rs /\ low <= ch <= high /\ In x cs.

Section system.
Variable text_file : text -> res text.
Variable binary_file : text -> res bytes.
Variable join : text -> text -> text.
Variable is_absolute : text -> bool.
Variable DEFAULT_RESOURCEDIR : text.
Variable int16 int10 : text -> res Z.
Variable pop : list range -> option (range * list range).
Variable order : list cat -> list cat.
Variable lower : Z -> text.
Variable nfkc : text -> text.
Variable search : bytes -> bytes -> list (Z * nat).
Variable limit : nat.
Variable py_int : text -> res Z.
Variable is_digit : Z -> bool.
Variable trie_array : list (bytes * Z) -> res bytes.
Notation make_dictionary := (make_dictionary text_file binary_file join is_absolute DEFAULT_RESOURCEDIR int16 int10 pop order lower nfkc search limit).
Notation located := (located join is_absolute).
Notation md_settings := (md_settings order lower nfkc search limit).
Notation created := (created order lower nfkc search limit).
Notation built_from := (built_from binary_file join is_absolute search limit py_int is_digit trie_array).
Notation plain_resources := (plain_resources text_file join is_absolute int16).
Notation interpreter := (interpreter pop order lower nfkc).

Section one.
Variables (c : conf) (d : text) (m : made) (g0 : grammar) (sys_id : text -> Z -> text -> res Z) (system : dic) (users : list dic).

(** The ranges of the character definition file *)
Definition char_def_ranges (rs : list (Z * Z * list cat)) : Prop :=
  exists p f ls, conf_get c CHAR_DEF_KEY = Some (JStr p) /\ text_file (located d p) = Ok f /\ file_of ls f /\ char_def (fun t n => int16 t = Ok n) ls rs.

(** The ids and the cost that the configuration gives unknown words *)
Definition int_value (v : json) (z : Z) : Prop := v = JNum z \/ (v = JBool true /\ z = 1) \/ (v = JBool false /\ z = 0).
Definition oov_numbers (l r k : Z) : Prop :=
  (exists o a b e, plugin c "oovProviderPlugin" "sudachipy.plugin.oov.SimpleOovProviderPlugin" o /\
     conf_get o (txt "leftId") = Some a /\ conf_get o (txt "rightId") = Some b /\ conf_get o (txt "cost") = Some e /\ int_value a l /\ int_value b r /\ int_value e k) \/
  (exists o p f ls us u, plugin c "oovProviderPlugin" "sudachipy.plugin.oov.MeCabOovProviderPlugin" o /\ conf_get o (txt "unkDef") = Some (JStr p) /\
     text_file (join d p) = Ok f /\ file_of ls f /\ unknown_file (fun t n => int10 t = Ok n) ls us /\ In u us /\ l = u_left u /\ r = u_right u /\ k = u_cost u).
(** The ids of the words are row and column numbers of a matrix of this size. *)
Definition source_ids (rows columns : Z) : Prop :=
  (forall u row cs l r, In u (system :: users) -> In row (dc_rows u) -> Forall2 (fun c c' => unescape c = Ok c') row cs -> nth 1 cs [] <> [45; 49] ->
     py_int (nth 1 cs []) = Ok l -> py_int (nth 2 cs []) = Ok r -> 0 <= l < rows /\ 0 <= r < columns) /\
  (forall l r k, oov_numbers l r k -> 0 <= l < rows /\ 0 <= r < columns).

(** What is asked of the configuration and its files *)
Record furnished : Prop := {
  (* the last OOV provider is the simple one; costs are shorts *)
  cp_last : exists objs o, conf_get c (txt "oovProviderPlugin") = Some (JList (objs ++ [JObj o])) /\
    conf_get o (txt "class") = Some (JStr (txt "sudachipy.plugin.oov.SimpleOovProviderPlugin"));
  cp_simple : forall o v, plugin c "oovProviderPlugin" "sudachipy.plugin.oov.SimpleOovProviderPlugin" o -> conf_get o (txt "cost") = Some (JNum v) -> -32768 <= v <= 32767;
  cp_unknown : forall o p f ls us u, plugin c "oovProviderPlugin" "sudachipy.plugin.oov.MeCabOovProviderPlugin" o -> conf_get o (txt "unkDef") = Some (JStr p) ->
    text_file (join d p) = Ok f -> file_of ls f -> unknown_file (fun t n => int10 t = Ok n) ls us -> In u us -> -32768 <= u_cost u <= 32767;
  (* the alphabetic categories are grouped, and a character of one has no other *)
  cp_grouped : forall o p f ls ps q, plugin c "oovProviderPlugin" "sudachipy.plugin.oov.MeCabOovProviderPlugin" o -> conf_get o (txt "charDef") = Some (JStr p) ->
    text_file (join d p) = Ok f -> file_of ls f -> property_file (fun t n => int10 t = Ok n) ls ps -> In q ps -> In (p_cat q) [ALPHA; GREEK; CYRILLIC] -> p_group q = true;
  cp_single : forall rs ch a x, char_def_ranges rs -> In a [ALPHA; GREEK; CYRILLIC] -> category_in rs ch a -> category_in rs ch x -> x = a;
  (* the comma and the point are no digits, and no word of digits is normalised to something with them *)
  cp_digits : forall rs ch x, char_def_ranges rs -> In x [NUMERIC; KANJINUMERIC] -> category_in rs ch x -> ch <> 44 /\ ch <> 46;
  cp_numbers : forall rs u row cs x, char_def_ranges rs -> In x [NUMERIC; KANJINUMERIC] -> In u (system :: users) -> In row (dc_rows u) -> Forall2 (fun c c' => unescape c = Ok c') row cs ->
    Forall (fun ch => category_in rs ch x) (nth 0 cs []) -> forall ch, In ch (match nth 12 cs [] with [] => nth 4 cs [] | n => n end) -> ch <> 44 /\ ch <> 46;
  (* the plugin that joins numerals comes first, if at all *)
  cp_paths : forall objs o, conf_get c (txt "pathRewritePlugin") = Some (JList objs) -> In (JObj o) (tl objs) ->
    conf_get o (txt "class") <> Some (JStr (txt "sudachipy.plugin.path_rewrite.JoinNumericPlugin"));
  (* there is a matrix, and it has a cell for any two words *)
  cp_cells : 0 < g_lsize g0 /\ 0 < g_rsize g0;
  cp_ids : source_ids (g_lsize g0) (g_rsize g0);
  cp_users : (length users <= 7)%nat;
  cp_symbol : forall o t, plugin c "inputTextPlugin" SOUND_MARKS o -> conf_get o (txt "replacementSymbol") = Some (JStr t) -> scalar_text t;
}.

(** and that no connection of the system dictionary is inhibited, so that every text has an
    analysis *)
Record complete : Prop := {
  cp_furnished : furnished;
  cp_matrix : forall l r, get_connect_cost g0 l r <> Ok 0x7fff;
}.

Hypothesis BF : built_from c d g0 sys_id system users.
Hypothesis MK : make_dictionary c d = Ok m.
Hypothesis IN : interpreter.
Hypothesis PR : plain_resources c d.
Hypothesis FS : file_system text_file binary_file.
Hypothesis SI : scalar_interpreter lower nfkc.
Hypothesis CP : furnished.
Notation cats := (s_category (md_settings m)).

Lemma live_scalar : scalar_settings (md_settings m).
Proof.
  destruct (make_inv _ _ _ _ _ _ _ _ _ _ _ _ _ _ _ _ MK) as (sf & ufs & g & ins & oovs & paths & C).
  destruct (co_inputs _ _ _ _ _ _ _ _ _ _ _ _ _ _ _ _ _ _ _ _ _ _ C) as (GI & F).
  constructor; cbn [M_Setup.md_settings tokenizer_settings s_inputs s_lower s_nfkc].
  - intros k key v Hk Hv. destruct (in_forall2 _ _ _ _ F Hk) as (sp & _ & E). destruct sp; cbn [set_up_input] in E; [|discriminate].
    apply bind_ok in E as (f & Ef & E). apply bind_ok in E as (cf & E & [= ->]). pose proof (fs_text _ _ FS _ _ Ef) as S.
    unfold scalar_text in *. rewrite Forall_forall in S. apply Forall_forall. intros x Hx. apply S. eapply rewrite_pieces; eauto.
  - intros k Hk. destruct (symbol_source _ _ _ _ _ _ _ GI F Hk) as [E|(o & t & P & E & ->)]; [|exact (cp_symbol CP _ _ P E)]. rewrite E. constructor; [reflexivity|constructor].
  - apply (si_lower _ _ SI).
  - apply (si_nfkc _ _ SI).
Qed.

Lemma live_words wid : entry_id system users wid -> -2147483648 <= wid <= 2147483647 /\ (exists p, ls_params (ds_lexicon (md_set m)) wid = Ok p) /\
  exists wi, s_lexinfo (md_settings m) wid = Ok wi /\ Forall (entry_id system users) (wi_a wi ++ wi_b wi).
Proof.
  intros H. pose proof H as H0. destruct H as (k & u & i & e & Hk & Hi & E).
  pose proof (bf_contract _ _ _ _ _ _ _ _ _ _ _ _ _ _ BF) as CT. pose proof (bf_system _ _ _ _ _ _ _ _ _ _ _ _ _ _ BF) as SB. pose proof (bf_grammar _ _ _ _ _ _ _ _ _ _ _ _ _ _ BF) as GO. pose proof (bf_users _ _ _ _ _ _ _ _ _ _ _ _ _ _ BF) as UB.
  pose proof (files_loaded _ _ _ _ _ _ _ _ _ _ _ _ _ _ _ _ _ _ _ _ _ _ _ BF MK) as FL.
  assert (SZ : (Z.of_nat i < 2 ^ 28)).
  { pose proof (dic_built _ _ _ _ _ _ _ _ SB UB k u Hk) as B. destruct B as (_ & _ & _ & _ & _ & _ & _ & _ & _ & _ & SZ). assert (i < length (s_entries (dc_source u)))%nat by (apply nth_error_Some; congruence). lia. }
  assert (Lk : (k < S (length users))%nat) by (assert (k < length (system :: users))%nat by (apply nth_error_Some; congruence); cbn [length] in *; lia). pose proof (cp_users CP) as NU.
  destruct (bf_forms _ _ _ _ _ _ _ _ _ _ _ _ _ _ BF u i (nth_error_In _ _ Hk)) as (n & Hn & CE); [apply nth_error_Some; congruence|].
  split; [change (2 ^ 28) with 268435456 in *; lia|]. split.
  - destruct (C43_loaded _ _ _ _ CT _ _ _ _ _ _ _ _ SB GO eq_refl UB FL k u i e Hk Hi) as (A & B & x & X & _). unfold ls_params. rewrite E, A, B, X. cbn [bind]. eauto.
  - destruct (C40_other_columns _ _ _ _ CT _ _ _ _ _ _ _ _ SB GO eq_refl UB FL k u i e n Hk Hi CE Hn) as (wi & Ewi & _). exists wi.
    cbn [M_Setup.md_settings tokenizer_settings s_lexinfo]. rewrite <- E in Ewi. split; [exact Ewi|]. eapply (split_entries _ _ _ _ _ _ _ _ _ _ _ _ _ _ _ _ _ _ _ _ _ _ _ BF MK); eauto.
Qed.

Lemma live_infos : has_infos (md_settings m).
Proof.
  intros bs i wid e H. destruct (found_entries _ _ _ _ _ _ _ _ _ _ _ _ _ _ _ _ _ _ _ _ _ _ _ BF MK _ _ _ _ H) as (_ & k & u & j & x & h & A & B & C & _).
  destruct (live_words wid) as (_ & _ & wi & E & _); [exists k, u, j, x; auto|]. eauto.
Qed.

Lemma live_cats rs ch x : char_def_ranges rs -> In x (cats ch) -> category_in rs ch x \/ x = DEFAULT.
Proof.
  intros (p & f & ls & E1 & E2 & FO & CD) H. destruct (make_inv _ _ _ _ _ _ _ _ _ _ _ _ _ _ _ _ MK) as (sf & ufs & g & ins & oovs & paths & C).
  destruct (co_chars _ _ _ _ _ _ _ _ _ _ _ _ _ _ _ _ _ _ _ _ _ _ C) as (p' & f' & E1' & E2' & RD). assert (p' = p) by congruence. subst p'. assert (f' = f) by congruence. subst f'.
  destruct rs as [|r0 rs0].
  { unfold read_character_definition in RD. rewrite (char_ranges_ok int16 _ _ (file_lines_spec _ _ FO) _ CD) in RD. discriminate RD. }
  destruct (C64_definition_file int16 pop f ls (r0 :: rs0) (in_pop _ _ _ _ IN) FO CD ltac:(discriminate)) as (table & RD' & T). rewrite RD in RD'. injection RD' as <-.
  destruct (T ch) as (cs & Eg & _ & T1 & T2). cbn [M_Setup.md_settings tokenizer_settings s_category] in H. rewrite Eg in H. apply (Permutation_in _ (in_order _ _ _ _ IN cs)) in H.
  revert T1 T2. generalize (r0 :: rs0) as rs. intros rs T1 T2.
  assert (DEC : (exists low high cs, In (low, high, cs) rs /\ low <= ch <= high) \/ (forall low high cs, In (low, high, cs) rs -> ~ low <= ch <= high)).
  { clear. induction rs as [|((low & high) & cs) rs IH]; [right; intros ? ? ? []|]. destruct (Z_le_dec low ch), (Z_le_dec ch high).
    1: left; exists low, high, cs; split; [now left|lia].
    all: destruct IH as [(a & b & x & Hin & Hb)|IH]; [left; exists a, b, x; split; [now right|exact Hb]|right; intros a b x [[= <- <- <-]|Hin]; [lia|eauto]]. }
  destruct DEC as [DE|DE]; [left; now apply (proj1 (T1 DE x))|right]. rewrite (T2 DE) in H. destruct H as [<-|[]]. reflexivity.
Qed.
Lemma live_ranges : exists rs, char_def_ranges rs.
Proof. destruct (pr_chars _ _ _ _ _ _ PR) as (p & f & ls & rs & A1 & A2 & A3 & A4 & _). exists rs, p, f, ls. auto. Qed.
Lemma live_nodup ch : NoDup (cats ch).
Proof.
  destruct live_ranges as (rs & p & f & ls & E1 & E2 & FO & CD). destruct (make_inv _ _ _ _ _ _ _ _ _ _ _ _ _ _ _ _ MK) as (sf & ufs & g & ins & oovs & paths & C).
  destruct (co_chars _ _ _ _ _ _ _ _ _ _ _ _ _ _ _ _ _ _ _ _ _ _ C) as (p' & f' & E1' & E2' & RD). assert (p' = p) by congruence. subst p'. assert (f' = f) by congruence. subst f'.
  destruct rs as [|r0 rs0].
  { unfold read_character_definition in RD. rewrite (char_ranges_ok int16 _ _ (file_lines_spec _ _ FO) _ CD) in RD. discriminate RD. }
  destruct (C64_definition_file int16 pop f ls (r0 :: rs0) (in_pop _ _ _ _ IN) FO CD ltac:(discriminate)) as (table & RD' & T). rewrite RD in RD'. injection RD' as <-.
  destruct (T ch) as (cs & Eg & ND & _). cbn [M_Setup.md_settings tokenizer_settings s_category]. rewrite Eg. eapply Permutation_NoDup; [apply Permutation_sym, (in_order _ _ _ _ IN)|exact ND].
Qed.

Lemma live_grammar l r : get_connect_cost (ds_grammar (md_set m)) l r = get_connect_cost g0 l r.
Proof.
  pose proof (bf_contract _ _ _ _ _ _ _ _ _ _ _ _ _ _ BF) as CT. pose proof (bf_system _ _ _ _ _ _ _ _ _ _ _ _ _ _ BF) as SB. pose proof (bf_grammar _ _ _ _ _ _ _ _ _ _ _ _ _ _ BF) as GO. pose proof (bf_users _ _ _ _ _ _ _ _ _ _ _ _ _ _ BF) as UB.
  pose proof (files_loaded _ _ _ _ _ _ _ _ _ _ _ _ _ _ _ _ _ _ _ _ _ _ _ BF MK) as FL.
  pose proof (load_ok _ _ _ _ CT _ _ _ _ _ _ SB GO eq_refl _ _ UB FL) as L. destruct (ld_matrix _ _ _ _ _ _ _ _ _ L) as (A & B & D). unfold get_connect_cost. now rewrite A, B, D.
Qed.

(** The plugins, object by object *)
Lemma plugin_list {A B} (make : json -> res A) (set_up : A -> res B) key specs made : get_plugins make c key = Ok specs -> Forall2 (fun s p => set_up s = Ok p) specs made ->
  (forall x s, make x = Ok s -> exists v, jget x (lit "class") = Ok v) ->
  (conf_get c (txt key) = None /\ made = []) \/ made = [] \/
  exists objs, conf_get c (txt key) = Some (JList objs) /\ Forall2 (fun x p => exists o s, x = JObj o /\ make x = Ok s /\ set_up s = Ok p) objs made.
Proof.
  unfold get_plugins. change (lit key) with (txt key). intros H F CL. destruct (conf_get c (txt key)) as [v|]; [|injection H as <-; inversion F; subst; auto].
  apply bind_ok in H as (objs & Ej & H). apply mapM_all in H. right.
  assert (G : Forall2 (fun x p => exists o s, x = JObj o /\ make x = Ok s /\ set_up s = Ok p) objs made).
  { clear Ej. revert made F. induction H as [|x s objs specs E H IH]; intros made F; inversion F as [|? p ? made' Es F']; subst; constructor; auto.
    destruct (CL _ _ E) as (cl & Ecl). destruct (jget_inv _ _ _ Ecl) as (o & -> & _). eauto. }
  destruct G as [|x p objs made X G]; [now left|]. right. destruct X as (o & s & -> & E & Es). destruct (CL _ _ E) as (cl & Ecl).
  destruct (item_inv _ _ _ _ _ Ej (or_introl eq_refl) Ecl) as (f & -> & _). exists (JObj o :: objs). split; [reflexivity|]. constructor; [eauto|exact G].
Qed.
Lemma oov_class x s : get_oov_plugin x = Ok s -> exists v, jget x (lit "class") = Ok v.
Proof. intros H. apply key_error_ok in H. apply bind_ok in H as (v & E & _). eauto. Qed.
Lemma path_class x s : get_path_rewrite_plugin x = Ok s -> exists v, jget x (lit "class") = Ok v.
Proof. intros H. apply key_error_ok in H. apply bind_ok in H as (v & E & _). eauto. Qed.

Lemma oov_source o s g p : get_oov_plugin (JObj o) = Ok s -> set_up_oov text_file join int10 g d s = Ok p ->
  (conf_get o (txt "class") = Some (JStr (txt "sudachipy.plugin.oov.SimpleOovProviderPlugin")) /\
     exists kv l r k ps, conf_get o (txt "cost") = Some kv /\ as_int kv = Ok k /\ p = Simple (SimpleCfg l r k ps)) \/
  (conf_get o (txt "class") = Some (JStr (txt "sudachipy.plugin.oov.MeCabOovProviderPlugin")) /\
     exists ap bp cf uf mc, conf_get o (txt "charDef") = Some (JStr ap) /\ conf_get o (txt "unkDef") = Some (JStr bp) /\
       text_file (join d ap) = Ok cf /\ text_file (join d bp) = Ok uf /\ mecab_set_up int10 g cf uf = Ok mc /\ p = MeCab mc).
Proof.
  intros Ex Es. apply key_error_ok in Ex. apply bind_ok in Ex as (cl & Ecl & Ex). destruct (jget_inv _ _ _ Ecl) as (? & [= <-] & Ec).
  destruct (is_class cl "sudachipy.plugin.oov.MeCabOovProviderPlugin") eqn:I1.
  - apply is_class_inv in I1 as ->. apply bind_ok in Ex as (a & Ea & Ex). apply bind_ok in Ex as (b & Eb & Ex). injection Ex as <-.
    cbn [set_up_oov] in Es. apply bind_ok in Es as (ap & Eap & Es). apply bind_ok in Es as (cf & Ecf & Es). apply bind_ok in Es as (props & Epr & Es). apply bind_ok in Es as (bp & Ebp & Es). apply bind_ok in Es as (uf & Euf & Es).
    apply bind_ok in Es as (mc & Emc & [= <-]). apply as_path_ok in Ebp as ->, Eap as ->. right. split; [exact Ec|].
    destruct (jget_inv _ _ _ Ea) as (? & [= <-] & Ea'). destruct (jget_inv _ _ _ Eb) as (? & [= <-] & Eb'). exists ap, bp, cf, uf, mc. auto 8.
  - destruct (is_class cl "sudachipy.plugin.oov.SimpleOovProviderPlugin") eqn:I2; [|discriminate]. apply is_class_inv in I2 as ->. left. split; [exact Ec|].
    apply bind_ok in Ex as (a1 & _ & Ex). apply bind_ok in Ex as (a2 & _ & Ex). apply bind_ok in Ex as (kv & Ek & Ex). apply bind_ok in Ex as (v & Ev & Ex). apply bind_ok in Ex as (b1 & _ & Ex). apply bind_ok in Ex as (b2 & _ & Ex). apply bind_ok in Ex as (b3 & E3 & [= <-]).
    cbn [set_up_oov] in Es. injection Es as <-. destruct (jget_inv _ _ _ Ek) as (? & [= <-] & Ek'). exists kv, b1, b2, b3. eexists. split; [exact Ek'|]. split; [exact E3|reflexivity].
Qed.

Lemma live_providers : exists objs g, conf_get c (txt "oovProviderPlugin") = Some (JList objs) /\
  Forall2 (fun x p => exists o s, x = JObj o /\ get_oov_plugin x = Ok s /\ set_up_oov text_file join int10 g d s = Ok p) objs (md_providers m).
Proof.
  destruct (make_inv _ _ _ _ _ _ _ _ _ _ _ _ _ _ _ _ MK) as (sf & ufs & g & ins & oovs & paths & C).
  destruct (co_oovs _ _ _ _ _ _ _ _ _ _ _ _ _ _ _ _ _ _ _ _ _ _ C) as (O1 & NE & O2).
  assert (NM : md_providers m <> []) by (intros X; rewrite X in O2; inversion O2; congruence).
  destruct (plugin_list _ _ _ _ _ O1 O2 oov_class) as [(_ & X)|[X|(objs & E & F)]]; try congruence. exists objs, g. auto.
Qed.

Lemma as_int_value v z : as_int v = Ok z -> int_value v z.
Proof. unfold int_value. destruct v as [|[]| | | |]; cbn [as_int]; intros [= <-]; auto. Qed.

Lemma oov_numbers_source o s g p : get_oov_plugin (JObj o) = Ok s -> set_up_oov text_file join int10 g d s = Ok p ->
  (exists objs, conf_get c (txt "oovProviderPlugin") = Some (JList objs) /\ In (JObj o) objs) ->
  match p with
  | Simple sc => oov_numbers (so_left sc) (so_right sc) (so_cost sc)
  | MeCab mc => forall ct os e, mc_oovs mc ct = Some os -> In e os -> oov_numbers (oe_left e) (oe_right e) (oe_cost e)
  end.
Proof.
  intros Ex Es (objs & Ec & Ho). destruct (oov_source _ _ _ _ Ex Es) as [(CL & _)|(CL & ap & bp & cf & uf & mc & Ea & Eb & Ecf & Euf & Emc & ->)].
  - apply key_error_ok in Ex. apply bind_ok in Ex as (cl & Ecl & Ex). destruct (jget_inv _ _ _ Ecl) as (? & [= <-] & Ec'). change (conf_get o (txt "class") = Some cl) in Ec'. assert (cl = JStr (txt "sudachipy.plugin.oov.SimpleOovProviderPlugin")) by congruence. subst cl.
    change (is_class (JStr (txt "sudachipy.plugin.oov.SimpleOovProviderPlugin")) "sudachipy.plugin.oov.MeCabOovProviderPlugin") with false in Ex.
    change (is_class (JStr (txt "sudachipy.plugin.oov.SimpleOovProviderPlugin")) "sudachipy.plugin.oov.SimpleOovProviderPlugin") with true in Ex. cbv iota in Ex.
    apply bind_ok in Ex as (a1 & E1 & Ex). apply bind_ok in Ex as (a2 & E2 & Ex). apply bind_ok in Ex as (a3 & E3 & Ex). apply bind_ok in Ex as (a4 & E4 & Ex).
    apply bind_ok in Ex as (b1 & F1 & Ex). apply bind_ok in Ex as (b2 & F2 & Ex). apply bind_ok in Ex as (b3 & F3 & [= <-]). cbn [set_up_oov] in Es. injection Es as <-. cbn [so_left so_right so_cost].
    destruct (jget_inv _ _ _ E1) as (? & [= <-] & G1). destruct (jget_inv _ _ _ E2) as (? & [= <-] & G2). destruct (jget_inv _ _ _ E3) as (? & [= <-] & G3).
    left. exists o, a1, a2, a3. split; [exists objs; auto|]. repeat (split; [assumption|]). auto using as_int_value.
  - intros ct os e Hos He. destruct (file_of_exists cf) as (cls & FC). destruct (file_of_exists uf) as (uls & FU).
    destruct (C65_nothing_else _ _ _ _ _ _ _ FC FU Emc) as (qs & us & HP & HU & D). destruct (C65_set_up int10 g _ _ _ _ _ _ FC HP FU HU D) as (mc' & Emc' & _ & HO).
    rewrite Emc in Emc'. injection Emc' as <-. specialize (HO ct). rewrite Hos in HO.
    assert (X : exists u, In u (filter (fun u => cat_eqb (u_cat u) ct) us) /\ oe_left e = u_left u /\ oe_right e = u_right u /\ oe_cost e = u_cost u).
    { clear - HO He. induction HO as [|o' u os us' P F IH]; [destruct He|]. destruct He as [->|He]; [exists u; split; [now left|split; [apply P|split; apply P]]|]. destruct (IH He) as (u' & Hu & R). exists u'. split; [now right|exact R]. }
    destruct X as (u & Hu & E1 & E2 & E3). apply filter_In in Hu as (Hu & _). right. exists o, bp, uf, uls, us, u. split; [exists objs; auto|]. auto 10.
Qed.

Lemma live_ids : ids_inside (created m).
Proof.
  pose proof (bf_contract _ _ _ _ _ _ _ _ _ _ _ _ _ _ BF) as CT. pose proof (bf_system _ _ _ _ _ _ _ _ _ _ _ _ _ _ BF) as SB. pose proof (bf_grammar _ _ _ _ _ _ _ _ _ _ _ _ _ _ BF) as GO. pose proof (bf_users _ _ _ _ _ _ _ _ _ _ _ _ _ _ BF) as UB.
  pose proof (files_loaded _ _ _ _ _ _ _ _ _ _ _ _ _ _ _ _ _ _ _ _ _ _ _ BF MK) as FL.
  destruct (cp_cells CP) as (C1 & C2). destruct (cp_ids CP) as (I1 & I2).
  exists (fun z => 0 <= z < g_lsize g0), (fun z => 0 <= z < g_rsize g0). constructor; cbn [M_Setup.created shipped cf_view cf_params cf_lookup cf_providers M_Setup.md_settings tokenizer_settings s_view s_params s_lookup s_providers].
  - intros a b Ha Hb. rewrite live_grammar. destruct GO as (dict & Ed & Eg). pose proof (system_size _ _ _ Ed Eg ltac:(lia)) as SZ.
    unfold get_connect_cost. destruct (Z.eqb_spec (g_lsize g0 * g_rsize g0) 0) as [X|_]; [nia|]. rewrite !view_index_in by lia.
    destruct (get_lt (g_matrix g0) (Z.to_nat a * Z.to_nat (g_rsize g0) + Z.to_nat b)) as (x & ->); [nia|discriminate].
  - lia.
  - intros bs i wid e l r x Hin Hp. destruct (found_entries _ _ _ _ _ _ _ _ _ _ _ _ _ _ _ _ _ _ _ _ _ _ _ BF MK _ _ _ _ Hin) as (_ & k & u & j & en & h & Hk & Hi & -> & Hh & _).
    destruct (C43_loaded _ _ _ _ CT _ _ _ _ _ _ _ _ SB GO eq_refl UB FL k u j en Hk Hi) as (L1 & L2 & x' & L3 & _ & _).
    unfold ls_params in Hp. rewrite L1, L2, L3 in Hp. cbn [bind] in Hp. injection Hp as <- <- _.
    destruct (entry_row _ _ _ _ _ _ _ _ _ _ _ _ _ _ BF k u j en Hk Hi) as (row & tb & tb' & Hr & HP). apply nth_error_In in Hk, Hr.
    destruct (C58_accepted _ _ _ _ _ _ HP) as (_ & cs & Fc & _ & A0 & A1 & A2 & _). apply (I1 u row cs); auto. intros X. rewrite A0, X in Hh. discriminate Hh.
  - intros p Hp. destruct live_providers as (objs & g & Ec & F). destruct (in_forall2 _ _ _ _ F Hp) as (ob & Hx & o & sp & -> & E1 & E2).
    pose proof (oov_numbers_source _ _ _ _ E1 E2 (ex_intro _ objs (conj Ec Hx))) as ON. destruct p as [sc|mc]; cbn [provider_ids].
    + exact (I2 _ _ _ ON).
    + intros ct oovs oe Ho Hin. exact (I2 _ _ _ (ON _ _ _ Ho Hin)).
Qed.

Lemma live_costs : costs_in bits16 bits16 (created m).
Proof.
  pose proof (bf_contract _ _ _ _ _ _ _ _ _ _ _ _ _ _ BF) as CT. pose proof (bf_system _ _ _ _ _ _ _ _ _ _ _ _ _ _ BF) as SB. pose proof (bf_grammar _ _ _ _ _ _ _ _ _ _ _ _ _ _ BF) as GO. pose proof (bf_users _ _ _ _ _ _ _ _ _ _ _ _ _ _ BF) as UB.
  pose proof (files_loaded _ _ _ _ _ _ _ _ _ _ _ _ _ _ _ _ _ _ _ _ _ _ _ BF MK) as FL. pose proof (load_ok _ _ _ _ CT _ _ _ _ _ _ SB GO eq_refl _ _ UB FL) as L.
  constructor; unfold bits16; cbn [M_Setup.created shipped cf_params cf_providers M_Setup.md_settings tokenizer_settings s_params s_providers].
  - intros a b. unfold cf_conn, cost_of. cbn [M_Setup.created shipped cf_view M_Setup.md_settings tokenizer_settings s_view]. rewrite live_grammar. destruct (get_connect_cost g0 b a) as [x|] eqn:E; [|lia]. destruct GO as (dict & Ed & Eg).
    destruct (bf_system_file _ _ _ _ _ _ _ _ _ _ _ _ _ _ BF) as (sp & _ & Ef). pose proof (system_range _ _ _ (fs_bytes _ _ FS _ _ Ef) Ed Eg) as R.
    unfold get_connect_cost in E. destruct (_ =? 0); [discriminate|]. destruct (view_index _ _); [|discriminate]. destruct (view_index _ _); [|discriminate]. apply get_ok, nth_error_In in E. rewrite Forall_forall in R. apply R in E. unfold short_range in E. lia.
  - intros wid l r x H. unfold ls_params in H. apply bind_ok in H as (a & _ & H). apply bind_ok in H as (b & _ & H). apply bind_ok in H as (x' & H & [= <- <- ->]).
    unfold ls_cost, ls_lexicon in H. apply bind_ok in H as (lx & Hl & H). apply bind_ok in Hl as (p & Hp & [= <-]). apply get_ok, nth_error_In in Hp. unfold lx_cost in H. apply get_ok, nth_error_In in H.
    pose proof (ld_shorts _ _ _ _ _ _ _ _ _ L) as R. rewrite Forall_forall in R. apply R in Hp. rewrite Forall_forall in Hp. apply Hp in H. unfold short_range in H. lia.
  - intros p Hp. destruct live_providers as (objs & g & Ec & F). destruct (in_forall2 _ _ _ _ F Hp) as (x & Hx & o & s & -> & E1 & E2).
    destruct (oov_source _ _ _ _ E1 E2) as [(CL & kv & l & r & k & ps & Ek & Ei & ->)|(CL & ap & bp & cf & uf & mc & Ea & Eb & Ecf & Euf & Emc & ->)]; cbn [provider_costs].
    + cbn [so_cost]. destruct kv; try discriminate; cbn [as_int] in Ei; injection Ei as <-; [destruct b; lia|]. eapply (cp_simple CP); [exists objs; split; [exact Ec|split; [exact Hx|exact CL]]|exact Ek].
    + intros ct os e Ho He. destruct (file_of_exists cf) as (cls & FC). destruct (file_of_exists uf) as (uls & FU).
      destruct (C65_nothing_else _ _ _ _ _ _ _ FC FU Emc) as (qs & us & HP & HU & D). destruct (C65_set_up int10 g _ _ _ _ _ _ FC HP FU HU D) as (mc' & Emc' & _ & HO).
      rewrite Emc in Emc'. injection Emc' as <-. specialize (HO ct). rewrite Ho in HO.
      assert (X : exists u, In u (filter (fun u => cat_eqb (u_cat u) ct) us) /\ oe_cost e = u_cost u).
      { clear - HO He. induction HO as [|o' u os us' P F IH]; [destruct He|]. destruct He as [->|He]; [exists u; split; [now left|apply P]|]. destruct (IH He) as (u' & Hu & R). exists u'. split; [now right|exact R]. }
      destruct X as (u & Hu & ->). apply filter_In in Hu as (Hu & _). eapply (cp_unknown CP); eauto. exists objs. auto.
Qed.

Lemma live_last : exists firsts sc, cf_providers (created m) = firsts ++ [Simple sc].
Proof.
  cbn [M_Setup.created shipped cf_params cf_providers cf_lookup M_Setup.md_settings tokenizer_settings s_params s_providers s_lookup].
  destruct live_providers as (objs & g & Ec & F). destruct (cp_last CP) as (objs' & o & Ec' & CL). assert (objs = objs' ++ [JObj o]) by congruence. subst objs.
    apply Forall2_app_inv_l in F as (l1 & l2 & _ & F2 & E). inversion F2 as [|? p ? l3 X F3]; subst. destruct X as (o' & s & Eo & E1 & E2). injection Eo as <-. inversion F3; subst.
    destruct (oov_source _ _ _ _ E1 E2) as [(_ & kv & l & r & k & ps & _ & _ & ->)|(CL' & _)]; [exists l1; eauto|rewrite CL in CL'; discriminate CL'].
Qed.
Lemma live_lookup bs i : snd (cf_lookup (created m) bs i) = None.
Proof.
  pose proof (bf_contract _ _ _ _ _ _ _ _ _ _ _ _ _ _ BF) as CT. pose proof (bf_system _ _ _ _ _ _ _ _ _ _ _ _ _ _ BF) as SB. pose proof (bf_grammar _ _ _ _ _ _ _ _ _ _ _ _ _ _ BF) as GO. pose proof (bf_users _ _ _ _ _ _ _ _ _ _ _ _ _ _ BF) as UB.
  pose proof (files_loaded _ _ _ _ _ _ _ _ _ _ _ _ _ _ _ _ _ _ _ _ _ _ _ BF MK) as FL.
  cbn [M_Setup.created shipped cf_params cf_providers cf_lookup M_Setup.md_settings tokenizer_settings s_params s_providers s_lookup].
  now rewrite (ls_lookup_ok _ _ _ _ (set_not_empty _ _ _ _ CT _ _ _ _ _ _ _ _ SB GO eq_refl UB FL) (all_lookups _ _ _ _ CT _ _ _ _ _ _ _ _ SB GO eq_refl UB FL bs i)).
Qed.
Lemma live_found bs i wid e : In (wid, e) (fst (cf_lookup (created m) bs i)) -> -2147483648 <= wid <= 2147483647 /\ exists p, cf_params (created m) wid = Ok p.
Proof.
  cbn [M_Setup.created shipped cf_params cf_providers cf_lookup M_Setup.md_settings tokenizer_settings s_params s_providers s_lookup].
  intros H. destruct (found_entries _ _ _ _ _ _ _ _ _ _ _ _ _ _ _ _ _ _ _ _ _ _ _ BF MK _ _ _ _ H) as (_ & k & u & j & x & h & A & B & C & _).
    destruct (live_words wid) as (X & Y & _); [exists k, u, j, x; auto|]. auto.
Qed.
Lemma live_open : (forall l r, get_connect_cost g0 l r <> Ok 0x7fff) -> open_ended (created m).
Proof.
  intros M. constructor; [exact live_last| |exact live_ids|exact live_lookup|exact live_found].
  intros a b. unfold cf_conn, cost_of. cbn [M_Setup.created shipped cf_view M_Setup.md_settings tokenizer_settings s_view].
    rewrite live_grammar. destruct (get_connect_cost g0 b a) as [x|] eqn:E; [|discriminate]. intros ->. now apply M in E.
Qed.

Lemma live_alphabetic : alphabetic_ok (created m).
Proof.
  assert (AL : forall a, alphabetic a -> In a [ALPHA; GREEK; CYRILLIC]) by (intros a [-> | [-> | ->]]; cbn; tauto).
  constructor; cbn [M_Setup.created shipped cf_category cf_providers].
  - intros ch a Ha Hin. destruct live_ranges as (rs & CR). pose proof (live_nodup ch) as ND.
    assert (X : category_in rs ch a) by (destruct (live_cats rs ch a CR Hin) as [X| ->]; [exact X|destruct Ha as [Ha|[Ha|Ha]]; discriminate Ha]).
    assert (ALL : forall x, In x (cats ch) -> x = a).
    { intros x Hx. destruct (live_cats rs ch x CR Hx) as [Y| ->]; [eapply (cp_single CP); eauto|]. exfalso.
      (* a character of a range does not get DEFAULT by default *)
      destruct CR as (p & f & ls & E1 & E2 & FO & CD). destruct (make_inv _ _ _ _ _ _ _ _ _ _ _ _ _ _ _ _ MK) as (sf & ufs & g & ins & oovs & paths & C).
      destruct (co_chars _ _ _ _ _ _ _ _ _ _ _ _ _ _ _ _ _ _ _ _ _ _ C) as (p' & f' & E1' & E2' & RD). assert (p' = p) by congruence. subst p'. assert (f' = f) by congruence. subst f'.
      assert (NE : rs <> []) by (intros ->; destruct X as (? & ? & ? & [] & _)).
      destruct (C64_definition_file int16 pop f ls rs (in_pop _ _ _ _ IN) FO CD NE) as (table & RD' & T). rewrite RD in RD'. injection RD' as <-.
      destruct (T ch) as (cs & Eg & _ & T1 & _). cbn [M_Setup.md_settings tokenizer_settings s_category] in Hx. rewrite Eg in Hx. apply (Permutation_in _ (in_order _ _ _ _ IN cs)) in Hx.
      assert (XR : exists low high cs, In (low, high, cs) rs /\ low <= ch <= high) by (destruct X as (lo & hi & cs' & A & B & _); eauto).
      apply (proj1 (T1 XR DEFAULT)) in Hx. assert (DEFAULT = a) by (eapply (cp_single CP rs ch a DEFAULT); eauto; exists p, f, ls; auto). subst a. destruct Ha as [Ha|[Ha|Ha]]; discriminate Ha. }
    clear - ND ALL Hin. destruct (cats ch) as [|x l]; [destruct Hin|]. rewrite (ALL x (or_introl eq_refl)) in *. destruct l as [|y l]; [reflexivity|]. exfalso.
    rewrite (ALL y (or_intror (or_introl eq_refl))) in ND. inversion ND as [|? ? N _]; subst. apply N. now left.
  - intros mc Hp a info Ha Hi. destruct live_providers as (objs & g & Ec & F). cbn [M_Setup.md_settings tokenizer_settings s_providers] in Hp.
    destruct (in_forall2 _ _ _ _ F Hp) as (x & Hx & o & s & -> & E1 & E2).
    destruct (oov_source _ _ _ _ E1 E2) as [(CL & kv & l & r & k & ps & Ek & Ei & [=])|(CL & ap & bp & cf & uf & mc' & Ea & Eb & Ecf & Euf & Emc & [= <-])].
    destruct (file_of_exists cf) as (cls & FC). destruct (file_of_exists uf) as (uls & FU).
    destruct (C65_nothing_else _ _ _ _ _ _ _ FC FU Emc) as (qs & us & HP & HU & D). destruct (C65_set_up int10 g _ _ _ _ _ _ FC HP FU HU D) as (mc' & Emc' & HI & _).
    rewrite Emc in Emc'. injection Emc' as <-. apply HI in Hi as (q & Hq & Eq & _ & -> & _). eapply (cp_grouped CP); eauto; [exists objs; auto|]. rewrite Eq. auto.
Qed.

Lemma live_first : numbers_first (md_settings m).
Proof.
  unfold numbers_first. cbn [M_Setup.md_settings tokenizer_settings s_rewriters].
  destruct (make_inv _ _ _ _ _ _ _ _ _ _ _ _ _ _ _ _ MK) as (sf & ufs & g & ins & oovs & paths & C).
  destruct (co_paths _ _ _ _ _ _ _ _ _ _ _ _ _ _ _ _ _ _ _ _ _ _ C) as (O1 & O2).
  destruct (plugin_list _ _ _ _ _ O1 O2 path_class) as [(_ & ->)|[->|(objs & E & F)]]; [exists []; left; reflexivity|exists []; left; reflexivity|].
  assert (KA : forall l rs, Forall2 (fun x p => exists o s, x = JObj o /\ get_path_rewrite_plugin x = Ok s /\ set_up_path g s = Ok p) l rs ->
    (forall o, In (JObj o) l -> conf_get o (txt "class") <> Some (JStr (txt "sudachipy.plugin.path_rewrite.JoinNumericPlugin"))) -> exists ks, rs = map JoinKatakana ks).
  { clear. induction 1 as [|x p l rs (o & s & -> & E1 & E2) F IH]; intros N; [exists []; reflexivity|]. destruct IH as (ks & ->); [intros o' H; apply N; now right|].
    apply key_error_ok in E1. apply bind_ok in E1 as (cl & Ecl & E1). destruct (jget_inv _ _ _ Ecl) as (? & [= <-] & Ec).
    destruct (is_class cl "sudachipy.plugin.path_rewrite.JoinNumericPlugin") eqn:I1.
    - apply is_class_inv in I1 as ->. exfalso. apply (N o); [now left|exact Ec].
    - destruct (is_class cl "sudachipy.plugin.path_rewrite.JoinKatakanaOovPlugin"); [|discriminate]. apply bind_ok in E1 as (v & Ev & E1). apply bind_ok in E1 as (n & _ & [= <-]).
      cbn [set_up_path] in E2. destruct (truthy v); [|discriminate]. cbn zeta in E2. destruct (_ <? 0); [discriminate|]. injection E2 as <-. eexists (_ :: ks). reflexivity. }
  pose proof (cp_paths CP objs) as N. destruct F as [|x p l rs (o & s & -> & E1 & E2) F]; [exists []; now left|]. cbn [tl] in N.
  destruct (KA l rs F) as (ks & ->); [intros o' H; now apply (N o' E)|].
  apply key_error_ok in E1. apply bind_ok in E1 as (cl & Ecl & E1).
  destruct (is_class cl "sudachipy.plugin.path_rewrite.JoinNumericPlugin") eqn:I1.
  - injection E1 as <-. cbn [set_up_path] in E2. injection E2 as <-. exists ks. right. eauto.
  - destruct (is_class cl "sudachipy.plugin.path_rewrite.JoinKatakanaOovPlugin"); [|discriminate]. apply bind_ok in E1 as (v & Ev & E1). apply bind_ok in E1 as (n & _ & [= <-]).
    cbn [set_up_path] in E2. destruct (truthy v); [|discriminate]. cbn zeta in E2. destruct (_ <? 0); [discriminate|]. injection E2 as <-. eexists (_ :: ks). now left.
Qed.

Lemma live_digits : plain_digits (md_settings m).
Proof.
  destruct live_ranges as (rs & CR).
  assert (ND : forall x, In x [NUMERIC; KANJINUMERIC] -> x <> DEFAULT) by (intros x [<-|[<-|[]]]; discriminate).
  split.
  - intros ch H. assert (X : exists x, In x [NUMERIC; KANJINUMERIC] /\ In x (cats ch)) by (destruct H; [exists NUMERIC|exists KANJINUMERIC]; cbn; auto).
    destruct X as (x & Hx & Hc). destruct (live_cats rs ch x CR Hc) as [Y|Y]; [|now apply ND in Y]. exact (cp_digits CP rs ch x CR Hx Y).
  - intros t bs i j wid wi Et Hij Hin Ewi H.
    assert (X : exists x, In x [NUMERIC; KANJINUMERIC] /\ Forall (fun ch => category_in rs ch x) (slice t i j)).
    { destruct H as [H|H]; [exists NUMERIC|exists KANJINUMERIC]; (split; [cbn; auto|]); (eapply Forall_impl; [|exact H]); intros ch Hc; cbn beta in Hc; (destruct (live_cats rs ch _ CR Hc) as [Y|Y]; [exact Y|discriminate Y]). }
    destruct X as (x & Hx & F). clear H.
    destruct (found_entries _ _ _ _ _ _ _ _ _ _ _ _ _ _ _ _ _ _ _ _ _ _ _ BF MK _ _ _ _ Hin) as (_ & k & u & n & e & h & Hk & Hn & Eid & Hh & Henc).
    assert (Eh : h = slice t i j). { eapply encode_inj; [exact Henc|]. apply encode_range; [exact Et|lia|lia]. }
    destruct (entry_row _ _ _ _ _ _ _ _ _ _ _ _ _ _ BF _ _ _ _ Hk Hn) as (row & tb & tb' & Hr & HP).
    destruct (C58_accepted _ _ _ _ _ _ HP) as (_ & cs & Fc & _ & A0 & _ & _ & _ & A4 & A11 & A12 & _).
    assert (h = nth 0 cs []) by (rewrite Hh in A0; destruct (teqb _ _); congruence).
    pose proof (bf_contract _ _ _ _ _ _ _ _ _ _ _ _ _ _ BF) as CT. pose proof (bf_system _ _ _ _ _ _ _ _ _ _ _ _ _ _ BF) as SB. pose proof (bf_grammar _ _ _ _ _ _ _ _ _ _ _ _ _ _ BF) as GO. pose proof (bf_users _ _ _ _ _ _ _ _ _ _ _ _ _ _ BF) as UB.
    pose proof (files_loaded _ _ _ _ _ _ _ _ _ _ _ _ _ _ _ _ _ _ _ _ _ _ _ BF MK) as FL.
    destruct (bf_forms _ _ _ _ _ _ _ _ _ _ _ _ _ _ BF u n (nth_error_In _ _ Hk)) as (q & Hq & CE); [apply nth_error_Some; congruence|].
    destruct (C40_other_columns _ _ _ _ CT _ _ _ _ _ _ _ _ SB GO eq_refl UB FL k u n e q Hk Hn CE Hq) as (wi' & Ewi' & _ & _ & On & _).
    cbn [M_Setup.md_settings tokenizer_settings s_lexinfo] in Ewi. rewrite Eid, Ewi' in Ewi. injection Ewi as <-. rewrite A4, A12 in On. rewrite On.
    assert (NO : forall ch, In ch (match nth 12 cs [] with [] => nth 4 cs [] | n => n end) -> ch <> 44 /\ ch <> 46).
    { eapply (cp_numbers CP rs u row cs x CR Hx); [eapply nth_error_In; eauto|eapply nth_error_In; eauto|exact Fc|]. congruence. }
    destruct (nth 12 cs []) as [|z0 l0]; split; intros X; apply NO in X; unfold S_Numeric.comma_char, S_Numeric.point_char in *; lia.
Qed.
End one.
End system.
Coercion cp_furnished : complete >-> furnished.
#[export] Hint Resolve cp_furnished : core.
