(** C83: the debug output. *)
From Coq Require Import String Ascii List ZArith Lia Bool Arith.
From Verif Require Import Base Utf8 M_Builder M_CharCategory M_InputText M_InputPlugins M_Lattice M_Oov M_Tokenizer M_NumericParser M_PathRewrite M_Morphemes
  M_Shipped M_Bytes M_DicReader M_DicBuilder M_LexiconSet M_Front M_Resource M_Setup M_Command M_Tokenize M_Debug S_Text S_Plugins S_Lattice S_Resource S_Debug
  P_Builder P_InputText P_Accessors P_Lattice P_Tokenizer P_Path P_Config P_Total P_CharCategory P_Bytes P_DicFormat P_DicWrite P_DicOpen P_DicGrammar P_DicSource P_DicLexicon P_DicFile Prop_Format P_LexiconSet P_Resource
  Prop_Text Prop_Lattice Prop_Tokenizer Prop_Total Prop_CharCategory Prop_Source Prop_Lexicon Prop_Resource Prop_Shipped P_Words P_Setup P_System Prop_System P_DicToy P_Live Prop_Live P_Debug.
From Verif Require P_Accept.
Import ListNotations.
Open Scope list_scope.
Open Scope Z_scope.

Lemma between_join c ts : join_with c ts = between [c] ts.
Proof. induction ts as [|t [|t' r] IH]; [reflexivity|reflexivity|]. cbn [join_with between] in *. now rewrite IH. Qed.

Lemma ok_text (a b : text) : Ok a = Ok b -> b = a.
Proof. congruence. Qed.

Section tokenizer.
Variable str : Z -> text.
Variable pos_string : Z -> res (list text).
Variable connect : Z -> Z -> res Z.
Notation logged_run := (logged_run str pos_string connect).

(** ** C83 *)
(** For every Dictionary, text and mode, and after any history: when the analysis with a logger
    succeeds, the one without succeeds too, with the same result, and leaves the tokenizer in
    the same state. *)
Theorem C83_same cfg lat t md lat' rs r : logged_run cfg lat t md = (lat', rs, Ok r) -> M_Tokenizer.run cfg lat t md = (lat', Ok r).
Proof.
  unfold M_Debug.logged_run, M_Tokenizer.run, tokenize. destruct t as [|c t]; [intros [= <- _ <-]; reflexivity|].
  change (prepare _ _ (c :: t)) with (run_prepare cfg (c :: t)). destruct (run_prepare cfg (c :: t)) as [it|]; [|discriminate].
  unfold analyse. change (candidates _ _ _ it) with (run_candidates cfg it). destruct (build_lattice _ _ _ _ _ _) as [lat1 [e|]]; [discriminate|].
  destruct (dump _ _ _ _ _) as [d1 [e|]]; [discriminate|]. destruct (get_best_path lat1) as [path|]; [|discriminate].
  destruct (dump_path _ _ _ path) as [d2 [e|]]; [discriminate|]. destruct (foldM _ _ _) as [path1|]; [|discriminate].
  destruct (lat_clear lat1) as [lat2|]; [|discriminate]. destruct (split_path _ _ _) as [path2|]; [|discriminate].
  destruct (dump_path _ _ _ path2) as [d3 [e|]]; [discriminate|]. now intros [= <- _ <-].
Qed.

(** What a record of a word tells: the surface and the part of speech of its word info *)
Definition named (lexinfo : Z -> res word_info) (w : wnode) (surface pos : text) : Prop :=
  (w_defined w = false /\ surface = txt "(null)" /\ pos = txt "BOS/EOS") \/
  (w_defined w = true /\ exists wi, node_info lexinfo w = Ok wi /\ surface = wi_surface wi /\
     ((wi_pos wi < 0 /\ pos = txt "(null)") \/ (0 <= wi_pos wi /\ exists ps, pos_string (wi_pos wi) = Ok ps /\ pos = between (txt ",") ps))).
(** The records of a path: one for each word, in order *)
Definition path_shown (lexinfo : Z -> res word_info) (ws : list wnode) (ts : list text) : Prop :=
  length ts = length ws /\
  forall k w, nth_error ws k = Some w -> exists surface,
    nth_error ts k = Some (path_line str k (w_begin w) (w_end w) surface (w_id w) (w_left w) (w_right w) (w_cost w)) /\
    (0 <= w_id w \/ w_extra w <> None -> exists wi, node_info lexinfo w = Ok wi /\ surface = wi_surface wi).
(** The words that are considered and can be reached from the beginning of the text *)
Definition candidate (cfg : M_Tokenizer.config) (it : input_text) (w : wnode) : Prop :=
  considered (cfg := cfg) (it := it) w /\
  exists q, tiles 0 (map to_step q) (w_begin w) /\ Forall (considered (cfg := cfg) (it := it)) q.
(** The words that end where a word begins; the beginning of the sentence ends at 0 *)
Definition precedes (cfg : M_Tokenizer.config) (it : input_text) (b : nat) (x : wnode) : Prop :=
  (b = 0%nat /\ x = bos_word bos_parameter) \/ ((0 < b)%nat /\ w_end x = b /\ candidate cfg it x).
(** The records of the lattice: the end of the sentence, every candidate and the beginning of
    the sentence, numbered from 1, each with the costs of the connections to all the words
    that end where it begins *)
Definition lattice_shown (cfg : M_Tokenizer.config) (it : input_text) (D : list text) : Prop :=
  exists ws, length D = length ws /\
    (forall w, In w ws <-> w = eos_word eos_parameter (length (it_bytes it)) \/ candidate cfg it w \/ w = bos_word bos_parameter) /\
    forall k w, nth_error ws k = Some w -> exists surface pos before costs,
      nth_error D k = Some (lattice_line str (S k) (w_begin w) (w_end w) surface (w_id w) pos (w_left w) (w_right w) (w_cost w) costs) /\
      named (cf_lexinfo cfg) w surface pos /\
      (forall x, In x before <-> precedes cfg it (w_begin w) x) /\
      Forall2 (fun x c => connect (w_right x) (w_left w) = Ok c) before costs.

Lemma path_lines lexinfo ws ts : dump_path str lexinfo 0 ws = (ts, None) -> path_shown lexinfo ws ts.
Proof.
  intros E. destruct (dump_path_ok _ _ _ _ _ E) as (L & F). split; [exact L|]. intros k w Hk. destruct (F k w Hk) as (s & Es & Et).
  unfold node_str in Es. apply bind_ok in Es as (surface & Ef & Es). apply ok_text in Es as ->. exists surface. split.
  - rewrite Et. unfold path_line, strn, space. cbn [between Nat.add]. rewrite <- !app_assoc. reflexivity.
  - intros H. replace ((0 <=? w_id w) || match w_extra w with Some _ => true | None => false end) with true in Ef.
    + apply bind_ok in Ef as (wi & -> & [= <-]). eauto.
    + symmetry. apply orb_true_iff. destruct H as [H|H]; [left; now apply Z.leb_le|right; now destruct (w_extra w)].
Qed.

Section lattice.
Variables (cfg : M_Tokenizer.config) (lat lat1 : lattice) (t : text) (it : input_text).
Hypothesis S : sane cfg.
Hypothesis U : P_Config.usable cfg lat.
Hypothesis Ht : t <> [].
Hypothesis Ep : run_prepare cfg t = Ok it.
Hypothesis Eb : build_lattice (cf_view cfg) eos_parameter (can_bow it) (run_candidates cfg it) lat (length (it_bytes it)) = (lat1, None).

Lemma lattice_words : (length (it_bytes it) < length (l_lists lat1))%nat /\ l_size lat1 = length (it_bytes it) /\
  (exists nd, l_eos lat1 = Some nd /\ ln_word nd = eos_word eos_parameter (length (it_bytes it))) /\
  forall e ls, nth_error (l_lists lat1) e = Some ls -> forall x, In x (map ln_word ls) <-> precedes cfg it e x.
Proof.
  destruct (run_prepare_built cfg t it S Ht Ep) as (bd & _ & _ & B). pose proof (usable_clean _ _ S U) as Hc.
  destruct (build_lattice_words (cf_view cfg) bos_parameter eos_parameter (can_bow it) (run_candidates cfg it) (length (it_bytes it)) (considered_range S B) (fun i w => candidates_begin _ _ _ it i w) lat lat1 Hc Eb) as ((I1 & I2 & I3 & I4) & EO).
  destruct (analyse_shape S B lat lat1 (get_best_path lat1) Hc) as (_ & Z).
  { unfold run_analyse, analyse. change (candidates _ _ _ it) with (run_candidates cfg it). now rewrite Eb. }
  split; [exact I1|]. split; [exact Z|]. split; [exact EO|]. intros e ls El x. split.
  - intros Hx. apply in_map_iff in Hx as (l & <- & Hl). destruct e as [|e].
    + left. rewrite I2 in El. injection El as <-. destruct Hl as [<-|[]]. auto.
    + right. split; [lia|]. destruct (I3 (Datatypes.S e) l) as (A1 & A2 & r & A3); [lia|exists ls; auto|]. split; [exact A1|]. split; [exact A2|].
      apply rpath_tiles in A3 as (A3 & A4); [|apply (considered_range S B)]. exists (rev r). split; [exact A3|]. apply Forall_rev. exact A4.
  - intros [(-> & ->)|(He & Hx & C & q & Q1 & Q2)].
    + rewrite I2 in El. injection El as <-. now left.
    + destruct (I4 x (rev q) C) as (l & (ls' & El' & Hl) & <-).
      * apply (considered_range S B) in C. lia.
      * apply rpath_tiles; [apply (considered_range S B)|]. rewrite rev_involutive. split; [exact Q1|]. now apply Forall_rev.
      * rewrite Hx, El in El'. injection El' as <-. now apply in_map.
Qed.

Definition shown_words : list wnode := eos_word eos_parameter (length (it_bytes it)) :: listed (l_lists lat1) (length (it_bytes it)).
Lemma dumped lexinfo : dump str pos_string connect lexinfo lat1 = dump_nodes str pos_string connect lexinfo (l_lists lat1) 0 shown_words.
Proof. destruct lattice_words as (L & Z & (nd & EO & En) & _). rewrite (dump_listed _ _ _ _ _ _ EO) by lia. now rewrite En, Z. Qed.
Lemma shown_words_in w : In w shown_words <-> w = eos_word eos_parameter (length (it_bytes it)) \/ candidate cfg it w \/ w = bos_word bos_parameter.
Proof.
  destruct lattice_words as (L & Z & _ & W). destruct (run_prepare_built cfg t it S Ht Ep) as (bd & _ & _ & B).
  cbn [shown_words In]. rewrite listed_in by exact L. split.
  - intros [<-|(e & ls & He & El & Hx)]; [now left|right]. apply (W _ _ El) in Hx as [(_ & ->)|(_ & _ & C)]; auto.
  - intros [->|[C| ->]]; [now left|right|right].
    + assert (R : (w_begin w < w_end w <= length (it_bytes it))%nat) by (apply (considered_range S B), C). destruct (get_lt (l_lists lat1) (w_end w)) as (ls & El); [lia|]. apply get_ok in El.
      exists (w_end w), ls. split; [lia|]. split; [exact El|]. apply (W _ _ El). right. split; [lia|auto].
    + destruct (get_lt (l_lists lat1) 0) as (ls & El); [lia|]. apply get_ok in El. exists 0%nat, ls. split; [lia|]. split; [exact El|]. apply (W _ _ El). left. auto.
Qed.

Lemma lattice_lines D : dump str pos_string connect (cf_lexinfo cfg) lat1 = (D, None) -> lattice_shown cfg it D.
Proof.
  rewrite dumped. intros E. destruct (dump_nodes_ok _ _ _ _ _ _ _ _ E) as (L & F). exists shown_words. split; [exact L|]. split; [apply shown_words_in|].
  intros k w Hk. destruct (F k w Hk) as (d & Ed & El). unfold dump_line in El. apply bind_ok in El as ((surface & pos) & En & El). apply bind_ok in El as (ls & Els & El). apply bind_ok in El as (costs & Ec & El). apply ok_text in El as ->.
  apply get_ok in Els. destruct lattice_words as (_ & _ & _ & W). exists surface, pos, (map ln_word ls), costs. split; [|split; [|split]].
  - rewrite Ed. unfold lattice_line, strn, space. cbn [between Nat.add]. rewrite between_join, <- !app_assoc. reflexivity.
  - unfold dump_name in En. unfold named. destruct (w_defined w); cbn [negb] in En; [right|left; injection En as <- <-; auto]. split; [reflexivity|].
    apply bind_ok in En as (wi & Ei & En). exists wi. split; [exact Ei|]. destruct (wi_pos wi <? 0) eqn:P.
    + injection En as <- <-. split; [reflexivity|]. left. split; [now apply Z.ltb_lt|reflexivity].
    + apply bind_ok in En as (ps & Eps & [= <- <-]). split; [reflexivity|]. right. split; [now apply Z.ltb_ge|]. exists ps. split; [exact Eps|]. apply between_join.
  - exact (W _ _ Els).
  - clear - Ec. revert costs Ec. induction ls as [|l ls IH]; intros costs Ec; cbn [mapM map] in *; [injection Ec as <-; constructor|].
    apply bind_ok in Ec as (c & E1 & Ec). apply bind_ok in Ec as (cs & E2 & [= <-]). constructor; auto.
Qed.
End lattice.

(** The records: the text once it is rewritten by the input text plugins; the lattice; the words
    of the best path, before the path is rewritten; the words of the result. *)
Theorem C83_records cfg lat t md lat' rs it p :
  sane cfg -> P_Config.usable cfg lat -> logged_run cfg lat t md = (lat', rs, Ok (Some (it, p))) ->
  run_prepare cfg t = Ok it /\
  exists D P Q lat1 p0,
    rs = [txt "=== Inupt dump:"; it_mod it; txt "=== Lattice dump:"] ++ D ++ [txt "=== Before Rewriting:"] ++ P ++ [txt "=== After Rewriting:"] ++ Q ++ [txt "==="] /\
    lattice_shown cfg it D /\ run_analyse cfg lat it = (lat1, Ok p0) /\ path_shown (cf_lexinfo cfg) p0 P /\ path_shown (cf_lexinfo cfg) p Q.
Proof.
  intros S U. unfold M_Debug.logged_run. destruct t as [|c t]; [discriminate|].
  destruct (run_prepare cfg (c :: t)) as [it'|] eqn:Ep; [|discriminate].
  destruct (build_lattice _ _ _ _ _ _) as [lat1 [e|]] eqn:Eb; [discriminate|].
  destruct (dump _ _ _ _ _) as [d1 [e|]] eqn:Ed; [discriminate|]. destruct (get_best_path lat1) as [path|] eqn:Eg; [|discriminate].
  destruct (dump_path _ _ _ path) as [d2 [e|]] eqn:E2; [discriminate|]. destruct (foldM _ _ _) as [path1|]; [|discriminate].
  destruct (lat_clear lat1) as [lat2|]; [|discriminate]. destruct (split_path _ _ _) as [path2|]; [|discriminate].
  destruct (dump_path _ _ _ path2) as [d3 [e|]] eqn:E3; [discriminate|]. intros [= <- <- <- <-]. split; [reflexivity|].
  exists d1, d2, d3, lat1, path. split; [cbn [app]; repeat (rewrite <- app_assoc; cbn [app]); reflexivity|].
  split; [eapply lattice_lines; eauto; discriminate|]. split; [unfold run_analyse, analyse; change (candidates _ _ _ it') with (run_candidates cfg it'); now rewrite Eb, Eg|].
  split; eapply path_lines; eauto.
Qed.

(** When every word that is considered can be described, the logger does not change how the
    analysis ends, either. *)
Lemma logged_ends cfg lat t md lat' res :
  sane cfg -> P_Config.usable cfg lat -> M_Tokenizer.run cfg lat t md = (lat', res) ->
  (forall it w, t <> [] -> run_prepare cfg t = Ok it -> considered (cfg := cfg) (it := it) w ->
     (exists s q, dump_name pos_string (cf_lexinfo cfg) w = Ok (s, q)) /\ exists wi, node_info (cf_lexinfo cfg) w = Ok wi) ->
  (forall it a b, t <> [] -> run_prepare cfg t = Ok it -> (a = 0 \/ exists x, considered (cfg := cfg) (it := it) x /\ a = w_right x) ->
     (b = 0 \/ exists x, considered (cfg := cfg) (it := it) x /\ b = w_left x) -> exists c, connect a b = Ok c) ->
  (forall it p w, res = Ok (Some (it, p)) -> In w p -> exists wi, node_info (cf_lexinfo cfg) w = Ok wi) ->
  exists rs, logged_run cfg lat t md = (lat', rs, res).
Proof.
  intros S U E N C I. unfold M_Tokenizer.run, tokenize in E. unfold M_Debug.logged_run. destruct t as [|c0 t0]; [injection E as <- <-; eauto|].
  assert (Ht : c0 :: t0 <> []) by discriminate. set (t := c0 :: t0) in *. change (prepare _ _ t) with (run_prepare cfg t) in E. destruct (run_prepare cfg t) as [it|] eqn:Ep; [|injection E as <- <-; eauto].
  specialize (N it). specialize (C it). pose proof (fun w => N w Ht eq_refl) as N'. pose proof (fun a b => C a b Ht eq_refl) as C'. clear N C.
  destruct (run_prepare_built cfg t it S Ht Ep) as (bd & _ & _ & B). pose proof (usable_clean _ _ S U) as Hc.
  unfold analyse in E. change (candidates _ _ _ it) with (run_candidates cfg it) in E.
  destruct (build_lattice _ _ _ _ _ _) as [lat1 [e|]] eqn:Eb; [injection E as <- <-; eauto|].
  assert (DT : exists ts, dump str pos_string connect (cf_lexinfo cfg) lat1 = (ts, None)).
  { rewrite (dumped _ _ _ _ _ S U Ht Ep Eb). apply dump_nodes_total. intros i w Hw. apply (shown_words_in _ _ _ _ _ S U Ht Ep Eb) in Hw.
    destruct (lattice_words _ _ _ _ _ S U Ht Ep Eb) as (L & _ & _ & W).
    assert (NM : exists s q, dump_name pos_string (cf_lexinfo cfg) w = Ok (s, q)) by (destruct Hw as [->|[(Hw & _)| ->]]; [eexists _, _; reflexivity|now apply N'|eexists _, _; reflexivity]).
    assert (BG : (w_begin w <= length (it_bytes it))%nat).
    { destruct Hw as [->|[(Hw & _)| ->]]; [cbn; lia|apply (considered_range S B) in Hw; lia|cbn; lia]. }
    assert (LF : w_left w = 0 \/ exists x, considered (cfg := cfg) (it := it) x /\ w_left w = w_left x).
    { destruct Hw as [->|[(Hw & _)| ->]]; [now left|right; eauto|now left]. }
    destruct NM as (s & q & NM). unfold dump_line. rewrite NM. cbn [bind]. destruct (get_lt (l_lists lat1) (w_begin w)) as (ls & Els); [lia|]. rewrite Els. cbn [bind]. apply get_ok in Els.
    destruct (mapM_all_ok (fun l => connect (w_right (ln_word l)) (w_left w)) ls) as (cs & ->); [|cbn [bind]; eauto].
    intros l Hl. apply C'; [|exact LF]. assert (X : In (ln_word l) (map ln_word ls)) by now apply in_map. apply (W _ _ Els) in X as [(_ & ->)|(_ & _ & X & _)]; [now left|right; eauto]. }
  destruct DT as (ts & ->). destruct (get_best_path lat1) as [p0|] eqn:Eg; [|injection E as <- <-; eauto].
  assert (P0 : exists ts, dump_path str (cf_lexinfo cfg) 0 p0 = (ts, None)).
  { destruct (analyse_path S B lat lat1 p0 Hc) as (_ & F & _); [unfold run_analyse, analyse; change (candidates _ _ _ it) with (run_candidates cfg it); now rewrite Eb, Eg|].
    apply dump_path_total. eapply Forall_impl; [|exact F]. intros w Hw. destruct (N' w Hw) as (_ & wi & Ei). eapply node_str_total; eauto. }
  destruct P0 as (t0' & ->). destruct (foldM _ _ _) as [p1|]; [|injection E as <- <-; eauto]. destruct (lat_clear lat1) as [lat2|]; [|injection E as <- <-; eauto].
  destruct (split_path _ _ _) as [p2|]; [|injection E as <- <-; eauto]. injection E as <- <-.
  assert (P2 : exists ts, dump_path str (cf_lexinfo cfg) 0 p2 = (ts, None)).
  { apply dump_path_total. apply Forall_forall. intros w Hw. destruct (I it p2 w eq_refl Hw) as (wi & Ei). eapply node_str_total; eauto. }
  destruct P2 as (t2 & ->). eauto.
Qed.
End tokenizer.
Print Assumptions C83_same.
Print Assumptions C83_records.

Lemma among_app {A} (x a b : list A) : among a b -> among a (x ++ b).
Proof. induction x; intros H; cbn; [exact H|]. now constructor; auto. Qed.
Lemma among_refl_app {A} (x a b : list A) : among a b -> among (x ++ a) (x ++ b).
Proof. induction x; intros H; cbn; [exact H|]. now constructor; auto. Qed.
Lemma among_nil {A} (b : list A) : among [] b.
Proof. induction b; constructor; auto. Qed.
Lemma among_same {A} (b : list A) : among b b.
Proof. induction b; constructor; auto. Qed.

Section command.
Variable order : list cat -> list cat.
Variable lower : Z -> text.
Variable nfkc : text -> text.
Variable search : bytes -> bytes -> list (Z * nat).
Variable limit : nat.
Variable str : Z -> text.
Notation created := (created order lower nfkc search limit).
Notation logged_tokenize := (logged_tokenize order lower nfkc search limit str).
Notation tokenize_lines := (tokenize_lines order lower nfkc search limit str).
Notation logged_lines := (logged_lines order lower nfkc search limit str).

(** The command with -d: the records it prints without -d are among those with -d, in the
    same order; when it ends without an exception with -d, then also without. *)
Theorem C83_command m md all lines : forall lat e rs, logged_lines m md all lat lines e = (rs, None) ->
  exists rs', tokenize_lines m md all lat lines e = (rs', None) /\ among rs' rs.
Proof.
  induction lines as [|line lines IH]; intros lat e rs E; cbn [M_Debug.logged_lines M_Tokenize.tokenize_lines] in *.
  - injection E as <- ->. exists []. split; [reflexivity|constructor].
  - destruct (logged_tokenize m lat (rstrip line) md) as [[lat' ds] [r|x]] eqn:El; [|discriminate]. apply C83_same in El. unfold tokenize_line. rewrite El.
    destruct (collect _ _) as [fs [x|]]; [discriminate|]. destruct (logged_lines m md all lat' lines e) as [rs1 x] eqn:E1. injection E as <- ->.
    destruct (IH _ _ _ E1) as (rs' & -> & A). eexists. split; [reflexivity|]. apply among_app, among_refl_app. now constructor.
Qed.
End command.
Print Assumptions C83_command.

Section system.
Variable text_file : text -> res text.
Variable binary_file : text -> res bytes.
Variable join : text -> text -> text.
Variable is_absolute : text -> bool.
Variable DEFAULT_RESOURCEDIR : text.
Variable int16 int10 : text -> res Z.
Variable pop : list range -> option (range * list range).
Variable order : list cat -> list cat.
Variable lower : Z -> text.
Variable nfkc : text -> text.
Variable search : bytes -> bytes -> list (Z * nat).
Variable limit : nat.
Variable py_int : text -> res Z.
Variable is_digit : Z -> bool.
Variable trie_array : list (bytes * Z) -> res bytes.
Variable str : Z -> text.
Notation make_dictionary := (make_dictionary text_file binary_file join is_absolute DEFAULT_RESOURCEDIR int16 int10 pop order lower nfkc search limit).
Notation md_settings := (md_settings order lower nfkc search limit).
Notation created := (created order lower nfkc search limit).
Notation built_from := (built_from binary_file join is_absolute search limit py_int is_digit trie_array).
Notation plain_resources := (plain_resources text_file join is_absolute int16).
Notation interpreter := (interpreter pop order lower nfkc).
Notation logged_tokenize := (logged_tokenize order lower nfkc search limit str).
Notation tokenize_lines := (tokenize_lines order lower nfkc search limit str).
Notation logged_lines := (logged_lines order lower nfkc search limit str).

Section one.
Variables (c : conf) (d : text) (m : made) (g0 : grammar) (sys_id : text -> Z -> text -> res Z) (system : dic) (users : list dic).
Hypothesis BF : built_from c d g0 sys_id system users.
Hypothesis MK : make_dictionary c d = Ok m.
Hypothesis IN : interpreter.
Hypothesis PR : plain_resources c d.
Hypothesis CP : furnished text_file join is_absolute int16 int10 py_int c d g0 system users.

Lemma given_bound p pos : In p (md_providers m) -> gives p pos -> pos < Z.of_nat (length (g_pos (ds_grammar (md_set m)))).
Proof.
  intros Hp Hg. destruct (make_inv _ _ _ _ _ _ _ _ _ _ _ _ _ _ _ _ MK) as (sf & ufs & g & ins & oovs & paths & C).
  assert (g = g0).
  { destruct (co_system _ _ _ _ _ _ _ _ _ _ _ _ _ _ _ _ _ _ _ _ _ _ C) as (sp & E1 & E2). destruct (bf_system_file _ _ _ _ _ _ _ _ _ _ _ _ _ _ BF) as (sp' & E1' & E2').
    destruct (co_grammar _ _ _ _ _ _ _ _ _ _ _ _ _ _ _ _ _ _ _ _ _ _ C) as (dict & E3 & E4). destruct (bf_grammar _ _ _ _ _ _ _ _ _ _ _ _ _ _ BF) as (dict' & E3' & E4').
    assert (sp' = sp) by congruence. subst sp'. assert (sf = dc_file system) by congruence. subst sf. assert (dict' = dict) by congruence. subst dict'. congruence. }
  subst g. destruct (co_oovs _ _ _ _ _ _ _ _ _ _ _ _ _ _ _ _ _ _ _ _ _ _ C) as (_ & _ & O2). destruct (in_forall2 _ _ _ _ O2 Hp) as (s & Hs & Es).
  assert (GB : pos < Z.of_nat (length (g_pos g0))).
  { destruct s as [a b|l r k v]; cbn [set_up_oov] in Es.
    - apply bind_ok in Es as (ap & Eap & Es). apply bind_ok in Es as (cf & Ecf & Es). apply bind_ok in Es as (props & Epr & Es). apply bind_ok in Es as (bp & Ebp & Es). apply bind_ok in Es as (uf & Euf & Es).
      apply bind_ok in Es as (mc & Emc & [= <-]). cbn [gives] in Hg. destruct Hg as (ct & os & e & Hos & He & ->).
      unfold mecab_set_up in Emc. apply bind_ok in Emc as (props' & _ & Emc). apply bind_ok in Emc as (oo & Eoo & [= <-]). cbn [mc_oovs] in Hos.
      assert (X : Forall (fun x : cat * oov_entry => oe_pos (snd x) < Z.of_nat (length (g_pos g0))) oo).
      { unfold read_oov in Eoo. clear - Eoo. assert (G : forall ls (acc oo : list (cat * oov_entry)), Forall (fun x => oe_pos (snd x) < Z.of_nat (length (g_pos g0))) acc -> foldM (read_unk_line int10 g0 props') acc ls = Ok oo -> Forall (fun x => oe_pos (snd x) < Z.of_nat (length (g_pos g0))) oo).
        { induction ls as [|l ls IH]; intros acc oo' F E; cbn [foldM] in E; [injection E as <-; exact F|]. apply bind_ok in E as (acc' & E1 & E2). apply (IH acc' oo'); [|exact E2]. clear IH E2.
          unfold read_unk_line in E1. destruct (strip l) as [|z l']; [injection E1 as <-; exact F|]. destruct (length _ <? 10)%nat; [discriminate|]. apply bind_ok in E1 as (ct & _ & E1). destruct (negb _); [discriminate|].
          apply bind_ok in E1 as (a1 & _ & E1). apply bind_ok in E1 as (a2 & _ & E1). apply bind_ok in E1 as (a3 & _ & E1). injection E1 as <-. apply Forall_app. split; [exact F|]. constructor; [|constructor]. cbn [snd oe_pos]. apply P_Accept.pos_id_bound. }
        eapply G; [|exact Eoo]. constructor. }
      unfold oovs_of in Hos. assert (Y : In e (map snd (filter (fun x => cat_eqb (fst x) ct) oo))).
      { destruct (filter _ oo); [discriminate|]. injection Hos as <-. exact He. }
      apply in_map_iff in Y as (x & <- & Hx). apply filter_In in Hx as (Hx & _). rewrite Forall_forall in X. now apply X.
    - injection Es as <-. cbn [gives so_pos] in Hg. subst pos. unfold json_pos_id. destruct v; try lia. destruct (as_strings _); [apply P_Accept.pos_id_bound|lia]. }
  pose proof (bf_contract _ _ _ _ _ _ _ _ _ _ _ _ _ _ BF) as CT. pose proof (bf_system _ _ _ _ _ _ _ _ _ _ _ _ _ _ BF) as SB. pose proof (bf_grammar _ _ _ _ _ _ _ _ _ _ _ _ _ _ BF) as GO. pose proof (bf_users _ _ _ _ _ _ _ _ _ _ _ _ _ _ BF) as UB.
  pose proof (files_loaded _ _ _ _ _ _ _ _ _ _ _ _ _ _ _ _ _ _ _ _ _ _ _ BF MK) as FL.
  assert (L : loaded py_int is_digit search g0 sys_id (length (s_entries (dc_source system))) system users (md_set m)) by (eapply load_ok; eauto). destruct L as [LP].
  rewrite LP, <- (g0_pos _ _ _ _ CT _ _ SB GO), app_length. lia.
Qed.

Lemma described w : (lexical w /\ entry_id system users (w_id w)) \/ (exists p pos, In p (md_providers m) /\ gives p pos /\ made_up w true pos) ->
  (exists s q, dump_name (get_part_of_speech_string (ds_grammar (md_set m))) (cf_lexinfo (created m)) w = Ok (s, q)) /\ exists wi, node_info (cf_lexinfo (created m)) w = Ok wi.
Proof.
  intros [((_ & W2 & W3) & (kk & u & j & e & Hk & Hj & Eid))|(p & pos & Hp & Hg & _ & W3 & wi & W2 & W4 & _)].
  - pose proof (bf_contract _ _ _ _ _ _ _ _ _ _ _ _ _ _ BF) as CT. pose proof (bf_system _ _ _ _ _ _ _ _ _ _ _ _ _ _ BF) as SB. pose proof (bf_grammar _ _ _ _ _ _ _ _ _ _ _ _ _ _ BF) as GO. pose proof (bf_users _ _ _ _ _ _ _ _ _ _ _ _ _ _ BF) as UB.
    pose proof (files_loaded _ _ _ _ _ _ _ _ _ _ _ _ _ _ _ _ _ _ _ _ _ _ _ BF MK) as FL.
    destruct (bf_forms _ _ _ _ _ _ _ _ _ _ _ _ _ _ BF u j (nth_error_In _ _ Hk)) as (n & Hn & CE); [apply nth_error_Some; congruence|].
    destruct (entry_row _ _ _ _ _ _ _ _ _ _ _ _ _ _ BF kk u j e Hk Hj) as (row & tb & tb' & Hr & HP). destruct (C58_accepted _ _ _ _ _ _ HP) as (_ & cs & Fc & _).
    assert (SP : source_pos row (slice cs 5 11)) by (exists cs; auto).
    destruct (C39_part_of_speech _ _ _ _ CT _ _ _ _ _ _ _ _ SB GO eq_refl UB FL kk u j row _ n Hk Hr SP CE Hn) as (wi & Ewi & Pn & Ps).
    assert (NI : node_info (cf_lexinfo (created m)) w = Ok wi).
    { unfold node_info. rewrite W2, W3. cbn [negb]. rewrite Eid. exact Ewi. }
    split; [|eauto]. unfold dump_name. rewrite W3, NI. cbn [negb bind]. destruct (wi_pos wi <? 0); [eauto|]. rewrite Ps. cbn [bind]. eauto.
  - assert (NI : node_info (cf_lexinfo (created m)) w = Ok wi) by (unfold node_info; now rewrite W2, W3).
    split; [|eauto]. unfold dump_name. rewrite W3, NI. cbn [negb bind]. destruct (Z.ltb_spec (wi_pos wi) 0) as [X|X]; [eauto|].
    pose proof (given_bound p pos Hp Hg) as BD. unfold get_part_of_speech_string. destruct (get_lt (g_pos (ds_grammar (md_set m))) (Z.to_nat (wi_pos wi))) as (ps & ->); [lia|]. cbn [bind]. eauto.
Qed.

(** For a Dictionary made from complete files, in every state of a tokenizer, for every text
    and mode: with a logger the analysis ends in the same way - with the same morphemes or the
    same exception - and leaves the same state. *)
Theorem C83_ends_partial lat t md lat' res :
  P_Config.usable (created m) lat -> M_Tokenizer.run (created m) lat t md = (lat', res) ->
  exists rs, logged_tokenize m lat t md = (lat', rs, res).
Proof.
  intros U E. pose proof (settings_good _ _ _ _ _ _ _ _ _ _ _ _ _ _ _ _ _ _ _ _ _ _ _ BF MK IN PR) as G. pose proof (shipped_sane (md_settings m) G) as S. fold (created m) in S.
  assert (SRC : forall it w, t <> [] -> run_prepare (created m) t = Ok it -> considered (cfg := created m) (it := it) w ->
            (lexical w /\ entry_id system users (w_id w)) \/ (exists p pos, In p (md_providers m) /\ gives p pos /\ made_up w true pos)).
  { intros it w Ht Ep Hw. destruct (run_prepare_built (created m) t it S Ht Ep) as (bd & _ & _ & B).
    destruct (considered_source (md_settings m) _ _ _ _ B w Hw) as [(A1 & A2 & _)|A]; [left|right; exact A]. split; [exact A1|].
    destruct (found_entries _ _ _ _ _ _ _ _ _ _ _ _ _ _ _ _ _ _ _ _ _ _ _ BF MK _ _ _ _ A2) as (_ & k & u & i & x & h & X1 & X2 & X3 & _). exists k, u, i, x. auto. }
  unfold M_Debug.logged_tokenize. eapply logged_ends; eauto.
  - intros it w Ht Ep Hw. apply described. eauto.
  - intros it a b Ht Ep Ha Hb. destruct (run_prepare_built (created m) t it S Ht Ep) as (bd & _ & _ & B).
    assert (II : ids_inside (created m)) by (eapply live_ids; eauto). destruct II as (L & R & II).
    assert (LB : L b) by (destruct Hb as [->|(x & Hx & ->)]; [apply (ii_ends _ _ _ II)|apply (considered_ids B _ _ _ II Hx)]).
    assert (RA : R a) by (destruct Ha as [->|(x & Hx & ->)]; [apply (ii_ends _ _ _ II)|apply (considered_ids B _ _ _ II Hx)]).
    pose proof (ii_cells _ _ _ II _ _ LB RA) as X. change (cf_view (created m) b a) with (match get_connect_cost (ds_grammar (md_set m)) a b with Ok c => Some c | Err _ => None end) in X.
    destruct (get_connect_cost (ds_grammar (md_set m)) a b) as [x|]; [eauto|congruence].
  - intros it p w -> Hw. pose proof (words _ _ _ _ _ _ _ _ _ _ _ _ _ _ _ _ _ _ _ _ _ _ _ BF MK IN PR lat t md lat' it p U E) as F. rewrite Forall_forall in F.
    destruct (F w Hw) as [W|(o & pos & (_ & W3 & wi & W2 & _) & _)]; [apply described; now left|]. exists wi. unfold node_info. now rewrite W2, W3.
Qed.

(** So the command ends in the same way with -d as without. *)
Theorem C83_command_partial md all lines : forall lat e rs' x, P_Config.usable (created m) lat ->
  tokenize_lines m md all lat lines e = (rs', x) ->
  exists rs, logged_lines m md all lat lines e = (rs, x) /\ among rs' rs.
Proof.
  induction lines as [|line lines IH]; intros lat e rs' x U E; cbn [M_Debug.logged_lines M_Tokenize.tokenize_lines] in *.
  - injection E as <- <-. exists []. split; [reflexivity|constructor].
  - unfold tokenize_line in E. destruct (M_Tokenizer.run (created m) lat (rstrip line) md) as [lat' res] eqn:ER.
    destruct (C83_ends_partial _ _ _ _ _ U ER) as (ds & ->). destruct res as [r|y].
    + destruct (collect _ _) as [fs [y|]].
      * injection E as <- <-. eexists. split; [reflexivity|]. apply among_app, among_same.
      * destruct (tokenize_lines m md all lat' lines e) as [rs1 y] eqn:E1. injection E as <- <-.
        destruct (IH lat' e rs1 y) as (rs2 & -> & A); [eapply us_success; [exact U|exact ER]|exact E1|].
        eexists. split; [reflexivity|]. apply among_app, among_refl_app. now constructor.
    + injection E as <- <-. eexists. split; [reflexivity|apply among_nil].
Qed.
End one.
End system.
Print Assumptions C83_ends_partial.
Print Assumptions C83_command_partial.

(** ** The hypotheses are met: the Dictionary of Prop_System; its debug output of 都 with a
    digit for each number (the end, the two homographs, the beginning) *)
Definition toy_logged := logged_tokenize (fun l => l) (fun x => [x]) (fun t => t) toy_search 10 (fun z => [48 + z]) toy_made.
Example C83_nonvacuous t md lat' res :
  M_Tokenizer.run toy_created new_lattice t md = (lat', res) -> exists rs, toy_logged new_lattice t md = (lat', rs, res).
Proof.
  pose proof toy_is_made as MK. unfold toy_make in MK.
  exact (C83_ends_partial _ _ _ _ _ _ _ _ _ _ _ _ _ _ _ _ _ _ _ _ _ _ _ _ toy_built_from MK toy_interpreter toy_plain toy_complete new_lattice t md lat' res (us_new _)).
Qed.
(** and the records for 京都 (numbers are shown as one character each, so 268435456 as the
    character 268435504) *)
Example C83_records_nonvacuous :
  sane toy_created /\
  let '(_, rs, r) := toy_logged new_lattice [20140; 37117] ModeA in
  (exists it p, r = Ok (Some (it, p))) /\
  rs = [ txt "=== Inupt dump:"; [20140; 37117]; txt "=== Lattice dump:";
         txt "1: 6 6 (null)(0) BOS/EOS 0 0 0: 0";
         txt "2: 3 6 " ++ [37117] ++ txt "(" ++ [268435504] ++ txt ") " ++ [22320] ++ txt ",c,*,*,*,* 1 1 9: 7";
         txt "3: 0 3 " ++ [20140] ++ txt "(1) " ++ [21205] ++ txt ",b,*,*,*,* 1 1 +: ,";
         txt "4: 0 0 (null)(0) BOS/EOS 0 0 0: 5";
         txt "=== Before Rewriting:"; txt "0: 0 3 " ++ [20140] ++ txt "(1) 1 1 +" ++ [0xFFFF]; txt "1: 3 6 " ++ [37117] ++ txt "(" ++ [268435504] ++ txt ") 1 1 9" ++ [0xFFFF];
         txt "=== After Rewriting:"; txt "0: 0 3 " ++ [20140] ++ txt "(1) 1 1 +" ++ [0xFFFF]; txt "1: 3 6 " ++ [37117] ++ txt "(" ++ [268435504] ++ txt ") 1 1 9" ++ [0xFFFF];
         txt "===" ].
Proof.
  split.
  - pose proof toy_is_made as MK. unfold toy_make in MK. exact (shipped_sane _ (settings_good _ _ _ _ _ _ _ _ _ _ _ _ _ _ _ _ _ _ _ _ _ _ _ toy_built_from MK toy_interpreter toy_plain)).
  - vm_compute. split; [eauto|reflexivity].
Qed.

(** ** What does not hold *)
(** With an entry of unk.def whose left id the matrix does not have, texts are analysed; but
    with a logger the analysis of 東京AB raises IndexError, and afterwards the tokenizer finds
    東 and 京 in ABCDEF. *)
Definition off_conf : conf := map (fun kv => if teqb (fst kv) (txt "oovProviderPlugin") then (fst kv, match snd kv with JList l => JList (rev l) | v => v end) else kv) toy_conf.
Definition off_unk_def : text := txt "ALPHA,9,1,50," ++ [21205] ++ txt ",b,*,*,*,*" ++ lf.
Definition off_text_file (p : text) : res text := t <- toy_text_file p ;; if teqb t toy_unk_def then Ok off_unk_def else Ok t.
Definition off_make := make_dictionary off_text_file toy_binary_file toy_join toy_absolute (txt "/default") sample_int16 sample_int10 pop_first (fun l => l) (fun x => [x]) (fun t => t) toy_search 10.
Definition off_made : made := match off_make off_conf toy_dir with Ok m => m | Err _ => Made toy_set [] [] [] [] end.
Definition off_run := M_Tokenizer.run (created (fun l => l) (fun x => [x]) (fun t => t) toy_search 10 off_made).
Definition off_logged := logged_tokenize (fun l => l) (fun x => [x]) (fun t => t) toy_search 10 (fun z => [48 + z]) off_made.
Definition off_answer (r : res (option (input_text * list wnode))) : res (list (nat * nat * Z * bool)) :=
  r <- r ;; Ok (match r with Some (_, p) => map (fun w => (w_begin w, w_end w, w_id w, w_oov w)) p | None => [] end).
Theorem C83_outside_refuted :
  off_make off_conf toy_dir = Ok off_made /\
  (exists r, off_answer (snd (off_run new_lattice ([26481; 20140] ++ txt "AB") ModeC)) = Ok r) /\
  exists lat' rs, off_logged new_lattice ([26481; 20140] ++ txt "AB") ModeC = (lat', rs, Err EIndex) /\
    off_answer (snd (off_run lat' (txt "ABCDEF") ModeC)) = Ok [(0%nat, 3%nat, 2 * 2 ^ 28, false); (3%nat, 6%nat, 1, false)] /\
    off_answer (snd (off_run new_lattice (txt "ABCDEF") ModeC)) = Ok [(0%nat, 6%nat, 0, true)].
Proof.
  split. { unfold off_made. destruct (off_make off_conf toy_dir) eqn:E; [reflexivity|]. assert (X : match off_make off_conf toy_dir with Ok _ => true | Err _ => false end = true) by (vm_compute; reflexivity). rewrite E in X. discriminate X. }
  split; [eexists; vm_compute; reflexivity|].
  eexists _, _. split; [vm_compute; reflexivity|]. split; vm_compute; reflexivity.
Qed.
Print Assumptions C83_outside_refuted.
