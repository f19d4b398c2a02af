(** C71: a Dictionary made from files analyses every text. *)
From Coq Require Import String Ascii List ZArith Lia Bool Arith Sorting.Sorted Sorting.Permutation.
From Verif Require Import Base Utf8 M_Builder M_CharCategory M_InputText M_InputPlugins M_Lattice M_Oov M_Tokenizer M_NumericParser M_PathRewrite M_Morphemes
  M_Shipped M_Bytes M_DicReader M_DicBuilder M_LexiconSet M_Front M_Resource M_Setup S_Text S_Plugins S_Lattice S_Resource
  P_Builder P_InputText P_Accessors P_Lattice P_Tokenizer P_Path P_Config P_Total P_CharCategory P_Bytes P_DicFormat P_DicWrite P_DicOpen P_DicGrammar P_DicSource P_DicLexicon P_DicFile Prop_Format P_LexiconSet P_Resource
  Prop_Text Prop_Lattice Prop_Tokenizer Prop_Total Prop_CharCategory Prop_Source Prop_Lexicon Prop_Resource Prop_Shipped P_Words P_Setup P_System Prop_System P_DicToy P_Live.
Import ListNotations.
Open Scope list_scope.
Open Scope Z_scope.

Lemma split_not_empty lexinfo md p q : p <> [] -> split_path lexinfo md p = Ok q -> (0 < length q)%nat.
Proof.
  assert (S1 : forall w ns, split_one lexinfo md w = Ok ns -> ns <> []).
  { intros w ns H. unfold split_one in H. apply bind_ok in H as (wi & _ & H). destruct (_ <=? 1)%nat eqn:E; [injection H as <-; discriminate|].
    destruct (match md with ModeA => wi_a wi | _ => wi_b wi end) as [|x l]; [discriminate E|]. cbn [split_nodes] in H. apply bind_ok in H as (n & _ & H). apply bind_ok in H as (wi' & _ & H). apply bind_ok in H as (r & _ & H). injection H as <-. discriminate. }
  intros N H. destruct p as [|w p]; [congruence|]. destruct md; cbn [split_path] in H; [| |injection H as <-; cbn; lia];
    (apply bind_ok in H as (nss & H & [= <-]); cbn [mapM] in H; apply bind_ok in H as (ns & H1 & H); apply bind_ok in H as (nss' & _ & [= <-]); cbn [concat]; rewrite app_length; specialize (S1 _ _ H1); destruct ns; [congruence|cbn [length]; lia]).
Qed.

Section system.
Variable text_file : text -> res text.
Variable binary_file : text -> res bytes.
Variable join : text -> text -> text.
Variable is_absolute : text -> bool.
Variable DEFAULT_RESOURCEDIR : text.
Variable int16 int10 : text -> res Z.
Variable pop : list range -> option (range * list range).
Variable order : list cat -> list cat.
Variable lower : Z -> text.
Variable nfkc : text -> text.
Variable search : bytes -> bytes -> list (Z * nat).
Variable limit : nat.
Variable py_int : text -> res Z.
Variable is_digit : Z -> bool.
Variable trie_array : list (bytes * Z) -> res bytes.
Notation make_dictionary := (make_dictionary text_file binary_file join is_absolute DEFAULT_RESOURCEDIR int16 int10 pop order lower nfkc search limit).
Notation located := (located join is_absolute).
Notation md_settings := (md_settings order lower nfkc search limit).
Notation created := (created order lower nfkc search limit).
Notation built_from := (built_from binary_file join is_absolute search limit py_int is_digit trie_array).
Notation plain_resources := (plain_resources text_file join is_absolute int16).
Notation interpreter := (interpreter pop order lower nfkc).


Section one.
Variables (c : conf) (d : text) (m : made) (g0 : grammar) (sys_id : text -> Z -> text -> res Z) (system : dic) (users : list dic).
Hypothesis BF : built_from c d g0 sys_id system users.
Hypothesis MK : make_dictionary c d = Ok m.
Hypothesis IN : interpreter.
Hypothesis PR : plain_resources c d.
Hypothesis FS : file_system text_file binary_file.
Hypothesis SI : scalar_interpreter lower nfkc.
Hypothesis CP : furnished text_file join is_absolute int16 int10 py_int c d g0 system users.

(** ** C71 *)
(** What a morpheme list answers *)
Definition responds (md : mode) (r : option (input_text * list wnode)) : Prop :=
  let l := morphemes_of r in
  (0 < ml_len l)%nat /\
  forall i, (i < ml_len l)%nat ->
    (exists wi, ml_word_info (s_lexinfo (md_settings m)) l i = Ok wi) /\
    (exists o, ml_is_oov l i = Ok o) /\
    (md = ModeC -> exists s, ml_surface l i = Ok s) /\
    ((forall b v, given_pos text_file join int10 c d b v -> known system v) ->
     exists pos, M_Setup.ml_part_of_speech order lower nfkc search limit m l i = Ok pos).

(** If a text has an analysis in mode C it has one in every mode, and every morpheme answers. *)
Lemma live_answers lat t md it latc path : P_Config.usable (created m) lat -> t <> [] -> M_Tokenizer.run (created m) lat t ModeC = (latc, Ok (Some (it, path))) ->
  exists lat' r, M_Tokenizer.run (created m) lat t md = (lat', Ok r) /\ P_Config.usable (created m) lat' /\ responds md r.
Proof.
  intros U Ht EC. pose proof (settings_good _ _ _ _ _ _ _ _ _ _ _ _ _ _ _ _ _ _ _ _ _ _ _ BF MK IN PR) as G.
    destruct (run_inv _ _ _ _ _ _ EC) as [(E & _)|(it' & lat1 & p0 & p1 & p2 & _ & Ep' & Ea & Ef & El & Es & X)]; [congruence|]. injection X as <- ->. injection Es as <-.
    assert (KW : forall md lat' it p, M_Tokenizer.run (created m) lat t md = (lat', Ok (Some (it, p))) -> Forall (fun w => (lexical w /\ entry_id system users (w_id w)) \/ exists o pos, made_up w o pos) p).
    { intros md' lat' it' p E. pose proof (words _ _ _ _ _ _ _ _ _ _ _ _ _ _ _ _ _ _ _ _ _ _ _ BF MK IN PR lat t md' lat' it' p U E) as F.
      eapply Forall_impl; [|exact F]. intros w [W|(o & pos & W & _)]; [now left|right; eauto]. }
    pose proof (live_words _ _ _ _ _ _ _ _ _ _ _ _ _ _ _ _ _ _ _ _ _ _ _ BF MK CP) as LW.
    destruct (split_total (md_settings m) (entry_id system users) md p1) as (q & Eq); [|exact (KW _ _ _ _ EC)|].
    { intros wid Hw. destruct (LW wid Hw) as (R & _ & X). auto. }
    assert (ER : M_Tokenizer.run (created m) lat t md = (latc, Ok (Some (it, q)))).
    { destruct t as [|c0 t0]; [congruence|]. unfold M_Tokenizer.run, tokenize. fold (run_prepare (created m)). change (prepare _ _ (c0 :: t0)) with (run_prepare (created m) (c0 :: t0)). rewrite Ep'.
      change (analyse _ _ _ _ _ lat it) with (run_analyse (created m) lat it). rewrite Ea, Ef, El. change (cf_lexinfo (created m)) with (s_lexinfo (md_settings m)). now rewrite Eq. }
    exists latc, (Some (it, q)). split; [exact ER|]. unfold responds. cbn zeta.
    split; [eapply us_success; [exact U|exact ER]|].
    pose proof (KW _ _ _ _ ER) as FQ. cbn [morphemes_of]. unfold ml_len. cbn [ml_path].
    assert (NE : (0 < length q)%nat).
    { destruct (C23_shipped (md_settings m) lat t latc _ G U EC) as (X & _). cbn [morphemes_of] in X.
      assert (N1 : p1 <> []) by (intros ->; cbn in X; injection X as <-; congruence). eapply split_not_empty; eauto. }
    split; [exact NE|]. intros i Hi. apply nth_error_Some in Hi. destruct (nth_error q i) as [w|] eqn:Ew; [|congruence]. clear Hi.
    assert (Gw : get q i = Ok w) by now apply get_ok.
    assert (Hw : (lexical w /\ entry_id system users (w_id w)) \/ exists o pos, made_up w o pos) by (rewrite Forall_forall in FQ; eapply FQ, nth_error_In; eauto).
    split; [|split; [|split]].
    + unfold ml_word_info. cbn [ml_path]. rewrite Gw. cbn [bind]. unfold node_info.
      destruct Hw as [((_ & X & D1) & D2)|(o & pos & _ & D1 & wi & X & _)]; rewrite D1, X; cbn [negb]; [|eauto]. destruct (LW _ D2) as (_ & _ & wi & E & _). eauto.
    + unfold ml_is_oov. cbn [ml_path]. rewrite Gw. cbn [bind]. eauto.
    + intros ->. destruct (C23_shipped (md_settings m) lat t latc _ G U ER) as (_ & X). destruct (X i) as (b & e & _ & _ & _ & Y & _); [cbn [morphemes_of]; unfold ml_len; cbn [ml_path]; apply nth_error_Some; congruence|eauto].
    + intros KN.
      destruct (Z.eq_dec (node_dictionary_id w) (-1)) as [E1|E1].
      * destruct (C70_part_of_speech_partial _ _ _ _ _ _ _ _ _ _ _ _ _ _ _ _ _ _ _ _ _ _ _ BF MK IN PR KN lat t md latc _ i U ER) as (o & pos & _ & X & _); [|eauto].
        cbn [morphemes_of]. unfold ml_dictionary_id. cbn [ml_path]. rewrite Gw. cbn [bind]. now rewrite E1.
      * destruct (C69_dictionary_words _ _ _ _ _ _ _ _ _ _ _ _ _ _ _ _ _ _ _ _ _ _ _ BF MK IN PR lat t md latc _ i (node_dictionary_id w) U ER) as (u & j & row & cs & wi & _ & _ & _ & _ & _ & _ & X & _); [|exact E1|eauto].
        cbn [morphemes_of]. unfold ml_dictionary_id. cbn [ml_path]. rewrite Gw. reflexivity.
Qed.

(** Once a Dictionary is made from dictionary files that the builder wrote and resource files
    that are complete but for inhibited connections, its tokenizers analyse a text (up to 32766
    bytes once normalised), in every mode, after whatever they have analysed before, exactly
    when there are words that make up the text and none may not follow the one before; and
    every morpheme answers.  If there are none the AttributeError is raised that says so. *)
Theorem C71_inhibited_partial lat t md :
  P_Config.usable (created m) lat -> scalar_text t -> t <> [] ->
  exists it, run_prepare (created m) t = Ok it /\
    (Z.of_nat (length (it_bytes it)) <= 32766 ->
     ((exists q, tiles 0 (map to_step q) (length (it_bytes it)) /\ Forall (considered (cfg := created m) (it := it)) q /\ allowed (cf_conn (created m)) 0x7fff 0 (map to_step q) 0) ->
      exists lat' r, M_Tokenizer.run (created m) lat t md = (lat', Ok r) /\ P_Config.usable (created m) lat' /\ responds md r) /\
     ((forall q, tiles 0 (map to_step q) (length (it_bytes it)) -> Forall (considered (cfg := created m) (it := it)) q -> ~ allowed (cf_conn (created m)) 0x7fff 0 (map to_step q) 0) ->
      exists lat', M_Tokenizer.run (created m) lat t md = (lat', Err EAttribute))).
Proof.
  intros U Hs Ht. pose proof (settings_good _ _ _ _ _ _ _ _ _ _ _ _ _ _ _ _ _ _ _ _ _ _ _ BF MK IN PR) as G. pose proof (shipped_sane _ G : sane (created m)) as S.
  destruct (shipped_prepare (md_settings m) t G ltac:(eapply live_scalar; eauto) Hs) as (bd & it & He & Hbs & Eb & Ep). change (shipped (md_settings m)) with (created m) in Ep.
  exists it. split; [exact Ep|]. intros Hn. destruct (run_prepare_built (created m) t it S Ht Ep) as (bd' & _ & _ & B).
  assert (A : alphabetic_ok (created m)) by (eapply live_alphabetic; eauto). assert (LL : exists firsts sc, cf_providers (created m) = firsts ++ [Simple sc]) by (eapply live_last; eauto). destruct LL as (firsts & sc & Hlast).
  assert (Hcands : forall k, (k < length (b_mod bd'))%nat -> snd (run_candidates (created m) it (char_start (b_mod bd') k)) = None).
  { intros k Hk. apply (candidates_good S B (ao_single _ A) (ao_grouped _ A)
      (fun i => live_lookup _ _ _ _ _ _ _ _ _ _ _ _ _ _ _ _ _ _ _ _ _ _ _ BF MK _ i) (fun i wid e => live_found _ _ _ _ _ _ _ _ _ _ _ _ _ _ _ _ _ _ _ _ _ _ _ BF MK CP _ i wid e) sc firsts Hlast k Hk). }
  destruct (run_analyse (created m) lat it) as [lat1 r] eqn:Ea.
  destruct (C16_fails_iff_no_analysis (created m) lat t it lat1 r S ltac:(eapply live_costs; eauto) ltac:(eapply live_ids; eauto) U Ht Ep Hn) as (HF & HO); [|exact Ea|].
  { intros i q _ _ Hb. apply (bow_start B) in Hb as (k & Hk & ->). auto. }
  split.
  - intros (q & Tq & Fq & Aq). destruct (proj2 HO) as (p & ->); [exists q; split; [exact Tq|split; [exact Fq|exact Aq]]|].
    destruct (analyse_path S B lat lat1 p (usable_clean _ _ S U) Ea) as (T & F & _). destruct (analyse_lists S B lat lat1 _ (usable_clean _ _ S U) Ea) as (LE & LW).
    destruct (rewrites_succeed (md_settings m) G B lat1 p) as (p' & Ep'); auto; [eapply live_infos; eauto|eapply live_digits; eauto|eapply live_first; eauto|exists (s_category (md_settings m)), t, bd; split; [apply (gs_category _ G)|]; auto|].
    destruct (analyse_shape S B lat lat1 (Ok p) (usable_clean _ _ S U) Ea) as (Hsh & Hz). destruct (clear_clean bos_parameter (length (it_bytes it)) lat1 Hsh Hz) as (lat2 & Ec & _).
    apply (live_answers lat t md it lat2 p' U Ht). unfold M_Tokenizer.run, tokenize. destruct t as [|c1 t0]; [congruence|].
    change (prepare _ _ _) with (run_prepare (created m) (c1 :: t0)). rewrite Ep. change (analyse _ _ _ _ _ lat it) with (run_analyse (created m) lat it). rewrite Ea.
    change (cf_rewrites (created m)) with (cf_rewrites (shipped (md_settings m))). rewrite Ep', Ec. reflexivity.
  - intros N. assert (r = Err EAttribute) as -> by (apply (proj2 HF); intros q (Q1 & Q2 & Q3); exact (N q Q1 Q2 Q3)). exists lat1.
    unfold M_Tokenizer.run, tokenize. destruct t as [|c1 t0]; [congruence|]. change (prepare _ _ _) with (run_prepare (created m) (c1 :: t0)). rewrite Ep. change (analyse _ _ _ _ _ lat it) with (run_analyse (created m) lat it). rewrite Ea. reflexivity.
Qed.
End one.

Section all.
Variables (c : conf) (d : text) (m : made) (g0 : grammar) (sys_id : text -> Z -> text -> res Z) (system : dic) (users : list dic).
Hypothesis BF : built_from c d g0 sys_id system users.
Hypothesis MK : make_dictionary c d = Ok m.
Hypothesis IN : interpreter.
Hypothesis PR : plain_resources c d.
Hypothesis FS : file_system text_file binary_file.
Hypothesis SI : scalar_interpreter lower nfkc.
Hypothesis CP : complete text_file join is_absolute int16 int10 py_int c d g0 system users.

(** If no connection is inhibited every text is analysed. *)
Theorem C71_analyses_partial lat t md :
  P_Config.usable (created m) lat -> scalar_text t -> t <> [] ->
  exists it, run_prepare (created m) t = Ok it /\
    (Z.of_nat (length (it_bytes it)) <= 32766 ->
     exists lat' r, M_Tokenizer.run (created m) lat t md = (lat', Ok r) /\
       let l := morphemes_of r in
       P_Config.usable (created m) lat' /\ (0 < ml_len l)%nat /\
       forall i, (i < ml_len l)%nat ->
         (exists wi, ml_word_info (s_lexinfo (md_settings m)) l i = Ok wi) /\
         (exists o, ml_is_oov l i = Ok o) /\
         (md = ModeC -> exists s, ml_surface l i = Ok s) /\
         ((forall b v, given_pos text_file join int10 c d b v -> known system v) ->
          exists pos, M_Setup.ml_part_of_speech order lower nfkc search limit m l i = Ok pos)).
Proof.
  intros U Hs Ht. pose proof (settings_good _ _ _ _ _ _ _ _ _ _ _ _ _ _ _ _ _ _ _ _ _ _ _ BF MK IN PR) as G.
  destruct (C21_shipped_partial (md_settings m) lat t G) as (it & Ep & H); auto.
  - eapply live_scalar; eauto.
  - eapply live_infos; eauto.
  - eapply live_digits; eauto.
  - eapply live_first; eauto.
  - eapply live_costs; eauto.
  - eapply live_open; [eauto|eauto|eauto|exact (cp_matrix _ _ _ _ _ _ _ _ _ _ _ CP)].
  - eapply live_alphabetic; eauto.
  - exists it. split; [exact Ep|]. intros Hn. destruct (H Hn) as (latc & path & EC). change (shipped (md_settings m)) with (created m) in EC.
    destruct (live_answers c d m g0 sys_id system users BF MK IN PR CP lat t md it latc path U Ht EC) as (lat' & r & ER & U' & AN). exists lat', r. split; [exact ER|]. cbn zeta. split; [exact U'|exact AN].
Qed.
End all.
End system.
Print Assumptions C71_inhibited_partial.
Print Assumptions C71_analyses_partial.

(** ** The hypotheses are met by the Dictionary of Prop_System. *)
Lemma toy_files : file_system toy_text_file toy_binary_file.
Proof.
  assert (B : forallb (fun f => forallb (fun b => (0 <=? b) && (b <? 256)) f) (map dc_file (toy_system :: toy_users)) = true) by (vm_compute; reflexivity).
  assert (B' : forall f, In f (map dc_file (toy_system :: toy_users)) -> Forall (fun b => 0 <= b < 256) f).
  { intros f Hf. rewrite forallb_forall in B. specialize (B f Hf). rewrite forallb_forall in B. apply Forall_forall. intros b Hb. specialize (B b Hb). apply andb_true_iff in B as (X & Y). apply Z.leb_le in X. apply Z.ltb_lt in Y. lia. }
  constructor.
  - intros p f H. unfold toy_text_file in H. assert (S : forallb is_scalar toy_char_def && forallb is_scalar toy_unk_def = true) by (vm_compute; reflexivity). apply andb_true_iff in S as (S1 & S2).
    destruct (teqb p _); [injection H as <-; now apply Forall_forall, forallb_forall|]. destruct (teqb p _); [injection H as <-; now apply Forall_forall, forallb_forall|discriminate].
  - intros p f H. unfold toy_binary_file in H. apply B'.
    assert (I0 : In (dc_file toy_system) (map dc_file (toy_system :: toy_users))) by exact (or_introl eq_refl).
    assert (I1 : forall n, (n < 2)%nat -> In (dc_file (nth n toy_users toy_system)) (map dc_file (toy_system :: toy_users))) by (intros n Hn; apply in_map, in_cons, nth_In; exact Hn).
    pose proof (I1 0%nat ltac:(lia)) as I2. pose proof (I1 1%nat ltac:(lia)) as I3. clear B B' I1.
    revert H I0 I2 I3. generalize (dc_file toy_system) (dc_file (nth 0 toy_users toy_system)) (dc_file (nth 1 toy_users toy_system)) (map dc_file (toy_system :: toy_users)).
    intros f0 f1 f2 fs H I0 I2 I3. destruct (teqb p _); [injection H as <-; exact I0|]. destruct (teqb p _); [injection H as <-; exact I2|]. destruct (teqb p _); [injection H as <-; exact I3|discriminate].
Qed.
Lemma toy_scalar : scalar_interpreter (fun x => [x]) (fun t => t).
Proof. constructor; [intros c H; constructor; [exact H|constructor]|auto]. Qed.

Lemma toy_ranges rs : char_def_ranges toy_text_file toy_join toy_absolute sample_int16 toy_conf toy_dir rs ->
  forall ch x, category_in rs ch x -> (x = ALPHA /\ 65 <= ch <= 90) \/ (x = KANJI /\ 0x4E00 <= ch <= 0x9FA5) \/ (x = KATAKANA /\ 0x30A1 <= ch <= 0x30FA).
Proof.
  intros (p & f & ls & E1 & E2 & F & D) ch x (low & high & cs & Hin & Hr & Hx). vm_compute in E1. injection E1 as <-.
  change (toy_text_file _) with (@Ok text toy_char_def) in E2. injection E2 as <-.
  pose proof (char_ranges_ok sample_int16 _ _ (file_lines_spec _ _ F) _ D) as C.
  assert (V : char_ranges sample_int16 (file_lines toy_char_def) = Ok [Range 65 91 [ALPHA]; Range 19968 40870 [KANJI]; Range 12449 12539 [KATAKANA]]) by (vm_compute; reflexivity).
  rewrite V in C. injection C as C. apply (in_map range_of) in Hin. rewrite <- C in Hin. cbn [range_of In] in Hin.
  destruct Hin as [H|[H|[H|[]]]]; injection H as <- H2 <-; destruct Hx as [<-|[]]; [left|right; left|right; right]; (split; [reflexivity|lia]).
Qed.

Lemma toy_ids : source_ids toy_text_file toy_join sample_int10 toy_int toy_conf toy_dir toy_system toy_users (g_lsize toy_grammar) (g_rsize toy_grammar).
Proof.
  assert (E1 : g_lsize toy_grammar = 2) by (vm_compute; reflexivity). assert (E2 : g_rsize toy_grammar = 2) by (vm_compute; reflexivity). rewrite E1, E2. clear E1 E2.
  split.
  - intros u row cs l r Hu Hr Fc N1 El Er.
    assert (V : forallb (fun u => forallb (fun row => match mapM unescape row with
        | Ok cs => match toy_int (nth 1 cs []), toy_int (nth 2 cs []) with Ok l, Ok r => (0 <=? l) && (l <? 2) && (0 <=? r) && (r <? 2) | _, _ => false end
        | Err _ => false end) (dc_rows u)) (toy_system :: toy_users) = true) by (vm_compute; reflexivity).
    rewrite forallb_forall in V. specialize (V u Hu). rewrite forallb_forall in V. specialize (V row Hr).
    destruct (mapM unescape row) as [cs'|] eqn:E; [|discriminate]. apply mapM_Forall2 in E. apply (columns_eq _ _ _ Fc) in E as ->. rewrite El, Er in V. Zbool. lia.
  - intros l r k [(o & a & b & e & (objs & E1 & H1 & C1) & A & B & _ & IA & IB & _)|(o & p & f & ls & us & u & (objs & E1 & H1 & C1) & E & Ef & F & U & Hu & -> & -> & _)]; vm_compute in E1; injection E1 as <-; cbn [In] in H1.
    + destruct H1 as [[= <-]|[[= <-]|[]]]; [vm_compute in C1; discriminate|]. vm_compute in A, B. injection A as <-. injection B as <-.
      destruct IA as [IA|[(IA & _)|(IA & _)]]; try discriminate IA. injection IA as <-. destruct IB as [IB|[(IB & _)|(IB & _)]]; try discriminate IB. injection IB as <-. lia.
    + destruct H1 as [[= <-]|[[= <-]|[]]]; [|vm_compute in C1; discriminate]. vm_compute in E. injection E as <-.
      change (toy_text_file _) with (@Ok text toy_unk_def) in Ef. injection Ef as <-. destruct U as (os & HU & ->).
      pose (props := map (fun c => (c, CatInfo true true 0)) [DEFAULT; SPACE; KANJI; SYMBOL; NUMERIC; ALPHA; HIRAGANA; KATAKANA; KANJINUMERIC; GREEK; CYRILLIC; USER1; USER2; USER3; USER4; NOOOVBOW]).
      pose proof (unknowns_read sample_int10 (Grammar [] 0 0 [] 0) props _ _ (file_lines_spec _ _ F) os [] HU) as R. cbn zeta in R. set (us := concat _) in *.
      assert (RR : foldM (read_unk_line sample_int10 (Grammar [] 0 0 [] 0) props) [] (file_lines toy_unk_def) = Ok [(ALPHA, OovEntry 1 1 50 (-1))]) by (vm_compute; reflexivity).
      rewrite RR in R. cbn [app] in R. specialize (R ltac:(apply Forall_forall; intros x _; destruct x as [[]]; cbn; tauto)). injection R as R.
      apply (in_map (entry_of (Grammar [] 0 0 [] 0))) in Hu. rewrite <- R in Hu. destruct Hu as [Hu|[]]. unfold entry_of in Hu. injection Hu as _ Hl Hr _. rewrite <- Hl, <- Hr. lia.
Qed.
Lemma toy_furnished : furnished toy_text_file toy_join toy_absolute sample_int16 sample_int10 toy_int toy_conf toy_dir toy_grammar toy_system toy_users.
Proof.
  constructor.
  - eexists [_], _. split; [vm_compute; reflexivity|vm_compute; reflexivity].
  - intros o v (objs & E1 & H1 & C1) E. vm_compute in E1. injection E1 as <-. destruct H1 as [H1|[H1|[]]]; injection H1 as <-; vm_compute in C1, E; try discriminate. injection E as <-. lia.
  - intros o p f ls us u (objs & E1 & H1 & C1) E Ef F U Hu. vm_compute in E1. injection E1 as <-. destruct H1 as [H1|[H1|[]]]; injection H1 as <-; [|vm_compute in C1; discriminate]. vm_compute in E. injection E as <-.
    change (toy_text_file _) with (@Ok text toy_unk_def) in Ef. injection Ef as <-. destruct U as (os & HU & ->).
    pose (props := map (fun c => (c, CatInfo true true 0)) [DEFAULT; SPACE; KANJI; SYMBOL; NUMERIC; ALPHA; HIRAGANA; KATAKANA; KANJINUMERIC; GREEK; CYRILLIC; USER1; USER2; USER3; USER4; NOOOVBOW]).
    pose proof (unknowns_read sample_int10 (Grammar [] 0 0 [] 0) props _ _ (file_lines_spec _ _ F) os [] HU) as R. cbn zeta in R. set (us := concat _) in *.
    assert (RR : foldM (read_unk_line sample_int10 (Grammar [] 0 0 [] 0) props) [] (file_lines toy_unk_def) = Ok [(ALPHA, OovEntry 1 1 50 (-1))]) by (vm_compute; reflexivity).
    rewrite RR in R. cbn [app] in R. specialize (R ltac:(apply Forall_forall; intros x _; destruct x as [[]]; cbn; tauto)). injection R as R.
    apply (in_map (entry_of (Grammar [] 0 0 [] 0))) in Hu. rewrite <- R in Hu. destruct Hu as [Hu|[]]. unfold entry_of in Hu. injection Hu as _ _ _ Hc. rewrite <- Hc. lia.
  - intros o p f ls ps q (objs & E1 & H1 & C1) E Ef F P Hq Hc. vm_compute in E1. injection E1 as <-. destruct H1 as [H1|[H1|[]]]; injection H1 as <-; [|vm_compute in C1; discriminate]. vm_compute in E. injection E as <-.
    change (toy_text_file _) with (@Ok text toy_char_def) in Ef. injection Ef as <-. destruct P as (os & HU & -> & ND).
    pose proof (properties_read sample_int10 _ _ (file_lines_spec _ _ F) os [] HU ND) as R. set (ps := concat _) in *.
    assert (RR : foldM (read_property_line sample_int10) [] (file_lines toy_char_def) = Ok [(DEFAULT, CatInfo false true 0); (ALPHA, CatInfo true true 0)]) by (vm_compute; reflexivity).
    rewrite RR in R. cbn [app] in R. injection R as R. apply (in_map info_of) in Hq. rewrite <- R in Hq. destruct Hq as [Hq|[Hq|[]]]; unfold info_of in Hq; injection Hq as A1 A2 A3 A4; congruence.
  - intros rs ch a x CR Ha X Y. apply (toy_ranges rs CR) in X, Y. destruct X as [(-> & X)|[(-> & X)|(-> & X)]]; destruct Y as [(-> & Y)|[(-> & Y)|(-> & Y)]]; try reflexivity; lia.
  - intros rs ch x CR Hx X. apply (toy_ranges rs CR) in X. lia.
  - intros rs u row cs x CR Hx Hu Hr Fc Hf ch Hch.
    assert (N : nth 0 cs [] = []). { destruct (nth 0 cs []) as [|a l]; [reflexivity|]. inversion Hf as [|? ? X _]; subst. apply (toy_ranges rs CR) in X. destruct Hx as [<-|[<-|[]]]; destruct X as [(X & _)|[(X & _)|(X & _)]]; discriminate X. }
    exfalso. assert (V : forallb (fun u => forallb (fun row => match unescape (nth 0 row []) with Ok (_ :: _) => true | _ => false end) (dc_rows u)) (toy_system :: toy_users) = true) by (vm_compute; reflexivity).
    rewrite forallb_forall in V. specialize (V u Hu). rewrite forallb_forall in V. specialize (V row Hr). destruct Fc as [|a b row' cs' E Fc]; [discriminate V|]. cbn [nth] in V, N. rewrite E, N in V. discriminate V.
  - intros objs o E H. vm_compute in E. injection E as <-. destruct H.
  - vm_compute. auto.
  - exact toy_ids.
  - vm_compute. lia.
  - intros o t (objs & E & _). vm_compute in E. discriminate E.
Qed.
Lemma toy_complete : complete toy_text_file toy_join toy_absolute sample_int16 sample_int10 toy_int toy_conf toy_dir toy_grammar toy_system toy_users.
Proof.
  split; [exact toy_furnished|].
  intros l r H. unfold get_connect_cost in H.
    assert (V : forallb (fun x => negb (x =? 0x7fff)) (g_matrix toy_grammar) = true) by (vm_compute; reflexivity). revert H V. generalize toy_grammar. intros g H V.
    destruct (_ =? 0); [discriminate|]. destruct (view_index _ _); [|discriminate]. destruct (view_index _ _); [|discriminate]. apply get_ok, nth_error_In in H. rewrite forallb_forall in V. apply V in H. discriminate H.
Qed.

(** So the toy Dictionary analyses every short text. *)
Example C71_nonvacuous lat t md :
  P_Config.usable toy_created lat -> scalar_text t -> t <> [] ->
  exists it, run_prepare toy_created t = Ok it /\ (Z.of_nat (length (it_bytes it)) <= 32766 -> exists lat' r, M_Tokenizer.run toy_created lat t md = (lat', Ok r)).
Proof.
  intros U S N. pose proof toy_is_made as MK. unfold toy_make in MK. unfold toy_created in *.
  destruct (C71_analyses_partial toy_text_file toy_binary_file toy_join toy_absolute (txt "/default") sample_int16 sample_int10 pop_first (fun l => l) (fun x => [x]) (fun t => t) toy_search 10 toy_int toy_digit toy_array
    toy_conf toy_dir toy_made toy_grammar toy_sys_id toy_system toy_users toy_built_from MK toy_interpreter toy_plain toy_files toy_scalar toy_complete lat t md U S N) as (it & E & H).
  exists it. split; [exact E|]. intros L. destruct (H L) as (lat' & r & X & _). exists lat', r. exact X.
Qed.
