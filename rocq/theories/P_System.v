(** From files to a tokenizer: what the settings made by a Dictionary satisfy. *)
From Coq Require Import String Ascii List ZArith Lia Bool Arith Sorting.Sorted Sorting.Permutation.
From Verif Require Import Base Utf8 M_Builder M_CharCategory M_InputText M_InputPlugins M_Lattice M_Oov M_Tokenizer M_NumericParser M_PathRewrite M_Morphemes
  M_Shipped M_Bytes M_DicReader M_DicBuilder M_LexiconSet M_Front M_Resource M_Setup S_Resource
  P_CharCategory P_Bytes P_DicFormat P_DicWrite P_DicOpen P_DicGrammar P_DicSource P_DicLexicon P_DicFile Prop_Format P_LexiconSet P_Resource Prop_CharCategory Prop_Source Prop_Lexicon Prop_Resource
  Prop_Shipped P_Words P_Setup.
Import ListNotations.
Open Scope list_scope.
Open Scope Z_scope.

Lemma encode_empty h : encode h = Ok [] -> h = [].
Proof.
  destruct h as [|c h]; [reflexivity|]. cbn [encode]. destruct (is_scalar c); [|discriminate]. intros H. apply bind_ok in H as (b & _ & H). injection H as H.
  pose proof (encode_cp_nonempty c) as N. apply app_eq_nil in H as (H & _). rewrite H in N. cbn in N. lia.
Qed.

Lemma map_inj {A B} (f : A -> B) (I : forall x y, f x = f y -> x = y) l l' : map f l = map f l' -> l = l'.
Proof. revert l'. induction l as [|x l IH]; intros [|y l'] H; try discriminate; auto. injection H as H1 H2. f_equal; auto. Qed.

(** The interpreter's functions: the queue of the character categories gives the smallest
    first, a set is iterated in some order, lower() and NFKC make nothing empty. *)
Record interpreter (pop : list range -> option (range * list range)) (order : list cat -> list cat) (lower : Z -> text) (nfkc : text -> text) : Prop := {
  in_pop : pop_ok pop;
  in_order : forall l, Permutation (order l) l;
  in_lower : forall c, lower c <> [];
  in_nfkc : forall t, t <> [] -> nfkc t <> [];
}.

Section system.
Variable text_file : text -> res text.
Variable binary_file : text -> res bytes.
Variable join : text -> text -> text.
Variable is_absolute : text -> bool.
Variable DEFAULT_RESOURCEDIR : text.
Variable int16 int10 : text -> res Z.
Variable pop : list range -> option (range * list range).
Variable order : list cat -> list cat.
Variable lower : Z -> text.
Variable nfkc : text -> text.
Variable search : bytes -> bytes -> list (Z * nat).
Variable limit : nat.
Notation make_dictionary := (make_dictionary text_file binary_file join is_absolute DEFAULT_RESOURCEDIR int16 int10 pop order lower nfkc search limit).
Notation internal_cost := (internal_cost order lower nfkc search limit).
Notation located := (located join is_absolute).
Notation md_settings := (md_settings order lower nfkc search limit).

(** The builder of dictionaries *)
Variable py_int : text -> res Z.
Variable is_digit : Z -> bool.
Variable trie_array : list (bytes * Z) -> res bytes.

(** The configuration [c] with the resource directory [d] names a system dictionary and user
    dictionaries that were built from sources. *)
Record built_from (c : conf) (d : text) (g0 : grammar) (sys_id : text -> Z -> text -> res Z) (system : dic) (users : list dic) : Prop := {
  bf_contract : trie_contract search trie_array;
  bf_system_file : exists sp, conf_get c DICT_PATH_KEY = Some (JStr sp) /\ binary_file (located d sp) = Ok (dc_file system);
  bf_system : built py_int is_digit trie_array SystemDic system;
  bf_grammar : exists dict, from_system_dictionary (dc_file system) = Ok dict /\ d_grammar dict = Some g0;
  bf_user_files : exists us, user_paths c us /\ Forall2 (fun p u => binary_file (located d p) = Ok (dc_file u)) us users;
  bf_users : Forall (built py_int is_digit trie_array (UserDic g0 sys_id (length (s_entries (dc_source system))))) users;
  bf_sys_id : forall h p r id, sys_id h p r = Ok id -> id < Z.of_nat (length (s_entries (dc_source system)));
  (* following dictionary forms ends within the recursion limit (C44) *)
  bf_forms : forall u i, In u (system :: users) -> (i < length (s_entries (dc_source u)))%nat -> exists n, (n <= limit)%nat /\ chain_ends (s_entries (dc_source u)) n i;
}.

(** The character definitions name a category in every line with a range; the replacement
    symbol of the sound mark plugin is one character. *)
Record plain_resources (c : conf) (d : text) : Prop := {
  pr_chars : exists p f ls rs, conf_get c CHAR_DEF_KEY = Some (JStr p) /\ text_file (located d p) = Ok f /\ file_of ls f /\
    char_def (fun t n => int16 t = Ok n) ls rs /\ Forall (fun r => snd r <> []) rs;
  pr_symbol : forall o v, plugin c "inputTextPlugin" SOUND_MARKS o -> conf_get o (txt "replacementSymbol") = Some v -> exists s, v = JStr [s];
}.

Section one.
Variables (c : conf) (d : text) (m : made) (g0 : grammar) (sys_id : text -> Z -> text -> res Z) (system : dic) (users : list dic).
Hypothesis BF : built_from c d g0 sys_id system users.
Hypothesis MK : make_dictionary c d = Ok m.
Let n0 := length (s_entries (dc_source system)).

Lemma files_loaded : load_dictionaries limit (internal_cost (md_table m) (md_inputs m) (md_providers m)) (dc_file system) (map dc_file users) = Ok (md_set m).
Proof.
  destruct (make_inv _ _ _ _ _ _ _ _ _ _ _ _ _ _ _ _ MK) as (sf & ufs & g & ins & oovs & paths & C).
  destruct (co_system _ _ _ _ _ _ _ _ _ _ _ _ _ _ _ _ _ _ _ _ _ _ C) as (sp & E1 & E2). destruct (bf_system_file _ _ _ _ _ _ BF) as (sp' & E1' & E2').
  assert (sp' = sp) by congruence. subst sp'. assert (sf = dc_file system) by congruence. subst sf.
  destruct (co_users _ _ _ _ _ _ _ _ _ _ _ _ _ _ _ _ _ _ _ _ _ _ C) as (us & U1 & U2). destruct (bf_user_files _ _ _ _ _ _ BF) as (us' & U1' & U2').
  assert (us' = us).
  { destruct U1 as [(A & ->)|A], U1' as [(A' & ->)|A']; try congruence. rewrite A in A'. injection A' as A'. symmetry. apply (map_inj JStr); [intros x y [= ->]; reflexivity|exact A']. }
  subst us'. assert (ufs = map dc_file users).
  { clear - U2 U2'. revert users U2'. induction U2 as [|p f us ufs H U IH]; intros users U2'; inversion U2' as [|? u ? users' Hu Hus]; subst; [reflexivity|]. cbn [map]. f_equal; [congruence|auto]. }
  subst ufs. apply (co_loaded _ _ _ _ _ _ _ _ _ _ _ _ _ _ _ _ _ _ _ _ _ _ C).
Qed.

(** An id of an entry *)
Definition entry_id (wid : Z) : Prop :=
  exists k u i e, nth_error (system :: users) k = Some u /\ nth_error (s_entries (dc_source u)) i = Some e /\ wid = Z.of_nat k * 2 ^ 28 + Z.of_nat i.

Lemma found_entries t off wid e : In (wid, e) (fst (ls_lookup search (ds_lexicon (md_set m)) t off)) ->
  (off < e <= length t)%nat /\
  exists k u i x h, nth_error (system :: users) k = Some u /\ nth_error (s_entries (dc_source u)) i = Some x /\ wid = Z.of_nat k * 2 ^ 28 + Z.of_nat i /\
    e_headword x = Some h /\ encode h = Ok (slice t off e).
Proof.
  intros H. pose proof (bf_contract _ _ _ _ _ _ BF) as CT. pose proof (bf_system _ _ _ _ _ _ BF) as SB. pose proof (bf_grammar _ _ _ _ _ _ BF) as GO. pose proof (bf_users _ _ _ _ _ _ BF) as UB.
  pose proof files_loaded as FL.
  destruct (le_lt_dec off (length t)) as [Ho|Ho].
  - apply (proj2 (C38_finds _ _ _ _ CT _ _ _ _ _ _ _ _ SB GO eq_refl UB FL t off Ho)) in H as (k & u & i & x & h & Hk & Hi & -> & He & Hh & Hs).
    split; [|exists k, u, i, x, h; auto 8]. split; [|lia]. destruct (Nat.eq_dec off e) as [->|N]; [|lia]. exfalso.
    replace (slice t e e) with (@nil Z) in Hs by (unfold slice; symmetry; apply skipn_all2; rewrite firstn_length; lia). apply encode_empty in Hs as ->.
    pose proof (dic_built _ _ _ _ _ _ _ _ SB UB k u Hk) as B. destruct (built_opens _ _ _ _ CT _ _ B) as (SO & _). pose proof (so_entries _ SO) as EO.
    rewrite Forall_forall in EO. destruct (EO x (nth_error_In _ _ Hi)) as (_ & _ & X & _). destruct (X _ Hh) as (X1 & _). now apply X1.
  - exfalso. rewrite (ls_lookup_ok _ _ _ _ (set_not_empty _ _ _ _ CT _ _ _ _ _ _ _ _ SB GO eq_refl UB FL) (all_lookups _ _ _ _ CT _ _ _ _ _ _ _ _ SB GO eq_refl UB FL t off)) in H.
    cbn [fst] in H. apply in_concat in H as (l & Hl & Hin). apply in_map_iff in Hl as ((k & lx) & <- & Hk). cbn [fst snd] in Hin. apply in_map_iff in Hin as ((w & e') & _ & Hw).
    apply turns_spec in Hk as (id & Hk). pose proof (load_ok _ _ _ _ CT _ _ _ _ _ _ SB GO eq_refl _ _ UB FL) as L.
    assert (Lt : (k < S (length users))%nat). { rewrite <- (ld_count _ _ _ _ _ _ _ _ _ L). apply nth_error_Some. congruence. }
    destruct (nth_error (system :: users) k) as [u|] eqn:E; [|apply nth_error_None in E; cbn [length] in E; lia].
    destruct (ld_words _ _ _ _ _ _ _ _ _ L k u E) as (id' & lx' & Hl' & lx0 & LO & LS & SW). rewrite Hk in Hl'. injection Hl' as <- <-.
    rewrite <- (same_lookup _ _ _ t off SW), (lexicon_lookup _ _ _ _ _ _ _ _ LO) in Hw. cbn [fst] in Hw. apply in_concat in Hw as (l & Hl1 & Hin).
    apply in_map_iff in Hl1 as ((key & ws) & <- & Hk1). apply filter_In in Hk1 as [Hk1 P]. cbn [fst snd] in *. rewrite skipn_all2 in P by lia.
    apply is_prefix_spec in P as [r Er]. symmetry in Er. apply app_eq_nil in Er as (-> & _). apply in_map_iff in Hin as (i & _ & Hi).
    pose proof (dic_built _ _ _ _ _ _ _ _ SB UB k u E) as B. destruct (built_opens _ _ _ _ CT _ _ B) as (SO & _).
    destruct (proj1 (so_listed _ SO [] i)) as (x & h & Hx & Hh & Hs); [exists ws; auto|]. apply encode_empty in Hs as ->.
    pose proof (so_entries _ SO) as EO. rewrite Forall_forall in EO. destruct (EO x (nth_error_In _ _ Hx)) as (_ & _ & X & _). destruct (X _ Hh) as (X1 & _). now apply X1.
Qed.

Lemma split_entries wid wi : entry_id wid -> ls_word_info limit (ds_lexicon (md_set m)) wid = Ok wi -> Forall entry_id (wi_a wi ++ wi_b wi).
Proof.
  intros (k & u & i & e & Hk & Hi & ->) E. pose proof (bf_contract _ _ _ _ _ _ BF) as CT. pose proof (bf_system _ _ _ _ _ _ BF) as SB. pose proof (bf_grammar _ _ _ _ _ _ BF) as GO. pose proof (bf_users _ _ _ _ _ _ BF) as UB.
  destruct (bf_forms _ _ _ _ _ _ BF u i (nth_error_In _ _ Hk)) as (n & Hn & CE); [apply nth_error_Some; congruence|].
  assert (SI : system_ids (kind_of g0 sys_id n0 k)) by (destruct k; [exact I|exact (bf_sys_id _ _ _ _ _ _ BF)]).
  destruct (C40_splits _ _ _ _ CT _ _ _ _ _ _ _ _ SB GO eq_refl UB files_loaded k u i e n SI Hk Hi CE Hn) as (wi' & a & b & c' & t1 & t2 & t3 & t4 & E' & _ & _ & _ & A & B & _).
  rewrite E in E'. injection E' as <-.
  assert (X : forall l l', Forall2 (fun x y => (0 <= x < 2 ^ 28 /\ y = x /\ (Z.to_nat y < length (s_entries (dc_source system)))%nat) \/
                        (2 ^ 28 <= x /\ y = Z.of_nat k * 2 ^ 28 + x mod 2 ^ 28 /\ (Z.to_nat (x mod 2 ^ 28) < length (s_entries (dc_source u)))%nat)) l l' -> Forall entry_id l').
  { induction 1 as [|x y l l' H F IH]; constructor; auto. destruct H as [(H1 & -> & H2)|(_ & -> & H2)].
    - destruct (nth_error (s_entries (dc_source system)) (Z.to_nat x)) as [e'|] eqn:Ee; [|apply nth_error_None in Ee; lia].
      exists 0%nat, system, (Z.to_nat x), e'. split; [reflexivity|]. split; [exact Ee|]. lia.
    - pose proof (Z.mod_pos_bound x (2 ^ 28) ltac:(lia)).
      destruct (nth_error (s_entries (dc_source u)) (Z.to_nat (x mod 2 ^ 28))) as [e'|] eqn:Ee; [|apply nth_error_None in Ee; lia].
      exists k, u, (Z.to_nat (x mod 2 ^ 28)), e'. split; [exact Hk|]. split; [exact Ee|]. lia. }
  apply Forall_app. split; eauto.
Qed.

Hypothesis IN : interpreter pop order lower nfkc.
Hypothesis PR : plain_resources c d.

Lemma settings_good : good_settings (md_settings m).
Proof.
  destruct (make_inv _ _ _ _ _ _ _ _ _ _ _ _ _ _ _ _ MK) as (sf & ufs & g & ins & oovs & paths & C).
  constructor; cbn [M_Setup.md_settings tokenizer_settings s_category s_lookup s_inputs s_lower s_nfkc].
  - intros ch. destruct (pr_chars _ _ PR) as (p & f & ls & rs & E1 & E2 & FO & CD & NE).
    destruct (co_chars _ _ _ _ _ _ _ _ _ _ _ _ _ _ _ _ _ _ _ _ _ _ C) as (p' & f' & E1' & E2' & RD).
    assert (p' = p) by congruence. subst p'. assert (f' = f) by congruence. subst f'.
    destruct (C64_nothing_else int16 pop f ls (md_table m) FO RD) as (rs' & CD' & NE').
    assert (rs <> []).
    { intros ->. pose proof (char_ranges_ok int16 _ _ (file_lines_spec _ _ FO) _ CD) as Y. pose proof (char_ranges_ok int16 _ _ (file_lines_spec _ _ FO) _ CD') as Y'.
      rewrite Y in Y'. destruct rs'; [congruence|discriminate Y']. }
    destruct (C64_definition_file int16 pop f ls rs (in_pop _ _ _ _ IN) FO CD H) as (table & RD' & T). rewrite RD in RD'. injection RD' as <-.
    destruct (T ch) as (cats & Eg & _ & T1 & T2). rewrite Eg. pose proof (in_order _ _ _ _ IN cats) as PM. intros EO. rewrite EO in PM. apply Permutation_nil in PM. subst cats.
    assert (DEC : (exists low high cs, In (low, high, cs) rs /\ low <= ch <= high) \/ (forall low high cs, In (low, high, cs) rs -> ~ low <= ch <= high)).
    { clear. induction rs as [|((low & high) & cs) rs IH]; [right; intros ? ? ? []|]. destruct (Z_le_dec low ch), (Z_le_dec ch high).
      1: left; exists low, high, cs; split; [now left|lia].
      all: destruct IH as [(a & b & x & Hin & Hb)|IH]; [left; exists a, b, x; split; [now right|exact Hb]|right; intros a b x [[= <- <- <-]|Hin]; [lia|eauto]]. }
    destruct DEC as [DE|DE]; [|now apply T2 in DE]. destruct DE as (low & high & cs & Hin & Hb). rewrite Forall_forall in NE. pose proof (NE _ Hin) as NC. cbn [snd] in NC.
    destruct cs as [|c0 cs]; [congruence|]. apply (proj2 (T1 (ex_intro _ low (ex_intro _ high (ex_intro _ (c0 :: cs) (conj Hin Hb)))) c0)). exists low, high, (c0 :: cs). split; [exact Hin|]. split; [exact Hb|now left].
  - intros bs i wid e H. now apply found_entries in H.
  - intros k Hk. destruct (co_inputs _ _ _ _ _ _ _ _ _ _ _ _ _ _ _ _ _ _ _ _ _ _ C) as (_ & F).
    clear - F Hk. induction F as [|sp p ins ps H F IH]; [destruct Hk|]. destruct Hk as [->|Hk]; [|auto]. destruct sp; cbn [set_up_input] in H; [|discriminate H].
    apply bind_ok in H as (f & _ & H). apply bind_ok in H as (cf & H & [= ->]). exists (concat (map rewrite_columns (file_lines f))). exact H.
  - intros k Hk. destruct (co_inputs _ _ _ _ _ _ _ _ _ _ _ _ _ _ _ _ _ _ _ _ _ _ C) as (G & F).
    destruct (symbol_source _ _ _ _ _ _ _ G F Hk) as [E|(o & t & P & E & ->)]; [eauto|]. destruct (pr_symbol _ _ PR _ _ P E) as (s & [= ->]). eauto.
  - apply (in_lower _ _ _ _ IN).
  - apply (in_nfkc _ _ _ _ IN).
Qed.
End one.
End system.
