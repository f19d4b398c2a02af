(** C75: the analysis that a Dictionary made from files finds is the cheapest by the numbers
    that stand in the files. *)
From Coq Require Import String Ascii List ZArith Lia Bool Arith Sorting.Sorted Sorting.Permutation.
From Verif Require Import Base Utf8 M_Builder M_CharCategory M_InputText M_InputPlugins M_Lattice M_Oov M_Tokenizer M_NumericParser M_PathRewrite M_Morphemes
  M_Shipped M_Bytes M_DicReader M_DicBuilder M_LexiconSet M_Front M_Resource M_Setup S_Text S_Plugins S_Lattice S_Resource S_Rewrite
  P_Builder P_InputText P_Accessors P_Oov P_Lattice P_Tokenizer P_Path P_Config P_Total P_CharCategory P_Bytes P_DicFormat P_DicWrite P_DicOpen P_DicGrammar P_DicSource P_DicLexicon P_DicFile Prop_Format P_LexiconSet P_Resource
  P_Rewrite Prop_Lattice Prop_Rewrite Prop_Text Prop_Tokenizer Prop_Total Prop_CharCategory Prop_Source Prop_Lexicon Prop_Resource Prop_Shipped P_Words P_Setup P_System Prop_System P_DicToy P_Live Prop_Live.
Import ListNotations.
Open Scope list_scope.
Open Scope Z_scope.

(** ** Specification *)
(** What the matrix definition says for the numbers [a] and [b] at the start of a line: the
    last such line, or 0. *)
Definition matrix_cell (lines : list (list Z)) (a b x : Z) : Prop :=
  (exists before after, lines = before ++ [a; b; x] :: after /\ forall y, ~ In [a; b; y] after) \/
  ((forall y, ~ In [a; b; y] lines) /\ x = 0).
(** The cost of a sequence of words after a word with the right id [right]: the costs of the
    words and, for neighbours, the cell for the right id of the one and the left id of the
    other.  Beginning and end of the text have the ids 0. *)
Fixpoint source_cost (cell : Z -> Z -> Z) (right : Z) (q : list step) : Z :=
  match q with
  | [] => cell right 0
  | s :: q => cell right (s_left s) + s_cost s + source_cost cell (s_right s) q
  end.
(** No two neighbours have a connection that the matrix definition inhibits with 32767. *)
Fixpoint connectable (cell : Z -> Z -> Z) (right : Z) (q : list step) : Prop :=
  match q with
  | [] => cell right 0 <> 32767
  | s :: q => cell right (s_left s) <> 32767 /\ connectable cell (s_right s) q
  end.
(** The word [s] of the text [bs] is the row [row] with the cost [x] in its column. *)
Definition is_row (py_int : text -> res Z) (bs : bytes) (row : list text) (s : step) (x : Z) : Prop :=
  exists cs, Forall2 (fun c c' => unescape c = Ok c') row cs /\ nth 1 cs [] <> [45; 49] /\
    (s_begin s <= s_end s <= length bs)%nat /\ encode (nth 0 cs []) = Ok (slice bs (s_begin s) (s_end s)) /\
    py_int (nth 1 cs []) = Ok (s_left s) /\ py_int (nth 2 cs []) = Ok (s_right s) /\ py_int (nth 3 cs []) = Ok x.

Lemma cost_eq conn cell (R : Z -> Prop) : (forall a b, R a -> R b -> conn b a = cell a b) -> R 0 ->
  forall q right, R right -> Forall (fun s => R (s_left s) /\ R (s_right s)) q -> cost_from conn right q 0 = source_cost cell right q.
Proof.
  intros H R0. induction q as [|s q IH]; intros right Hr F; cbn [cost_from source_cost]; [auto|]. inversion F as [|? ? (A & B) F']; subst. rewrite IH by auto. now rewrite H.
Qed.
Lemma allowed_eq conn cell (R : Z -> Prop) : (forall a b, R a -> R b -> conn b a = cell a b) -> R 0 ->
  forall q right, R right -> Forall (fun s => R (s_left s) /\ R (s_right s)) q -> allowed conn 32767 right q 0 <-> connectable cell right q.
Proof.
  intros H R0. induction q as [|s q IH]; intros right Hr F; cbn [allowed connectable]; [now rewrite H|]. inversion F as [|? ? (A & B) F']; subst. rewrite IH by auto. now rewrite H.
Qed.
Lemma allowed_any conn inh : (forall a b, conn a b <> inh) -> forall q right final, allowed conn inh right q final.
Proof. intros H. induction q as [|s q IH]; intros; cbn [allowed]; auto. Qed.
Lemma steps_words (P : wnode -> Prop) q : Forall (fun s => exists w, P w /\ to_step w = s) q -> exists ws, Forall P ws /\ map to_step ws = q.
Proof. induction 1 as [|s q (w & Hw & E) F (ws & FW & EW)]; [exists []; auto|]. exists (w :: ws). split; [auto|]. cbn [map]. congruence. Qed.

(** The rewriting plugins only join words. *)
Section rewriting.
Variable s : settings.
Hypothesis G : good_settings s.
Context {t orig : text} {m2o : list nat} {it : input_text}.
Variable B : P_InputText.built t orig m2o (map (s_category s) t) it.
Notation n := (length (it_bytes it)).
Lemma rewrites_join lat p q : has_infos s -> read_text it -> lists_end n lat ->
  (forall e ls w, nth_error (l_lists lat) e = Some ls -> In w (map ln_word ls) -> (0 < e)%nat -> w_end w = e /\ considered (cfg := shipped s) (it := it) w) ->
  tiles 0 (map to_step p) n -> Forall (considered (cfg := shipped s) (it := it)) p ->
  foldM (fun p plugin => plugin it p lat) p (cf_rewrites (shipped s)) = Ok q -> incl (map w_begin q) (map w_begin p).
Proof.
  intros HI RT LE LW T F. assert (FI : Forall (info_ok (s_lexinfo s)) p) by (eapply Forall_impl; [|exact F]; intros w; now apply (considered_info s G B)). clear F. cbn [shipped cf_rewrites].
  revert p T FI. induction (s_rewriters s) as [|r rs IH]; intros p T FI E; cbn [map foldM] in E; [injection E as <-; apply incl_refl|].
  apply bind_ok in E as (p1 & E1 & E). destruct r as [c|c]; cbn [rewrite_with] in E1.
  - destruct (C29_katakana (s_lexinfo s) c it lat p RT LE T FI) as (q' & X & J & T2 & I). rewrite E1 in X. injection X as <-.
    eapply incl_tran; [|exact I]. apply IH; auto. eapply joined_all; eauto. intros g after w (_ & _ & _ & _ & [(Hl & _)|(_ & _ & infos & wi & _ & Wd & Wx & _)]) _ Hne.
    + destruct Hl as (ls & E' & Hin & _). destruct (LW _ _ _ E' Hin ltac:(lia)) as (_ & Hc). now apply (considered_info s G B).
    + exists wi. unfold node_info. now rewrite Wd, Wx.
  - destruct (C30_numbers (s_lexinfo s) c it p RT T FI) as [X|(q' & X & J & T2 & I)]; rewrite E1 in X; [discriminate|]. injection X as <-.
    eapply incl_tran; [|exact I]. apply IH; auto. eapply joined_all; eauto. intros g after w (infos & wi & _ & _ & _ & Wd & Wx & _) _ _. exists wi. unfold node_info. now rewrite Wd, Wx.
Qed.
End rewriting.

Section system.
Variable text_file : text -> res text.
Variable binary_file : text -> res bytes.
Variable join : text -> text -> text.
Variable is_absolute : text -> bool.
Variable DEFAULT_RESOURCEDIR : text.
Variable int16 int10 : text -> res Z.
Variable pop : list range -> option (range * list range).
Variable order : list cat -> list cat.
Variable lower : Z -> text.
Variable nfkc : text -> text.
Variable search : bytes -> bytes -> list (Z * nat).
Variable limit : nat.
Variable py_int : text -> res Z.
Variable is_digit : Z -> bool.
Variable trie_array : list (bytes * Z) -> res bytes.
Notation make_dictionary := (make_dictionary text_file binary_file join is_absolute DEFAULT_RESOURCEDIR int16 int10 pop order lower nfkc search limit).
Notation md_settings := (md_settings order lower nfkc search limit).
Notation created := (created order lower nfkc search limit).
Notation built_from := (built_from binary_file join is_absolute search limit py_int is_digit trie_array).
Notation plain_resources := (plain_resources text_file join is_absolute int16).
Notation interpreter := (interpreter pop order lower nfkc).

Section one.
Variables (c : conf) (d : text) (m : made) (g0 : grammar) (sys_id : text -> Z -> text -> res Z) (system : dic) (users : list dic).

Notation oov_numbers := (oov_numbers text_file join int10 c d).
(** The system dictionary was built with the matrix [ms] of [n] rows and columns. *)
Definition system_matrix (ms : matrix_source) (n : Z) : Prop :=
  has_matrix n ms /\ exists now description, build_command SystemDic py_int is_digit trie_array now description (dc_rows system) (Some ms) = Ok (dc_file system) /\ 0 <= now /\ ~ In 0 description.

(** A word of the text that a dictionary has; the cost of a row of a user dictionary that
    says -32768 is another. *)
Definition dictionary_word (bs : bytes) (s : step) : Prop :=
  exists k u row x, nth_error (system :: users) k = Some u /\ In row (dc_rows u) /\ is_row py_int bs row s x /\ (k = 0%nat \/ x <> -32768 -> s_cost s = x).
(** One whose cost is in the row *)
Definition plain_word (bs : bytes) (s : step) : Prop :=
  exists k u row, nth_error (system :: users) k = Some u /\ In row (dc_rows u) /\ is_row py_int bs row s (s_cost s) /\ (k = 0%nat \/ s_cost s <> -32768).
(** A word that an OOV provider makes *)
Definition unknown_word (s : step) : Prop := oov_numbers (s_left s) (s_right s) (s_cost s).

Hypothesis BF : built_from c d g0 sys_id system users.
Hypothesis MK : make_dictionary c d = Ok m.
Hypothesis IN : interpreter.
Hypothesis PR : plain_resources c d.
Hypothesis FS : file_system text_file binary_file.
Hypothesis SI : scalar_interpreter lower nfkc.
Hypothesis CP : furnished text_file join is_absolute int16 int10 py_int c d g0 system users.

Lemma entry_is_row k u i e bs b x h l r cc : nth_error (system :: users) k = Some u -> nth_error (s_entries (dc_source u)) i = Some e -> e_headword e = Some h -> encode h = Ok (slice bs b x) -> (b <= x <= length bs)%nat ->
  l = e_left e -> r = e_right e -> exists row, In row (dc_rows u) /\ is_row py_int bs row (Step b x l r cc) (e_cost e).
Proof.
  intros Hk Hi Hh He Hb -> ->. destruct (entry_row _ _ _ _ _ _ _ _ _ _ _ _ _ _ BF k u i e Hk Hi) as (row & tb & tb' & Hr & HP).
  destruct (C58_accepted _ _ _ _ _ _ HP) as (_ & cs & Fc & _ & A0 & A1 & A2 & A3 & _). exists row. split; [eapply nth_error_In; eauto|]. exists cs. split; [exact Fc|]. rewrite A0 in Hh.
  destruct (teqb (nth 1 cs []) [45; 49]) eqn:T; [discriminate|]. injection Hh as <-. split; [intros X; rewrite X in T; discriminate T|]. cbn [s_begin s_end s_left s_right]. auto 8.
Qed.

Lemma considered_source t orig m2o cats it w : P_InputText.built t orig m2o cats it -> considered (cfg := created m) (it := it) w -> dictionary_word (it_bytes it) (to_step w) \/ unknown_word (to_step w).
Proof.
  intros B (H1 & H2 & H3). pose proof (bf_contract _ _ _ _ _ _ _ _ _ _ _ _ _ _ BF) as CT. pose proof (bf_system _ _ _ _ _ _ _ _ _ _ _ _ _ _ BF) as SB. pose proof (bf_grammar _ _ _ _ _ _ _ _ _ _ _ _ _ _ BF) as GO. pose proof (bf_users _ _ _ _ _ _ _ _ _ _ _ _ _ _ BF) as UB.
  pose proof (files_loaded _ _ _ _ _ _ _ _ _ _ _ _ _ _ _ _ _ _ _ _ _ _ _ BF MK) as FL.
  apply candidates_sound in H3 as [(wid & e & l & r & x & Hin & Hp & _ & _ & ->)|(p & h & ns & Hp & Hg & Hw)].
  - left. cbn [M_Setup.created shipped cf_lookup cf_params M_Setup.md_settings tokenizer_settings s_lookup s_params w_begin] in *.
    destruct (found_entries _ _ _ _ _ _ _ _ _ _ _ _ _ _ _ _ _ _ _ _ _ _ _ BF MK _ _ _ _ Hin) as (Hr & k & u & i & en & h & Hk & Hi & -> & Hh & He).
    destruct (C43_loaded _ _ _ _ CT _ _ _ _ _ _ _ _ SB GO eq_refl UB FL k u i en Hk Hi) as (L1 & L2 & x' & L3 & _ & L4).
    unfold ls_params in Hp. rewrite L1, L2, L3 in Hp. cbn [bind] in Hp. injection Hp as <- <- <-. unfold to_step. cbn [w_begin w_end w_left w_right w_cost].
    destruct (entry_is_row k u i en (it_bytes it) (w_begin w) e h _ _ x' Hk Hi Hh He ltac:(lia) eq_refl eq_refl) as (row & Hrow & IR).
    exists k, u, row, (e_cost en). split; [exact Hk|]. split; [exact Hrow|]. split; [exact IR|]. cbn [s_cost]. intros X. apply L4. tauto.
  - right. destruct (live_providers _ _ _ _ _ _ _ _ _ _ _ _ _ _ _ _ MK) as (objs & g & Ec & F). apply (bow_start B) in H2 as (k & Hk & Ek). rewrite Ek in Hg.
    destruct (get_oov_span B p h ns k w Hk Hg Hw) as (j & l & r & x & ps & _ & -> & Hm). unfold unknown_word, to_step. cbn.
    destruct (in_forall2 _ _ _ _ F Hp) as (ob & Hx & o & sp & -> & E1 & E2). pose proof (oov_numbers_source _ _ _ _ _ _ _ _ _ E1 E2 (ex_intro _ objs (conj Ec Hx))) as ON.
    destruct p as [sc|mc].
    + destruct Hm as (-> & -> & -> & _). exact ON.
    + destruct Hm as (ct & oovs & oe & Ho & Hin & -> & -> & -> & _). eapply ON; eauto.
Qed.

Lemma plain_considered t orig m2o cats it s : P_InputText.built t orig m2o cats it -> plain_word (it_bytes it) s -> (s_begin s < s_end s)%nat -> can_bow it (s_begin s) = Ok true ->
  ((s_end s < length (it_bytes it))%nat -> can_bow it (s_end s) = Ok true) -> exists w, considered (cfg := created m) (it := it) w /\ to_step w = s.
Proof.
  intros B (k & u & row & Hk & Hrow & (cs & Fc & N1 & Hb & He & P1 & P2 & P3) & HC) Lt B1 B2.
  pose proof (bf_contract _ _ _ _ _ _ _ _ _ _ _ _ _ _ BF) as CT. pose proof (bf_system _ _ _ _ _ _ _ _ _ _ _ _ _ _ BF) as SB. pose proof (bf_grammar _ _ _ _ _ _ _ _ _ _ _ _ _ _ BF) as GO. pose proof (bf_users _ _ _ _ _ _ _ _ _ _ _ _ _ _ BF) as UB.
  pose proof (files_loaded _ _ _ _ _ _ _ _ _ _ _ _ _ _ _ _ _ _ _ _ _ _ _ BF MK) as FL. pose proof (settings_good _ _ _ _ _ _ _ _ _ _ _ _ _ _ _ _ _ _ _ _ _ _ _ BF MK IN PR) as G.
  apply In_nth_error in Hrow as (i & Hi).
  pose proof (dic_built _ _ _ _ _ _ _ _ SB UB k u Hk) as BU. destruct BU as (_ & _ & _ & _ & _ & _ & HB & _). destruct (build_rows _ _ _ _ _ HB) as (_ & LN & _ & R). cbn [new_source s_entries length Nat.add] in LN.
  destruct (R i row Hi) as (e & tb & tb' & Hen & HP & _). cbn [new_source s_entries length Nat.add] in Hen.
  destruct (C58_accepted _ _ _ _ _ _ HP) as (_ & cs' & Fc' & _ & A0 & A1 & A2 & A3 & _). apply (columns_eq _ _ _ Fc) in Fc' as ->.
  assert (Hh : e_headword e = Some (nth 0 cs [])) by (rewrite A0; destruct (teqb (nth 1 cs []) [45; 49]) eqn:T; [apply teqb_eq in T; congruence|reflexivity]).
  destruct (C43_loaded _ _ _ _ CT _ _ _ _ _ _ _ _ SB GO eq_refl UB FL k u i e Hk Hen) as (L1 & L2 & x & L3 & _ & L4).
  assert (x = s_cost s) by (rewrite L4; [congruence|]; destruct HC; [now right|left; congruence]). subst x.
  assert (e_left e = s_left s) by congruence. assert (e_right e = s_right s) by congruence.
  set (wid := Z.of_nat k * 2 ^ 28 + Z.of_nat i) in *.
  exists (WNode (s_begin s) (s_end s) (s_left s) (s_right s) (s_cost s) wid false true None). split; [|destruct s; reflexivity].
  split; [cbn [w_begin]; lia|]. split; [exact B1|]. cbn [w_begin].
  assert (FD : In (wid, s_end s) (fst (ls_lookup search (ds_lexicon (md_set m)) (it_bytes it) (s_begin s)))).
  { apply (proj2 (C38_finds _ _ _ _ CT _ _ _ _ _ _ _ _ SB GO eq_refl UB FL (it_bytes it) (s_begin s) ltac:(lia))). exists k, u, i, e, (nth 0 cs []). repeat (split; [first [assumption|reflexivity|lia]|]). exact He. }
  apply C28_first_eight_partial.
  - exact (shipped_sane _ G).
  - intros wid' e' Hin. destruct (found_entries _ _ _ _ _ _ _ _ _ _ _ _ _ _ _ _ _ _ _ _ _ _ _ BF MK _ _ _ _ Hin) as (_ & k' & u' & i' & x' & h' & Hk' & Hi' & -> & _).
    split; [intros L; destruct (in_char_exists _ _ e' (bt_enc B) L) as (kk & Hkk); destruct (can_bow_spec B e' kk Hkk) as (bb & Ebb & _); eauto|].
    destruct (live_words _ _ _ _ _ _ _ _ _ _ _ _ _ _ _ _ _ _ _ _ _ _ _ BF MK CP (Z.of_nat k' * 2 ^ 28 + Z.of_nat i')) as (_ & (((l' & r') & c') & EP) & _); [exists k', u', i', x'; auto|].
    assert (SZ : Z.of_nat i' < 2 ^ 28).
    { pose proof (dic_built _ _ _ _ _ _ _ _ SB UB k' u' Hk') as B'. destruct B' as (_ & _ & _ & _ & _ & _ & _ & _ & _ & _ & SZ). assert (i' < length (s_entries (dc_source u')))%nat by (apply nth_error_Some; congruence). lia. }
    assert (Lk : (k' < length (system :: users))%nat) by (apply nth_error_Some; congruence). cbn [length] in Lk. pose proof (cp_users _ _ _ _ _ _ _ _ _ _ _ CP) as NU.
    exists (Z.of_nat k'), (Z.of_nat i'), l', r', c'. split; [lia|]. split; [lia|]. split; [reflexivity|exact EP].
  - exact FD.
  - exact B2.
  - cbn [M_Setup.created shipped cf_params M_Setup.md_settings tokenizer_settings s_params]. unfold ls_params. rewrite L1, L2, L3. cbn [bind]. congruence.
Qed.

Lemma cells ms n : system_matrix ms n -> g_lsize g0 = n /\ g_rsize g0 = n /\
  forall a b x, 0 <= a < n -> 0 <= b < n -> matrix_cell (ms_lines ms) a b x -> cf_conn (created m) b a = x.
Proof.
  intros (HM & now & description & HB & Hn & Hd). pose proof (bf_contract _ _ _ _ _ _ _ _ _ _ _ _ _ _ BF) as CT. pose proof (bf_system _ _ _ _ _ _ _ _ _ _ _ _ _ _ BF) as SB. pose proof (bf_grammar _ _ _ _ _ _ _ _ _ _ _ _ _ _ BF) as GO.
  destruct (build_command_ok _ _ _ _ _ CT _ _ _ _ _ HB Hn Hd) as (s & Hs & H).
  destruct SB as (now' & desc' & ms' & _ & _ & _ & HS & RP & _). rewrite HS in Hs. injection Hs as <-.
  destruct H as (dict & g & Hr & _ & Hg & _ & _ & MO & _); [exact RP|cbn [matrix_written]; intros m' [= <-]; eauto|].
  destruct GO as (dict' & Hs' & Hg'). unfold from_system_dictionary in Hs'. rewrite Hr in Hs'. cbn [bind] in Hs'. destruct (is_system_dictionary _); [|discriminate]. injection Hs' as <-. rewrite Hg in Hg'. injection Hg' as ->.
  destruct (MO ms n eq_refl HM) as (M01 & M02 & MC). split; [exact M01|]. split; [exact M02|]. intros a b x Ha Hb HX.
  unfold cf_conn, cost_of. cbn [M_Setup.created shipped cf_view M_Setup.md_settings tokenizer_settings s_view]. rewrite (live_grammar _ _ _ _ _ _ _ _ _ _ _ _ _ _ _ _ _ _ _ _ _ _ _ BF MK). destruct (MC a b Ha Hb) as (M1 & M2).
  destruct HX as [(before & after & E & N)|(N & ->)]; [rewrite (M1 x)|rewrite M2]; try reflexivity; [exists before, after; auto|exact N].
Qed.

Lemma best ms n cell lat t lat' it p :
  system_matrix ms n -> (forall a b, 0 <= a < n -> 0 <= b < n -> matrix_cell (ms_lines ms) a b (cell a b)) ->
  P_Config.usable (created m) lat -> scalar_text t -> M_Tokenizer.run (created m) lat t ModeC = (lat', Ok (Some (it, p))) -> Z.of_nat (length (it_bytes it)) <= 32766 ->
  exists p0, (md_rewriters m = [] -> p0 = p) /\ incl (map w_begin p) (map w_begin p0) /\
    let found := map to_step p0 in
    tiles 0 found (length (it_bytes it)) /\ Forall (fun s => dictionary_word (it_bytes it) s \/ unknown_word s) found /\ connectable cell 0 found /\
    forall q, tiles 0 q (length (it_bytes it)) ->
      Forall (fun s => (plain_word (it_bytes it) s /\ can_bow it (s_begin s) = Ok true) \/ exists w, considered (cfg := created m) (it := it) w /\ to_step w = s) q ->
      (allowed (cf_conn (created m)) 32767 0 q 0 <-> connectable cell 0 q) /\ (connectable cell 0 q -> source_cost cell 0 found <= source_cost cell 0 q).
Proof.
  intros SM CE U Hsc E Hn. destruct (cells ms n SM) as (SL & SR & CELL). pose proof (cp_ids _ _ _ _ _ _ _ _ _ _ _ CP) as ID. rewrite SL, SR in ID. destruct ID as (ID1 & ID2). pose proof (live_ids _ _ _ _ _ _ _ _ _ _ _ _ _ _ _ _ _ _ _ _ _ _ _ BF MK CP) as LI. pose proof (settings_good _ _ _ _ _ _ _ _ _ _ _ _ _ _ _ _ _ _ _ _ _ _ _ BF MK IN PR) as G. pose proof (shipped_sane _ G : sane (created m)) as S.
  destruct (run_inv _ _ _ _ _ _ E) as [(_ & [=])|(it' & lat1 & p0 & p1 & p2 & Ht & Ep & Ea & Ef & El & Es & [= <- <-])]. cbn [split_path] in Es. injection Es as <-.
  destruct (run_prepare_built _ t it S Ht Ep) as (bd & Ebd & Hbd & B).
  pose proof (live_costs _ _ _ _ _ _ _ _ _ _ _ _ _ _ _ _ _ _ _ _ _ _ _ BF MK FS CP) as LC.
  destruct (C15_minimal_cost _ _ _ _ _ _ S LC LI U Ht Ep Hn Ea) as ((T & FC & AL) & MIN).
  destruct (analyse_lists S B lat lat1 _ (usable_clean _ _ S U) Ea) as (LE & LW).
  assert (N0 : 0 < n) by (destruct SM as ((_ & X & _) & _); exact X).
  assert (SRC : Forall (fun s => dictionary_word (it_bytes it) s \/ unknown_word s) (map to_step p0)).
  { apply Forall_map. eapply Forall_impl; [|exact FC]. intros w. apply (considered_source _ _ _ _ _ _ B). }
  pose (R := fun z => 0 <= z < n).
  assert (INS : forall s, dictionary_word (it_bytes it) s \/ unknown_word s -> R (s_left s) /\ R (s_right s)).
  { intros s [(k & u & row & x & Hk & Hr & (cs & F & N1 & _ & _ & P1 & P2 & _) & _)|H]; [|exact (ID2 _ _ _ H)]. exact (ID1 u row cs _ _ (nth_error_In _ _ Hk) Hr F N1 P1 P2). }
  assert (CQ : forall q, Forall (fun s => R (s_left s) /\ R (s_right s)) q -> cost_from (cf_conn (created m)) 0 q 0 = source_cost cell 0 q).
  { intros q Fq. apply (cost_eq _ _ R); [|unfold R; lia|unfold R; lia|exact Fq]. intros a b Ha Hb. apply CELL; auto. }
  assert (CA : forall q, Forall (fun s => R (s_left s) /\ R (s_right s)) q -> allowed (cf_conn (created m)) 32767 0 q 0 <-> connectable cell 0 q).
  { intros q Fq. apply (allowed_eq _ _ R); [|unfold R; lia|unfold R; lia|exact Fq]. intros a b Ha Hb. apply CELL; auto. }
  exists p0. split; [|split; [|split; [exact T|split; [exact SRC|split; [apply CA; [eapply Forall_impl; [|exact SRC]; intros s; apply INS|exact AL]|]]]]].
  - intros NR. cbn [M_Setup.created shipped cf_rewrites M_Setup.md_settings tokenizer_settings s_rewriters] in Ef. rewrite NR in Ef. cbn [map foldM] in Ef. congruence.
  - eapply (rewrites_join (md_settings m) G B lat1); eauto.
    + eapply live_infos; eauto.
    + destruct (shipped_prepare (md_settings m) t G ltac:(eapply live_scalar; eauto) Hsc) as (bd' & it' & He & Hbs & Eb & Ep'). change (shipped (md_settings m)) with (created m) in Ep'. rewrite Ep in Ep'. injection Ep' as <-.
      exists (s_category (md_settings m)), t, bd'. split; [apply (gs_category _ G)|]. auto.
  - intros q Tq Fq.
    assert (BOW : forall q b, tiles b q (length (it_bytes it)) ->
       Forall (fun s => (plain_word (it_bytes it) s /\ can_bow it (s_begin s) = Ok true) \/ exists w, considered (cfg := created m) (it := it) w /\ to_step w = s) q ->
       (b < length (it_bytes it) -> can_bow it b = Ok true)%nat /\ Forall (fun s => exists w, considered (cfg := created m) (it := it) w /\ to_step w = s) q).
    { induction q0 as [|s q0 IH]; intros b Tb Fb; cbn [tiles] in Tb; [split; [lia|constructor]|]. destruct Tb as (<- & Lt & Tb). inversion Fb as [|? ? Hs Fb']; subst.
      destruct (IH _ Tb Fb') as (Be & Fo). split.
      - intros _. destruct Hs as [(_ & X)|(w & (_ & X & _) & <-)]; exact X.
      - constructor; [|exact Fo]. destruct Hs as [(X & Y)|X]; [|exact X]. eapply plain_considered; eauto. }
    destruct (BOW q 0%nat Tq Fq) as (_ & FW). destruct (steps_words _ _ FW) as (ws & FWS & <-).
    assert (FI : Forall (fun s => R (s_left s) /\ R (s_right s)) (map to_step ws)) by (apply Forall_map; eapply Forall_impl; [|exact FWS]; intros w Hw; apply INS; eapply considered_source; eauto).
    split; [exact (CA _ FI)|]. intros CN.
    assert (AN : analysis (created m) it ws) by (split; [exact Tq|]; split; [exact FWS|]; apply (CA _ FI); exact CN).
    specialize (MIN ws AN). unfold total_cost in MIN. rewrite !CQ in MIN; [exact MIN|exact FI|]. eapply Forall_impl; [|exact SRC]. intros s. apply INS.
Qed.

(** ** C75 *)
(** The words that are found have no inhibited connection, and they cost no more than any other
    words of the text that have none. *)
Theorem C75_inhibited_partial ms n cell lat t lat' it p :
  system_matrix ms n -> (forall a b, 0 <= a < n -> 0 <= b < n -> matrix_cell (ms_lines ms) a b (cell a b)) ->
  P_Config.usable (created m) lat -> scalar_text t -> M_Tokenizer.run (created m) lat t ModeC = (lat', Ok (Some (it, p))) -> Z.of_nat (length (it_bytes it)) <= 32766 ->
  exists p0, (md_rewriters m = [] -> p0 = p) /\ incl (map w_begin p) (map w_begin p0) /\
    let found := map to_step p0 in
    tiles 0 found (length (it_bytes it)) /\ Forall (fun s => dictionary_word (it_bytes it) s \/ unknown_word s) found /\ connectable cell 0 found /\
    forall q, tiles 0 q (length (it_bytes it)) ->
      Forall (fun s => (plain_word (it_bytes it) s /\ can_bow it (s_begin s) = Ok true) \/ exists w, considered (cfg := created m) (it := it) w /\ to_step w = s) q -> connectable cell 0 q ->
      source_cost cell 0 found <= source_cost cell 0 q.
Proof.
  intros SM CE U Hsc E Hn. destruct (best ms n cell lat t lat' it p SM CE U Hsc E Hn) as (p0 & H1 & H2 & T & SRC & CN & M). exists p0. split; [exact H1|]. split; [exact H2|]. cbn zeta.
  split; [exact T|]. split; [exact SRC|]. split; [exact CN|]. intros q Tq Fq Cq. now apply (M q Tq Fq).
Qed.
End one.

Section all.
Variables (c : conf) (d : text) (m : made) (g0 : grammar) (sys_id : text -> Z -> text -> res Z) (system : dic) (users : list dic).
Notation system_matrix := (system_matrix system).
Notation dictionary_word := (dictionary_word system users).
Notation plain_word := (plain_word system users).
Notation unknown_word := (unknown_word c d).
Hypothesis BF : built_from c d g0 sys_id system users.
Hypothesis MK : make_dictionary c d = Ok m.
Hypothesis IN : interpreter.
Hypothesis PR : plain_resources c d.
Hypothesis FS : file_system text_file binary_file.
Hypothesis SI : scalar_interpreter lower nfkc.
Hypothesis CP : complete text_file join is_absolute int16 int10 py_int c d g0 system users.

(** If the matrix inhibits nothing, all words of the text are competitors. *)
Theorem C75_cheapest_partial ms n cell lat t lat' it p :
  system_matrix ms n -> (forall a b, 0 <= a < n -> 0 <= b < n -> matrix_cell (ms_lines ms) a b (cell a b)) ->
  P_Config.usable (created m) lat -> scalar_text t -> M_Tokenizer.run (created m) lat t ModeC = (lat', Ok (Some (it, p))) -> Z.of_nat (length (it_bytes it)) <= 32766 ->
  exists p0, (md_rewriters m = [] -> p0 = p) /\ incl (map w_begin p) (map w_begin p0) /\
    let found := map to_step p0 in
    tiles 0 found (length (it_bytes it)) /\ Forall (fun s => dictionary_word (it_bytes it) s \/ unknown_word s) found /\
    forall q, tiles 0 q (length (it_bytes it)) ->
      Forall (fun s => (plain_word (it_bytes it) s /\ can_bow it (s_begin s) = Ok true) \/ exists w, considered (cfg := created m) (it := it) w /\ to_step w = s) q ->
      source_cost cell 0 found <= source_cost cell 0 q.
Proof.
  intros SM CE U Hsc E Hn. destruct (best c d m g0 sys_id system users BF MK IN PR FS SI CP ms n cell lat t lat' it p SM CE U Hsc E Hn) as (p0 & H1 & H2 & T & SRC & _ & M). exists p0. split; [exact H1|]. split; [exact H2|]. cbn zeta.
  split; [exact T|]. split; [exact SRC|]. intros q Tq Fq. destruct (M q Tq Fq) as (A & Q). apply Q, A, allowed_any.
  exact (oe_conn _ (live_open _ _ _ _ _ _ _ _ _ _ _ _ _ _ _ _ _ _ _ _ _ _ _ BF MK CP (cp_matrix _ _ _ _ _ _ _ _ _ _ _ CP))).
Qed.
End all.
End system.
Print Assumptions C75_inhibited_partial.
Print Assumptions C75_cheapest_partial.

(** ** The hypotheses are met by the Dictionary of Prop_System. *)
Definition toy_cell (a b : Z) : Z := if a =? 0 then (if b =? 0 then 5 else -4) else if b =? 0 then 0 else 7.
Lemma toy_cells a b : 0 <= a < 2 -> 0 <= b < 2 -> matrix_cell (ms_lines toy_matrix) a b (toy_cell a b).
Proof.
  intros Ha Hb. assert (A : a = 0 \/ a = 1) by lia. assert (B : b = 0 \/ b = 1) by lia. destruct A as [-> | ->], B as [-> | ->]; cbn.
  - left. exists [], [[0; 1; -3]; [1; 1; 7]; [0; 1; -4]]. split; [reflexivity|]. intros y [H|[H|[H|[]]]]; discriminate H.
  - left. exists [[0; 0; 5]; [0; 1; -3]; [1; 1; 7]], []. split; [reflexivity|]. intros y [].
  - right. split; [|reflexivity]. intros y [H|[H|[H|[H|[]]]]]; discriminate H.
  - left. exists [[0; 0; 5]; [0; 1; -3]], [[0; 1; -4]]. split; [reflexivity|]. intros y [H|[]]; discriminate H.
Qed.
Lemma toy_system_matrix : system_matrix toy_int toy_digit toy_array toy_system toy_matrix 2.
Proof.
  split.
  - split; [reflexivity|]. split; [lia|]. split; [|exists 7; right; right; now left].
    repeat constructor; eexists _, _, _; (split; [reflexivity|split; lia]).
  - exists 1600000000, [116; 111; 121]. split; [|split; [lia|intros [H|[H|[H|[]]]]; discriminate H]].
    rewrite toy_system_file. exact (proj1 C55_nonvacuous).
Qed.

(** Whatever a tokenizer of the toy Dictionary finds for 東京 costs at most 3: the row 東京 has
    the ids 1 1 and the cost 7, the matrix has -4 for 0 1 and nothing for 1 0. *)
Example C75_nonvacuous lat lat' it p :
  P_Config.usable toy_created lat -> M_Tokenizer.run toy_created lat [26481; 20140] ModeC = (lat', Ok (Some (it, p))) ->
  (exists p', snd (M_Tokenizer.run toy_created new_lattice [26481; 20140] ModeC) = Ok (Some p')) /\
  exists p0, incl (map w_begin p) (map w_begin p0) /\ tiles 0 (map to_step p0) 6 /\ source_cost toy_cell 0 (map to_step p0) <= 3.
Proof.
  intros U E. split.
  { destruct (snd (M_Tokenizer.run toy_created new_lattice [26481; 20140] ModeC)) as [[p'|]|] eqn:X; [eauto| |]; vm_compute in X; discriminate X. }
  assert (P : run_prepare toy_created [26481; 20140] = Ok it).
  { destruct (run_inv _ _ _ _ _ _ E) as [([=] & _)|(it' & ? & ? & ? & ? & _ & Ep & _ & _ & _ & _ & [= <- _])]. exact Ep. }
  assert (PB : it_bytes it = [230; 157; 177; 228; 186; 172] /\ can_bow it 0 = Ok true).
  { assert (X : (x <- run_prepare toy_created [26481; 20140] ;; Ok (it_bytes x, can_bow x 0)) = Ok ([230; 157; 177; 228; 186; 172], Ok true)) by (vm_compute; reflexivity). rewrite P in X. cbn [bind] in X. injection X as X Y. auto. }
  destruct PB as (PB & P0). pose proof toy_is_made as MK. unfold toy_make in MK. unfold toy_created in *.
  destruct (C75_cheapest_partial toy_text_file toy_binary_file toy_join toy_absolute (txt "/default") sample_int16 sample_int10 pop_first (fun l => l) (fun x => [x]) (fun t => t) toy_search 10 toy_int toy_digit toy_array
    toy_conf toy_dir toy_made toy_grammar toy_sys_id toy_system toy_users toy_built_from MK toy_interpreter toy_plain toy_files toy_scalar toy_complete toy_matrix 2 toy_cell lat [26481; 20140] lat' it p
    toy_system_matrix toy_cells U) as (p0 & _ & I & T & _ & MIN).
  - repeat constructor.
  - exact E.
  - rewrite PB. cbn. lia.
  - exists p0. split; [exact I|]. rewrite PB in T. split; [exact T|]. change 3 with (source_cost toy_cell 0 [Step 0 6 1 1 7]). apply MIN.
    + rewrite PB. cbn. lia.
    + constructor; [|constructor]. left. split; [|exact P0]. rewrite PB. exists 0%nat, toy_system, (nth 2 toy_rows []). split; [reflexivity|]. split; [right; right; now left|]. split; [|now left].
      exists (nth 2 toy_rows []). split; [repeat constructor|]. split; [discriminate|]. split; [cbn; lia|]. repeat split; vm_compute; reflexivity.
Qed.
