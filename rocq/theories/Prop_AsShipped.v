(** Property C81: with the settings and resource files of the package. *)
From Coq Require Import String Ascii List ZArith Lia Bool Arith Sorting.Sorted Sorting.Permutation.
From Verif Require Import Base Utf8 M_Builder M_CharCategory M_InputText M_InputPlugins M_Lattice M_Oov M_Tokenizer M_NumericParser M_PathRewrite M_Morphemes
  M_Shipped M_Bytes M_DicReader M_DicBuilder M_LexiconSet M_Front M_Resource M_Setup M_Resources S_Text S_Plugins S_Lattice S_Resource
  P_Builder P_InputText P_Accessors P_Lattice P_Tokenizer P_Path P_Config P_Total P_CharCategory P_Bytes P_DicFormat P_DicWrite P_DicOpen P_DicGrammar P_DicSource P_DicLexicon P_DicFile P_DicToy Prop_Format P_LexiconSet P_Resource
  Prop_Text Prop_Tokenizer Prop_Total Prop_CharCategory Prop_Source Prop_Lexicon Prop_Resource Prop_Shipped P_Words P_Setup P_System Prop_System P_Live Prop_Live P_Made Prop_Made P_AsShipped S_Accept P_Accept Prop_Accept P_FileBytes.
Import ListNotations.
Open Scope list_scope.
Open Scope Z_scope.

Section system.
Variable text_file : text -> res text.
Variable binary_file : text -> res bytes.
Variable join : text -> text -> text.
Variable is_absolute : text -> bool.
Variable DEFAULT_RESOURCEDIR : text.
Variable int16 int10 : text -> res Z.
Variable pop : list range -> option (range * list range).
Variable order : list cat -> list cat.
Variable lower : Z -> text.
Variable nfkc : text -> text.
Variable search : bytes -> bytes -> list (Z * nat).
Variable limit : nat.
Variable py_int : text -> res Z.
Variable is_digit : Z -> bool.
Variable trie_array : list (bytes * Z) -> res bytes.
Notation make_dictionary := (make_dictionary text_file binary_file join is_absolute DEFAULT_RESOURCEDIR int16 int10 pop order lower nfkc search limit).
Notation internal_cost := (internal_cost order lower nfkc search limit).
Notation located := (located join is_absolute).
Notation created := (created order lower nfkc search limit).
Notation built_from := (built_from binary_file join is_absolute search limit py_int is_digit trie_array).
Notation plain_resources := (plain_resources text_file join is_absolute int16).
Notation interpreter := (interpreter pop order lower nfkc).
Notation complete := (complete text_file join is_absolute int16 int10 py_int).
Notation construction := (construction text_file binary_file join is_absolute DEFAULT_RESOURCEDIR int16 int10 pop order lower nfkc search limit).

Notation makeable := (makeable text_file binary_file join is_absolute DEFAULT_RESOURCEDIR int16 int10 pop order lower nfkc search limit py_int).


Section one.
Variables (c : conf) (d : text) (g0 : grammar) (sys_id : text -> Z -> text -> res Z) (system : dic) (users : list dic).
Hypothesis BF : built_from c d g0 sys_id system users.

(** The settings are those of the package but for the dictionaries; the resource files are
    those of the package; [int] reads plain numbers. *)
Record as_shipped : Prop := {
  sh_settings : forall key, In key [txt "characterDefinitionFile"; txt "inputTextPlugin"; txt "oovProviderPlugin"; txt "pathRewritePlugin"] -> conf_get c key = conf_get shipped_settings key;
  sh_relative : is_absolute (txt "char.def") = false;
  sh_char_def : text_file (join d (txt "char.def")) = Ok shipped_char_def;
  sh_unk_def : text_file (join d (txt "unk.def")) = Ok shipped_unk_def;
  sh_rewrite_def : text_file (join DEFAULT_RESOURCEDIR (txt "rewrite.def")) = Ok shipped_rewrite_def;
  sh_hex : forall t n, plain_hex t = Ok n -> int16 t = Ok n;
  sh_decimal : forall t n, plain_decimal t = Ok n -> int10 t = Ok n;
}.
(** What the dictionaries need for these settings *)
Record fits_shipped : Prop := {
  (* a word with the part of speech that joined katakana words get *)
  fs_katakana : exists row, In row (dc_rows system) /\ source_pos row [[0x540d; 0x8a5e]; [0x666e; 0x901a; 0x540d; 0x8a5e]; [0x4e00; 0x822c]; txt "*"; txt "*"; txt "*"];
  (* a matrix that has the ids of the unknown words and of the words, and inhibits nothing *)
  fs_size : 5968 < g_lsize g0 /\ 5968 < g_rsize g0;
  fs_ids : forall u row cs l r, In u (system :: users) -> In row (dc_rows u) -> Forall2 (fun c c' => unescape c = Ok c') row cs -> nth 1 cs [] <> txt "-1" ->
     py_int (nth 1 cs []) = Ok l -> py_int (nth 2 cs []) = Ok r -> 0 <= l < g_lsize g0 /\ 0 <= r < g_rsize g0;
  fs_matrix : forall l r, get_connect_cost g0 l r <> Ok 0x7fff;
  (* no word of digits, or of kanji numerals, is normalised to something with a comma or a point *)
  fs_numbers : forall u row cs, In u (system :: users) -> In row (dc_rows u) -> Forall2 (fun c c' => unescape c = Ok c') row cs ->
    Forall decimal_char (nth 0 cs []) \/ Forall (fun ch => In ch kanji_numerals) (nth 0 cs []) ->
    forall ch, In ch (match nth 12 cs [] with [] => nth 4 cs [] | n => n end) -> ch <> 44 /\ ch <> 46;
  fs_users : (length users <= 7)%nat;
  (* a user word whose cost is calculated has a text that can be analysed *)
  fs_costs : forall u row cs, In u users -> In row (dc_rows u) -> Forall2 (fun c c' => unescape c = Ok c') row cs -> py_int (nth 3 cs []) = Ok (-32768) ->
    nth 4 cs [] <> [] /\ scalar_text (nth 4 cs []) /\
    forall m it, make_dictionary (without_users c) d = Ok m -> run_prepare (created m) (nth 4 cs []) = Ok it -> Z.of_nat (length (it_bytes it)) <= 32766;
}.

Hypothesis SH : as_shipped.
Hypothesis FI : fits_shipped.

Lemma sh_input : conf_get c (txt "inputTextPlugin") = conf_get shipped_settings (txt "inputTextPlugin").
Proof. apply (sh_settings SH). right. now left. Qed.
Lemma sh_oov : conf_get c (txt "oovProviderPlugin") = conf_get shipped_settings (txt "oovProviderPlugin").
Proof. apply (sh_settings SH). right. right. now left. Qed.
Lemma sh_path : conf_get c (txt "pathRewritePlugin") = conf_get shipped_settings (txt "pathRewritePlugin").
Proof. apply (sh_settings SH). right. right. right. now left. Qed.
Lemma sh_chars : conf_get c CHAR_DEF_KEY = Some (JStr (txt "char.def")).
Proof. change CHAR_DEF_KEY with (txt "characterDefinitionFile"). rewrite (sh_settings SH); [reflexivity|now left]. Qed.
Lemma sh_located : text_file (located d (txt "char.def")) = Ok shipped_char_def.
Proof. unfold P_Setup.located. rewrite (sh_relative SH). apply (sh_char_def SH). Qed.
Lemma ranges_known rs : char_def_ranges text_file join is_absolute int16 c d rs -> map range_of rs = shipped_ranges.
Proof.
  intros (p & f & ls & E1 & E2 & FO & CD). rewrite sh_chars in E1. injection E1 as <-. rewrite sh_located in E2. apply ok_inj in E2. subst f. exact (ranges_are int16 (sh_hex SH) ls rs FO CD).
Qed.
Lemma category_known rs ch x : char_def_ranges text_file join is_absolute int16 c d rs -> category_in rs ch x -> exists r, In r shipped_ranges /\ r_low r <= ch < r_high r /\ In x (r_cats r).
Proof.
  intros C (low & high & cs & Hr & Hch & Hx). exists (Range low (high + 1) cs). split; [exact (in_range _ _ _ _ (ranges_known _ C) Hr)|]. cbn [r_low r_high r_cats]. split; [lia|exact Hx].
Qed.
Lemma digits_known rs ch x : char_def_ranges text_file join is_absolute int16 c d rs -> In x [NUMERIC; KANJINUMERIC] -> category_in rs ch x -> match x with NUMERIC => decimal_char ch | _ => In ch kanji_numerals end.
Proof.
  intros C Hx H. destruct (category_known _ _ _ C H) as (r & Hr & Hch & Hc). destruct Hx as [<-|[<-|[]]]; [exact (numeric_chars _ _ Hr Hch Hc)|exact (kanji_chars _ _ Hr Hch Hc)].
Qed.

Lemma shipped_plain : plain_resources c d.
Proof.
  constructor.
  - destruct (file_of_exists shipped_char_def) as (ls & F). destruct (ranges_exist int16 (sh_hex SH) ls F) as (rs & D & E).
    exists (txt "char.def"), shipped_char_def, ls, rs. split; [exact sh_chars|]. split; [exact sh_located|]. split; [exact F|]. split; [exact D|].
    apply Forall_forall. intros ((low, high), cs) H N. cbn [snd] in N. subst cs. pose proof (in_range _ _ _ _ E H) as X.
    pose proof nonempty_ok as K. rewrite forallb_forall in K. specialize (K _ X). discriminate K.
  - intros o v (objs & E & H & C) S. rewrite sh_input in E. vm_compute in E. injection E as <-. destruct H as [[= <-]|[[= <-]|[]]]; vm_compute in C; [discriminate C|]. vm_compute in S. injection S as <-. eexists. reflexivity.
Qed.
Lemma provider_mecab o : plugin c "oovProviderPlugin" "sudachipy.plugin.oov.MeCabOovProviderPlugin" o -> conf_get o (txt "charDef") = Some (JStr (txt "char.def")) /\ conf_get o (txt "unkDef") = Some (JStr (txt "unk.def")).
Proof.
  intros (objs & E & H & C). rewrite sh_oov in E. vm_compute in E. injection E as <-. destruct H as [[= <-]|[[= <-]|[]]]; vm_compute in C; [|discriminate C]. split; reflexivity.
Qed.
Lemma provider_simple o : plugin c "oovProviderPlugin" "sudachipy.plugin.oov.SimpleOovProviderPlugin" o ->
  conf_get o (txt "leftId") = Some (JNum 5968) /\ conf_get o (txt "rightId") = Some (JNum 5968) /\ conf_get o (txt "cost") = Some (JNum 3857).
Proof.
  intros (objs & E & H & C). rewrite sh_oov in E. vm_compute in E. injection E as <-. destruct H as [[= <-]|[[= <-]|[]]]; vm_compute in C; [discriminate C|]. repeat split; reflexivity.
Qed.
Lemma unknowns_known p f ls us u o : plugin c "oovProviderPlugin" "sudachipy.plugin.oov.MeCabOovProviderPlugin" o -> conf_get o (txt "unkDef") = Some (JStr p) ->
  text_file (join d p) = Ok f -> file_of ls f -> unknown_file (fun t n => int10 t = Ok n) ls us -> In u us -> -32768 <= u_cost u <= 32767 /\ 0 <= u_left u <= 5968 /\ 0 <= u_right u <= 5968.
Proof.
  intros P E1 E2 F U H. destruct (provider_mecab _ P) as (_ & X). rewrite X in E1. injection E1 as <-. rewrite (sh_unk_def SH) in E2. apply ok_inj in E2. subst f.
  exact (unknown_range _ _ (unknowns_are int10 (sh_decimal SH) _ _ F U) H).
Qed.

Lemma shipped_complete : complete c d g0 system users.
Proof.
  split; [constructor|exact (fs_matrix FI)].
  - eexists [_], _. split; [rewrite sh_oov; reflexivity|reflexivity].
  - intros o v P E. destruct (provider_simple _ P) as (_ & _ & X). rewrite X in E. injection E as <-. lia.
  - intros o p f ls us u P E1 E2 F U H. apply (unknowns_known p f ls us u o P E1 E2 F U H).
  - intros o p f ls ps q P E1 E2 F U H. destruct (provider_mecab _ P) as (X & _). rewrite X in E1. injection E1 as <-. rewrite (sh_char_def SH) in E2. apply ok_inj in E2. subst f.
    exact (group_all _ _ (properties_are int10 (sh_decimal SH) _ _ F U) H).
  - intros rs ch a x C Ha H1 H2. destruct (category_known _ _ _ C H1) as (r & Hr & Cr & Hc). destruct (category_known _ _ _ C H2) as (r' & Hr' & Cr' & Hc'). exact (alone r r' ch a x Hr Hr' Cr Cr' Ha Hc Hc').
  - intros rs ch x C Hx H. apply not_point. pose proof (digits_known _ _ _ C Hx H) as X. destruct Hx as [<-|[<-|[]]]; auto.
  - intros rs u row cs x C Hx Hu Hr Fc Hd. apply (fs_numbers FI u row cs Hu Hr Fc).
    destruct Hx as [<-|[<-|[]]]; [left|right]; (eapply Forall_impl; [|exact Hd]); intros ch H.
    + exact (digits_known rs ch NUMERIC C (or_introl eq_refl) H).
    + exact (digits_known rs ch KANJINUMERIC C (or_intror (or_introl eq_refl)) H).
  - intros objs o E H. rewrite sh_path in E. vm_compute in E. injection E as <-. destruct H as [[= <-]|[]]. vm_compute. discriminate.
  - pose proof (fs_size FI). lia.
  - split; [exact (fs_ids FI)|]. intros l r k H. pose proof (fs_size FI) as S. destruct H as [(o & a & b & e & P & E1 & E2 & E3 & I1 & I2 & I3)|(o & p & f & ls & us & u & P & E1 & E2 & F & U & H & A & B & K)].
    + destruct (provider_simple _ P) as (X1 & X2 & X3). rewrite X1 in E1. rewrite X2 in E2. injection E1 as <-. injection E2 as <-.
      destruct I1 as [[= <-]|[([=] & _)|([=] & _)]]. destruct I2 as [[= <-]|[([=] & _)|([=] & _)]]. lia.
    + pose proof (unknowns_known _ _ _ _ _ _ P E1 E2 F U H). lia.
  - exact (fs_users FI).
  - intros o t (objs & E & H & C) S. rewrite sh_input in E. vm_compute in E. injection E as <-. destruct H as [[= <-]|[[= <-]|[]]]; vm_compute in C; [discriminate C|]. vm_compute in S. injection S as <-. repeat constructor.
Qed.

Lemma shipped_makeable : makeable c d system users.
Proof.
  destruct (file_of_exists shipped_char_def) as (ls & F). destruct (file_of_exists shipped_unk_def) as (uls & FU). destruct (file_of_exists shipped_rewrite_def) as (rls & FR).
  constructor.
  - destruct (ranges_exist int16 (sh_hex SH) ls F) as (rs & D & E). exists rs. split; [exists (txt "char.def"), shipped_char_def, ls; split; [exact sh_chars|]; split; [exact sh_located|auto]|]. intros ->. discriminate E.
  - right. eexists [_; _]. split; [rewrite sh_input; reflexivity|]. constructor; [|constructor; [|constructor]].
    + left. split; [reflexivity|]. destruct (rewrite_exists rls FR) as (kept & replaced & R). exists shipped_rewrite_def, rls, kept, replaced. split; [exact (sh_rewrite_def SH)|auto].
    + right. split; [reflexivity|]. split; [right; exists [0x30fc; 45; 0x2053; 0x301c; 0x3030]; reflexivity|right; eexists; reflexivity].
  - right. eexists [_; _]. split; [rewrite sh_oov; reflexivity|]. constructor; [|constructor; [|constructor]].
    + left. split; [reflexivity|]. destruct (set_up_exists int10 (sh_decimal SH) ls uls F FU) as (ps & us & HP & HU & D).
      exists (txt "char.def"), (txt "unk.def"), shipped_char_def, shipped_unk_def, ls, ps, uls, us. split; [reflexivity|]. split; [reflexivity|]. split; [exact (sh_char_def SH)|]. split; [exact (sh_unk_def SH)|]. auto.
    + right. split; [reflexivity|]. eexists _, _, _, _. repeat split; reflexivity.
  - right. eexists [_; _]. split; [rewrite sh_path; reflexivity|]. constructor; [|constructor; [|constructor]].
    + left. reflexivity.
    + right. split; [reflexivity|]. split; [|right; eexists; reflexivity]. destruct (fs_katakana FI) as (row & Hr & SP). eexists. split; [reflexivity|]. eexists _, row. split; [|split; [exact Hr|exact SP]]. reflexivity.
  - exact (fs_costs FI).
Qed.

(** ** C81 *)
(** With the settings and the resource files of the package and dictionaries that fit them, a
    Dictionary is made and analyses every text (up to 32766 bytes once normalised). *)
Theorem C81_as_shipped_partial :
  interpreter -> file_system text_file binary_file -> scalar_interpreter lower nfkc ->
  exists m, make_dictionary c d = Ok m /\
    forall lat t md, P_Config.usable (created m) lat -> scalar_text t -> t <> [] ->
      exists it, run_prepare (created m) t = Ok it /\
        (Z.of_nat (length (it_bytes it)) <= 32766 ->
         exists lat' r, M_Tokenizer.run (created m) lat t md = (lat', Ok r) /\ P_Config.usable (created m) lat' /\ (0 < ml_len (morphemes_of r))%nat).
Proof.
  intros IN FS SI. exact (C80_makes_partial text_file binary_file join is_absolute DEFAULT_RESOURCEDIR int16 int10 pop order lower nfkc search limit py_int is_digit trie_array
    c d g0 sys_id system users BF IN shipped_plain FS SI shipped_complete shipped_makeable).
Qed.
End one.
End system.
Print Assumptions C81_as_shipped_partial.

(** ** The hypotheses are met: a dictionary with one word and a matrix for the ids of the
    package, made by the builder *)
Definition noun : list text := [[0x540d; 0x8a5e]; [0x666e; 0x901a; 0x540d; 0x8a5e]; [0x4e00; 0x822c]; txt "*"; txt "*"; txt "*"].
Definition one_rows : list (list text) := [toy_row [26481] [55] noun [1] [26481] star star star].
Definition one_matrix : matrix_source := MatrixSource [5969; 5969] [[5968; 5968; 7]].
Definition one_source : source := match build_lexicon SystemDic toy_int new_source one_rows with Ok s => s | Err _ => new_source end.
Definition one_conf : conf := (DICT_PATH_KEY, JStr (txt "system.dic")) :: tl shipped_settings.
Definition one_text_file (p : text) : res text :=
  if teqb p (txt "/res/char.def") then Ok shipped_char_def else if teqb p (txt "/res/unk.def") then Ok shipped_unk_def
  else if teqb p (txt "/default/rewrite.def") then Ok shipped_rewrite_def else Err EIO.
Definition one_binary_file (f : bytes) (p : text) : res bytes := if teqb p (txt "/res/system.dic") then Ok f else Err EIO.

Lemma one_file : exists f, build_command SystemDic toy_int toy_digit toy_array 1600000000 [116; 111; 121] one_rows (Some one_matrix) = Ok f.
Proof.
  assert (S : forall t, forallb is_scalar t = true -> scalar_text t). { intros t H. unfold scalar_text. apply Forall_forall. apply forallb_forall. exact H. }
  assert (M : good_matrix 5969 5969 one_matrix).
  { split; [reflexivity|]. split; [lia|]. split; [lia|]. constructor; [|constructor]. eexists _, _, _. split; [reflexivity|]. unfold in_short. lia. }
  apply (C82_accepts SystemDic toy_int toy_digit toy_array 1600000000 [116; 111; 121] one_rows (Some one_matrix) one_rows [noun] 20 (5969 * 5969) [116; 111; 121]); try reflexivity.
  - lia.
  - cbn; lia.
  - apply plain_rows. vm_compute. reflexivity.
  - constructor.
    + constructor; [|constructor]. constructor.
      * cbn; lia.
      * split; [discriminate|]. eexists. split; [vm_compute; reflexivity|vm_compute; discriminate].
      * repeat (constructor; try (eexists; split; [vm_compute; reflexivity|vm_compute; split; congruence])).
      * repeat (constructor; try (split; [apply S; vm_compute; reflexivity|vm_compute; discriminate])).
      * repeat (constructor; try (split; [apply S; vm_compute; reflexivity|split; [vm_compute; discriminate|]]; vm_compute; intuition discriminate)).
      * left. reflexivity.
      * discriminate.
      * repeat (constructor; try (left; reflexivity)).
      * left. reflexivity.
    + constructor; [left; reflexivity|constructor].
    + vm_compute. discriminate.
    + intros h. cbn [one_rows filter]. destruct (same_headword h _); cbn; lia.
  - exists 5969, 5969. split; [exact M|reflexivity].
  - intros kvs N _ F. destruct (toy_total [[230; 157; 177]] 5 ltac:(repeat constructor; cbn; lia) ltac:(lia) kvs N) as (a & Ea & La).
    + eapply Forall_impl; [|exact F]. intros kv ((cs & H & NH & E) & V). split; [|change (length one_rows) with 1%nat in V; lia].
      destruct H as [<-|[]]. assert (X : Ok [230; 157; 177] = Ok (fst kv)) by exact E. apply ok_inj in X. rewrite <- X. now left.
    + exists a. split; [exact Ea|]. cbn in La. lia.
Qed.

Lemma toy_bytes kvs a : Forall (fun kv => all_bytes (fst kv)) kvs -> toy_array kvs = Ok a -> all_bytes a.
Proof.
  intros F E. unfold toy_array in E. match type of E with (if ?b then _ else _) = _ => destruct b eqn:B; [|discriminate E] end. cbv zeta in E. match type of E with Ok ?x = Ok _ => assert (a = x) as -> by congruence end. clear E.
  apply ab_app; [|generalize (4 - length (toy_items kvs) mod 4)%nat; induction n; constructor; [lia|auto]].
  induction F as [|(b, v) kvs Hb F IH]; [constructor|]. cbn [forallb fst snd] in B. rewrite !andb_true_iff in B. rewrite Z.leb_le, !Z.ltb_lt in B. destruct B as ((B1 & B2) & B). cbn [toy_items].
  constructor; [lia|]. constructor; [lia|]. apply ab_app; [exact Hb|auto].
Qed.

Lemma one_cells g : matrix_of g 5969 one_matrix -> forall l r, get_connect_cost g l r <> Ok 0x7fff.
Proof.
  intros (L & R & C) l r. 
  assert (V : forall i k, view_index 5969 i = Some k -> (0 <= Z.of_nat k < 5969) /\ view_index 5969 (Z.of_nat k) = Some k).
  { intros i k H. unfold view_index in H. cbv zeta in H. destruct ((0 <=? _) && _) eqn:X in H; [|discriminate]. apply andb_true_iff in X as [X1 X2]. apply Z.leb_le in X1. apply Z.ltb_lt in X2.
    assert (K : k = Z.to_nat (if i <? 0 then i + 5969 else i)) by congruence. assert (B : 0 <= Z.of_nat k < 5969) by lia. split; [exact B|].
    unfold view_index. cbv zeta. replace (Z.of_nat k <? 0) with false by (symmetry; apply Z.ltb_ge; lia). replace ((0 <=? Z.of_nat k) && (Z.of_nat k <? 5969)) with true by (symmetry; apply andb_true_iff; split; [apply Z.leb_le|apply Z.ltb_lt]; lia).
    now rewrite Nat2Z.id. }
  destruct (view_index 5969 r) as [i|] eqn:Ei; [|unfold get_connect_cost; rewrite L, R, Ei; discriminate].
  destruct (view_index 5969 l) as [j|] eqn:Ej; [|unfold get_connect_cost; rewrite L, R, Ei, Ej; discriminate].
  destruct (V _ _ Ei) as (Bi & Vi). destruct (V _ _ Ej) as (Bj & Vj).
  assert (E : get_connect_cost g l r = get_connect_cost g (Z.of_nat j) (Z.of_nat i)) by (unfold get_connect_cost; rewrite L, R, Ei, Ej, Vi, Vj; reflexivity).
  rewrite E. destruct (C (Z.of_nat j) (Z.of_nat i) Bj Bi) as (C1 & C2). cbn [one_matrix ms_lines] in C1, C2.
  destruct (Z.eq_dec (Z.of_nat j) 5968) as [Xj|Xj]; [destruct (Z.eq_dec (Z.of_nat i) 5968) as [Xi|Xi]|].
  - rewrite (C1 7); [discriminate|]. exists [], []. rewrite Xi, Xj. split; [reflexivity|auto].
  - rewrite C2; [discriminate|]. intros c [X|[]]. congruence.
  - rewrite C2; [discriminate|]. intros c [X|[]]. congruence.
Qed.

Example C81_nonvacuous : exists f g0, let system := Dic one_rows f one_source in
  built_from (one_binary_file f) toy_join toy_absolute toy_search 10 toy_int toy_digit toy_array one_conf toy_dir g0 (fun _ _ _ => Err EKey) system [] /\
  as_shipped one_text_file toy_join toy_absolute (txt "/default") plain_hex plain_decimal one_conf toy_dir /\
  fits_shipped one_text_file (one_binary_file f) toy_join toy_absolute (txt "/default") plain_hex plain_decimal pop_first (fun l => l) (fun x => [x]) (fun t => t) toy_search 10 toy_int one_conf toy_dir g0 system [] /\
  interpreter pop_first (fun l => l) (fun x => [x]) (fun t => t) /\ file_system one_text_file (one_binary_file f) /\ scalar_interpreter (fun x => [x]) (fun t => t) /\
  exists m, make_dictionary one_text_file (one_binary_file f) toy_join toy_absolute (txt "/default") plain_hex plain_decimal pop_first (fun l => l) (fun x => [x]) (fun t => t) toy_search 10 one_conf toy_dir = Ok m.
Proof.
  destruct one_file as (f & Ef). exists f.
  assert (Es : build_lexicon SystemDic toy_int new_source one_rows = Ok one_source) by (vm_compute; reflexivity).
  assert (RP : Forall readable_pos (s_table one_source)) by (vm_compute s_table; repeat constructor; vm_compute; (reflexivity || lia || discriminate)).
  assert (HM : has_matrix 5969 one_matrix).
  { split; [reflexivity|]. split; [lia|]. split; [constructor; [|constructor]; eexists _, _, _; split; [reflexivity|]; lia|]. exists 7. now left. }
  destruct (build_command_ok SystemDic toy_int toy_digit toy_search toy_array toy_contract _ _ _ _ _ Ef ltac:(lia) ltac:(cbn; lia)) as (s & Hs & G).
  rewrite Es in Hs. apply ok_inj in Hs. subst s.
  destruct (G RP) as (dict & g & Er & Eh & Eg & _ & _ & MX & _ & _); [intros m [= <-]; eauto|]. specialize (MX one_matrix 5969 eq_refl HM).
  assert (FS : file_system one_text_file (one_binary_file f)).
  { constructor.
    - intros p t H. assert (S : forallb (forallb is_scalar) [shipped_char_def; shipped_unk_def; shipped_rewrite_def] = true) by (vm_compute; reflexivity). rewrite forallb_forall in S.
      assert (S' : forall t, In t [shipped_char_def; shipped_unk_def; shipped_rewrite_def] -> scalar_text t). { intros t' Ht. apply Forall_forall. apply forallb_forall. exact (S t' Ht). }
      unfold one_text_file in H. destruct (teqb p _); [apply ok_inj in H; subst t; apply S'; now left|]. destruct (teqb p _); [apply ok_inj in H; subst t; apply S'; right; now left|].
      destruct (teqb p _); [apply ok_inj in H; subst t; apply S'; right; right; now left|discriminate].
    - intros p b H. unfold one_binary_file in H. destruct (teqb p _); [|discriminate]. apply ok_inj in H. subst b. exact (built_bytes _ _ _ _ _ _ _ _ _ toy_bytes Ef). }
  exists g. cbv zeta.
  assert (BF : built_from (one_binary_file f) toy_join toy_absolute toy_search 10 toy_int toy_digit toy_array one_conf toy_dir g (fun _ _ _ => Err EKey) (Dic one_rows f one_source) []).
  { constructor.
    - exact toy_contract.
    - exists (txt "system.dic"). split; reflexivity.
    - exists 1600000000, [116; 111; 121], (Some one_matrix). cbn [dc_rows dc_file dc_source]. split; [exact Ef|]. split; [lia|]. split; [cbn; lia|]. split; [exact Es|]. split; [exact RP|].
      split; [intros m [= <-]; eauto|]. split; [vm_compute s_entries; repeat constructor; vm_compute; (reflexivity || discriminate)|]. vm_compute. discriminate.
    - exists dict. cbn [dc_file]. split; [|exact Eg]. unfold from_system_dictionary. rewrite Er. cbn [bind]. rewrite Eh. reflexivity.
    - exists []. split; [left; split; reflexivity|constructor].
    - constructor.
    - intros h p r id [=].
    - intros u i [<-|[]] Hi. cbn [dc_source] in *. assert (i = 0%nat) as -> by (change (length (s_entries one_source)) with 1%nat in Hi; lia). exists 1%nat. split; [lia|].
      eapply CE_end; [vm_compute; reflexivity|]. left. vm_compute. reflexivity. }
  assert (SH : as_shipped one_text_file toy_join toy_absolute (txt "/default") plain_hex plain_decimal one_conf toy_dir).
  { constructor; try reflexivity; auto. intros key H. destruct H as [<-|[<-|[<-|[<-|[]]]]]; reflexivity. }
  assert (UN : Forall2 (Forall2 (fun c c' => unescape c = Ok c')) one_rows one_rows) by (apply plain_rows; vm_compute; reflexivity).
  assert (SAME : forall row cs, In row one_rows -> Forall2 (fun c c' => unescape c = Ok c') row cs -> cs = nth 0 one_rows []).
  { intros row cs [<-|[]] F. inversion UN as [|x y l1 l2 X Y]; subst. clear - X F. change (nth 0 one_rows []) with (toy_row [26481] [55] noun [1] [26481] star star star).
    revert X F. generalize (toy_row [26481] [55] noun [1] [26481] star star star) at 1 3. generalize (toy_row [26481] [55] noun [1] [26481] star star star).
    intros l l' X. revert cs. induction X as [|x y l1 l2 E X IH]; intros cs F; inversion F; subst; [reflexivity|]. f_equal; [congruence|auto]. }
  assert (FI : fits_shipped one_text_file (one_binary_file f) toy_join toy_absolute (txt "/default") plain_hex plain_decimal pop_first (fun l => l) (fun x => [x]) (fun t => t) toy_search 10 toy_int one_conf toy_dir g (Dic one_rows f one_source) []).
  { constructor.
    - eexists. split; [left; reflexivity|]. eexists. split; [inversion UN as [|x y l1 l2 X Y]; exact X|reflexivity].
    - destruct MX as (A & B & _). lia.
    - intros u row cs l r [<-|[]] Hr F _ El Err. rewrite (SAME _ _ Hr F) in El, Err. assert (X : Ok 1 = Ok l) by exact El. assert (Y : Ok 1 = Ok r) by exact Err. apply ok_inj in X, Y. destruct MX as (A & B & _). lia.
    - exact (one_cells g MX).
    - intros u row cs [<-|[]] Hr F D. rewrite (SAME _ _ Hr F) in D |- *. intros ch [<-|[]]. lia.
    - cbn. lia.
    - intros u row cs []. }
  split; [exact BF|]. split; [exact SH|]. split; [exact FI|]. split; [exact toy_interpreter|]. split; [exact FS|]. split; [exact toy_scalar|].
  destruct (C81_as_shipped_partial one_text_file (one_binary_file f) toy_join toy_absolute (txt "/default") plain_hex plain_decimal pop_first (fun l => l) (fun x => [x]) (fun t => t) toy_search 10 toy_int toy_digit toy_array
    one_conf toy_dir g _ _ [] BF SH FI toy_interpreter FS toy_scalar) as (m & Em & _). exists m. exact Em.
Qed.
