(** The unit tests of the repository that analyse texts, computed on the model: the
    dictionaries are built with the modelled commands from the files of tests/resources as
    in scripts/test.sh, a Dictionary is made from tests/resources/sudachi.json, and the
    expectations of the tests are compared with what the modelled Tokenizer gives.  The
    checks are computed when this file is compiled and not kept. *)
From Coq Require Import String Ascii.
From Coq Require Import List ZArith Bool Arith.
From Verif Require Import Base Utf8 M_Builder M_InputText M_InputPlugins M_CharCategory M_Lattice M_Tokenizer M_Morphemes M_PathRewrite M_Bytes M_DicReader M_DicBuilder M_LexiconSet
  M_Shipped M_Front M_Resource M_Setup M_Command M_Resources S_Resource Prop_Resource Prop_CharCategory P_DicLexicon P_DicToy T_Files.
Import ListNotations.
Open Scope Z_scope.

(** ** What the model leaves open *)
(** An index in place of the double array: the keys with 2 bytes of length and 4 of value *)
Fixpoint items (kvs : list (bytes * Z)) : bytes :=
  match kvs with [] => [] | (key, v) :: r => le 2 (Z.of_nat (length key)) ++ le 4 v ++ key ++ items r end.
Definition array (kvs : list (bytes * Z)) : res bytes := let b := items kvs in Ok (b ++ repeat 255 (4 - length b mod 4)).
Fixpoint read_items (n : nat) (b : bytes) : list (bytes * Z) :=
  match n, b with
  | S n', l0 :: l1 :: v0 :: v1 :: v2 :: v3 :: r =>
    let l := l0 + 256 * l1 in
    if l =? 65535 then [] else (firstn (Z.to_nat l) r, v0 + 256 * (v1 + 256 * (v2 + 256 * v3))) :: read_items n' (skipn (Z.to_nat l) r)
  | _, _ => []
  end.
Definition search (arr key : bytes) : list (Z * nat) :=
  map (fun kv => (snd kv, length (fst kv))) (filter (fun kv => is_prefix (fst kv) key) (read_items (length arr) arr)).
(** str.lower and NFKC as far as the tests need them *)
Definition lower (c : Z) : text := if (65 <=? c) && (c <=? 90) then [c + 32] else [c].
Definition nfkc (t : text) : text := flat_map (fun c => if c =? 8230 then [46; 46; 46] else [c]) t.
Definition join (a b : text) : text := a ++ [47] ++ b.
Definition is_absolute (p : text) : bool := match p with 47 :: _ => true | _ => false end.
Definition limit : nat := 900.
(** Text in this file is UTF-8 *)
Definition u (s : string) : text := file_text s.

(** ** scripts/test.sh:15-17 *)
Definition disk0 : disk := fun p =>
  if teqb p (u "resources/dict/lex.csv") then Some test_lex_csv else if teqb p (u "resources/dict/matrix.def") then Some test_matrix_def
  else if teqb p (u "resources/dict/user.csv") then Some test_user_csv else if teqb p (u "resources/dict/user2.csv") then Some test_user2_csv
  else if teqb p (u "resources/char.def") then Some test_char_def else if teqb p (u "resources/joinnumeric/char.def") then Some numeric_char_def
  else None.
Definition built1 := Eval vm_compute in
  (let '(d, o) := command_build toy_int toy_digit array decode disk0 (u "resources/system.dic") (u "resources/dict/matrix.def") [u "resources/dict/lex.csv"] 1600000000 (u "the system dictionary for the unit tests") in
   (d (u "resources/system.dic"), o)).
Definition system_dic : bytes := match fst built1 with Some b => b | None => [] end.
Definition disk1 := put_file disk0 (u "resources/system.dic") system_dic.
Definition built2 := Eval vm_compute in
  (let '(d, o) := command_user_build toy_int toy_digit array search limit disk1 (Err EIO) (Some (u "resources/system.dic")) (u "resources/user.dic") [u "resources/dict/user.csv"] 1600000000 [] in
   (d (u "resources/user.dic"), o)).
Definition user_dic : bytes := match fst built2 with Some b => b | None => [] end.
Definition disk2 := put_file disk1 (u "resources/user.dic") user_dic.
Definition both_done := eq_refl : (snd built1, snd built2) = (Done, Done).
Definition binary_file (p : text) : res bytes := match disk2 p with Some b => Ok b | None => Err EIO end.
Definition text_file (p : text) : res text :=
  if teqb p (u "package/rewrite.def") then Ok shipped_rewrite_def else b <- binary_file p ;; decode b.

(** ** The Dictionary of the tests *)
Definition make (c : conf) : res made :=
  make_dictionary text_file binary_file join is_absolute (u "package") sample_int16 sample_int10 pop_first (fun l => l) lower nfkc search limit c (u "resources").
Definition nothing : made := Made (DictSet (Grammar [] 0 0 [] 0) (LexSet [] [])) [] [] [] [].
Definition dict_ : made := Eval vm_compute in match make test_settings with Ok m => m | Err _ => nothing end.

(** ** tests/test_dictionary.py:34-40 *)
Definition first_pos (m : made) (i : nat) : res text := p <- get (g_pos (ds_grammar (md_set m))) i ;; get p 0.
Succeed Definition t_dictionary : (length (g_pos (ds_grammar (md_set dict_))), first_pos dict_ 0) = (9%nat, Ok (u "助動詞")) := ltac:(vm_compute; reflexivity).

(** ** tests/test_tokenizer.py *)
Definition settings_of (m : made) := md_settings (fun l => l) lower nfkc search limit m.
Definition tokenize (m : made) (t : text) (md : mode) : res morphemes :=
  r <- snd (M_Tokenizer.run (created (fun l => l) lower nfkc search limit m) new_lattice t md) ;; Ok (morphemes_of r).
Definition ms (s : string) : res morphemes := tokenize dict_ (u s) ModeC.
Definition size (l : res morphemes) : res nat := l <- l ;; Ok (ml_len l).
(** [l[i].f()] *)
Definition at_ {A} (l : res morphemes) (i : Z) (f : morphemes -> nat -> res A) : res A := l <- l ;; i <- ml_getitem l i ;; f l i.
Definition info (l : morphemes) (i : nat) : res word_info := ml_word_info (s_lexinfo (settings_of dict_)) l i.
Definition part_of_speech_id (l : morphemes) (i : nat) : res Z := wi <- info l i ;; Ok (wi_pos wi).
Definition part_of_speech (l : morphemes) (i : nat) : res (list text) := ml_part_of_speech (fun l => l) lower nfkc search limit dict_ l i.
Definition normalized_form (l : morphemes) (i : nat) : res text := wi <- info l i ;; Ok (wi_norm wi).
Definition synonym_group_ids (l : morphemes) (i : nat) : res (list Z) := wi <- info l i ;; Ok (wi_syn wi).
Definition split (md : mode) (l : morphemes) (i : nat) : res morphemes := ml_split (s_lexinfo (settings_of dict_)) l md i.

(* lines 28-30 *)
Succeed Definition t_small_katakana_only : size (ms "ァ") = Ok 1%nat := ltac:(vm_compute; reflexivity).
(* lines 32-39 *)
Succeed Definition t_part_of_speech :
  (size (ms "京都"), (i <- at_ (ms "京都") 0 part_of_speech_id ;; Ok (i <? 9)),
   (i <- at_ (ms "京都") 0 part_of_speech_id ;; get (g_pos (ds_grammar (md_set dict_))) (Z.to_nat i))) =
  (Ok 1%nat, Ok true, at_ (ms "京都") 0 part_of_speech) := ltac:(vm_compute; reflexivity).
(* lines 41-53 *)
Succeed Definition t_get_word_id :
  (size (ms "京都"), at_ (ms "京都") 0 part_of_speech, size (ms "ぴらる"),
   (a <- at_ (ms "京都") 0 ml_word_id ;; b <- at_ (ms "ぴらる") 0 ml_word_id ;; Ok (a =? b)), at_ (ms "ぴらる") 0 part_of_speech, size (ms "京")) =
  (Ok 1%nat, Ok [u "名詞"; u "固有名詞"; u "地名"; u "一般"; u "*"; u "*"], Ok 1%nat, Ok false, Ok [u "名詞"; u "普通名詞"; u "一般"; u "*"; u "*"; u "*"], Ok 1%nat) := ltac:(vm_compute; reflexivity).
(* lines 55-66 *)
Succeed Definition t_get_dictionary_id :
  (size (ms "京都"), at_ (ms "京都") 0 ml_dictionary_id, size (ms "ぴらる"), at_ (ms "ぴらる") 0 ml_dictionary_id, size (ms "京"),
   (i <- at_ (ms "京") 0 ml_dictionary_id ;; Ok (i <? 0))) = (Ok 1%nat, Ok 0, Ok 1%nat, Ok 1, Ok 1%nat, Ok true) := ltac:(vm_compute; reflexivity).
(* lines 68-79 *)
Succeed Definition t_get_synonym_group_ids :
  (size (ms "京都"), at_ (ms "京都") 0 synonym_group_ids, size (ms "ぴらる"), at_ (ms "ぴらる") 0 synonym_group_ids, size (ms "東京府"), at_ (ms "東京府") 0 synonym_group_ids) =
  (Ok 1%nat, Ok [1; 5], Ok 1%nat, Ok [], Ok 1%nat, Ok [1; 3]) := ltac:(vm_compute; reflexivity).
(* lines 81-84 *)
Succeed Definition t_kanji_alphabet_word : (size (ms "特a"), size (ms "ab"), size (ms "特ab")) = (Ok 1%nat, Ok 1%nat, Ok 2%nat) := ltac:(vm_compute; reflexivity).
(* lines 86-94 *)
Succeed Definition t_with_dots :
  (size (ms "京都…"), map (fun i => at_ (ms "京都…") i ml_surface) [1; 2; 3], map (fun i => at_ (ms "京都…") i normalized_form) [1; 2; 3]) =
  (Ok 4%nat, [Ok (u "…"); Ok []; Ok []], [Ok (u "."); Ok (u "."); Ok (u ".")]) := ltac:(vm_compute; reflexivity).
(* lines 96-105 *)
Definition halves : res morphemes := at_ (ms "東京都") 0 (split ModeA).
Succeed Definition t_morpheme_split :
  (size (ms "東京都"), at_ (ms "東京都") 0 ml_surface, size halves, at_ halves 0 ml_surface, at_ halves 1 ml_surface) =
  (Ok 1%nat, Ok (u "東京都"), Ok 2%nat, Ok (u "東京"), Ok (u "都")) := ltac:(vm_compute; reflexivity).
(* lines 107-119 *)
Succeed Definition t_morpheme_list_range :
  (let l := tokenize dict_ (u "東京都") ModeA in (size l, map (fun i => at_ l i ml_surface) [0; 1; -1; -2; 2; -3])) =
  (Ok 2%nat, [Ok (u "東京"); Ok (u "都"); Ok (u "都"); Ok (u "東京"); Err EIndex; Err EIndex]) := ltac:(vm_compute; reflexivity).

(** ** tests/plugin/test_join_katakana_oov_plugin.py: get_path, lines 78-84, uses no input
    plugin and the one rewriter *)
Definition path_of (m : made) (r : rewriter) (s : string) : res morphemes :=
  tokenize (Made (md_set m) (md_table m) [] (md_providers m) [r]) (u s) ModeC.
Definition kata (n : Z) (s : string) : res morphemes := path_of dict_ (JoinKatakana (KatakanaCfg 0 n)) s.
Definition surface (l : morphemes) (i : nat) : res text := wi <- info l i ;; Ok (wi_surface wi).
(* lines 32-48 *)
Succeed Definition t_katakana_length : map (fun n => size (kata n "アイアイウ")) [0; 1; 2; 3] = [Ok 2%nat; Ok 2%nat; Ok 2%nat; Ok 1%nat] := ltac:(vm_compute; reflexivity).
(* lines 50-57 *)
Succeed Definition t_pos :
  (size (kata 3 "アイアイウ"), at_ (kata 3 "アイアイウ") 0 ml_is_oov, at_ (kata 3 "アイアイウ") 0 part_of_speech) =
  (Ok 1%nat, Ok false, Ok [u "名詞"; u "固有名詞"; u "地名"; u "一般"; u "*"; u "*"]) := ltac:(vm_compute; reflexivity).
(* lines 59-76 *)
Succeed Definition t_starts : (size (kata 3 "アイウアイアイウ"), size (kata 3 "アイウアイウアイ")) = (Ok 1%nat, Ok 1%nat) := ltac:(vm_compute; reflexivity).
Succeed Definition t_with_nooovbow :
  (size (kata 3 "ァアイアイウ"), at_ (kata 3 "ァアイアイウ") 0 surface, size (kata 3 "アイウァアイウ")) = (Ok 2%nat, Ok (u "ァ"), Ok 1%nat) := ltac:(vm_compute; reflexivity).

(** ** tests/plugin/test_join_numeric_plugin.py *)
Definition numeric_dict : made := Eval vm_compute in match make numeric_settings with Ok m => m | Err _ => nothing end.
Definition num (normalize : bool) (s : string) : res morphemes :=
  path_of numeric_dict (JoinNumeric (NumericCfg (get_part_of_speech_id (ds_grammar (md_set numeric_dict)) NUMERIC_POS) normalize)) s.
Definition surfaces (normalize : bool) (s : string) (is : list Z) := (size (num normalize s), map (fun i => at_ (num normalize s) i surface) is).
Definition norms (normalize : bool) (s : string) (is : list Z) := (size (num normalize s), map (fun i => at_ (num normalize s) i normalized_form) is).
(* lines 33-42; the plugin is made without settings, it then normalizes (join_numeric_plugin.py:26) *)
Succeed Definition t_digit :
  (surfaces true "123円20銭" [0; 2], surfaces true "080-121" [0; 2]) = ((Ok 4%nat, [Ok (u "123"); Ok (u "20")]), (Ok 3%nat, [Ok (u "080"); Ok (u "121")])) := ltac:(vm_compute; reflexivity).
(* lines 44-50 *)
Succeed Definition t_kanji_numeric :
  (surfaces true "一二三万二千円" [0], size (num true "二百百")) = ((Ok 2%nat, [Ok (u "一二三万二千")]), Ok 3%nat) := ltac:(vm_compute; reflexivity).
(* lines 52-62 *)
Succeed Definition t_normalize :
  (norms true "一二三万二千円" [0], norms true "六三四" [0]) = ((Ok 2%nat, [Ok (u "1232000")]), (Ok 1%nat, [Ok (u "六三四")])) := ltac:(vm_compute; reflexivity).
(* lines 64-96 *)
Succeed Definition t_point :
  (norms true "1.002" [0], norms true ".002" [0; 1], norms true "22." [0; 1], norms true "22.節" [0; 1], norms true ".c" [0], norms true "1.20.3" [2], norms true "652..." [0]) =
  ((Ok 1%nat, [Ok (u "1.002")]), (Ok 2%nat, [Ok (u "."); Ok (u "002")]), (Ok 2%nat, [Ok (u "22"); Ok (u ".")]), (Ok 3%nat, [Ok (u "22"); Ok (u ".")]),
   (Ok 2%nat, [Ok (u ".")]), (Ok 5%nat, [Ok (u "20")]), (Ok 4%nat, [Ok (u "652")])) := ltac:(vm_compute; reflexivity).
(* lines 98-129 *)
Succeed Definition t_comma :
  (norms true "2,000,000" [0], norms true "2,00,000,000円" [0; 1; 2; 3; 4; 5; 6], size (num true ","), norms true "652,,," [0], norms true "256,5.50389" [0; 2], norms true "256,550.389" [0]) =
  ((Ok 1%nat, [Ok (u "2000000")]), (Ok 8%nat, [Ok (u "2"); Ok (u ","); Ok (u "00"); Ok (u ","); Ok (u "000"); Ok (u ","); Ok (u "000")]), Ok 1%nat, (Ok 4%nat, [Ok (u "652")]),
   (Ok 3%nat, [Ok (u "256"); Ok (u "5.50389")]), (Ok 1%nat, [Ok (u "256550.389")])) := ltac:(vm_compute; reflexivity).
(* lines 131-140 *)
Succeed Definition t_single_node :
  (norms false "猫三匹" [1], norms true "猫三匹" [1]) = ((Ok 3%nat, [Ok (u "三")]), (Ok 3%nat, [Ok (u "3")])) := ltac:(vm_compute; reflexivity).
