(** The unit tests of the repository for single classes, computed on the model.  The checks
    are computed when this file is compiled and not kept.  Error messages are not modelled:
    of an exception only its class is compared. *)
From Coq Require Import String Ascii.
From Coq Require Import List ZArith Bool Arith.
From Verif Require Import Base Utf8 M_Builder M_InputText M_InputPlugins M_CharCategory M_Lattice M_Oov M_Bytes M_DicReader M_DicBuilder M_LexiconSet
  M_Front M_Resource M_Setup M_Resources Prop_Resource Prop_CharCategory P_DicToy T_Files T_System.
Import ListNotations.
Open Scope Z_scope.

Definition ok_or {A} (d : A) (r : res A) : A := match r with Ok x => x | Err _ => d end.
Definition fails {A} (r : res A) : option exn := match r with Ok _ => None | Err e => Some e end.

(** ** tests/dictionarylib/test_charactercategory.py *)
Definition table_of (s : string) : res (list range) := read_character_definition sample_int16 pop_first (u s).
Definition nl : string := "
".
Definition cats_ (t : res (list range)) (c : Z) : res (list cat) := t <- t ;; get_category_types t c.
Definition are (t : res (list range)) (c : Z) (l : list cat) : bool := match cats_ t c with Ok x => set_eqb x l | Err _ => false end.
Definition test_table : res (list range) := Eval vm_compute in (f <- decode test_char_def ;; read_character_definition sample_int16 pop_first f).
(* lines 44-48; lines 37-42 are about containing_length, which nothing calls *)
Succeed Definition t_get_category_types : (are test_table 29081 [KANJI], are test_table 29081 [DEFAULT]) = (true, false) := ltac:(vm_compute; reflexivity).
(* lines 50-109 *)
Definition def1 := table_of ("#" ++ nl ++ " " ++ nl ++ "0x0030..0x0039 NUMERIC" ++ nl ++ "0x0032         KANJI" ++ nl).
Definition def2 := table_of ("#" ++ nl ++ " " ++ nl ++ "0x0030..0x0039 NUMERIC" ++ nl ++ "0x0070..0x0079 ALPHA" ++ nl ++ "0x3007         KANJI" ++ nl ++ "0x0030         KANJI" ++ nl).
Definition def3 := table_of ("#" ++ nl ++ " " ++ nl ++ "0x0030..0x0039 KATAKANA" ++ nl ++ "0x3007         KANJI KANJINUMERIC" ++ nl ++ "0x3008         KANJI KANJINUMERIC" ++ nl
  ++ "0x3009         KANJI KANJINUMERIC" ++ nl ++ "0x0039..0x0040 ALPHA" ++ nl ++ "0x0030..0x0039 NUMERIC" ++ nl ++ "0x0030         KANJI" ++ nl).
Definition def4 := table_of ("0x4E00..0x9FFF  KANJI" ++ nl ++ "0x4E8C KANJINUMERIC KANJI" ++ nl).
Succeed Definition t_read_character_definition :
  (are def1 0x30 [NUMERIC] && are def1 0x31 [NUMERIC] && are def1 0x32 [NUMERIC; KANJI] && are def1 0x33 [NUMERIC] && are def1 0x39 [NUMERIC],
   are def2 0x30 [NUMERIC; KANJI] && are def2 0x39 [NUMERIC] && are def2 0x3007 [KANJI] && are def2 0x69 [DEFAULT] && are def2 0x70 [ALPHA] && are def2 0x80 [DEFAULT],
   are def3 0x29 [DEFAULT] && are def3 0x30 [NUMERIC; KANJI; KATAKANA] && are def3 0x39 [NUMERIC; KATAKANA; ALPHA] && are def3 0x40 [ALPHA] && are def3 0x41 [DEFAULT]
     && are def3 0x3007 [KANJI; KANJINUMERIC] && are def3 0x4007 [DEFAULT],
   are def4 30007 [KANJI] && are def4 0x4E8B [KANJI] && are def4 0x4E8C [KANJI; KANJINUMERIC] && are def4 0x4E8D [KANJI]) = (true, true, true, true) := ltac:(vm_compute; reflexivity).
(* lines 111-136 *)
Succeed Definition t_invalid_definitions :
  map (fun s => fails (table_of (s ++ nl))) ["0x0030..0x0039"; "0x0030..0x0029 NUMERIC"; "0x0030..0x0039 FOO"]%string =
  [Some EAttribute; Some EAttribute; Some EAttribute] := ltac:(vm_compute; reflexivity).

(** ** tests/test_utf8inputtext.py *)
Definition TEXT : text := u "âｂC1あ234漢字𡈽アｺﾞ".
Definition category (c : Z) : list cat := match cats_ test_table c with Ok l => l | Err _ => [] end.
Definition no_text : input_text := InputText [] [] [] [] [] [] [] [].
Definition built (b : res builder) : input_text := ok_or no_text (b <- b ;; build category b).
Definition plain : input_text := Eval vm_compute in built (Ok (builder_init TEXT)).
Definition many (f : nat -> res nat) (l : list (nat * nat)) : bool := forallb (fun p => match f (fst p) with Ok x => Nat.eqb x (snd p) | Err _ => false end) l.
(* lines 46-72 *)
Succeed Definition t_original : (it_orig plain, it_mod plain, length (it_bytes plain), Ok (it_bytes plain)) = (TEXT, TEXT, 32%nat, encode TEXT) := ltac:(vm_compute; reflexivity).
Succeed Definition t_get_original_index :
  many (get_original_index plain) [(0, 0); (1, 0); (2, 1); (4, 1); (6, 3); (7, 4); (10, 5); (18, 9); (19, 10); (22, 10); (23, 11); (28, 12); (31, 13)]%nat = true := ltac:(vm_compute; reflexivity).
(* lines 74-106 *)
Succeed Definition t_get_char_category_types :
  forallb (fun p : nat * cat => match get_cats_at plain (fst p) with Ok l => cat_mem (snd p) l | Err _ => false end)
    [(0, ALPHA); (2, ALPHA); (5, ALPHA); (6, NUMERIC); (7, HIRAGANA); (9, HIRAGANA); (10, NUMERIC); (13, KANJI); (18, KANJI); (19, DEFAULT); (22, DEFAULT); (23, KATAKANA); (26, KATAKANA); (31, KATAKANA)]%nat
  = true := ltac:(vm_compute; reflexivity).
Succeed Definition t_get_char_category_continuous_length :
  many (get_cont_length plain) [(0, 6); (1, 5); (2, 4); (5, 1); (6, 1); (7, 3); (10, 3); (11, 2); (12, 1); (19, 4); (22, 1); (23, 9); (26, 6); (31, 1)]%nat = true := ltac:(vm_compute; reflexivity).
(* lines 108-180 *)
Definition replaced (l : list (Z * Z * string)) : res builder := foldM (fun b '(x, y, s) => replace b x y (u s)) (builder_init TEXT) l.
Definition checks (l : list (Z * Z * string)) (t : string) (n : nat) (ps : list (nat * nat)) : bool :=
  let it := built (replaced l) in
  text_eqb (it_orig it) TEXT && text_eqb (it_mod it) (u t) && Nat.eqb (length (it_bytes it)) n && many (get_original_index it) ps.
Succeed Definition t_replace :
  (checks [(8, 10, "ああ"%string)] "âｂC1あ234ああ𡈽アｺﾞ" 32 [(0, 0); (12, 7); (13, 8); (15, 8); (16, 10); (18, 10); (19, 10); (22, 10); (31, 13)]%nat,
   checks [(8, 10, "あ"%string)] "âｂC1あ234あ𡈽アｺﾞ" 29 [(0, 0); (12, 7); (13, 8); (15, 8); (16, 10); (19, 10); (28, 13)]%nat,
   checks [(8, 10, "あああ"%string)] "âｂC1あ234あああ𡈽アｺﾞ" 35 [(0, 0); (12, 7); (13, 8); (21, 10); (22, 10); (25, 10); (35, 14)]%nat,
   checks [(0, 1, "a"); (1, 2, "b"); (2, 3, "c"); (10, 11, "土"); (12, 14, "ゴ")]%string "abc1あ234漢字土アゴ" 25
     [(0, 0); (1, 1); (2, 2); (7, 5); (8, 6); (9, 7); (15, 9); (16, 10); (18, 10); (19, 11); (21, 11); (22, 12); (24, 12)]%nat) = (true, true, true, true) := ltac:(vm_compute; reflexivity).
(* lines 182-197 *)
Succeed Definition t_getByteLengthByCodePoints :
  map (fun p : nat * nat => get_code_points_offset_length plain (fst p) (snd p)) [(0, 1); (0, 4); (10, 1); (11, 1); (12, 1); (13, 2); (19, 1); (23, 3)]%nat =
  map Ok [2; 7; 1; 1; 1; 6; 4; 9]%nat := ltac:(vm_compute; reflexivity).
Succeed Definition t_codePointCount :
  map (fun p : nat * nat => code_point_count plain (fst p) (snd p)) [(0, 2); (0, 7); (13, 19)]%nat = map Ok [1; 4; 2] := ltac:(vm_compute; reflexivity).
(* lines 199-221 *)
Succeed Definition t_canBow :
  map (can_bow plain) [0; 1; 2; 3; 4; 5; 6; 7; 19; 20; 21; 22; 23]%nat =
  map Ok [true; false; false; false; false; false; true; true; true; false; false; false; true] := ltac:(vm_compute; reflexivity).
Succeed Definition t_getWordCandidateLength : map (get_word_candidate_length plain) [0; 6; 19; 29]%nat = map Ok [6; 1; 4; 3]%nat := ltac:(vm_compute; reflexivity).

(** ** tests/plugin/test_default_input_text_plugin.py.  The plugin reads the rewrite.def of the
    package; str.lower and NFKC are given for the characters of the test. *)
Definition original_text : text := u "ÂＢΓД㈱ｶﾞウ゛⼼Ⅲ".
Definition lower2 (c : Z) : text := match c with 194 => [226] | 65314 => [65346] | 915 => [947] | 1044 => [1076] | 8546 => [8562] | _ => [c] end.
Definition nfkc2 (t : text) : text := match t with [65346] => [98] | [12849] => [40; 26666; 41] | [8562] => [105; 105; 105] | [12092] => [24515] | _ => t end.
Definition package_cfg : default_cfg := Eval vm_compute in ok_or (DefaultCfg [] [] []) (read_rewrite_def shipped_rewrite_def).
Definition before := Eval vm_compute in built (Ok (builder_init original_text)).
Definition after := Eval vm_compute in built (default_rewrite lower2 nfkc2 package_cfg (builder_init original_text)).
(* lines 44-82 *)
Succeed Definition t_before_rewrite :
  (it_orig before, it_mod before, length (it_bytes before), many (get_original_index before) [(0, 0); (1, 0); (2, 1); (4, 1); (8, 3); (12, 5); (24, 9); (26, 9)]%nat) =
  (original_text, original_text, 30%nat, true) := ltac:(vm_compute; reflexivity).
Succeed Definition t_after_rewrite :
  (it_orig after, it_mod after, length (it_bytes after), many (get_original_index after) [(0, 0); (1, 0); (2, 1); (3, 2); (7, 4); (8, 5); (11, 5); (15, 7); (17, 7)]%nat) =
  (original_text, u "âbγд(株)ガヴ⼼ⅲ", 24%nat, true) := ltac:(vm_compute; reflexivity).
(* lines 86-102 with tests/resources/rewrite_error_*.def *)
Succeed Definition t_rewrite_errors :
  map (fun s => fails (read_rewrite_def (u s))) ["# there are two characters in ignore list" ++ nl ++ "12"; "# there are three columns in replace list" ++ nl ++ "12 21 31";
    "# there are ad uplicated replacement." ++ nl ++ "12 21" ++ nl ++ "12 31" ++ nl]%string = [Some ERuntime; Some ERuntime; Some ERuntime] := ltac:(vm_compute; reflexivity).

(** ** tests/plugin/test_prolongedsoundmarkinput.py:30-128 *)
Definition psm : psm_cfg := PsmCfg (u "ー〜〰") (u "ー").
Definition psm_checks (s t : string) (n : nat) (ps : list (nat * nat)) : bool :=
  let it := built (psm_rewrite psm (builder_init (u s))) in
  text_eqb (it_orig it) (u s) && text_eqb (it_mod it) (u t) && Nat.eqb (length (it_bytes it)) n && many (get_original_index it) ps.
Succeed Definition t_prolonged :
  let l := [(0, 0); (3, 1); (6, 3); (9, 4); (12, 7); (15, 8); (18, 12)]%nat in
  psm_checks "ゴーール" "ゴール" 9 [(0, 0); (3, 1); (6, 3); (9, 4)]%nat && psm_checks "スーパーー" "スーパー" 12 [(0, 0); (3, 1); (6, 2); (9, 3); (12, 5)]%nat
  && psm_checks "エーービーーーシーーーー" "エービーシー" 18 l && psm_checks "エーービ〜〜〜シ〰〰〰〰" "エービーシー" 18 l && psm_checks "エー〜ビ〜〰ーシ〰ー〰〜" "エービーシー" 18 l
  = true := ltac:(vm_compute; reflexivity).

(** ** tests/plugin/test_mecab_oov_plugin.py.  The mocked text counts characters; five letters
    of one byte stand for its five characters, of which the last two have another category and
    not none. *)
Definition oov1 := OovEntry 0 0 0 1.
Definition oov2 := OovEntry 0 0 0 2.
Definition oov_list (c : cat) : option (list oov_entry) := match c with KANJI => Some [oov1] | KANJINUMERIC => Some [oov1; oov2] | _ => None end.
Definition abcde (c : cat) : input_text := ok_or no_text (build (fun x => if x <? 100 then [c] else [SPACE]) (builder_init (u "abcde"))).
Definition provided (c : cat) (info : option cat_info) (other : bool) : res (list (text * nat * Z)) :=
  ns <- mecab_provide (MecabCfg (fun x => if cat_eqb x c then info else None) oov_list) (abcde c) 0 other ;;
  mapM (fun n => match w_extra n with Some wi => Ok (wi_surface wi, wi_length wi, wi_pos wi) | None => Err EAttribute end) ns.
Definition num_provided (c : cat) (info : option cat_info) : res nat := l <- provided c info true ;; Ok (length l).
Definition a1 : text * nat * Z := (u "a", 1%nat, 1). Definition a2 : text * nat * Z := (u "ab", 2%nat, 1). Definition a3 : text * nat * Z := (u "abc", 3%nat, 1).
(* lines 40-231 *)
Succeed Definition t_provide_oov :
  map (fun i => (provided KANJI (Some i) false, num_provided KANJI (Some i)))
    [CatInfo false false 0; CatInfo true false 0; CatInfo false true 0; CatInfo true true 0; CatInfo false false 2; CatInfo false true 2; CatInfo true true 2; CatInfo false false 6] =
  [(Ok [], Ok 0%nat); (Ok [], Ok 0%nat); (Ok [a3], Ok 0%nat); (Ok [a3], Ok 1%nat); (Ok [a1; a2], Ok 0%nat); (Ok [a3; a1; a2], Ok 0%nat); (Ok [a3; a1; a2], Ok 3%nat); (Ok [a1; a2; a3], Ok 0%nat)]
  := ltac:(vm_compute; reflexivity).
(* lines 233-272 *)
Succeed Definition t_provide_oov_others :
  (provided KANJINUMERIC (Some (CatInfo false true 0)) false, provided KANJI None false, provided HIRAGANA (Some (CatInfo false true 0)) false) =
  (Ok [a3; (u "abc", 3%nat, 2)], Ok [], Ok []) := ltac:(vm_compute; reflexivity).
(* lines 274-309 *)
Definition property (s : string) := read_character_property sample_int10 (u s).
Succeed Definition t_read_character_property :
  ((m <- property ("#" ++ nl ++ "  " ++ nl ++ "DEFAULT 0 1 2" ++ nl ++ "ALPHA 1 0 0" ++ nl ++ "0x0000...0x0002 ALPHA") ;; Ok (assoc_cat m DEFAULT)),
   map (fun s => fails (property s)) ["DEFAULT 0 1" ++ nl; "FOO 0 1 2" ++ nl; "DEFAULT 0 1 2" ++ nl ++ "DEFAULT 1 1 2"]%string) =
  (Ok (Some (CatInfo false true 2)), [Some EValue; Some EValue; Some EValue]) := ltac:(vm_compute; reflexivity).
(* lines 311-354; the mocked grammar gives every part of speech the id 0 *)
Definition mocked : grammar := Grammar [[u "補助記号"; u "一般"; u "*"; u "*"; u "*"; u "*"]] 0 0 [] 0.
Definition unk (s : string) := read_oov sample_int10 mocked [(DEFAULT, CatInfo false false 0)] (u s).
Succeed Definition t_read_oov :
  (unk ("DEFAULT,1,2,3,補助記号,一般,*,*,*,*" ++ nl ++ "DEFAULT,3,4,5,補助記号,一般,*,*,*,*" ++ nl),
   map (fun s => fails (unk (s ++ nl))) ["DEFAULT,1,2,3"; "FOO,1,2,3,補助記号,一般,*,*,*,*"; "ALPHA,1,2,3,補助記号,一般,*,*,*,*"]%string) =
  (Ok [(DEFAULT, OovEntry 1 2 3 0); (DEFAULT, OovEntry 3 4 5 0)], [Some EValue; Some EValue; Some EValue]) := ltac:(vm_compute; reflexivity).

(** ** tests/dictionarylib/test_doublearraylexicon.py and test_dictionaryheader.py: the system
    dictionary of the tests *)
Definition header_ : header := Eval vm_compute in ok_or (Header 0 0 []) (header_from_bytes system_dic 0).
Succeed Definition t_header :
  (h_version header_, 0 <? h_time header_, h_description header_) = (SYSTEM_DICT_VERSION_2, true, u "the system dictionary for the unit tests") := ltac:(vm_compute; reflexivity).
Definition lexicon_of (b : bytes) : res lexicon := d <- from_system_dictionary b ;; Ok (d_lexicon d).
Definition lexicon_ : lexicon := Eval vm_compute in ok_or (Lexicon [] [] [] [] 0 0 false) (lexicon_of system_dic).
Definition lookup (l : lexicon) (s : string) (offset : nat) := lx_lookup search l (file_bytes s) offset.
(* lines 41-60 *)
Succeed Definition t_lookup :
  (lookup lexicon_ "東京都" 0, lookup lexicon_ "東京都に" 9, lookup lexicon_ "あれ" 0) =
  (([(4, 3%nat); (5, 6%nat); (6, 9%nat)], None), ([(1, 12%nat); (2, 12%nat)], None), ([], None)) := ltac:(vm_compute; reflexivity).
(* lines 62-76 *)
Succeed Definition t_parameters :
  map (fun w => (lx_left_id lexicon_ w, lx_right_id lexicon_ w, lx_cost lexicon_ w)) [0; 6; 9] =
  [(Ok 1, Ok 1, Ok 8729); (Ok 6, Ok 8, Ok 5320); (Ok 8, Ok 8, Ok 2914)] := ltac:(vm_compute; reflexivity).
(* lines 78-105 *)
Definition word (l : lexicon) (w : Z) : res word_info := lx_word_info limit l w.
Succeed Definition t_wordinfo :
  (word lexicon_ 0, (w <- word lexicon_ 8 ;; Ok (wi_surface w, wi_norm w, wi_dic_id w, wi_dic w)),
   (w <- word lexicon_ 6 ;; Ok (wi_surface w, wi_a w, wi_b w, wi_struct w, wi_syn w))) =
  (Ok (WordInfo (u "た") 3 0 (u "た") (-1) (u "た") (u "タ") [] [] [] []), Ok (u "行っ", u "行く", 7, u "行く"), Ok (u "東京都", [5; 9], [], [5; 9], [])) := ltac:(vm_compute; reflexivity).
(* lines 107-118 *)
Succeed Definition t_wordinfo_with_longword :
  (w <- word lexicon_ 36 ;; Ok (length (wi_surface w), wi_length w, length (wi_norm w), wi_dic_id w, length (wi_dic w), length (wi_reading w))) =
  Ok (300%nat, 300%nat, 300%nat, -1, 300%nat, 570%nat) := ltac:(vm_compute; reflexivity).
Succeed Definition t_size : lx_size lexicon_ = 39%nat := ltac:(vm_compute; reflexivity).

(** ** tests/dictionarylib/test_dictionarybuilder.py *)
Definition line (k : kind) (s : string) : res (entry * list text) := parse_line k toy_int [] (split_on comma (u s)).
Definition entry_of (s : string) := '(e, _) <- line SystemDic s ;; Ok (e_headword e, [e_left e; e_right e; e_cost e], e_pos e, e_a e, e_b e, e_syn e).
(* lines 50-68 *)
Succeed Definition t_parseline :
  (entry_of "京都,6,6,5293,京都,名詞,固有名詞,地名,一般,*,*,キョウト,京都,*,A,*,*,*,*",
   (x <- entry_of "京都,-1,-1,0,京都,名詞,固有名詞,地名,一般,*,*,キョウト,京都,*,A,*,*,*,*" ;; let '(h, _, p, _, _, _) := x in Ok (h, p)),
   (x <- entry_of "京都,6,6,5293,京都,名詞,固有名詞,地名,一般,*,*,キョウト,京都,*,A,*,*,*" ;; Ok (snd x))) =
  (Ok (Some (u "京都"), [6; 6; 5293], 0, u "*", u "*", []), Ok (None, 0), Ok []) := ltac:(vm_compute; reflexivity).
(* lines 70-99 *)
Fixpoint times (n : nat) (s : string) : string := match n with O => "" | S k => (s ++ times k s)%string end.
Succeed Definition t_parse_line_errors :
  (map (fun s => fails (line SystemDic s))
    ["京都,6,6,5293,京都,名詞,固有名詞,地名,一般,*,*,キョウト,京都,*,A,*,*"; ",6,6,5293,京都,名詞,固有名詞,地名,一般,*,*,キョウト,京都,*,A,*,*,*,*";
     "京都,6,6,5293,京都,名詞,固有名詞,地名,一般,*,*,キョウト,京都,*,B," ++ times 12 "0/1/2/3/4/5/6/7/8/9/0/" ++ "0,*,*,*"]%string,
   fails (parse_line SystemDic toy_int [] (repeat 97 (Z.to_nat 32768) :: skipn 1 (split_on comma (u "x,6,6,5293,京都,名詞,固有名詞,地名,一般,*,*,キョウト,京都,*,A,*,*,*,*")))),
   ('(e, _) <- line SystemDic "〒,6,6,5293,〒,名詞,普通名詞,一般,*,*,*,〒,〒,*,A,*,*,*,*" ;; Ok (e_reading e))) =
  ([Some EValue; Some EValue; Some EValue], Some EValue, Ok (u "〒")) := ltac:(vm_compute; reflexivity).
(* lines 101-127 *)
Succeed Definition t_add_to_trie :
  (k <- add_to_trie [] (u "abc") 0 ;; k <- add_to_trie k (u "abc") 1 ;; add_to_trie k (u "abcd") 2) = Ok [(u "abc", [0; 1]%nat); (u "abcd", [2%nat])] := ltac:(vm_compute; reflexivity).
Succeed Definition t_convert_postable : (b <- convert_postable [u "a,b,c,d,e,f"; u "g,h,i,j,k,l"] ;; Ok (length b)) = Ok (2 + 3 * 12)%nat := ltac:(vm_compute; reflexivity).
Succeed Definition t_convert_matrix :
  (m <- read_matrix sample_int10 (u ("2 3" ++ nl ++ "0 0 0" ++ nl ++ "0 1 1" ++ nl ++ "0 2 2" ++ nl ++ nl ++ "1 0 3" ++ nl ++ "1 1 4" ++ nl ++ "1 2 5" ++ nl)) ;;
   '(h, m) <- convert_matrix m ;; Ok (unle (slice h 0 2), unle (slice h 2 4), unle (slice m 0 2), unle (slice m 6 8))) = Ok (2, 3, 0, 4) := ltac:(vm_compute; reflexivity).
Succeed Definition t_decode :
  map (fun s => unescape (u s)) ["a\u002cc"; "a\u{002c}c"; "a\u{20b9f}c"]%string = [Ok (u "a,c"); Ok (u "a,c"); Ok (u "a𠮟c")] := ltac:(vm_compute; reflexivity).
(* lines 129-164 *)
Definition nones (n : nat) : list entry := repeat (Entry None 0 0 0 [] 0 0 [] 0 [] [] [] [] []) n.
Definition user_of (size : nat) : kind := UserDic (Grammar [] 0 0 [] 0) (fun _ _ _ => Ok (-1)) size.
Definition parsed (k : kind) (n : nat) (s : string) : res (list Z) := '(l, _) <- parse_splitinfo k toy_int toy_digit (nones n) [] (u s) ;; Ok l.
Succeed Definition t_parse_splitinfo :
  (map (parsed SystemDic 4) ["*"; "1/2/3"; "1/U2/3"]%string, parsed (user_of 4) 3 "1/U2/3", parsed SystemDic 0 "1/2/3", parsed (user_of 1) 0 "0/U1", parsed (user_of 1) 1 "1/U0") =
  ([Ok []; Ok [1; 2; 3]; Ok [1; 2; 3]], Ok [1; Z.lor 2 (Z.shiftl 1 28); 3], Err EValue, Err EValue, Err EValue) := ltac:(vm_compute; reflexivity).
(* lines 166-199 *)
Definition long_str : string := times 13 "0123456789".
Succeed Definition t_write_string :
  (put_string [], (b <- put_string (u "あ𠮟") ;; Ok (length b, nth 0 b 0, unutf16_le (slice b 1 3), unle (slice b 3 5), unle (slice b 5 7))),
   (b <- put_string (u long_str) ;; Ok (length b, nth 0 b 0, nth 1 b 0))) =
  (Ok [0], Ok (7%nat, 3, Ok (u "あ"), 55362, 57247), Ok ((2 + 2 * 130)%nat, Z.lor (Z.shiftr 130 8) 0x80, Z.land 130 0xff)) := ltac:(vm_compute; reflexivity).
Succeed Definition t_write_intarray :
  (put_int_array [], put_int_array [1; 2; 3]) = (Ok [0], Ok ([3] ++ le 4 1 ++ le 4 2 ++ le 4 3)) := ltac:(vm_compute; reflexivity).
(* lines 201-254; the header is given the version of the builder *)
Definition input_txt : text := u ("東京都,0,0,0,東京都,名詞,固有名詞,地名,一般,*,*,ヒガシキョウト,東京都,*,B,""東,名詞,普通名詞,一般,*,*,*,ヒガシ/2"",*,1/2,1/2" ++ nl
  ++ "東,-1,-1,0,東,名詞,普通名詞,一般,*,*,*,ヒガシ,ひがし,*,A,*,*,*,*" ++ nl ++ "京都,0,0,0,京都,名詞,固有名詞,地名,一般,*,*,キョウト,京都,*,A,*,*,*,*" ++ nl
  ++ "1,-1,-1,0,1,名詞,数詞,*,*,*,*,イチ,1,*,A,*,*,*,*" ++ nl
  ++ "東1,0,0,0,東1,名詞,普通名詞,一般,*,*,*,ヒガシイチ,東1,*,C,""東,名詞,普通名詞,一般,*,*,*,ヒガシ/1,名詞,数詞,*,*,*,*,イチ"",""東,名詞,普通名詞,一般,*,*,*,ヒガシ/U3"",*").
Definition matrix_txt : text := u ("1 1" ++ nl ++ "0 0 200" ++ nl).
Definition built_with (k : kind) (matrix lex : text) : res bytes :=
  rows <- csv_rows lex ;; m <- read_matrix sample_int10 matrix ;; build_command k toy_int toy_digit array 1600000000 (u "test") rows (Some m).
Definition out1 := Eval vm_compute in built_with SystemDic matrix_txt input_txt.
Definition out1_dictionary := Eval vm_compute in (b <- out1 ;; from_system_dictionary b).
Definition in1 {A} (f : dictionary -> res A) : res A := d <- out1_dictionary ;; f d.
Definition word_of (l : lexicon) (w : Z) := w <- word l w ;; Ok (wi_surface w, wi_norm w, wi_dic_id w, wi_reading w, wi_pos w, (wi_a w, wi_b w, wi_struct w, wi_syn w)).
Succeed Definition t_build :
  (in1 (fun d => Ok (h_version (d_header d), h_description (d_header d))),
   in1 (fun d => match d_grammar d with Some g => c <- get_connect_cost g 0 0 ;; Ok (length (g_pos g), firstn 2 (g_pos g), c) | None => Err EException end),
   in1 (fun d => let l := d_lexicon d in c <- lx_cost l 0 ;; w <- word_of l 0 ;; Ok (lx_size l, c, w, lookup l "東京都" 0)),
   in1 (fun d => let l := d_lexicon d in i <- lx_left_id l 1 ;; c <- lx_cost l 1 ;; w <- word_of l 1 ;; Ok (i, c, w, lookup l "東" 0))) =
  (Ok (SYSTEM_DICT_VERSION_2, u "test"),
   Ok (3%nat, [[u "名詞"; u "固有名詞"; u "地名"; u "一般"; u "*"; u "*"]; [u "名詞"; u "普通名詞"; u "一般"; u "*"; u "*"; u "*"]], 200),
   Ok (5%nat, 0, (u "東京都", u "東京都", -1, u "ヒガシキョウト", 0, ([1; 2], [], [1; 2], [1; 2])), ([(0, 9%nat)], None)),
   Ok (-1, 0, (u "東", u "ひがし", -1, u "ヒガシ", 1, ([], [], [], [])), ([], None))) := ltac:(vm_compute; reflexivity).

(** ** tests/dictionarylib/test_userdictionarybuilder.py *)
Definition system_grammar : grammar := Eval vm_compute in ok_or mocked (d <- from_system_dictionary system_dic ;; match d_grammar d with Some g => Ok g | None => Err EException end).
Definition user_kind : kind := UserDic system_grammar (lx_get_word_id search limit lexicon_) (lx_size lexicon_).
(* lines 46-49 *)
Succeed Definition t_parseline_with_userdefined_POS :
  ('(_, t) <- line user_kind "田中,0,0,0,田中,存在,しない,品詞,*,*,*,タナカ,田中,*,A,*,*,*,*" ;; Ok (length t)) = Ok 1%nat := ltac:(vm_compute; reflexivity).
(* lines 51-108; the file is read as a user dictionary here *)
Definition user_txt : text := u ("東京都市,0,0,0,東京都市,名詞,固有名詞,地名,一般,*,*,ヒガシキョウトシ,東京都市,*,B,""東,名詞,普通名詞,一般,*,*,*,ヒガシ/3/U1"",*,""4/3/市,名詞,普通名詞,一般,*,*,*,シ"",*" ++ nl
  ++ "市,-1,-1,0,市,名詞,普通名詞,一般,*,*,*,シ,市,*,A,*,*,*,*" ++ nl).
Definition out2 := Eval vm_compute in (b <- built_with user_kind matrix_txt user_txt ;; from_user_dictionary b).
Definition in2 {A} (f : lexicon -> res A) : res A := d <- out2 ;; f (d_lexicon d).
Definition U1 : Z := Z.lor 1 (Z.shiftl 1 28).
Succeed Definition t_build_user :
  (in2 (fun l => i <- lx_left_id l 0 ;; c <- lx_cost l 0 ;; w <- word_of l 0 ;; Ok (i, c, w, lookup l "東京都市" 0)),
   in2 (fun l => i <- lx_left_id l 1 ;; c <- lx_cost l 1 ;; w <- word_of l 1 ;; Ok (i, c, w, lookup l "東" 0))) =
  (Ok (0, 0, (u "東京都市", u "東京都市", -1, u "ヒガシキョウトシ", 3, ([4; 3; U1], [], [4; 3; U1], [])), ([(0, 12%nat)], None)),
   Ok (-1, 0, (u "市", u "市", -1, u "シ", 4, ([], [], [], [])), ([], None))) := ltac:(vm_compute; reflexivity).

(** ** tests/test_grammar.py *)
(* lines 84-119 *)
Definition str16 (s : string) : bytes := ok_or [] (b <- utf16 (u s) ;; Ok (Z.of_nat (length (u s)) :: b)).
Definition short (z : Z) : bytes := le 2 z.
Definition storage : bytes := Eval vm_compute in
  short 3 ++ flat_map str16 ["BOS/EOS"; "*"; "*"; "*"; "*"; "*"; "名刺"; "一般"; "*"; "*"; "*"; "*"; "動詞"; "一般"; "*"; "*"; "五段-サ行"; "終止形-一般"]%string
  ++ short 3 ++ short 3 ++ flat_map short [0; -300; 3000; 300; -500; -100; -3000; 200; 2000].
Definition g_test : grammar := Eval vm_compute in ok_or mocked (snd (prun storage 0 (read_grammar storage 0))).
Definition part (i : Z) (j : nat) : res text := p <- get_part_of_speech_string g_test i ;; get p j.
(* lines 46-77; the parameters of the ends of a text are constants of the lattice here *)
Succeed Definition t_grammar :
  (g_storage g_test, (p <- get_part_of_speech_string g_test 0 ;; Ok (length p)), [part 0 0; part 0 5; part 1 1; part 1 5; part 2 4; part 2 5],
   [get_connect_cost g_test 0 0; get_connect_cost g_test 2 1; get_connect_cost g_test 1 2], (g <- set_connect_cost g_test 0 0 300 ;; get_connect_cost g 0 0)) =
  (length storage, Ok 6%nat, map Ok [u "BOS/EOS"; u "*"; u "一般"; u "*"; u "五段-サ行"; u "終止形-一般"], [Ok 0; Ok (-100); Ok 200], Ok 300) := ltac:(vm_compute; reflexivity).

(** ** tests/test_switchdictionary.py:96-120 *)
Definition small_lex : string := "島,0,0,0,島,名詞,普通名詞,一般,*,*,*,シマ,島,*,A,*,*,*".
Definition core_lex : string := "徳島本町,0,0,0,徳島本町,名詞,固有名詞,地名,一般,*,*,トクシマホンチョウ,徳島本町,*,A,*,*,*,*".
Definition notcore_lex : string := "徳島堰,0,0,0,徳島堰,名詞,固有名詞,一般,*,*,*,トクシマセギ,徳島堰,*,A,*,*,*".
Definition files3 : list (string * res bytes) :=
  [("small.dic", built_with SystemDic matrix_txt (u small_lex)); ("core.dic", built_with SystemDic matrix_txt (u (small_lex ++ nl ++ core_lex)));
   ("full.dic", built_with SystemDic matrix_txt (u (small_lex ++ nl ++ core_lex ++ nl ++ notcore_lex)))]%string.
Definition binary3 (p : text) : res bytes := match find (fun x => teqb p (u ("/tmp/resources/" ++ fst x))) files3 with Some x => snd x | None => Err EIO end.
Definition text3 (p : text) : res text := if teqb p (u "package/rewrite.def") then Ok shipped_rewrite_def else if teqb p (u "/tmp/resources/char.def") then decode test_char_def else Err EIO.
(** json.dump of the object with one value replaced *)
Definition with_ (c : conf) (k : string) (v : json) : conf := map (fun x => if teqb (fst x) (u k) then (fst x, v) else x) c.
Definition size3 (system : string) : res nat :=
  m <- make_dictionary text3 binary3 join is_absolute (u "package") sample_int16 sample_int10 pop_first (fun l => l) lower nfkc search limit
    (with_ (with_ test_settings "userDict" (JList [])) "systemDict" (JStr (u system))) (u "/tmp/resources") ;;
  Ok (ls_size (ds_lexicon (md_set m))).
Succeed Definition t_switch_dictionary :
  map size3 ["small.dic"; "/tmp/resources/small.dic"; "core.dic"; "/tmp/resources/core.dic"; "full.dic"; "/tmp/resources/full.dic"]%string =
  map Ok [1; 1; 2; 2; 3; 3]%nat := ltac:(vm_compute; reflexivity).
