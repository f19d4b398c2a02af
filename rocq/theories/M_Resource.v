(** Model of the reading of text resources: char.def (dictionarylib/charactercategory.py,
    plugin/oov/mecab_oov_plugin.py), unk.def, rewrite.def
    (plugin/input_text/default_input_text_plugin.py), matrix.def and the CSV files
    (dictionarylib/dictionarybuilder.py).  A file is its decoded text. *)
From Coq Require Import List ZArith Lia Bool Arith.
From Verif Require Import Base M_Builder M_CharCategory M_InputPlugins M_Lattice M_Oov M_Tokenizer M_Bytes M_DicReader M_DicBuilder M_Front.
Import ListNotations.
Open Scope Z_scope.

(** ** Texts *)
(** What str.strip, str.split and [\s] take for white space (Py_UNICODE_ISSPACE) *)
Definition is_space (c : Z) : bool :=
  ((9 <=? c) && (c <=? 13)) || ((28 <=? c) && (c <=? 32)) || (c =? 0x85) || (c =? 0xA0) || (c =? 0x1680)
  || ((0x2000 <=? c) && (c <=? 0x200A)) || (c =? 0x2028) || (c =? 0x2029) || (c =? 0x202F) || (c =? 0x205F) || (c =? 0x3000).
(** [t.lstrip()], [t.rstrip()], [t.strip()] *)
Fixpoint lstrip (t : text) : text := match t with c :: r => if is_space c then lstrip r else t | [] => [] end.
Definition rstrip_all (t : text) : text := rev (lstrip (rev t)).
Definition strip (t : text) : text := rstrip_all (lstrip t).
(** [t.split()]; [acc] is the word that is being read, its characters in reverse *)
Fixpoint words_from (acc t : text) : list text :=
  match t with
  | [] => match acc with [] => [] | _ => [rev acc] end
  | c :: r =>
    if is_space c then match acc with [] => words_from [] r | _ => rev acc :: words_from [] r end
    else words_from (c :: acc) r
  end.
Definition words (t : text) : list text := words_from [] t.
(** [re.split(r"\s+", t)] for a text that does not end with white space: white space in
    front gives an empty first column *)
Definition columns (t : text) : list text :=
  match t with c :: _ => if is_space c then [] :: words t else words t | [] => [[]] end.
(** [t.startswith(p)], [re.match(p, t)] for a pattern of plain characters *)
Definition starts (p t : text) : bool := teqb (firstn (length p) t) p.
(** [re.split("\\.\\.", t)] *)
Fixpoint split_dots (acc t : text) : list text :=
  match t with
  | [] => [rev acc]
  | c :: r =>
    match r with
    | c' :: r' => if (c =? 46) && (c' =? 46) then rev acc :: split_dots [] r' else split_dots (c :: acc) r
    | [] => split_dots (c :: acc) r
    end
  end.
Definition hash : text := [35].
Definition zero_x : text := [48; 120].
(** A text file, line by line (universal newlines) *)
Definition file_lines (t : text) : list text := lines_from [] (universal t).

(** ** Categories, categorytype.py:18-34, 44-49 *)
Definition all_cats : list cat :=
  [DEFAULT; SPACE; KANJI; SYMBOL; NUMERIC; ALPHA; HIRAGANA; KATAKANA; KANJINUMERIC; GREEK; CYRILLIC; USER1; USER2; USER3; USER4; NOOOVBOW].
Definition cat_name (c : cat) : text :=
  match c with
  | DEFAULT => [68; 69; 70; 65; 85; 76; 84]
  | SPACE => [83; 80; 65; 67; 69]
  | KANJI => [75; 65; 78; 74; 73]
  | SYMBOL => [83; 89; 77; 66; 79; 76]
  | NUMERIC => [78; 85; 77; 69; 82; 73; 67]
  | ALPHA => [65; 76; 80; 72; 65]
  | HIRAGANA => [72; 73; 82; 65; 71; 65; 78; 65]
  | KATAKANA => [75; 65; 84; 65; 75; 65; 78; 65]
  | KANJINUMERIC => [75; 65; 78; 74; 73; 78; 85; 77; 69; 82; 73; 67]
  | GREEK => [71; 82; 69; 69; 75]
  | CYRILLIC => [67; 89; 82; 73; 76; 76; 73; 67]
  | USER1 => [85; 83; 69; 82; 49]
  | USER2 => [85; 83; 69; 82; 50]
  | USER3 => [85; 83; 69; 82; 51]
  | USER4 => [85; 83; 69; 82; 52]
  | NOOOVBOW => [78; 79; 79; 79; 86; 66; 79; 87]
  end.
Definition cat_of_name (t : text) : option cat := find (fun c => teqb (cat_name c) t) all_cats.

Section resource.
(** [int(t, 16)] and [int(t)]: ValueError *)
Variable int16 int10 : text -> res Z.

(** ** charactercategory.py:124-164 *)
(** charactercategory.py:154-160: the categories of the columns after the first *)
Fixpoint line_cats (cols : list text) : res (list cat) :=
  match cols with
  | [] => Ok []
  | w :: r =>
    if starts hash w || match w with [] => true | _ => false end then Ok []
    else match cat_of_name w with
         | None => Err EAttribute
         | Some c => cs <- line_cats r ;; Ok (c :: cs)
         end
  end.
(** charactercategory.py:135-161: one line; [None] when it is passed over *)
Definition read_char_line (line : text) : res (option range) :=
  let line := rstrip_all line in
  match line with
  | [] => Ok None
  | _ =>
    if starts hash line then Ok None
    else
      match columns line with
      | w :: ((_ :: _) as cols) =>
        if negb (starts zero_x w) then Ok None
        else
          let r := split_dots [] w in
          low <- int16 (nth 0 r []) ;;
          high <- (match r with _ :: h :: _ => x <- int16 h ;; Ok (Some x) | _ => Ok None end) ;;
          _ <- read_range low high [] ;;
          cs <- line_cats cols ;;
          r <- read_range low high cs ;;
          Ok (Some r)
      | _ => Err EAttribute
      end
  end.
Fixpoint char_ranges (lines : list text) : res (list range) :=
  match lines with
  | [] => Ok []
  | line :: r =>
    o <- read_char_line line ;;
    rs <- char_ranges r ;;
    Ok (match o with Some x => x :: rs | None => rs end)
  end.
(** charactercategory.py:124-164: the compiled table *)
Definition read_character_definition (pop : list range -> option (range * list range)) (file : text) : res (list range) :=
  rs <- char_ranges (file_lines file) ;; compile pop rs.

(** ** mecab_oov_plugin.py *)
(** [getattr(categorytype.CategoryType, t)]; other attributes of the class than its
    members are left out. *)
Definition category_attr (t : text) : res cat := match cat_of_name t with Some c => Ok c | None => Err EValue end.
Definition one_zero (t : text) : bool := negb (teqb t [48]).

(** mecab_oov_plugin.py:100-120: one line *)
Definition read_property_line (m : list (cat * cat_info)) (line : text) : res (list (cat * cat_info)) :=
  let line := strip line in
  match line with
  | [] => Ok m
  | _ =>
    if starts hash line || starts zero_x line then Ok m
    else
      match words line with
      | w0 :: w1 :: w2 :: w3 :: _ =>
        c <- category_attr w0 ;;
        if existsb (fun x => cat_eqb (fst x) c) m then Err EValue
        else n <- int10 w3 ;; Ok (m ++ [(c, CatInfo (one_zero w1) (one_zero w2) n)])
      | _ => Err EValue
      end
  end.
(** mecab_oov_plugin.py:100-120 *)
Definition read_character_property (file : text) : res (list (cat * cat_info)) :=
  foldM read_property_line [] (file_lines file).

(** mecab_oov_plugin.py:122-144: one line *)
Definition read_unk_line (g : grammar) (props : list (cat * cat_info)) (m : list (cat * oov_entry)) (line : text)
  : res (list (cat * oov_entry)) :=
  let line := strip line in
  match line with
  | [] => Ok m
  | _ =>
    let cols := split_on comma line in
    if (length cols <? 10)%nat then Err EValue
    else
      c <- category_attr (nth 0 cols []) ;;
      if negb (existsb (fun x => cat_eqb (fst x) c) props) then Err EValue
      else
        l <- int10 (nth 1 cols []) ;;
        r <- int10 (nth 2 cols []) ;;
        k <- int10 (nth 3 cols []) ;;
        Ok (m ++ [(c, OovEntry l r k (get_part_of_speech_id g (slice cols 4 10)))])
  end.
(** mecab_oov_plugin.py:122-144 *)
Definition read_oov (g : grammar) (props : list (cat * cat_info)) (file : text) : res (list (cat * oov_entry)) :=
  foldM (read_unk_line g props) [] (file_lines file).

(** mecab_oov_plugin.py:40-59: the dicts [categories] and [oov_list] *)
Definition assoc_cat {A} (m : list (cat * A)) (c : cat) : option A :=
  match find (fun x => cat_eqb (fst x) c) m with Some x => Some (snd x) | None => None end.
Definition oovs_of (m : list (cat * oov_entry)) (c : cat) : option (list oov_entry) :=
  match filter (fun x => cat_eqb (fst x) c) m with [] => None | l => Some (map snd l) end.
Definition mecab_set_up (g : grammar) (char_def unk_def : text) : res mecab_cfg :=
  props <- read_character_property char_def ;;
  oovs <- read_oov g props unk_def ;;
  Ok (MecabCfg (assoc_cat props) (oovs_of oovs)).

(** ** default_input_text_plugin.py:78-100 *)
Definition rewrite_columns (line : text) : list (list text) :=
  let line := strip line in
  match line with [] => [] | _ => if starts hash line then [] else [words line] end.
Definition read_rewrite_def (file : text) : res default_cfg :=
  read_rewrite_lists (concat (map rewrite_columns (file_lines file))).

(** ** dictionarybuilder.py:192-216: the numbers of a matrix file.  [readline] of an empty
    file is empty. *)
Definition matrix_columns (line : text) : list (list text) :=
  let line := strip line in
  match line with [] => [] | _ => if starts hash line then [] else [words line] end.
(** A line with fewer than three columns is not turned into numbers (line 207). *)
Definition matrix_numbers (cols : list text) : res (list Z) :=
  if (length cols <? 3)%nat then Ok (map (fun _ => 0) cols) else mapM int10 cols.
Definition read_matrix (file : text) : res matrix_source :=
  match file_lines file with
  | [] => Err EValue
  | h :: r =>
    match strip h with
    | [] => Err EValue
    | _ =>
      header <- mapM int10 (words (strip h)) ;;
      rows <- mapM matrix_numbers (concat (map matrix_columns r)) ;;
      Ok (MatrixSource header rows)
    end
  end.
End resource.

(** grammar.py:54-55: [self.pos_list[pos_id]]; a negative index counts from the end *)
Definition part_of_speech (g : grammar) (id : Z) : res (list text) :=
  let n := Z.of_nat (length (g_pos g)) in
  if (0 <=? id) then get (g_pos g) (Z.to_nat id)
  else if 0 <=? id + n then get (g_pos g) (Z.to_nat (id + n)) else Err EIndex.

(** ** csv.reader with its defaults (external: CPython's _csv.c, parse_process_char).  The
    error that older Pythons raise for a NUL character is left out. *)
Inductive csv_state := StartRecord | StartField | InField | InQuoted | QuoteInQuoted | EatNewline.
(** State, the field that is being read (in reverse) and the fields of the row so far (in
    reverse) *)
Record csv := Csv { cv_state : csv_state; cv_field : text; cv_fields : list text }.
Definition quote : Z := 34.
Definition save_field (s : csv) (st : csv_state) : csv := Csv st [] (rev (cv_field s) :: cv_fields s).
Definition is_newline (c : Z) : bool := (c =? 10) || (c =? 13).
(** One character; csv.Error is an Exception *)
Definition csv_char (s : csv) (c : Z) : res csv :=
  let start_field s :=
    if is_newline c then Ok (save_field s EatNewline)
    else if c =? quote then Ok (Csv InQuoted (cv_field s) (cv_fields s))
    else if c =? comma then Ok (save_field s StartField)
    else Ok (Csv InField (c :: cv_field s) (cv_fields s)) in
  match cv_state s with
  | StartRecord => if is_newline c then Ok (Csv EatNewline (cv_field s) (cv_fields s)) else start_field s
  | StartField => start_field s
  | InField =>
    if is_newline c then Ok (save_field s EatNewline)
    else if c =? comma then Ok (save_field s StartField)
    else Ok (Csv InField (c :: cv_field s) (cv_fields s))
  | InQuoted =>
    if c =? quote then Ok (Csv QuoteInQuoted (cv_field s) (cv_fields s))
    else Ok (Csv InQuoted (c :: cv_field s) (cv_fields s))
  | QuoteInQuoted =>
    if c =? quote then Ok (Csv InQuoted (c :: cv_field s) (cv_fields s))
    else if c =? comma then Ok (save_field s StartField)
    else if is_newline c then Ok (save_field s EatNewline)
    else Ok (Csv InField (c :: cv_field s) (cv_fields s))
  | EatNewline => if is_newline c then Ok s else Err EException
  end.
(** The end of a line *)
Definition csv_eol (s : csv) : csv :=
  match cv_state s with
  | StartRecord => s
  | StartField | InField | QuoteInQuoted => save_field s StartRecord
  | InQuoted => s
  | EatNewline => Csv StartRecord (cv_field s) (cv_fields s)
  end.
(** The rows: a row goes on over lines while it is inside quotes.  The limit on the length
    of a field (131072) is left out. *)
Fixpoint csv_rows_from (s : csv) (lines : list text) : res (list (list text)) :=
  match lines with
  | [] =>
    match cv_state s with
    | InQuoted => Ok [rev (rev (cv_field s) :: cv_fields s)]
    | _ => Ok []
    end
  | line :: r =>
    s' <- foldM csv_char s line ;;
    let s' := csv_eol s' in
    match cv_state s' with
    | StartRecord => rows <- csv_rows_from (Csv StartRecord [] []) r ;; Ok (rev (cv_fields s') :: rows)
    | _ => csv_rows_from s' r
    end
  end.
Definition csv_rows (file : text) : res (list (list text)) := csv_rows_from (Csv StartRecord [] []) (file_lines file).
