(** Model of sudachipy/dictionarylib/{dictionarybuilder,userdictionarybuilder}.py and of
    the two build commands of command_line.py.  Not modelled: the splitting of the source
    files into rows and columns (csv) and of the matrix file into numbers, logging. *)
From Coq Require Import List ZArith Lia Bool Arith.
From Verif Require Import Base Utf8 M_Builder M_Lattice M_Bytes M_DicReader.
Import ListNotations.
Open Scope Z_scope.

(** ** Strings *)
(** [t.split(sep)] for a separator of one character *)
Fixpoint split_on (sep : Z) (t : text) : list text :=
  match t with
  | [] => [[]]
  | c :: r =>
    if c =? sep then [] :: split_on sep r
    else match split_on sep r with [] => [[c]] | w :: ws => (c :: w) :: ws end
  end.
(** [','.join(l)] *)
Fixpoint join_with (sep : Z) (l : list text) : text :=
  match l with [] => [] | [w] => w | w :: r => w ++ sep :: join_with sep r end.
Definition comma : Z := 44.
Definition slash : Z := 47.
Definition star : text := [42].                  (* '*' *)
Definition teqb : text -> text -> bool := list_eqb Z.eqb.

(** ** Unicode escapes, dictionarybuilder.py:33, 306-313 *)
Definition hex_value (c : Z) : option Z :=
  if (48 <=? c) && (c <=? 57) then Some (c - 48)
  else if (97 <=? c) && (c <=? 102) then Some (c - 87)
  else if (65 <=? c) && (c <=? 70) then Some (c - 55)
  else None.
Definition is_hex (c : Z) : bool := match hex_value c with Some _ => true | None => false end.
Fixpoint hex_number (acc : Z) (t : text) : Z :=
  match t with [] => acc | c :: r => hex_number (16 * acc + match hex_value c with Some v => v | None => 0 end) r end.
(** The hexadecimal digits at the front, and the rest *)
Fixpoint take_hex (t : text) : text * text :=
  match t with
  | c :: r => if is_hex c then let '(h, s) := take_hex r in (c :: h, s) else ([], t)
  | [] => ([], [])
  end.
(** dictionarybuilder.py:33: what the pattern matches at the front of a text: the
    digits and the rest *)
Definition match_escape (t : text) : option (text * text) :=
  match t with
  | 92 :: 117 :: r =>
    if (length (firstn 4 r) =? 4)%nat && forallb is_hex (firstn 4 r) then Some (firstn 4 r, skipn 4 r)
    else match r with
         | 123 :: r' =>
           match take_hex r' with
           | ((_ :: _) as h, 125 :: s) => Some (h, s)
           | _ => None
           end
         | _ => None
         end
  | _ => None
  end.
(** dictionarybuilder.py:307-312: without braces; more than 4 digits get the prefix
    '\U000', which takes 5 of them; fewer than 4 digits are a UnicodeDecodeError *)
Definition replace_escape (h : text) : res text :=
  if (length h <? 4)%nat then Err EUnicode
  else if (length h =? 4)%nat then Ok [hex_number 0 h]
  else Ok (hex_number 0 (firstn 5 h) :: skipn 5 h).
(** dictionarybuilder.py:306-313; every turn consumes a character *)
Fixpoint unescape_fuel (n : nat) (t : text) : res text :=
  match n with
  | O => Ok []
  | S k =>
    match match_escape t with
    | Some (h, s) => a <- replace_escape h ;; b <- unescape_fuel k s ;; Ok (a ++ b)
    | None =>
      match t with
      | [] => Ok []
      | c :: r => b <- unescape_fuel k r ;; Ok (c :: b)
      end
    end
  end.
Definition unescape (t : text) : res text := unescape_fuel (length t) t.

(** ** Entries, dictionarybuilder.py:38-44 and 142-143 *)
Record entry := Entry {
  e_headword : option text;
  e_left : Z;
  e_right : Z;
  e_cost : Z;
  e_surface : text;
  e_head_length : nat;
  e_pos : Z;
  e_norm : text;
  e_dic_id : Z;
  e_reading : text;
  e_a : text;                   (* the split columns *)
  e_b : text;
  e_c : text;
  e_syn : list Z;
}.

(** What distinguishes the two builders: userdictionarybuilder.py:20-24.  Of the system
    lexicon, [get_word_id] and [size()]. *)
Inductive kind := SystemDic | UserDic (g : grammar) (sys_id : text -> Z -> text -> res Z) (sys_size : nat).

Section builder.
Variable k : kind.
(** [int(s)] of a text: ValueError *)
Variable py_int : text -> res Z.
(** [\d] in a pattern for texts *)
Variable is_digit : Z -> bool.

(** dictionarybuilder.py:51-56: the id and the table afterwards *)
Definition table_id (table : list text) (s : text) : Z * list text :=
  match index_of teqb table s with
  | Some i => (Z.of_nat i, table)
  | None => (Z.of_nat (length table), table ++ [s])
  end.
(** dictionarybuilder.py:159-160, userdictionarybuilder.py:42-46 *)
Definition get_posid (table : list text) (strs : list text) : Z * list text :=
  match k with
  | SystemDic => table_id table (join_with comma strs)
  | UserDic g _ _ =>
    let id := get_part_of_speech_id g strs in
    if id <? 0 then let '(i, table') := table_id table (join_with comma strs) in (i + Z.of_nat (length (g_pos g)), table')
    else (id, table)
  end.

Definition ARRAY_MAX_LENGTH : nat := 127.
Definition STRING_MAX_LENGTH : Z := 32767.

(** dictionarybuilder.py:315-317: the number of '/' and one *)
Definition check_splitinfo_format (t : text) : res unit :=
  if (ARRAY_MAX_LENGTH <? length (filter (Z.eqb slash) t) + 1)%nat then Err EValue else Ok tt.

(** dictionarybuilder.py:373-379 *)
Definition parse_synonym_group_ids (t : text) : res (list Z) :=
  if teqb t star then Ok []
  else
    let l := split_on slash t in
    if (ARRAY_MAX_LENGTH <? length l)%nat then Err EValue else mapM py_int l.

(** dictionarybuilder.py:146-151; [encode] may raise *)
Definition is_length_valid (head : bytes) (surface reading norm : text) : bool :=
  (Z.of_nat (length head) <=? STRING_MAX_LENGTH) && (Z.of_nat (length surface) <=? STRING_MAX_LENGTH)
  && (Z.of_nat (length reading) <=? STRING_MAX_LENGTH) && (Z.of_nat (length norm) <=? STRING_MAX_LENGTH).

(** dictionarybuilder.py:105-144: the entry and the part-of-speech table afterwards *)
Definition parse_line (table : list text) (cols : list text) : res (entry * list text) :=
  if (length cols <? 18)%nat then Err EValue
  else
    cols <- mapM unescape cols ;;
    let col i := nth i cols [] in
    head <- encode (col 0%nat) ;;
    if negb (is_length_valid head (col 4%nat) (col 11%nat) (col 12%nat)) then Err EValue
    else match col 0%nat with
    | [] => Err EValue
    | _ =>
      let headword := if teqb (col 1%nat) [45; 49] then None else Some (col 0%nat) in
      left <- py_int (col 1%nat) ;;
      right <- py_int (col 2%nat) ;;
      cost <- py_int (col 3%nat) ;;
      let '(pos, table') := get_posid table (slice cols 5 11) in
      if pos <? 0 then Err EValue
      else
        _ <- check_splitinfo_format (col 15%nat) ;;
        _ <- check_splitinfo_format (col 16%nat) ;;
        _ <- check_splitinfo_format (col 17%nat) ;;
        if teqb (col 14%nat) [65] && negb (teqb (col 15%nat) star && teqb (col 16%nat) star) then Err EValue
        else
          syn <- (if (18 <? length cols)%nat then parse_synonym_group_ids (col 18%nat) else Ok []) ;;
          did <- (if teqb (col 13%nat) star then Ok (-1) else py_int (col 13%nat)) ;;
          Ok (Entry headword left right cost (col 4%nat) (length head) pos (col 12%nat) did (col 11%nat)
                (col 15%nat) (col 16%nat) (col 17%nat) syn, table')
    end.

(** ** The source: dictionarybuilder.py:72-78 *)
Record source := Source {
  s_entries : list entry;
  s_keys : list (bytes * list nat);       (* trie_keys, a SortedDict *)
  s_table : list text;
}.

(** Order of bytes objects *)
Fixpoint bytes_lt (a b : bytes) : bool :=
  match a, b with
  | _, [] => false
  | [], _ :: _ => true
  | x :: r, y :: s => (x <? y) || ((x =? y) && bytes_lt r s)
  end.
(** dictionarybuilder.py:153-157 on the sorted keys *)
Fixpoint add_key (keys : list (bytes * list nat)) (key : bytes) (wid : nat) : list (bytes * list nat) :=
  match keys with
  | [] => [(key, [wid])]
  | (x, l) :: r =>
    if list_eqb Z.eqb key x then (x, l ++ [wid]) :: r
    else if bytes_lt key x then (key, [wid]) :: keys
    else (x, l) :: add_key r key wid
  end.
Definition add_to_trie (keys : list (bytes * list nat)) (headword : text) (wid : nat) : res (list (bytes * list nat)) :=
  key <- encode headword ;; Ok (add_key keys key wid).

(** dictionarybuilder.py:90-103: one row *)
Definition build_row (s : source) (row : list text) : res source :=
  '(e, table) <- parse_line (s_table s) row ;;
  keys <- match e_headword e with
          | Some ((_ :: _) as h) => add_to_trie (s_keys s) h (length (s_entries s))
          | _ => Ok (s_keys s)
          end ;;
  Ok (Source (s_entries s ++ [e]) keys table).
Definition build_lexicon (s : source) (rows : list (list text)) : res source := foldM build_row s rows.
Definition new_source : source := Source [] [] [].

(** ** Writing *)
(** dictionarybuilder.py:391-396 *)
Definition put_length (n : Z) : res bytes :=
  if n <=? 127 then put_byte n
  else a <- put_byte (Z.lor (Z.shiftr n 8) 0x80) ;; b <- put_byte (Z.land n 0xFF) ;; Ok (a ++ b).
(** dictionarybuilder.py:381-389 *)
Definition put_string (t : text) : res bytes :=
  a <- put_length (Z.of_nat (length (units t))) ;; b <- utf16 t ;; Ok (a ++ b).
Fixpoint put_all {A} (f : A -> res bytes) (l : list A) : res bytes :=
  match l with [] => Ok [] | x :: r => a <- f x ;; b <- put_all f r ;; Ok (a ++ b) end.
(** dictionarybuilder.py:398-401 *)
Definition put_int_array (l : list Z) : res bytes :=
  a <- put_byte (Z.of_nat (length l)) ;; b <- put_all put_int l ;; Ok (a ++ b).

(** dictionarybuilder.py:186-190 *)
Definition convert_postable (table : list text) : res bytes :=
  a <- put_short (Z.of_nat (length table)) ;;
  b <- put_all (fun pos => put_all put_string (split_on comma pos)) table ;;
  Ok (a ++ b).

(** A matrix file: the numbers of the first line and of the following lines that are
    not empty or comments *)
Record matrix_source := MatrixSource { ms_header : list Z; ms_lines : list (list Z) }.
(** dictionarybuilder.py:203-215: one line; the position is always 0 in between *)
Definition matrix_line (lsize : Z) (m : file) (cols : list Z) : res file :=
  match cols with
  | [l; r; cost] =>
    let i := 2 * (l + lsize * r) in
    if i <? 0 then Err EValue
    else b <- put_short cost ;; Ok (f_seek (f_write (f_seek m (Z.to_nat i)) b) (f_pos m))
  | _ => if (length cols <? 3)%nat then Ok m else Err EValue
  end.
(** dictionarybuilder.py:192-216: what goes to the byte buffer, and the cells *)
Definition convert_matrix (ms : matrix_source) : res (bytes * bytes) :=
  match ms_header ms with
  | [lsize; rsize] =>
    a <- put_short lsize ;; b <- put_short rsize ;;
    m <- foldM (matrix_line lsize) (File [] 0) (ms_lines ms) ;;
    Ok (a ++ b, f_data m)
  | _ => Err EValue
  end.
(** dictionarybuilder.py:162-184 *)
Definition write_grammar (table : list text) (ms : option matrix_source) (out : file) : res file :=
  pt <- convert_postable table ;;
  let out := f_write out pt in
  match ms with
  | None => a <- put_short 0 ;; b <- put_short 0 ;; Ok (f_write out (a ++ b))
  | Some ms => '(h, m) <- convert_matrix ms ;; Ok (f_write (f_write out h) m)
  end.

(** ** Split information *)
(** dictionarybuilder.py:335-337: the pattern [U?\d+$]; the end may be before a final
    line feed *)
Definition drop_newline (t : text) : text :=
  match rev t with 10 :: r => rev r | _ => t end.
Definition is_id (t : text) : bool :=
  let d := match t with 85 :: r => r | _ => t end in
  let ok x := match x with [] => false | _ => forallb is_digit x end in
  ok d || ok (drop_newline d).
(** dictionarybuilder.py:369-371 and userdictionarybuilder.py:54-58 *)
Definition check_wordid (entries : list entry) (wid : Z) : res unit :=
  let own w := if (w <? 0) || (Z.of_nat (length entries) <=? w) then Err EValue else Ok tt in
  match k with
  | SystemDic => own wid
  | UserDic _ _ sys_size =>
    if Z.shiftl 1 28 <=? wid then own (Z.land wid (Z.shiftl 1 28 - 1))
    else if (wid <? 0) || (Z.of_nat sys_size <=? wid) then Err EValue
    else Ok tt
  end.
(** dictionarybuilder.py:339-347 *)
Definition parse_id (entries : list entry) (t : text) : res Z :=
  id <- match t with
        | 85 :: r => i <- py_int r ;; Ok (match k with UserDic _ _ _ => Z.lor i (Z.shiftl 1 28) | SystemDic => i end)
        | _ => py_int t
        end ;;
  _ <- check_wordid entries id ;;
  Ok id.
(** dictionarybuilder.py:360-367 *)
Definition own_wordid (entries : list entry) (headword : text) (pos : Z) (reading : text) : Z :=
  match index_of (fun e _ => teqb (e_surface e) headword && (e_pos e =? pos) && teqb (e_reading e) reading)
          entries (Entry None 0 0 0 [] 0 0 [] 0 [] [] [] [] []) with
  | Some i => Z.of_nat i
  | None => -1
  end.
(** ... and userdictionarybuilder.py:48-52 *)
Definition get_wordid (entries : list entry) (headword : text) (pos : Z) (reading : text) : res Z :=
  let wid := own_wordid entries headword pos reading in
  match k with
  | SystemDic => Ok wid
  | UserDic _ sys_id _ => if 0 <=? wid then Ok (Z.lor wid (Z.shiftl 1 28)) else sys_id headword pos reading
  end.
(** dictionarybuilder.py:349-358 *)
Definition word_to_id (entries : list entry) (table : list text) (t : text) : res (Z * list text) :=
  let cols := split_on comma t in
  if (length cols <? 8)%nat then Err EValue
  else
    headword <- unescape (nth 0 cols []) ;;
    let '(pos, table') := get_posid table (slice cols 1 7) in
    if pos <? 0 then Err EValue
    else
      reading <- unescape (nth 7 cols []) ;;
      wid <- get_wordid entries headword pos reading ;;
      Ok (wid, table').
(** dictionarybuilder.py:326-333: one unit *)
Definition parse_unit (entries : list entry) (table : list text) (t : text) : res (Z * list text) :=
  if is_id t then id <- parse_id entries t ;; Ok (id, table)
  else
    '(wid, table') <- word_to_id entries table t ;;
    if wid <? 0 then Err EValue else Ok (wid, table').
Fixpoint parse_units (entries : list entry) (table : list text) (l : list text) : res (list Z * list text) :=
  match l with
  | [] => Ok ([], table)
  | t :: r =>
    '(id, table) <- parse_unit entries table t ;;
    '(ids, table) <- parse_units entries table r ;;
    Ok (id :: ids, table)
  end.
(** dictionarybuilder.py:319-333; the part-of-speech table may grow although it has
    been written already *)
Definition parse_splitinfo (entries : list entry) (table : list text) (info : text) : res (list Z * list text) :=
  if teqb info star then Ok ([], table)
  else
    let words := split_on slash info in
    if (ARRAY_MAX_LENGTH <? length words)%nat then Err EValue else parse_units entries table words.

(** dictionarybuilder.py:278-296: the bytes of one word info *)
Definition put_word_info (entries : list entry) (table : list text) (e : entry) : res (bytes * list text) :=
  b1 <- put_string (e_surface e) ;;
  b2 <- put_length (Z.of_nat (e_head_length e)) ;;
  b3 <- put_short (e_pos e) ;;
  b4 <- put_string (if teqb (e_norm e) (e_surface e) then [] else e_norm e) ;;
  b5 <- put_int (e_dic_id e) ;;
  b6 <- put_string (if teqb (e_reading e) (e_surface e) then [] else e_reading e) ;;
  '(a, table) <- parse_splitinfo entries table (e_a e) ;;
  b7 <- put_int_array a ;;
  '(b, table) <- parse_splitinfo entries table (e_b e) ;;
  b8 <- put_int_array b ;;
  '(c, table) <- parse_splitinfo entries table (e_c e) ;;
  b9 <- put_int_array c ;;
  b10 <- put_int_array (e_syn e) ;;
  Ok (b1 ++ b2 ++ b3 ++ b4 ++ b5 ++ b6 ++ b7 ++ b8 ++ b9 ++ b10, table).

(** dictionarybuilder.py:276-298: the loop over the entries that are left; the file and
    the offsets *)
Fixpoint write_infos (entries : list entry) (table : list text) (out : file) (l : list entry) : res (file * bytes) :=
  match l with
  | [] => Ok (out, [])
  | e :: r =>
    o <- put_int (Z.of_nat (f_tell out)) ;;
    '(b, table) <- put_word_info entries table e ;;
    '(out, os) <- write_infos entries table (f_write out b) r ;;
    Ok (out, o ++ os)
  end.
(** dictionarybuilder.py:270-304 *)
Definition write_wordinfo (entries : list entry) (table : list text) (out : file) : res file :=
  let mark := f_tell out in
  let out := f_seek out (mark * 4 + length entries) in
  '(out, offsets) <- write_infos entries table out entries ;;
  Ok (f_write (f_seek out mark) offsets).

(** dictionarybuilder.py:223-228: the offsets of the keys in the table of word ids, and
    the table *)
Fixpoint wid_table (pos : nat) (keys : list (bytes * list nat)) : res (list (bytes * Z) * bytes) :=
  match keys with
  | [] => Ok ([], [])
  | (key, wids) :: r =>
    a <- put_byte (Z.of_nat (length wids)) ;;
    b <- put_all (fun w => put_int (Z.of_nat w)) wids ;;
    '(kvs, t) <- wid_table (pos + length (a ++ b)) r ;;
    Ok ((key, Z.of_nat pos) :: kvs, a ++ b ++ t)
  end.

Definition put_params (e : entry) : res bytes :=
  a <- put_short (e_left e) ;; b <- put_short (e_right e) ;; c <- put_short (e_cost e) ;; Ok (a ++ b ++ c).

(** [trie.build(keys, lengths, values)] and [trie.array()]; the size is a fourth of the
    length of the array *)
Variable trie_array : list (bytes * Z) -> res bytes.

(** dictionarybuilder.py:218-268.  The number of the entries goes to the file together with
    the parameters of the first one (256-264): without entries it is not written. *)
Definition write_lexicon (s : source) (out : file) : res file :=
  '(kvs, wids) <- wid_table 0 (s_keys s) ;;
  array <- trie_array kvs ;;
  b1 <- put_int (Z.of_nat (length array / 4)) ;;
  let out := f_write (f_write out b1) array in
  b2 <- put_int (Z.of_nat (length wids)) ;;
  let out := f_write (f_write out b2) wids in
  b3 <- put_int (Z.of_nat (length (s_entries s))) ;;
  ps <- put_all put_params (s_entries s) ;;
  let out := f_write out (match s_entries s with [] => [] | _ => b3 ++ ps end) in
  write_wordinfo (s_entries s) (s_table s) out.

(** dictionarybuilder.py:80-88 (userdictionarybuilder.py:26-40 with no matrix) on a
    stream that is at its end *)
Definition build_dictionary (rows : list (list text)) (ms : option matrix_source) (out : file) : res file :=
  s <- build_lexicon new_source rows ;;
  out <- write_grammar (s_table s) (match k with SystemDic => ms | UserDic _ _ _ => None end) out ;;
  write_lexicon s out.

(** command_line.py:105-125: the contents of the file that the build commands write *)
Definition build_command (now : Z) (description : text) (rows : list (list text)) (ms : option matrix_source) : res bytes :=
  h <- header_to_bytes (Header (match k with SystemDic => SYSTEM_DICT_VERSION_2 | UserDic _ _ _ => USER_DICT_VERSION_3 end)
                          now description) ;;
  f <- build_dictionary rows ms (f_write (File [] 0) h) ;;
  Ok (f_data f).
End builder.
