(** Model of the code that reads binary dictionaries: sudachipy/dictionarylib/
    {dictionaryversion,dictionaryheader,grammar,wordidtable,wordparameterlist,wordinfolist,
    doublearraylexicon,binarydictionary}.py, on a little-endian machine. *)
From Coq Require Import List ZArith Lia Bool Arith.
From Verif Require Import Base Utf8 M_Builder M_Lattice M_Tokenizer M_Bytes.
Import ListNotations.
Open Scope Z_scope.

(** ** dictionaryversion.py:16-28 *)
Definition SYSTEM_DICT_VERSION_1 : Z := 0x7366d3f18bd111e7.
Definition SYSTEM_DICT_VERSION_2 : Z := 0xce9f011a92394434.
Definition USER_DICT_VERSION_1 : Z := 0xa50f31188bd211e7.
Definition USER_DICT_VERSION_2 : Z := 0x9fdeb5a90168d868.
Definition USER_DICT_VERSION_3 : Z := 0xca9811756ff64fb0.
(** dictionaryversion.py:31-35 *)
Definition is_dictionary (v : Z) : bool :=
  existsb (Z.eqb v) [SYSTEM_DICT_VERSION_1; SYSTEM_DICT_VERSION_2; USER_DICT_VERSION_1; USER_DICT_VERSION_2; USER_DICT_VERSION_3].
(** dictionaryversion.py:38-51 *)
Definition is_system_dictionary (v : Z) : bool := (v =? SYSTEM_DICT_VERSION_1) || (v =? SYSTEM_DICT_VERSION_2).
Definition is_user_dictionary (v : Z) : bool :=
  (v =? USER_DICT_VERSION_1) || (v =? USER_DICT_VERSION_2) || (v =? USER_DICT_VERSION_3).
Definition has_grammar (v : Z) : bool := is_system_dictionary v || (v =? USER_DICT_VERSION_2) || (v =? USER_DICT_VERSION_3).
Definition has_synonym_group_ids (v : Z) : bool := (v =? SYSTEM_DICT_VERSION_2) || (v =? USER_DICT_VERSION_3).

(** ** dictionaryheader.py:22-29 *)
Record header := Header { h_version : Z; h_time : Z; h_description : text }.
Definition DESCRIPTION_SIZE : nat := 256.
Definition HEADER_SIZE : nat := 272.

(** dictionaryheader.py:36-40: from [o] on, [k] bytes left to look at; the bytes
    before the first NUL.  An index past the end raises IndexError. *)
Fixpoint until_nul (d : bytes) (o k : nat) : res bytes :=
  match k with
  | O => Ok []
  | S k' => x <- get d o ;; if x =? 0 then Ok [] else r <- until_nul d (S o) k' ;; Ok (x :: r)
  end.

(** dictionaryheader.py:31-42; struct.error when there are not 16 bytes *)
Definition header_from_bytes (d : bytes) (offset : nat) : res header :=
  let b := slice d offset (offset + 16) in
  if negb (length b =? 16)%nat then Err EStruct
  else
    ds <- until_nul d (offset + 16) DESCRIPTION_SIZE ;;
    s <- decode ds ;;
    Ok (Header (unle (firstn 8 b)) (unle (skipn 8 b)) s).

(** dictionaryheader.py:44-53: the buffer has 272 zero bytes and is overwritten from
    the beginning. *)
Definition header_to_bytes (h : header) : res bytes :=
  v <- put_long false (h_version h) ;;
  t <- put_long true (h_time h) ;;
  s <- encode (h_description h) ;;
  if (DESCRIPTION_SIZE <? length s)%nat then Err EValue
  else
    let b := v ++ t ++ s in
    Ok (b ++ skipn (length b) (repeat 0 HEADER_SIZE)).

(** ** grammar.py *)
Record grammar := Grammar {
  g_pos : list (list text);
  g_lsize : Z;
  g_rsize : Z;
  g_matrix : list Z;            (* the cells, row by row *)
  g_storage : nat;
}.
Definition POS_DEPTH : nat := 6.

(** A view of bytes cast to 'h': TypeError unless the length is even *)
Fixpoint shorts (b : bytes) : res (list Z) :=
  match b with
  | [] => Ok []
  | [_] => Err EType
  | x :: y :: r => l <- shorts r ;; Ok (unle_signed [x; y] :: l)
  end.

(** [n] times *)
Fixpoint ptimes {A} (n : nat) (c : prog A) : prog (list A) :=
  match n with O => Ret [] | S k => a <~ c ;; l <~ ptimes k c ;; Ret (a :: l) end.

(** grammar.py:104-106 *)
Definition get_short : prog Z := b <~ pread 2 ;; Ret (unle_signed b).
(** grammar.py:98-102 *)
Definition get_string : prog text := n <~ pbyte ;; b <~ pread (2 * Z.to_nat n) ;; plift (unutf16 b).

(** grammar.py:42-45.  For sizes of which one is negative the cast raises ValueError. *)
Definition view_matrix (d : bytes) (off : nat) (l r : Z) : res (list Z) :=
  if l * r =? 0 then Ok []
  else if (l <? 0) || (r <? 0) then Err EValue
  else
    let b := slice d off (off + 2 * Z.to_nat (l * r)) in
    if (length b =? 2 * Z.to_nat (l * r))%nat then shorts b else Err EType.

(** grammar.py:19-46; the whole mapping is [d] *)
Definition read_grammar (d : bytes) (offset : nat) : prog grammar :=
  original <~ ptell ;;
  _ <~ pseek (Z.of_nat offset) ;;
  n <~ get_short ;;
  pos <~ ptimes (Z.to_nat n) (ptimes POS_DEPTH get_string) ;;
  l <~ get_short ;;
  r <~ get_short ;;
  off <~ ptell ;;
  m <~ plift (view_matrix d off l r) ;;
  _ <~ pseek (Z.of_nat original) ;;
  Ret (Grammar pos l r m (off - offset + 2 * Z.to_nat (l * r))).

(** grammar.py:54-55 for an id that is not negative *)
Definition get_part_of_speech_string (g : grammar) (id : Z) : res (list text) := get (g_pos g) (Z.to_nat id).
Fixpoint index_of {A} (eqb : A -> A -> bool) (l : list A) (a : A) : option nat :=
  match l with
  | [] => None
  | x :: r => if eqb x a then Some O else match index_of eqb r a with Some i => Some (S i) | None => None end
  end.
(** grammar.py:57-58 *)
Definition get_part_of_speech_id (g : grammar) (pos : list text) : Z :=
  match index_of (list_eqb (list_eqb Z.eqb)) (g_pos g) pos with Some i => Z.of_nat i | None => -1 end.
(** An index into a dimension of a memory view: a negative one counts from the end *)
Definition view_index (size i : Z) : option nat :=
  let j := if i <? 0 then i + size else i in
  if (0 <=? j) && (j <? size) then Some (Z.to_nat j) else None.
(** grammar.py:60-71: [self._matrix_view[right, left]]; the view has [g_lsize] rows of
    [g_rsize] cells (IndexError outside; TypeError when there is no matrix). *)
Definition get_connect_cost (g : grammar) (left right : Z) : res Z :=
  if g_lsize g * g_rsize g =? 0 then Err EType
  else
    match view_index (g_lsize g) right, view_index (g_rsize g) left with
    | Some i, Some j => get (g_matrix g) (i * Z.to_nat (g_rsize g) + j)
    | _, _ => Err EIndex
    end.
(** grammar.py:73-84; a value that does not fit raises ValueError *)
Definition set_connect_cost (g : grammar) (left right cost : Z) : res grammar :=
  if g_lsize g * g_rsize g =? 0 then Err EType
  else
    match view_index (g_lsize g) right, view_index (g_rsize g) left with
    | Some i, Some j =>
        if (-32768 <=? cost) && (cost <=? 32767) then
          m <- set_nth (g_matrix g) (i * Z.to_nat (g_rsize g) + j) cost ;;
          Ok (Grammar (g_pos g) (g_lsize g) (g_rsize g) m (g_storage g))
        else Err EValue
    | _, _ => Err EIndex
    end.
(** grammar.py:108-109 *)
Definition add_pos_list (g g' : grammar) : grammar :=
  Grammar (g_pos g ++ g_pos g') (g_lsize g) (g_rsize g) (g_matrix g) (g_storage g).

(** ** wordidtable.py:19-29: the size and the view *)
Definition read_wid_table (offset : nat) : prog (nat * bytes) :=
  _ <~ pseek (Z.of_nat offset) ;;
  b <~ pread 4 ;;
  let size := Z.to_nat (unle b) in
  v <~ psub (offset + 4) (offset + 4 + size) ;;
  Ret (size, v).

Fixpoint uints (n : nat) (b : bytes) : list Z :=
  match n with O => [] | S k => unle (firstn 4 b) :: uints k (skipn 4 b) end.
(** wordidtable.py:31-34: IndexError; struct.error when there are too few bytes *)
Definition wid_table_get (v : bytes) (index : Z) : res (list Z) :=
  n <- get v (Z.to_nat index) ;;
  let b := skipn (Z.to_nat index + 1) v in
  if (length b <? 4 * Z.to_nat n)%nat then Err EStruct else Ok (uints (Z.to_nat n) b).

(** ** wordparameterlist.py:21-29: the size and the view as shorts *)
Definition read_params (offset : nat) : prog (nat * list Z) :=
  original <~ ptell ;;
  _ <~ pseek (Z.of_nat offset) ;;
  b <~ pread 4 ;;
  let size := Z.to_nat (unle b) in
  o <~ ptell ;;
  v <~ psub o (o + size * 6) ;;
  l <~ plift (shorts v) ;;
  _ <~ pseek (Z.of_nat original) ;;
  Ret (size, l).

(** ** wordinfolist.py *)
(** wordinfolist.py:63-68 *)
Definition buffer_to_string_length : prog Z :=
  n <~ pbyte ;;
  if n <? 128 then Ret n
  else low <~ pbyte ;; Ret (Z.lor (Z.shiftl (Z.land n 0x7F) 8) low).
(** wordinfolist.py:70-72 *)
Definition buffer_to_string : prog text :=
  n <~ buffer_to_string_length ;; b <~ pread (2 * Z.to_nat n) ;; plift (unutf16_le b).
Fixpoint sints (n : nat) (b : bytes) : list Z :=
  match n with O => [] | S k => unle_signed (firstn 4 b) :: sints k (skipn 4 b) end.
(** wordinfolist.py:74-77; struct.error when there are too few bytes *)
Definition buffer_to_int_array : prog (list Z) :=
  n <~ pbyte ;;
  b <~ pread (4 * Z.to_nat n) ;;
  if (length b =? 4 * Z.to_nat n)%nat then Ret (sints (Z.to_nat n) b) else Raise EStruct.

(** wordinfolist.py:59-61 for an id that is not negative *)
Definition word_id_to_offset (off : nat) (wid : Z) : prog Z :=
  let i := (off + 4 * Z.to_nat wid)%nat in b <~ psub i (i + 4) ;; Ret (unle b).

(** wordinfolist.py:31-49: what is read for one word; its dictionary form is, to begin
    with, the surface. *)
Definition read_fields (syn : bool) : prog word_info :=
  surface <~ buffer_to_string ;;
  len <~ buffer_to_string_length ;;
  pb <~ pread 2 ;;
  norm <~ buffer_to_string ;;
  db <~ pread 4 ;;
  reading <~ buffer_to_string ;;
  a <~ buffer_to_int_array ;;
  b <~ buffer_to_int_array ;;
  c <~ buffer_to_int_array ;;
  s <~ (if syn then buffer_to_int_array else Ret []) ;;
  Ret (WordInfo surface (Z.to_nat len) (unle pb) (match norm with [] => surface | _ => norm end)
         (unle_signed db) surface (match reading with [] => surface | _ => reading end) a b c s).

Definition set_dictionary_form (wi : word_info) (dic : text) : word_info :=
  WordInfo (wi_surface wi) (wi_length wi) (wi_pos wi) (wi_norm wi) (wi_dic_id wi) dic (wi_reading wi)
    (wi_a wi) (wi_b wi) (wi_struct wi) (wi_syn wi).

(** wordinfolist.py:27-57.  [depth] is what is left of the interpreter's recursion
    limit; beyond it RecursionError is raised. *)
Fixpoint read_word_info (off : nat) (syn : bool) (depth : nat) (wid : Z) : prog word_info :=
  match depth with
  | O => Raise ERecursion
  | S depth' =>
    original <~ ptell ;;
    index <~ word_id_to_offset off wid ;;
    _ <~ pseek index ;;
    wi <~ read_fields syn ;;
    dic <~ (if (0 <=? wi_dic_id wi) && negb (wi_dic_id wi =? wid)
            then w <~ read_word_info off syn depth' (wi_dic_id wi) ;; Ret (wi_surface w)
            else Ret (wi_surface wi)) ;;
    _ <~ pseek (Z.of_nat original) ;;
    Ret (set_dictionary_form wi dic)
  end.

(** ** doublearraylexicon.py:27-50 *)
Record lexicon := Lexicon {
  lx_data : bytes;              (* the mapping *)
  lx_trie : bytes;              (* the array given to the trie *)
  lx_wids : bytes;
  lx_params : list Z;
  lx_size : nat;
  lx_infos : nat;               (* where the offsets of the word infos are *)
  lx_syn : bool;
}.

(** doublearraylexicon.py:35-51.  [trie.total_size()] is 4 times the size that it was
    given (dartsclone). *)
Definition read_lexicon (d : bytes) (offset : nat) (syn : bool) : prog lexicon :=
  _ <~ pseek (Z.of_nat offset) ;;
  b <~ pread 4 ;;
  let size := Z.to_nat (unle b) in
  array <~ psub (offset + 4) (offset + 4 + 4 * size) ;;
  let o1 := (offset + 4 + 4 * size)%nat in
  '(n1, wids) <~ read_wid_table o1 ;;
  let o2 := (o1 + 4 + n1)%nat in
  '(n2, ps) <~ read_params o2 ;;
  let o3 := (o2 + 4 + 6 * n2)%nat in
  Ret (Lexicon d array wids ps n2 o3 syn).

(** ** binarydictionary.py:31-47.  An empty file cannot be mapped. *)
Record dictionary := Dictionary { d_grammar : option grammar; d_header : header; d_lexicon : lexicon }.
Definition read_dictionary (d : bytes) : res dictionary :=
  match d with
  | [] => Err EValue
  | _ =>
    h <- header_from_bytes d 0 ;;
    if negb (is_dictionary (h_version h)) then Err EException
    else
      let '(p, g) := if has_grammar (h_version h)
                     then let '(p, r) := prun d 0 (read_grammar d HEADER_SIZE) in (p, g <- r ;; Ok (Some g))
                     else (O, Ok None) in
      g <- g ;;
      let offset := (HEADER_SIZE + match g with Some g => g_storage g | None => 0 end)%nat in
      lx <- snd (prun d p (read_lexicon d offset (has_synonym_group_ids (h_version h)))) ;;
      Ok (Dictionary g h lx)
  end.
(** binarydictionary.py:49-60 *)
Definition from_system_dictionary (d : bytes) : res dictionary :=
  x <- read_dictionary d ;; if is_system_dictionary (h_version (d_header x)) then Ok x else Err EIO.
Definition from_user_dictionary (d : bytes) : res dictionary :=
  x <- read_dictionary d ;; if is_user_dictionary (h_version (d_header x)) then Ok x else Err EIO.

(** ** doublearraylexicon.py: the accessors *)
Section lexicon.
(** [trie.common_prefix_search(key, length=len(key))] on the array *)
Variable search : bytes -> bytes -> list (Z * nat).
(** The interpreter's recursion limit *)
Variable limit : nat.

(** doublearraylexicon.py:74-75.  The result does not depend on the position of the
    mapping, which is the same afterwards (C45). *)
Definition lx_word_info (lx : lexicon) (wid : Z) : res word_info :=
  snd (prun (lx_data lx) 0 (read_word_info (lx_infos lx) (lx_syn lx) limit wid)).

(** doublearraylexicon.py:56-63 *)
Definition lx_lookup (lx : lexicon) (t : bytes) (offset : nat) : gen (Z * nat) :=
  (fix go (l : list (Z * nat)) : gen (Z * nat) :=
     match l with
     | [] => ([], None)
     | (index, len) :: r =>
       match wid_table_get (lx_wids lx) index with
       | Err e => ([], Some e)
       | Ok ws => let '(x, e) := go r in (map (fun w => (w, (len + offset)%nat)) ws ++ x, e)
       end
     end) (search (lx_trie lx) (skipn offset t)).

(** wordparameterlist.py:40-47 for an id that is not negative *)
Definition lx_left_id (lx : lexicon) (wid : Z) : res Z := get (lx_params lx) (3 * Z.to_nat wid).
Definition lx_right_id (lx : lexicon) (wid : Z) : res Z := get (lx_params lx) (3 * Z.to_nat wid + 1).
Definition lx_cost (lx : lexicon) (wid : Z) : res Z := get (lx_params lx) (3 * Z.to_nat wid + 2).
(** wordparameterlist.py:49-51; a value that does not fit raises ValueError *)
Definition lx_set_cost (lx : lexicon) (wid : Z) (cost : Z) : res lexicon :=
  if (-32768 <=? cost) && (cost <=? 32767) then
    ps <- set_nth (lx_params lx) (3 * Z.to_nat wid + 2) cost ;;
    Ok (Lexicon (lx_data lx) (lx_trie lx) (lx_wids lx) ps (lx_size lx) (lx_infos lx) (lx_syn lx))
  else Err EValue.

(** doublearraylexicon.py:91-95 *)
Definition compare_word_id (lx : lexicon) (wid : Z) (headword : text) (pos : Z) (reading : text) : res bool :=
  info <- lx_word_info lx wid ;;
  Ok (list_eqb Z.eqb (wi_surface info) headword && (wi_pos info =? pos) && list_eqb Z.eqb (wi_reading info) reading).

(** The first id of a list that compares equal *)
Fixpoint first_match (lx : lexicon) (headword : text) (pos : Z) (reading : text) (l : list Z) : res (option Z) :=
  match l with
  | [] => Ok None
  | wid :: r =>
    b <- compare_word_id lx wid headword pos reading ;;
    if b then Ok (Some wid) else first_match lx headword pos reading r
  end.

(** doublearraylexicon.py:80-89 *)
Definition lx_get_word_id (lx : lexicon) (headword : text) (pos : Z) (reading : text) : res Z :=
  key <- encode headword ;;
  let '(found, e) := lx_lookup lx key 0 in
  m <- first_match lx headword pos reading (map fst found) ;;
  match m with
  | Some wid => Ok wid
  | None =>
    match e with
    | Some e => Err e
    | None =>
      m <- first_match lx headword pos reading (map Z.of_nat (seq 0 (lx_size lx))) ;;
      match m with Some wid => Ok wid | None => Ok (-1) end
    end
  end.

(** doublearraylexicon.py:100-109, one entry: [internal] and [count] are
    [ms.get_internal_cost()] and [len(ms)] for the analysis of a surface. *)
Variable internal : text -> res (Z * nat).
Definition auto_cost (internal_cost : Z) (count : nat) : Z :=
  Z.max (Z.min (internal_cost + -20 * Z.of_nat count) 32767) (-32768).
Definition calculate_one (lx : lexicon) (wid : nat) : res lexicon :=
  c <- lx_cost lx (Z.of_nat wid) ;;
  if negb (c =? -32768) then Ok lx
  else
    info <- lx_word_info lx (Z.of_nat wid) ;;
    '(i, n) <- internal (wi_surface info) ;;
    lx_set_cost lx (Z.of_nat wid) (auto_cost i n).
(** doublearraylexicon.py:100-109 *)
Definition calculate_cost (lx : lexicon) : res lexicon := foldM calculate_one lx (seq 0 (lx_size lx)).
End lexicon.
