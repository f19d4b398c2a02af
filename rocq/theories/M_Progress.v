(** Model of what the commands `build` and `ubuild` report while they work: the messages of
    the logger of dictionarybuilder.py, in one sequence with the operations on the output file
    (M_Command has the operations alone).  The handler writes them to standard error (lines
    61-70; one builder per process, so there is one handler). *)
From Coq Require Import String Ascii List ZArith Lia Bool Arith.
From Verif Require Import Base Utf8 M_Builder M_Lattice M_Tokenizer M_Bytes M_DicReader M_DicBuilder M_Front M_Resource M_Setup M_Command.
Import ListNotations.
Open Scope list_scope.
Open Scope Z_scope.

(** dictionarybuilder.py:81, 85, 101, 163, 170, 209, 230, 234, 235, 247, 258, 274, 300, 404 *)
Inductive report :=
| Reading | Words (n : nat)
| BadRow (e : exn) (row : nat) (file : text)
| PosTable | Matrix | BadCell (line : nat)
| BuildingTrie | TrieDone | WritingTrie | WordIds | Parameters | WordInfos | Offsets
| Size (n : Z).
(** The texts.  [reason] is [e.args[0]], which the model does not know; [str] shows an int. *)
Definition shown (str : Z -> text) (reason : exn -> text) (r : report) : text :=
  match r with
  | Reading => lit "reading the source file..."
  | Words n => str (Z.of_nat n) ++ lit " words" ++ [NL]
  | BadRow e i f => reason e ++ lit " at line " ++ str (Z.of_nat i) ++ lit " in " ++ f ++ [NL]
  | PosTable => lit "writing the POS table..."
  | Matrix => lit "writing the connection matrix..."
  | BadCell i => lit "invalid format at line " ++ str (Z.of_nat i)
  | BuildingTrie => lit "building the trie..."
  | TrieDone => lit "done" ++ [NL]
  | WritingTrie => lit "writing the trie..."
  | WordIds => lit "writing the word-ID table..."
  | Parameters => lit "writing the word parameters..."
  | WordInfos => lit "writing the word_infos..."
  | Offsets => lit "writing word_info offsets..."
  | Size n => str n ++ lit " bytes" ++ [NL]
  end.

(** ** Programs that write and report *)
Inductive step := Do (o : fop) | Say (r : report).
Definition reporter (A : Type) : Type := nat -> list step * nat * res A.
Definition r_of {A} (w : writer A) : reporter A := fun p => let '(ops, p, r) := w p in (map Do ops, p, r).
Definition r_say (r : report) : reporter unit := fun p => ([Say r], p, Ok tt).
(** a computation that reports and does not write *)
Definition r_lift {A} (x : list report * res A) : reporter A := fun p => (map Say (fst x), p, snd x).
Definition r_bind {A B} (m : reporter A) (f : A -> reporter B) : reporter B := fun p =>
  let '(ss, p, r) := m p in
  match r with
  | Err e => (ss, p, Err e)
  | Ok a => let '(ss', p, r) := f a p in (ss ++ ss', p, r)
  end.
Notation "x <! m ;; f" := (r_bind m (fun x => f)) (at level 61, m at next level, right associativity).
Notation "' p <! m ;; f" := (r_bind m (fun p => f)) (at level 61, p pattern, m at next level, right associativity).

Section builder.
Variable k : kind.
Variable py_int : text -> res Z.
Variable is_digit : Z -> bool.
Variable trie_array : list (bytes * Z) -> res bytes.

(** dictionarybuilder.py:90-104: the rows of one file, from number [i] on *)
Fixpoint read_rows (path : text) (i : nat) (s : source) (rows : list (list text)) : list report * res source :=
  match rows with
  | [] => ([], Ok s)
  | row :: r =>
    match build_row k py_int s row with
    | Err e => ([BadRow e i path], Err e)
    | Ok s' => read_rows path (S i) s' r
    end
  end.
(** dictionarybuilder.py:82-84.  A file is decoded as a whole when it is opened: in the code a
    byte that is not UTF-8 is noticed when the reader comes to it.  The csv reader raises
    nothing for a file that was opened with universal newlines (P_Progress.csv_total). *)
Fixpoint read_files (d : disk) (paths : list text) (s : source) : list report * res source :=
  match paths with
  | [] => ([], Ok s)
  | path :: r =>
    match (match d path with None => Err EIO | Some b => t <- decode b ;; csv_rows t end) with
    | Err e => ([], Err e)
    | Ok rows =>
      let '(rs, x) := read_rows path 0 s rows in
      match x with Err e => (rs, Err e) | Ok s' => let '(rs', y) := read_files d r s' in (rs ++ rs', y) end
    end
  end.

(** dictionarybuilder.py:203-215: the lines after the first, from number [i] on *)
Fixpoint read_cells (lsize : Z) (i : nat) (m : file) (lines : list text) : list report * res file :=
  match lines with
  | [] => ([], Ok m)
  | line :: r =>
    match matrix_columns line with
    | [] => read_cells lsize (S i) m r
    | cols :: _ =>
      if (length cols <? 3)%nat then let '(rs, x) := read_cells lsize (S i) m r in (BadCell i :: rs, x)
      else match (zs <- mapM py_int cols ;; matrix_line lsize m zs) with
           | Err e => ([], Err e)
           | Ok m' => read_cells lsize (S i) m' r
           end
    end
  end.
(** dictionarybuilder.py:192-216 *)
Definition read_matrix_file (t : text) : list report * res (bytes * bytes) :=
  match file_lines t with
  | [] => ([], Err EValue)
  | h :: r =>
    match strip h with
    | [] => ([], Err EValue)
    | _ =>
      match (lr <- mapM py_int (words (strip h)) ;;
             match lr with [l; r] => a <- put_short l ;; b <- put_short r ;; Ok (l, a ++ b) | _ => Err EValue end) with
      | Err e => ([], Err e)
      | Ok (lsize, hd) =>
        let '(rs, x) := read_cells lsize 0 (File [] 0) r in
        (rs, m <- x ;; Ok (hd, f_data m))
      end
    end
  end.

(** dictionarybuilder.py:162-184.  The matrix is opened by the command (command_line.py:123)
    and read here; [None]: there is none (userdictionarybuilder.py:39). *)
Definition report_grammar (table : list text) (ms : option (res text)) : reporter unit :=
  _ <! r_say PosTable ;;
  pt <! r_of (w_lift (convert_postable table)) ;;
  _ <! r_of (w_put pt) ;;
  _ <! r_say (Size (Z.of_nat (length pt))) ;;
  _ <! r_say Matrix ;;
  match ms with
  | None =>
    b <! r_of (w_lift (a <- put_short 0 ;; b <- put_short 0 ;; Ok (a ++ b))) ;;
    _ <! r_of (w_put b) ;;
    r_say (Size (Z.of_nat (length b)))
  | Some rt =>
    '(h, m) <! r_lift (match rt with Err e => ([], Err e) | Ok t => read_matrix_file t end) ;;
    _ <! r_of (w_put h) ;;
    _ <! r_of (w_put m) ;;
    r_say (Size (Z.of_nat (length m) + 4))
  end.

(** dictionarybuilder.py:270-304 *)
Definition report_wordinfo (entries : list entry) (table : list text) : reporter unit :=
  mark <! r_of w_tell ;;
  _ <! r_of (w_seek (mark * 4 + length entries)) ;;
  _ <! r_say WordInfos ;;
  base <! r_of w_tell ;;
  offsets <! r_of (emit_infos k py_int is_digit entries table entries) ;;
  i <! r_of w_tell ;;
  _ <! r_say (Size (Z.of_nat i - Z.of_nat base)) ;;
  _ <! r_say Offsets ;;
  _ <! r_of (w_seek mark) ;;
  _ <! r_of (w_put offsets) ;;
  r_say (Size (Z.of_nat (length offsets))).

(** dictionarybuilder.py:218-268 *)
Definition report_lexicon (s : source) : reporter unit :=
  '(kvs, wids) <! r_of (w_lift (wid_table 0 (s_keys s))) ;;
  _ <! r_say BuildingTrie ;;
  array <! r_of (w_lift (trie_array kvs)) ;;
  _ <! r_say TrieDone ;;
  _ <! r_say WritingTrie ;;
  b1 <! r_of (w_lift (put_int (Z.of_nat (length array / 4)))) ;;
  _ <! r_of (w_put b1) ;;
  _ <! r_of (w_put array) ;;
  _ <! r_say (Size (Z.of_nat (length array / 4) * 4 + 4)) ;;
  _ <! r_say WordIds ;;
  b2 <! r_of (w_lift (put_int (Z.of_nat (length wids)))) ;;
  _ <! r_of (w_put b2) ;;
  _ <! r_of (w_put wids) ;;
  _ <! r_say (Size (Z.of_nat (length wids) + 4)) ;;
  _ <! r_say Parameters ;;
  b3 <! r_of (w_lift (put_int (Z.of_nat (length (s_entries s))))) ;;
  _ <! r_of (emit_params b3 (s_entries s)) ;;
  _ <! r_say (Size (Z.of_nat (length (s_entries s)) * 6 + 4)) ;;
  report_wordinfo (s_entries s) (s_table s).

(** command_line.py:110-113 and 121-125, dictionarybuilder.py:80-88,
    userdictionarybuilder.py:26-40 *)
Definition report_command (now : Z) (description : text) (d : disk) (ins : list text) (ms : res text) : reporter unit :=
  h <! r_of (w_lift (header_to_bytes (Header (match k with SystemDic => SYSTEM_DICT_VERSION_2 | UserDic _ _ _ => USER_DICT_VERSION_3 end)
                                        now description))) ;;
  _ <! r_of (w_put h) ;;
  _ <! r_say Reading ;;
  s <! r_lift (read_files d ins new_source) ;;
  _ <! r_say (Words (length (s_entries s))) ;;
  _ <! report_grammar (s_table s) (match k with SystemDic => Some ms | UserDic _ _ _ => None end) ;;
  report_lexicon s.
End builder.

(** ** The commands *)
Definition operations (ss : list step) : list fop := concat (map (fun s => match s with Do o => [o] | Say _ => [] end) ss).
Definition reports (ss : list step) : list report := concat (map (fun s => match s with Do _ => [] | Say r => [r] end) ss).

Section commands.
Variable py_int : text -> res Z.
Variable is_digit : Z -> bool.
Variable trie_array : list (bytes * Z) -> res bytes.
Variable search : bytes -> bytes -> list (Z * nat).
Variable limit : nat.
Variable locale : bytes -> res text.

(** the matrix file, which is decoded with the encoding of the locale *)
Definition matrix_text (d : disk) (path : text) : res text := match d path with None => Err EIO | Some b => locale b end.

(** see M_Command.with_output *)
Definition with_reports (d : disk) (out : text) (w : disk -> reporter unit) : disk * list report * outcome :=
  let d0 := put_file d out [] in
  let '(ss, _, r) := w d0 O in
  (put_file d0 out (f_data (replay (operations ss))), reports ss, match r with Ok _ => Done | Err e => Raised e end).

(** command_line.py:116-125 *)
Definition build_reports (d : disk) (out matrix : text) (ins : list text) (now : Z) (description : text) : disk * list report * outcome :=
  if negb (exists_file d matrix) then (d, [], Exit 1)
  else if negb (forallb (exists_file d) ins) then (d, [], Exit 1)
  else with_reports d out (fun d => report_command SystemDic py_int is_digit trie_array now description d ins (matrix_text d matrix)).
(** command_line.py:105-113 *)
Definition user_build_reports (d : disk) (default : res text) (given : option text) (out : text) (ins : list text)
  (now : Z) (description : text) : disk * list report * outcome :=
  match system_path default given with
  | Err e => (d, [], Raised e)
  | Ok path =>
    match d path with
    | None => (d, [], Exit 1)
    | Some b =>
      if negb (forallb (exists_file d) ins) then (d, [], Exit 1)
      else match from_system_dictionary b with
           | Err e => (d, [], Raised e)
           | Ok x => with_reports d out (fun d => report_command (user_kind search limit x) py_int is_digit trie_array now description d ins (Err EFuel))
           end
    end
  end.
End commands.
