(** Model of the commands `build` and `ubuild` of sudachipy/command_line.py: what they do to
    the files.  The bytes are those of M_DicBuilder; here are the single operations on the
    output file, so that it is known what is in it when a build fails or is killed. *)
From Coq Require Import List ZArith Lia Bool Arith.
From Verif Require Import Base Utf8 M_Builder M_Lattice M_Tokenizer M_Bytes M_DicReader M_DicBuilder M_Front M_Resource.
Import ListNotations.
Open Scope Z_scope.

(** ** Operations on the output file, which is opened with 'wb' *)
Inductive fop := Put (b : bytes) | SeekTo (i : nat).
Definition apply_op (f : file) (o : fop) : file := match o with Put b => f_write f b | SeekTo i => f_seek f i end.
Definition replay_from (f : file) (ops : list fop) : file := fold_left apply_op ops f.
Definition replay (ops : list fop) : file := replay_from (File [] 0) ops.

(** A program that writes: from a position in the file, the operations, the position
    afterwards, and the result or the exception *)
Definition writer (A : Type) : Type := nat -> list fop * nat * res A.
Definition w_lift {A} (r : res A) : writer A := fun p => ([], p, r).
Definition w_put (b : bytes) : writer unit := fun p => ([Put b], (p + length b)%nat, Ok tt).
Definition w_seek (i : nat) : writer unit := fun _ => ([SeekTo i], i, Ok tt).
Definition w_tell : writer nat := fun p => ([], p, Ok p).
Definition w_bind {A B} (m : writer A) (f : A -> writer B) : writer B := fun p =>
  let '(ops, p, r) := m p in
  match r with
  | Err e => (ops, p, Err e)
  | Ok a => let '(ops', p, r) := f a p in (ops ++ ops', p, r)
  end.
Notation "x <== m ;; f" := (w_bind m (fun x => f)) (at level 61, m at next level, right associativity).
Notation "' p <== m ;; f" := (w_bind m (fun p => f)) (at level 61, p pattern, m at next level, right associativity).

Section builder.
Variable k : kind.
Variable py_int : text -> res Z.
Variable is_digit : Z -> bool.
Variable trie_array : list (bytes * Z) -> res bytes.

(** dictionarybuilder.py:162-184; the matrix file is read after the part-of-speech table
    was written *)
Definition emit_grammar (table : list text) (ms : option (res matrix_source)) : writer unit :=
  pt <== w_lift (convert_postable table) ;;
  _ <== w_put pt ;;
  match ms with
  | None => b <== w_lift (a <- put_short 0 ;; b <- put_short 0 ;; Ok (a ++ b)) ;; w_put b
  | Some rm =>
    '(h, m) <== w_lift (ms <- rm ;; convert_matrix ms) ;;
    _ <== w_put h ;;
    w_put m
  end.

(** dictionarybuilder.py:256-264: the buffer holds the number of the entries when the loop
    begins *)
Fixpoint emit_params (buffer : bytes) (l : list entry) : writer unit :=
  match l with
  | [] => w_lift (Ok tt)
  | e :: r => b <== w_lift (put_params e) ;; _ <== w_put (buffer ++ b) ;; emit_params [] r
  end.

(** dictionarybuilder.py:276-298 *)
Fixpoint emit_infos (entries : list entry) (table : list text) (l : list entry) : writer bytes :=
  match l with
  | [] => w_lift (Ok [])
  | e :: r =>
    i <== w_tell ;;
    o <== w_lift (put_int (Z.of_nat i)) ;;
    '(b, table) <== w_lift (put_word_info k py_int is_digit entries table e) ;;
    _ <== w_put b ;;
    os <== emit_infos entries table r ;;
    w_lift (Ok (o ++ os))
  end.
(** dictionarybuilder.py:270-304 *)
Definition emit_wordinfo (entries : list entry) (table : list text) : writer unit :=
  mark <== w_tell ;;
  _ <== w_seek (mark * 4 + length entries) ;;
  offsets <== emit_infos entries table entries ;;
  _ <== w_seek mark ;;
  w_put offsets.

(** dictionarybuilder.py:218-268 *)
Definition emit_lexicon (s : source) : writer unit :=
  '(kvs, wids) <== w_lift (wid_table 0 (s_keys s)) ;;
  array <== w_lift (trie_array kvs) ;;
  b1 <== w_lift (put_int (Z.of_nat (length array / 4))) ;;
  _ <== w_put b1 ;;
  _ <== w_put array ;;
  b2 <== w_lift (put_int (Z.of_nat (length wids))) ;;
  _ <== w_put b2 ;;
  _ <== w_put wids ;;
  b3 <== w_lift (put_int (Z.of_nat (length (s_entries s)))) ;;
  _ <== emit_params b3 (s_entries s) ;;
  emit_wordinfo (s_entries s) (s_table s).

(** command_line.py:110-113 and 121-125, dictionarybuilder.py:80-88,
    userdictionarybuilder.py:26-40: everything that happens to the open file.  [rows] are the
    rows of the source files, [ms] is the matrix, or the exceptions of reading them. *)
Definition emit_command (now : Z) (description : text) (rows : res (list (list text))) (ms : res matrix_source) : writer unit :=
  h <== w_lift (header_to_bytes (Header (match k with SystemDic => SYSTEM_DICT_VERSION_2 | UserDic _ _ _ => USER_DICT_VERSION_3 end)
                                   now description)) ;;
  _ <== w_put h ;;
  s <== w_lift (rows <- rows ;; build_lexicon k py_int new_source rows) ;;
  _ <== emit_grammar (s_table s) (match k with SystemDic => Some ms | UserDic _ _ _ => None end) ;;
  emit_lexicon s.
End builder.

(** ** The commands *)
(** The files: directories and permissions are left out *)
Definition disk := text -> option bytes.
Definition put_file (d : disk) (path : text) (b : bytes) : disk := fun p => if teqb p path then Some b else d p.
Definition exists_file (d : disk) (path : text) : bool := match d path with Some _ => true | None => false end.

Inductive outcome := Done | Exit (code : Z) | Raised (e : exn).

Section commands.
Variable py_int : text -> res Z.
Variable is_digit : Z -> bool.
Variable trie_array : list (bytes * Z) -> res bytes.
Variable search : bytes -> bytes -> list (Z * nat).
Variable limit : nat.
(** [open(path, 'r')] decodes with the encoding of the locale *)
Variable locale : bytes -> res text.
(** [int()] of the numbers of the matrix is [py_int] as well *)

(** dictionarybuilder.py:82-84: the files one after the other; UTF-8, strict.  In the code
    the rows of a file are handled before the next file is opened; only which of several
    exceptions is raised depends on it. *)
Fixpoint source_rows (d : disk) (paths : list text) : res (list (list text)) :=
  match paths with
  | [] => Ok []
  | path :: r =>
    match d path with
    | None => Err EIO
    | Some b => t <- decode b ;; rows <- csv_rows t ;; rest <- source_rows d r ;; Ok (rows ++ rest)
    end
  end.
Definition matrix_rows (d : disk) (path : text) : res matrix_source :=
  match d path with None => Err EIO | Some b => t <- locale b ;; read_matrix py_int t end.

(** [with open(out, 'wb') as wf]: the file is empty at once; what is written reaches it in
    the end also when there is an exception *)
Definition with_output (d : disk) (out : text) (w : disk -> writer unit) : disk * outcome :=
  let d0 := put_file d out [] in
  let '(ops, _, r) := w d0 O in
  (put_file d0 out (f_data (replay ops)), match r with Ok _ => Done | Err e => Raised e end).

(** What is on the disk when the process is killed in between: nothing was opened yet, or
    some of the operations have been done, the last one perhaps in part.  (The file is
    written through a buffer, which is emptied in order.) *)
Inductive cut : list fop -> list fop -> Prop :=
| Cut_here ops : cut ops []
| Cut_inside b c ops : cut (Put (b ++ c) :: ops) [Put b]
| Cut_later o ops ops' : cut ops ops' -> cut (o :: ops) (o :: ops').
Inductive killed (d : disk) (out : text) (w : disk -> writer unit) : disk -> Prop :=
| Killed_before : killed d out w d
| Killed_inside ops q r ops' : w (put_file d out []) O = (ops, q, r) -> cut ops ops' ->
    killed d out w (put_file (put_file d out []) out (f_data (replay ops'))).

(** command_line.py:116-125 with the checks of 88-102.  The input files are read while the
    272 bytes of the header are still in the buffer of the output file. *)
Definition build_program (matrix : text) (ins : list text) (now : Z) (description : text) (d : disk) : writer unit :=
  emit_command SystemDic py_int is_digit trie_array now description (source_rows d ins) (matrix_rows d matrix).
Definition command_build (d : disk) (out matrix : text) (ins : list text) (now : Z) (description : text) : disk * outcome :=
  if negb (exists_file d matrix) then (d, Exit 1)
  else if negb (forallb (exists_file d) ins) then (d, Exit 1)
  else with_output d out (build_program matrix ins now description).

(** userdictionarybuilder.py:20-24, 48-58: what the builder uses of the system dictionary *)
Definition user_kind (x : dictionary) : kind :=
  UserDic (match d_grammar x with Some g => g | None => Grammar [] 0 0 [] 0 end)
    (lx_get_word_id search limit (d_lexicon x)) (lx_size (d_lexicon x)).

(** command_line.py:79-86: [default] is what the settings say when there is no option -s *)
Definition system_path (default : res text) (given : option text) : res text :=
  match given with Some ((_ :: _) as t) => Ok t | _ => default end.
(** command_line.py:105-113.  The mapping of the system dictionary is taken before the
    output file is opened (if that were the same file, the mapping would lose its contents:
    left out). *)
Definition user_build_program (x : dictionary) (ins : list text) (now : Z) (description : text) (d : disk) : writer unit :=
  emit_command (user_kind x) py_int is_digit trie_array now description (source_rows d ins) (Err EFuel).
Definition command_user_build (d : disk) (default : res text) (given : option text) (out : text) (ins : list text)
  (now : Z) (description : text) : disk * outcome :=
  match system_path default given with
  | Err e => (d, Raised e)
  | Ok path =>
    match d path with
    | None => (d, Exit 1)
    | Some b =>
      if negb (forallb (exists_file d) ins) then (d, Exit 1)
      else match from_system_dictionary b with
           | Err e => (d, Raised e)
           | Ok x => with_output d out (user_build_program x ins now description)
           end
    end
  end.
End commands.
