(** Model of the command `tokenize` of sudachipy/command_line.py on files. *)
From Coq Require Import String Ascii List ZArith Lia Bool Arith.
From Verif Require Import Base Utf8 M_Builder M_CharCategory M_InputText M_InputPlugins M_Lattice M_Oov M_Tokenizer M_Morphemes M_NumericParser M_PathRewrite M_Shipped
  M_Bytes M_DicReader M_DicBuilder M_LexiconSet M_Front M_Resource M_Setup M_Command.
Import ListNotations.
Open Scope list_scope.
Open Scope Z_scope.

(** [open(path, 'r', encoding='utf-8')] read to its end; [open(path, 'rb')] *)
Definition text_on (d : disk) (path : text) : res text := match d path with None => Err EIO | Some b => decode b end.
Definition binary_on (d : disk) (path : text) : res bytes := match d path with None => Err EIO | Some b => Ok b end.

(** A loop over a sequence whose body may raise: what was made before, and the exception *)
Fixpoint collect {A B} (f : A -> res B) (l : list A) : gen B :=
  match l with
  | [] => ([], None)
  | a :: r => match f a with Err e => ([], Some e) | Ok b => let '(bs, e) := collect f r in (b :: bs, e) end
  end.

(** fileinput.input(files, hook_encoded("utf-8")): the lines of the files.  A file is decoded
    in pieces of its buffer; here as a whole when it is opened.  The name "-" stands for what is
    left of the standard input. *)
Fixpoint file_input (d : disk) (stdin : text) (ins : list text) : gen text :=
  match ins with
  | [] => ([], None)
  | path :: r =>
    if teqb path (lit "-") then let '(ls, e) := file_input d [] r in (lines_from [] (universal stdin) ++ ls, e)
    else
      match text_on d path with
      | Err e => ([], Some e)
      | Ok t => let '(ls, e) := file_input d stdin r in (lines_from [] (universal t) ++ ls, e)
      end
  end.

(** logging.StreamHandler: the record and a line feed; a record that cannot be encoded is
    reported on stderr and left out *)
Definition logged (rs : list text) : bytes := concat (map (fun r => match encode (emit r) with Ok b => b | Err _ => [] end) rs).

(** command_line.py:133-138 *)
Definition mode_of (name : text) : mode := if teqb name (lit "A") then ModeA else if teqb name (lit "B") then ModeB else ModeC.

(** command_line.py:178-188: the options *)
Record tok_args := TokArgs {
  ta_version : bool; ta_ins : list text; ta_out : option text; ta_mode : text; ta_all : bool; ta_conf : option text; ta_type : option text }.

Section tokenize.
Variable join : text -> text -> text.
Variable is_absolute : text -> bool.
Variable DEFAULT_RESOURCEDIR : text.
Variable int16 int10 : text -> res Z.
Variable pop : list range -> option (range * list range).
Variable order : list cat -> list cat.
Variable lower : Z -> text.
Variable nfkc : text -> text.
Variable search : bytes -> bytes -> list (Z * nat).
Variable limit : nat.
(** json.load *)
Variable parse : text -> res conf.
Variable installed : text -> option text.
Variable dirname : text -> text.
Variable DEFAULT_SETTINGFILE : text.
Variable mentions : text -> json -> res bool.
(** [str] of an integer, and what -v prints *)
Variable str : Z -> text.
Variable version : text.
Notation md_settings := (md_settings order lower nfkc search limit).
Notation created := (created order lower nfkc search limit).

(** dictionary.py:30-64 with the files of [d] *)
Definition dictionary_on (d : disk) (st : state) (config_path dict_type : option text) : state * res made :=
  new_dictionary (text_on d) (binary_on d) join is_absolute DEFAULT_RESOURCEDIR int16 int10 pop order lower nfkc search limit
    (fun path => t <- text_on d path ;; parse t) installed dirname DEFAULT_SETTINGFILE mentions st config_path None dict_type.

(** command_line.py:64-75: what is asked of a morpheme.  Without -a less is asked; what is
    not asked then cannot raise when the rest does not. *)
Definition get_fields (m : made) (l : morphemes) (i : nat) : res fields :=
  s <- ml_surface l i ;;
  pos <- ml_part_of_speech order lower nfkc search limit m l i ;;
  wi <- ml_word_info (s_lexinfo (md_settings m)) l i ;;
  id <- ml_dictionary_id l i ;;
  o <- ml_is_oov l i ;;
  Ok (Fields s pos (wi_norm wi) (wi_dic wi) (wi_reading wi) id (wi_syn wi) o).

(** command_line.py:61-75: one line *)
Definition tokenize_line (m : made) (md : mode) (lat : lattice) (t : text) : lattice * gen fields :=
  match M_Tokenizer.run (created m) lat t md with
  | (lat', Err e) => (lat', ([], Some e))
  | (lat', Ok r) => (lat', collect (get_fields m (morphemes_of r)) (ml_iter (morphemes_of r)))
  end.
(** command_line.py:60-78 without -d: the records; [e] is raised by the input after its lines *)
Fixpoint tokenize_lines (m : made) (md : mode) (all : bool) (lat : lattice) (lines : list text) (e : option exn) : gen text :=
  match lines with
  | [] => ([], e)
  | line :: rest =>
    let '(lat', (fs, x)) := tokenize_line m md lat (rstrip line) in
    match x with
    | Some x => (map (line_of str all) fs, Some x)
    | None => let '(rs, x') := tokenize_lines m md all lat' rest e in (map (line_of str all) fs ++ EOS :: rs, x')
    end
  end.

(** command_line.py:152-161: [d] is the disk after the output file was opened *)
Definition tokenize_records (d : disk) (st : state) (stdin : text) (a : tok_args) : gen text :=
  match snd (dictionary_on d st (ta_conf a) (ta_type a)) with
  | Err e => ([], Some e)
  | Ok m =>
    let '(lines, e) := match ta_ins a with [] => (lines_from [] (universal stdin), None) | ins => file_input d stdin ins end in
    tokenize_lines m (mode_of (ta_mode a)) (ta_all a) new_lattice lines e
  end.

(** command_line.py:128-165: the disk, the records on stdout, how it ends.  An empty name of
    an output file is none. *)
Definition output_of (a : tok_args) : option text := match ta_out a with Some ((_ :: _) as p) => Some p | _ => None end.
Definition opened (d : disk) (a : tok_args) : disk := match output_of a with Some p => put_file d p [] | None => d end.
Definition command_tokenize (st : state) (stdin : text) (d : disk) (a : tok_args) : disk * list text * outcome :=
  if ta_version a then (d, [version], Done)
  else if negb (forallb (exists_file d) (ta_ins a)) then (d, [], Exit 1)
  else
    let '(rs, e) := tokenize_records (opened d a) st stdin a in
    let out := match e with None => Done | Some e => Raised e end in
    match output_of a with
    | Some p => (put_file (opened d a) p (logged rs), [], out)
    | None => (d, rs, out)
    end.

(** What is on the disk when the command is killed at some moment: every record is written
    when it is made *)
Inductive tokenize_killed (st : state) (stdin : text) (d : disk) (a : tok_args) : disk -> Prop :=
| TK_before : tokenize_killed st stdin d a d
| TK_inside p b c : output_of a = Some p -> logged (fst (tokenize_records (opened d a) st stdin a)) = b ++ c ->
    tokenize_killed st stdin d a (put_file (opened d a) p b).
End tokenize.
