(** Model of `main` of sudachipy/command_line.py: from the arguments of the tool to the command
    that runs. *)
From Coq Require Import String Ascii List ZArith Lia Bool Arith.
From Verif Require Import Base Utf8 M_Builder M_CharCategory M_Lattice M_Tokenizer M_Bytes M_DicReader M_DicBuilder M_LexiconSet M_Front M_Resource M_Setup M_Command M_Tokenize M_Debug.
Import ListNotations.
Open Scope list_scope.
Open Scope Z_scope.

(** ** argparse, external to /repo, as far as the parsers of `main` use it *)
(** ArgumentParser._parse_optional: an argument that begins with '-' and is longer is an
    option.  Left out (see [modelled]): options joined with their value (-mA), options put
    together (-ad), abbreviations (--vers), '--', negative numbers, arguments that begin with
    '-' and have a space in them. *)
Definition is_option (a : text) : bool := match a with 45 :: _ :: _ => true | _ => false end.

(** What an option does: store_true, store of one value, help *)
Inductive action := AHelp | AFlag | AValue (choices : option (list text)).
(** The options of a parser: the option string, [dest], the action; the [dest] of required
    options; whether the files are ONE_OR_MORE or ZERO_OR_MORE *)
Record subparser := SubParser { sp_options : list (text * (text * action)); sp_required : list text; sp_plus : bool }.
Definition option_of (sp : subparser) (a : text) : option (text * action) :=
  match find (fun x => teqb (fst x) a) (sp_options sp) with Some x => Some (snd x) | None => None end.

(** What was stored, in the order of the arguments *)
Definition namespace := list (text * option text).
Inductive parsed := Helped | Wrong | Parsed (ns : namespace) (files : list text).

(** ArgumentParser._parse_known_args for options and one positional argument: it takes the
    first run of arguments that are no options; what is left over is an error in the end.
    [files]: what the positional argument has taken; [open]: still in that run *)
Fixpoint parse_sub (sp : subparser) (args : list text) (ns : namespace) (files : option (list text)) (open extra : bool) : parsed :=
  match args with
  | [] =>
    if sp_plus sp && match files with None => true | Some _ => false end then Wrong
    else if negb (forallb (fun d => existsb (fun x => teqb (fst x) d) ns) (sp_required sp)) then Wrong
    else if extra then Wrong
    else Parsed ns (match files with Some l => l | None => [] end)
  | a :: r =>
    if is_option a then
      match option_of sp a with
      | None => parse_sub sp r ns files false true
      | Some (_, AHelp) => Helped
      | Some (d, AFlag) => parse_sub sp r (ns ++ [(d, None)]) files false extra
      | Some (d, AValue choices) =>
        match r with
        | v :: r' =>
          if is_option v then Wrong
          else if match choices with Some l => existsb (teqb v) l | None => true end then parse_sub sp r' (ns ++ [(d, Some v)]) files false extra
          else Wrong
        | [] => Wrong
        end
      end
    else match files with
         | None => parse_sub sp r ns (Some [a]) true extra
         | Some l => if open then parse_sub sp r ns (Some (l ++ [a])) true extra else parse_sub sp r ns files false true
         end
  end.
(** [args.dest]: what was stored last *)
Definition value_of (ns : namespace) (d : text) : option text :=
  match find (fun x => teqb (fst x) d) (rev ns) with Some (_, Some v) => Some v | _ => None end.
Definition flag_of (ns : namespace) (d : text) : bool := existsb (fun x => teqb (fst x) d) ns.

(** ** command_line.py:173-213: the parsers *)
Definition file_dest : text := lit "in_files".
Definition help_options : list (text * (text * action)) := [(lit "-h", (lit "help", AHelp)); (lit "--help", (lit "help", AHelp))].
(** command_line.py:178-187 *)
Definition parser_tk : subparser := SubParser (help_options ++
  [(lit "-r", (lit "fpath_setting", AValue None)); (lit "-m", (lit "mode", AValue (Some [lit "A"; lit "B"; lit "C"]))); (lit "-o", (lit "fpath_out", AValue None));
   (lit "-s", (lit "system_dict_type", AValue (Some [lit "small"; lit "core"; lit "full"]))); (lit "-a", (lit "a", AFlag)); (lit "-d", (lit "d", AFlag));
   (lit "-v", (lit "version", AFlag)); (lit "--version", (lit "version", AFlag))]) [] false.
(** command_line.py:191-200 *)
Definition parser_bd : subparser := SubParser (help_options ++
  [(lit "-o", (lit "out_file", AValue None)); (lit "-d", (lit "description", AValue None)); (lit "-m", (lit "matrix_file", AValue None))]) [lit "matrix_file"] true.
(** command_line.py:204-212 *)
Definition parser_ubd : subparser := SubParser (help_options ++
  [(lit "-d", (lit "description", AValue None)); (lit "-o", (lit "out_file", AValue None)); (lit "-s", (lit "system_dic", AValue None))]) [] true.

Inductive command := Tokenize | Build | UserBuild.
Definition command_name (c : command) : text := match c with Tokenize => lit "tokenize" | Build => lit "build" | UserBuild => lit "ubuild" end.
Definition command_of (a : text) : option command := find (fun c => teqb (command_name c) a) [Tokenize; Build; UserBuild].
Definition parser_of (c : command) : subparser := match c with Tokenize => parser_tk | Build => parser_bd | UserBuild => parser_ubd end.

(** command_line.py:33-54 with args=None; the arguments are those after the name of the
    program *)
Definition is_help (a : text) : bool := teqb a (lit "-h") || teqb a (lit "--help").
Definition set_default_subparser (args : list text) : list text :=
  if existsb is_help args then args
  else if existsb (fun a => match command_of a with Some _ => true | None => false end) args then args
  else lit "tokenize" :: args.

(** The arguments that this model of argparse covers *)
Definition modelled (args : list text) : bool :=
  forallb (fun a => negb (is_option a) || existsb (fun o => teqb (fst o) a) (sp_options parser_tk)) args.

(** What the tool does with its arguments.  [Usage]: a message on stderr and the exit code 2 *)
Inductive invocation :=
| ShowHelp
| Usage
| RunTokenize (a : tok_args) (debug : bool)
| RunBuild (out matrix : text) (ins : list text) (description : text)
| RunUserBuild (out : text) (system : option text) (ins : list text) (description : text)
| NotModelled.

(** The defaults of command_line.py:180-212 *)
Definition run_with (c : command) (ns : namespace) (files : list text) : invocation :=
  let or x d := match x with Some v => v | None => d end in
  match c with
  | Tokenize =>
    RunTokenize (TokArgs (flag_of ns (lit "version")) files (value_of ns (lit "fpath_out")) (or (value_of ns (lit "mode")) (lit "C")) (flag_of ns (lit "a"))
                   (value_of ns (lit "fpath_setting")) (value_of ns (lit "system_dict_type"))) (flag_of ns (lit "d"))
  | Build => RunBuild (or (value_of ns (lit "out_file")) (lit "system.dic")) (or (value_of ns (lit "matrix_file")) []) files (or (value_of ns (lit "description")) [])
  | UserBuild => RunUserBuild (or (value_of ns (lit "out_file")) (lit "user.dic")) (value_of ns (lit "system_dic")) files (or (value_of ns (lit "description")) [])
  end.

(** The parser of the tool itself: the first argument that is no option names the command, the
    rest goes to its parser.  [extra]: an option that this parser does not know came before;
    that is an error when the other parser is through.  Without a command the help is shown
    (command_line.py:219-222). *)
Fixpoint parse_root (args : list text) (extra : bool) : invocation :=
  match args with
  | [] => if extra then Usage else ShowHelp
  | a :: r =>
    if is_option a then if is_help a then ShowHelp else parse_root r true
    else match command_of a with
         | None => Usage
         | Some c =>
           match parse_sub (parser_of c) r [] None false false with
           | Helped => ShowHelp
           | Wrong => Usage
           | Parsed ns files => if extra then Usage else run_with c ns files
           end
         end
  end.
(** command_line.py:173-217 *)
Definition invocation_of (args : list text) : invocation :=
  if modelled args then parse_root (set_default_subparser args) false else NotModelled.

(** ** command_line.py:172-222 *)
Section main.
Variable join : text -> text -> text.
Variable is_absolute : text -> bool.
Variable DEFAULT_RESOURCEDIR : text.
Variable int16 int10 : text -> res Z.
Variable pop : list range -> option (range * list range).
Variable order : list cat -> list cat.
Variable lower : Z -> text.
Variable nfkc : text -> text.
Variable search : bytes -> bytes -> list (Z * nat).
Variable limit : nat.
Variable parse : text -> res conf.
Variable installed : text -> option text.
Variable dirname : text -> text.
Variable DEFAULT_SETTINGFILE : text.
Variable mentions : text -> json -> res bool.
Variable str : Z -> text.
Variable version : text.
(** of the build commands: int() of a text, what \d matches, the double array, what text files
    are encoded in when they are opened without an encoding *)
Variable py_int : text -> res Z.
Variable is_digit : Z -> bool.
Variable trie_array : list (bytes * Z) -> res bytes.
Variable locale_decode : bytes -> res text.

(** command_line.py:155-162 with -d *)
Definition debug_records (d : disk) (st : state) (stdin : text) (a : tok_args) : gen text :=
  match snd (dictionary_on join is_absolute DEFAULT_RESOURCEDIR int16 int10 pop order lower nfkc search limit parse installed dirname DEFAULT_SETTINGFILE mentions d st (ta_conf a) (ta_type a)) with
  | Err e => ([], Some e)
  | Ok m =>
    let '(lines, e) := match ta_ins a with [] => (lines_from [] (universal stdin), None) | ins => file_input d stdin ins end in
    logged_lines order lower nfkc search limit str m (mode_of (ta_mode a)) (ta_all a) new_lattice lines e
  end.
(** command_line.py:128-165 with -d *)
Definition command_debug (st : state) (stdin : text) (d : disk) (a : tok_args) : disk * list text * outcome :=
  if ta_version a then (d, [version], Done)
  else if negb (forallb (exists_file d) (ta_ins a)) then (d, [], Exit 1)
  else
    let '(rs, e) := debug_records (opened d a) st stdin a in
    let out := match e with None => Done | Some e => Raised e end in
    match output_of a with
    | Some p => (put_file (opened d a) p (logged rs), [], out)
    | None => (d, rs, out)
    end.

(** The disk, the records on stdout without the help, how it ends; [None] when the arguments
    are not modelled.  [default]: the system dictionary of the settings. *)
Definition main (st : state) (stdin : text) (now : Z) (default : res text) (d : disk) (args : list text) : option (disk * list text * outcome) :=
  match invocation_of args with
  | ShowHelp => Some (d, [], Exit 0)
  | Usage => Some (d, [], Exit 2)
  | RunTokenize a debug =>
    Some (if debug then command_debug st stdin d a
          else command_tokenize join is_absolute DEFAULT_RESOURCEDIR int16 int10 pop order lower nfkc search limit parse installed dirname DEFAULT_SETTINGFILE mentions str version st stdin d a)
  | RunBuild out matrix ins description =>
    Some (let '(d', x) := command_build py_int is_digit trie_array locale_decode d out matrix ins now description in (d', [], x))
  | RunUserBuild out system ins description =>
    Some (let '(d', x) := command_user_build py_int is_digit trie_array search limit d default system out ins now description in (d', [], x))
  | NotModelled => None
  end.
End main.
