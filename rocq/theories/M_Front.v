(** Model of sudachipy/config.py (settings) and of the output loop of
    sudachipy/command_line.py. *)
From Coq Require Import List ZArith Lia Bool Arith.
From Verif Require Import Base M_Builder M_Lattice M_Oov M_Tokenizer M_DicBuilder.
Import ListNotations.
Open Scope Z_scope.

(** ** config.py *)
(** Values of a configuration file *)
Inductive json := JNull | JBool (b : bool) | JNum (z : Z) | JStr (t : text) | JList (l : list json) | JObj (l : list (text * json)).
(** [bool(value)] *)
Definition truthy (j : json) : bool :=
  match j with
  | JNull => false | JBool b => b | JNum z => negb (z =? 0)
  | JStr t => negb (match t with [] => true | _ => false end)
  | JList l => negb (match l with [] => true | _ => false end)
  | JObj l => negb (match l with [] => true | _ => false end)
  end.
Definition conf := list (text * json).
Definition conf_get (c : conf) (key : text) : option json := match find (fun x => teqb (fst x) key) c with Some x => Some (snd x) | None => None end.
(** [d[key] = value] *)
Definition conf_set (c : conf) (key : text) (v : json) : conf :=
  if existsb (fun x => teqb (fst x) key) c then map (fun x => if teqb (fst x) key then (fst x, v) else x) c else c ++ [(key, v)].

(** config.py:52-54 *)
Definition DICT_PATH_KEY : text := [115; 121; 115; 116; 101; 109; 68; 105; 99; 116].        (* systemDict *)
Definition CHAR_DEF_KEY : text := [99; 104; 97; 114; 97; 99; 116; 101; 114; 68; 101; 102; 105; 110; 105; 116; 105; 111; 110; 70; 105; 108; 101].
Definition USER_DICT_PATH_KEY : text := [117; 115; 101; 114; 68; 105; 99; 116].              (* userDict *)
Definition SMALL : text := [115; 109; 97; 108; 108].
Definition CORE : text := [99; 111; 114; 101].
Definition FULL : text := [102; 117; 108; 108].

(** config.py:56-60; [st_dict] is None before the first successful reading of a file *)
Record state := State { st_active : bool; st_dict : option conf; st_config_path : option text; st_resource_dir : option text }.
Definition fresh : state := State false None None None.

Section config.
(** The file system and the JSON parser: the object in a file, or the exception *)
Variable load : text -> res conf.
(** The installed packages: where the dictionary of sudachidict_[type] is *)
Variable installed : text -> option text.
(** os.path.dirname, os.path.join, Path.is_absolute *)
Variable dirname : text -> text.
Variable join : text -> text -> text.
Variable is_absolute : text -> bool.
(** config.py:23-26 *)
Variable DEFAULT_SETTINGFILE : text.
(** ['sudachidict_' + dict_type in value]: a TypeError for null (not reached), booleans and numbers *)
Variable mentions : text -> json -> res bool.

(** [a or b] for an optional string *)
Definition or_else (a : option text) (b : text) : text := match a with Some ((_ :: _) as t) => t | _ => b end.

(** config.py:38-46; ModuleNotFoundError is an Exception *)
Definition find_dict_path (dict_type : text) : res text :=
  match installed dict_type with Some p => Ok p | None => Err EException end.

(** config.py:62-85; the warning is left out *)
Definition set_up (st : state) (config_path resource_dir dict_type : option text) : state * res unit :=
  let config_path := or_else config_path DEFAULT_SETTINGFILE in
  let resource_dir := or_else resource_dir (dirname config_path) in
  match load config_path with
  | Err e => (State (st_active st) (st_dict st) (Some config_path) (st_resource_dir st), Err e)
  | Ok c =>
    let st1 c := State true (Some c) (Some config_path) (Some resource_dir) in
    match dict_type with
    | Some t =>
      if existsb (teqb t) [SMALL; CORE; FULL] then
        match (match conf_get c DICT_PATH_KEY with
               | Some v => if truthy v then _ <- mentions t v ;; Ok tt else Ok tt
               | None => Ok tt
               end) with
        | Err e => (st1 c, Err e)
        | Ok _ =>
          match find_dict_path t with
          | Err e => (st1 c, Err e)
          | Ok p => (st1 (conf_set c DICT_PATH_KEY (JStr p)), Ok tt)
          end
        end
      else (st1 c, Err EValue)
    | None =>
      if match conf_get c DICT_PATH_KEY with Some v => truthy v | None => false end then (st1 c, Ok tt)
      else match find_dict_path CORE with
           | Err e => (st1 c, Err e)
           | Ok p => (st1 (conf_set c DICT_PATH_KEY (JStr p)), Ok tt)
           end
    end
  end.

(** config.py:87-95 *)
Definition set_item (st : state) (key : text) (v : json) : state * res unit :=
  let '(st, r) := if st_active st then (st, Ok tt) else set_up st None None None in
  match r with
  | Err e => (st, Err e)
  | Ok _ => match st_dict st with
            | Some c => (State (st_active st) (Some (conf_set c key v)) (st_config_path st) (st_resource_dir st), Ok tt)
            | None => (st, Err EType)
            end
  end.
Definition get_item (st : state) (key : text) : state * res json :=
  let '(st, r) := if st_active st then (st, Ok tt) else set_up st None None None in
  match r with
  | Err e => (st, Err e)
  | Ok _ => match st_dict st with
            | Some c => (st, match conf_get c key with Some v => Ok v | None => Err EKey end)
            | None => (st, Err EType)
            end
  end.

(** config.py:31-35 *)
Definition to_absolute_resource_path (resource_dir : text) (path : text) : text :=
  if is_absolute path then path else join resource_dir path.
(** Path(value): a TypeError unless it is a string *)
Definition as_path (j : json) : res text := match j with JStr t => Ok t | _ => Err EType end.
(** config.py:103-105 *)
Definition system_dict_path (st : state) : res text :=
  match st_dict st, st_resource_dir st with
  | Some c, Some d =>
    match conf_get c DICT_PATH_KEY with
    | Some v => p <- as_path v ;; Ok (to_absolute_resource_path d p)
    | None => Err EKey
    end
  | _, _ => Err EType
  end.
(** config.py:113-117 *)
Definition user_dict_paths (st : state) : res (list text) :=
  match st_dict st, st_resource_dir st with
  | Some c, Some d =>
    match conf_get c USER_DICT_PATH_KEY with
    | Some (JList l) => mapM (fun v => p <- as_path v ;; Ok (to_absolute_resource_path d p)) l
    | Some _ => Err EType         (* a string would be taken by characters; left out *)
    | None => Ok []
    end
  | _, _ => Err EType
  end.
End config.

(** ** command_line.py: run *)
Definition TAB : Z := 9.
Definition NL : Z := 10.
Definition CR : Z := 13.
Definition EOS : text := [69; 79; 83].
Definition OOV : text := [40; 79; 79; 86; 41].                       (* (OOV) *)

(** What is printed of a morpheme *)
Record fields := Fields {
  f_surface : text; f_pos : list text; f_norm : text; f_dic : text; f_reading : text; f_dictionary : Z; f_synonyms : list Z; f_oov : bool }.

Section run.
(** [str] of an integer *)
Variable str : Z -> text.
(** The tokenizer, in the chosen mode, and the accessors of the morphemes: those before an
    exception and the exception *)
Variable analyse : text -> gen fields.
(** The option -a *)
Variable print_all : bool.

(** command_line.py:64-75 *)
Definition line_of (m : fields) : text :=
  join_with TAB
    ([f_surface m; join_with comma (f_pos m); f_norm m] ++
     if print_all
     then [f_dic m; f_reading m; str (f_dictionary m); [91] ++ join_with comma (map str (f_synonyms m)) ++ [93]] ++ (if f_oov m then [OOV] else [])
     else []).

(** [line.rstrip('\n')] *)
Definition rstrip (t : text) : text := let r := rev t in rev ((fix go (l : text) := match l with c :: l' => if c =? NL then go l' else l | [] => [] end) r).

(** logging.StreamHandler writes the message and a line feed *)
Definition emit (t : text) : text := t ++ [NL].

(** command_line.py:60-78 without -d *)
Fixpoint run (lines : list text) : text * option exn :=
  match lines with
  | [] => ([], None)
  | line :: rest =>
    let '(ms, e) := analyse (rstrip line) in
    let out := concat (map (fun m => emit (line_of m)) ms) in
    match e with
    | Some e => (out, Some e)
    | None => let '(out', e') := run rest in (out ++ emit EOS ++ out', e')
    end
  end.
End run.

(** Reading text files: universal newlines, then lines with their ends *)
Fixpoint universal (t : text) : text :=
  match t with
  | [] => []
  | c :: r =>
    if c =? CR then NL :: universal (match r with c' :: r' => if c' =? NL then r' else r | [] => r end)
    else c :: universal r
  end.
(** The line that is being read, its characters in reverse *)
Fixpoint lines_from (acc t : text) : list text :=
  match t with
  | [] => match acc with [] => [] | _ => [rev acc] end
  | c :: r => if c =? NL then rev (c :: acc) :: lines_from [] r else lines_from (c :: acc) r
  end.
(** fileinput.input(files): the lines of all files *)
Definition input_lines (files : list text) : list text := concat (map (fun t => lines_from [] (universal t)) files).
