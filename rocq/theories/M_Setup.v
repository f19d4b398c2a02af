(** Model of the construction of a Dictionary from a configuration: sudachipy/dictionary.py,
    plugin/*/utils.py, the constructors and set_up methods of the plugins, and
    plugin/connect_cost. *)
From Coq Require Import String Ascii List ZArith Lia Bool Arith.
From Verif Require Import Base Utf8 M_Builder M_CharCategory M_InputText M_InputPlugins M_Lattice M_Oov M_Tokenizer M_NumericParser M_PathRewrite M_Morphemes
  M_Shipped M_Bytes M_DicReader M_DicBuilder M_LexiconSet M_Front M_Resource.
Import ListNotations.
Open Scope list_scope.
Open Scope Z_scope.

(** A string literal of the source *)
Definition lit (s : string) : text := map (fun a => Z.of_nat (nat_of_ascii a)) (list_ascii_of_string s).

(** [obj[key]] *)
Definition jget (obj : json) (key : text) : res json :=
  match obj with
  | JObj m => match conf_get m key with Some v => Ok v | None => Err EKey end
  | _ => Err EType
  end.
(** [key in obj] and then [obj[key]], for a dict *)
Definition jfind (obj : json) (key : text) : option json := match obj with JObj m => conf_get m key | _ => None end.
(** [for x in value] *)
Definition jitems (v : json) : res (list json) :=
  match v with
  | JList l => Ok l
  | JStr t => Ok (map (fun c => JStr [c]) t)
  | JObj m => Ok (map (fun x => JStr (fst x)) m)
  | _ => Err EType
  end.
(** except KeyError: raise ValueError *)
Definition key_error {A} (r : res A) : res A := match r with Err EKey => Err EValue | _ => r end.
(** [obj['class'] == name] *)
Definition is_class (v : json) (name : string) : bool := match v with JStr t => teqb t (lit name) | _ => false end.

(** ** Input text plugins *)
(** Plugins before [set_up] *)
Inductive input_spec := WantDefault | WantSoundMarks (c : psm_cfg).
(** [ord(psm)] *)
Definition ord (v : json) : res Z := match v with JStr [c] => Ok c | _ => Err EType end.
(** prolongedsoundmark.py:20-28; a symbol that is not a string is taken to fail here and
    not when it is used *)
Definition sound_marks (obj : json) : res psm_cfg :=
  set <- (match jfind obj (lit "prolongedSoundMarks") with Some v => items <- jitems v ;; mapM ord items | None => Ok [] end) ;;
  symbol <- (match jfind obj (lit "replacementSymbol") with Some (JStr t) => Ok t | Some _ => Err EType | None => Ok [0x30FC] end) ;;
  Ok (PsmCfg set symbol).
(** input_text/utils.py:22-31 *)
Definition get_input_text_plugin (obj : json) : res input_spec :=
  key_error (
    c <- jget obj (lit "class") ;;
    if is_class c "sudachipy.plugin.input_text.DefaultInputTextPlugin" then Ok WantDefault
    else if is_class c "sudachipy.plugin.input_text.ProlongedSoundMarkInputTextPlugin" then s <- sound_marks obj ;; Ok (WantSoundMarks s)
    else Err EValue).

(** ** OOV plugins *)
Inductive oov_spec := WantMeCab (chardef unkdef : json) | WantSimple (left right cost : Z) (pos : json).
(** A number of the configuration; others than numbers are taken to fail here and not when
    a node gets its parameters *)
Definition as_int (v : json) : res Z := match v with JNum z => Ok z | JBool b => Ok (if b then 1 else 0) | _ => Err EType end.
(** mecab_oov_plugin.py:40-48 ([obj] has a class, so it is not empty), simple_oov_plugin.py:22-27,
    oov/utils.py:22-31 *)
Definition get_oov_plugin (obj : json) : res oov_spec :=
  key_error (
    c <- jget obj (lit "class") ;;
    if is_class c "sudachipy.plugin.oov.MeCabOovProviderPlugin" then
      a <- jget obj (lit "charDef") ;; b <- jget obj (lit "unkDef") ;; Ok (WantMeCab a b)
    else if is_class c "sudachipy.plugin.oov.SimpleOovProviderPlugin" then
      l <- jget obj (lit "leftId") ;; r <- jget obj (lit "rightId") ;; k <- jget obj (lit "cost") ;; p <- jget obj (lit "oovPOS") ;;
      l <- as_int l ;; r <- as_int r ;; k <- as_int k ;; Ok (WantSimple l r k p)
    else Err EValue).

(** ** Path rewriting plugins *)
Inductive path_spec := WantNumeric (normalize : bool) | WantKatakana (pos : json) (min : Z).
(** join_numeric_plugin.py:28-35 (without the warning), join_katakana_oov_plugin.py:23-28,
    path_rewrite/utils.py:22-31 *)
Definition get_path_rewrite_plugin (obj : json) : res path_spec :=
  key_error (
    c <- jget obj (lit "class") ;;
    if is_class c "sudachipy.plugin.path_rewrite.JoinNumericPlugin" then
      Ok (WantNumeric (match jfind obj (lit "enableNormalize") with Some v => truthy v | None => true end))
    else if is_class c "sudachipy.plugin.path_rewrite.JoinKatakanaOovPlugin" then
      p <- jget obj (lit "oovPOS") ;;
      n <- (match jfind obj (lit "minLength") with Some v => as_int v | None => Ok 1 end) ;; Ok (WantKatakana p n)
    else Err EValue).

(** The loops of the three utils.py, lines 34-41 (path_rewrite: 34-40) *)
Definition get_plugins {A} (make : json -> res A) (c : conf) (key : string) : res (list A) :=
  match conf_get c (lit key) with
  | None => Ok []
  | Some v => objs <- jitems v ;; mapM make objs
  end.

(** [value in grammar.pos_list] for a value of the configuration *)
Fixpoint as_strings (l : list json) : option (list text) :=
  match l with
  | [] => Some []
  | JStr t :: r => match as_strings r with Some ts => Some (t :: ts) | None => None end
  | _ :: _ => None
  end.
Definition json_pos_id (g : grammar) (v : json) : Z :=
  match v with JList l => match as_strings l with Some ts => get_part_of_speech_id g ts | None => -1 end | _ => -1 end.
(** join_numeric_plugin.py:29 *)
Definition NUMERIC_POS : list text := [[21517; 35422]; [25968; 35422]; [42]; [42]; [42]; [42]].

Section setup.
(** Files, opened in text mode with UTF-8 and in binary mode *)
Variable text_file : text -> res text.
Variable binary_file : text -> res bytes.
(** os.path.join, Path.is_absolute, config.py:23-25 *)
Variable join : text -> text -> text.
Variable is_absolute : text -> bool.
Variable DEFAULT_RESOURCEDIR : text.
(** [int(_, 16)], [int(_)], set.pop, the order in which a set of categories is iterated *)
Variable int16 int10 : text -> res Z.
Variable pop : list range -> option (range * list range).
Variable order : list cat -> list cat.
(** str.lower of a character, unicodedata.normalize *)
Variable lower : Z -> text.
Variable nfkc : text -> text.
(** trie.common_prefix_search, the recursion limit *)
Variable search : bytes -> bytes -> list (Z * nat).
Variable limit : nat.

(** default_input_text_plugin.py:29-33, prolongedsoundmark.py:30-31 *)
Definition set_up_input (p : input_spec) : res input_plugin :=
  match p with
  | WantDefault => f <- text_file (join DEFAULT_RESOURCEDIR (lit "rewrite.def")) ;; c <- read_rewrite_def f ;; Ok (DefaultInput c)
  | WantSoundMarks c => Ok (SoundMarks c)
  end.
(** mecab_oov_plugin.py:50-59 (os.path.join raises TypeError), simple_oov_plugin.py:29-30 *)
Definition set_up_oov (g : grammar) (resource_dir : text) (p : oov_spec) : res provider :=
  match p with
  | WantMeCab a b =>
    a <- as_path a ;; cf <- text_file (join resource_dir a) ;;
    props <- read_character_property int10 cf ;;
    b <- as_path b ;; uf <- text_file (join resource_dir b) ;;
    cfg <- mecab_set_up int10 g cf uf ;; Ok (MeCab cfg)
  | WantSimple l r k pos => Ok (Simple (SimpleCfg l r k (json_pos_id g pos)))
  end.
(** join_numeric_plugin.py:37-38, join_katakana_oov_plugin.py:30-35 *)
Definition set_up_path (g : grammar) (p : path_spec) : res rewriter :=
  match p with
  | WantNumeric n => Ok (JoinNumeric (NumericCfg (get_part_of_speech_id g NUMERIC_POS) n))
  | WantKatakana pos n =>
    if truthy pos then
      let id := json_pos_id g pos in if id <? 0 then Err EValue else Ok (JoinKatakana (KatakanaCfg id n))
    else Err EValue
  end.

(** config.py:107-111 *)
Definition char_def_path (c : conf) (d : text) : res text :=
  match conf_get c CHAR_DEF_KEY with
  | Some v => p <- as_path v ;; Ok (to_absolute_resource_path join is_absolute d p)
  | None => Err EKey
  end.

(** What a tokenizer of the dictionary works with: dictionary.py:98-102, tokenizer.pyx:101-118.
    lattice.pyx:97 reads the matrix at [r_node.left_id, l_node.right_id].  Simplification:
    with an empty matrix the constructor of the lattice raises (a view of one dimension does
    not fit lattice.pyx:35), here no cell is found. *)
Definition tokenizer_settings (g : grammar) (set : lexset) (table : list range) (ins : list input_plugin) (oovs : list provider) (paths : list rewriter) : settings :=
  Settings (fun a b => match get_connect_cost g b a with Ok c => Some c | Err _ => None end)
    (fun ch => match get_category_types table ch with Ok cs => order cs | Err _ => [] end)
    (ls_lookup search set) (ls_params set) (ls_word_info limit set) lower nfkc ins oovs paths.

(** dictionary.py:81-82 and doublearraylexicon.py:104-106: the analysis that an automatic
    cost is calculated from.  The code makes one tokenizer for all words of a dictionary;
    here each word gets a new one (the results are the same, C20). *)
Definition internal_cost (table : list range) (ins : list input_plugin) (oovs : list provider) (g : grammar) (set : lexset) (t : text) : res (Z * nat) :=
  r <- snd (M_Tokenizer.run (shipped (tokenizer_settings g set table ins oovs [])) new_lattice t ModeC) ;;
  let ms := morphemes_of r in
  i <- ml_internal_cost ms ;; Ok (i, ml_len ms).

(** dictionary.py:30-40: a Dictionary *)
Record made := Made {
  md_set : dictset; md_table : list range; md_inputs : list input_plugin; md_providers : list provider; md_rewriters : list rewriter }.

(** dictionary.py:41-64 after the settings were read: [c] and [d] are the settings and the
    resource directory *)
Definition make_dictionary (c : conf) (d : text) : res made :=
  sp <- (match conf_get c DICT_PATH_KEY with Some v => as_path v | None => Err EKey end) ;;
  sf <- binary_file (to_absolute_resource_path join is_absolute d sp) ;;
  ds <- read_system_dictionary sf ;;
  cp <- char_def_path c d ;; cf <- text_file cp ;; table <- read_character_definition int16 pop cf ;;
  ins <- get_plugins get_input_text_plugin c "inputTextPlugin" ;; ins <- mapM set_up_input ins ;;
  oovs <- get_plugins get_oov_plugin c "oovProviderPlugin" ;;
  match oovs with
  | [] => Err EAttribute
  | _ =>
    oovs <- mapM (set_up_oov (ds_grammar ds) d) oovs ;;
    paths <- get_plugins get_path_rewrite_plugin c "pathRewritePlugin" ;; paths <- mapM (set_up_path (ds_grammar ds)) paths ;;
    ups <- (match conf_get c USER_DICT_PATH_KEY with
            | Some (JList l) => mapM (fun v => p <- as_path v ;; Ok (to_absolute_resource_path join is_absolute d p)) l
            | Some _ => Err EType
            | None => Ok []
            end) ;;
    ds <- foldM (fun ds p => f <- binary_file p ;; read_user_dictionary limit (internal_cost table ins oovs) ds f) ds ups ;;
    Ok (Made ds table ins oovs paths)
  end.

(** config.py:23-26 and the file system of config.py, see M_Front *)
Variable load : text -> res conf.
Variable installed : text -> option text.
Variable dirname : text -> text.
Variable DEFAULT_SETTINGFILE : text.
Variable mentions : text -> json -> res bool.
(** dictionary.py:30-64: the settings object is global *)
Definition new_dictionary (st : state) (config_path resource_dir dict_type : option text) : state * res made :=
  match set_up load installed dirname DEFAULT_SETTINGFILE mentions st config_path resource_dir dict_type with
  | (st', Err e) => (st', Err e)
  | (st', Ok _) =>
    match st_dict st', st_resource_dir st' with
    | Some c, Some d => (st', make_dictionary c d)
    | _, _ => (st', Err EType)
    end
  end.

(** dictionary.py:98-102: the tokenizer of [create()] *)
Definition md_settings (m : made) : settings :=
  tokenizer_settings (ds_grammar (md_set m)) (ds_lexicon (md_set m)) (md_table m) (md_inputs m) (md_providers m) (md_rewriters m).
Definition created (m : made) : M_Tokenizer.config := shipped (md_settings m).
(** morpheme.py:34-36 *)
Definition ml_part_of_speech (m : made) (l : morphemes) (i : nat) : res (list text) :=
  wi <- ml_word_info (s_lexinfo (md_settings m)) l i ;; part_of_speech (ds_grammar (md_set m)) (wi_pos wi).
End setup.

(** ** plugin/connect_cost: not used by Dictionary (dictionary.py:45-48 is a comment).  For a
    matrix that can be written. *)
(** inhibitconnectioncost.py:49-53, editconnectioncost.py:56-65 *)
Definition INHIBITED_CONNECTION : Z := 0x7fff.
Definition edit_pair (g : grammar) (pair : list Z) : res grammar :=
  match pair with
  | l :: r :: _ => set_connect_cost g l r INHIBITED_CONNECTION
  | _ => Ok g
  end.
Definition inhibit (g : grammar) (pairs : list (list Z)) : res grammar := foldM edit_pair g pairs.
