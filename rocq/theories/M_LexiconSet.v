(** Model of sudachipy/dictionarylib/lexiconset.py and of the loading of dictionaries in
    sudachipy/dictionary.py. *)
From Coq Require Import List ZArith Lia Bool Arith.
From Verif Require Import Base Utf8 M_Builder M_Lattice M_Tokenizer M_Bytes M_DicReader.
Import ListNotations.
Open Scope Z_scope.

(** lexiconset.py:25-27: the lexicons and pos_offsets.  A lexicon object has an identity,
    by which [not in] compares (Lexicon defines no __eq__). *)
Record lexset := LexSet { ls_lexicons : list (nat * lexicon); ls_offsets : list Z }.
Definition lexset_init (system : nat * lexicon) : lexset := LexSet [system] [0].

(** lexiconset.py:29-32 *)
Definition ls_add (s : lexset) (lx : nat * lexicon) (pos_offset : Z) : lexset :=
  if existsb (fun x => Nat.eqb (fst x) (fst lx)) (ls_lexicons s) then s
  else LexSet (ls_lexicons s ++ [lx]) (ls_offsets s ++ [pos_offset]).

(** lexiconset.py:23, 34-35 *)
Definition MAX_DICTIONARIES : nat := 16.
Definition ls_is_full (s : lexset) : bool := (MAX_DICTIONARIES <=? length (ls_lexicons s))%nat.

(** lexiconset.py:74-75 *)
Definition ls_dictionary_id (wid : Z) : Z := Z.shiftr wid 28.
(** lexiconset.py:77-79 *)
Definition ls_word_id1 (wid : Z) : Z := Z.land 0x0FFFFFFF wid.

(** lexiconset.py:88-93; the error is an AttributeError *)
Definition ls_build_word_id (s : lexset) (dict_id wid : Z) : res Z :=
  if 0x0FFFFFFF <? wid then Err EAttribute
  else if Z.of_nat (length (ls_lexicons s)) <? dict_id then Err EAttribute
  else Ok (Z.lor (Z.shiftl dict_id 28) wid).

(** [self.lexicons[self.get_dictionary_id(word_id)]] for an id that is not negative *)
Definition ls_lexicon (s : lexset) (wid : Z) : res lexicon :=
  lx <- get (ls_lexicons s) (Z.to_nat (ls_dictionary_id wid)) ;; Ok (snd lx).

Section lexset.
(** [trie.common_prefix_search] *)
Variable search : bytes -> bytes -> list (Z * nat).
(** The interpreter's recursion limit *)
Variable limit : nat.

(** lexiconset.py:45-47: the pairs of one lexicon with the ids of the set *)
Fixpoint ls_pairs (s : lexset) (dict_id : nat) (l : list (Z * nat)) : gen (Z * nat) :=
  match l with
  | [] => ([], None)
  | (w, e) :: r =>
    match ls_build_word_id s (Z.of_nat dict_id) w with
    | Err x => ([], Some x)
    | Ok id => let '(ps, x) := ls_pairs s dict_id r in ((id, e) :: ps, x)
    end
  end.
(** lexiconset.py:43-47: the lexicons of the list in turn *)
Fixpoint ls_lookup_in (s : lexset) (t : bytes) (offset : nat) (l : list (nat * lexicon)) : gen (Z * nat) :=
  match l with
  | [] => ([], None)
  | (dict_id, lx) :: r =>
    let '(found, x0) := lx_lookup search lx t offset in
    let '(ps, x1) := ls_pairs s dict_id found in
    match x1, x0 with
    | Some x, _ => (ps, Some x)
    | None, Some x => (ps, Some x)
    | None, None => let '(qs, x) := ls_lookup_in s t offset r in (ps ++ qs, x)
    end
  end.
(** lexiconset.py:37-47: the indices 1, 2, ..., 0 *)
Definition ls_lookup (s : lexset) (t : bytes) (offset : nat) : gen (Z * nat) :=
  match ls_lexicons s with
  | [] => ([], Some EIndex)
  | [lx] => lx_lookup search (snd lx) t offset
  | lx :: r => ls_lookup_in s t offset (combine (seq 1 (length r)) (map snd r) ++ [(0%nat, snd lx)])
  end.

(** lexiconset.py:49-59 *)
Definition ls_left_id (s : lexset) (wid : Z) : res Z := lx <- ls_lexicon s wid ;; lx_left_id lx (ls_word_id1 wid).
Definition ls_right_id (s : lexset) (wid : Z) : res Z := lx <- ls_lexicon s wid ;; lx_right_id lx (ls_word_id1 wid).
Definition ls_cost (s : lexset) (wid : Z) : res Z := lx <- ls_lexicon s wid ;; lx_cost lx (ls_word_id1 wid).
(** tokenizer.pyx:53-55: the three at once *)
Definition ls_params (s : lexset) (wid : Z) : res (Z * Z * Z) :=
  a <- ls_left_id s wid ;; b <- ls_right_id s wid ;; c <- ls_cost s wid ;; Ok (a, b, c).

(** lexiconset.py:98-102 *)
Definition ls_convert_split (s : lexset) (split : list Z) (dict_id : Z) : res (list Z) :=
  mapM (fun x => if 0 <? ls_dictionary_id x then ls_build_word_id s dict_id (ls_word_id1 x) else Ok x) split.

(** lexiconset.py:62-72 without the cache, for an id that is not negative *)
Definition ls_word_info (s : lexset) (wid : Z) : res word_info :=
  let dic_id := ls_dictionary_id wid in
  lx <- ls_lexicon s wid ;;
  wi <- lx_word_info limit lx (ls_word_id1 wid) ;;
  pos <- (if 0 <? dic_id then
            first <- get (ls_offsets s) 1 ;;
            if first <=? wi_pos wi then own <- get (ls_offsets s) (Z.to_nat dic_id) ;; Ok (wi_pos wi - first + own) else Ok (wi_pos wi)
          else Ok (wi_pos wi)) ;;
  a <- ls_convert_split s (wi_a wi) dic_id ;;
  b <- ls_convert_split s (wi_b wi) dic_id ;;
  c <- ls_convert_split s (wi_struct wi) dic_id ;;
  Ok (WordInfo (wi_surface wi) (wi_length wi) pos (wi_norm wi) (wi_dic_id wi) (wi_dic wi) (wi_reading wi) a b c (wi_syn wi)).

(** functools.lru_cache(1024), lexiconset.py:61: the results of the last calls, the most
    recent first; exceptions are not kept.  No caller in /repo changes a WordInfo that it
    got from here. *)
Definition cache := list (Z * word_info).
Definition CACHE_SIZE : nat := 1024.
Definition cached_word_info (s : lexset) (c : cache) (wid : Z) : cache * res word_info :=
  match find (fun x => fst x =? wid) c with
  | Some x => (x :: filter (fun y => negb (fst y =? wid)) c, Ok (snd x))
  | None =>
    match ls_word_info s wid with
    | Err e => (c, Err e)
    | Ok wi => (firstn CACHE_SIZE ((wid, wi) :: c), Ok wi)
    end
  end.

(** lexiconset.py:81-86: the loop from dictionary [k] on; [None] when it ends *)
Fixpoint ls_get_word_id_from (s : lexset) (k : nat) (l : list (nat * lexicon)) (headword : text) (pos : Z) (reading : text) : res (option Z) :=
  match l with
  | [] => Ok None
  | lx :: r =>
    wid <- lx_get_word_id search limit (snd lx) headword pos reading ;;
    if wid <=? 0 then id <- ls_build_word_id s (Z.of_nat k) wid ;; Ok (Some id)
    else ls_get_word_id_from s (S k) r headword pos reading
  end.
(** lexiconset.py:81-86 *)
Definition ls_get_word_id (s : lexset) (headword : text) (pos : Z) (reading : text) : res Z :=
  m <- ls_get_word_id_from s 0 (ls_lexicons s) headword pos reading ;;
  match m with
  | Some id => Ok id
  | None => lx <- get (ls_lexicons s) 0 ;; lx_get_word_id search limit (snd lx) headword pos reading
  end.

(** lexiconset.py:95-96 *)
Definition ls_size (s : lexset) : nat := list_sum (map (fun lx => lx_size (snd lx)) (ls_lexicons s)).

(** ** dictionary.py:66-86.  The grammar and the lexicons of a Dictionary; each file gives a
    new lexicon object.  [analyse] is what [calculate_cost] needs of the tokenizer of line 82:
    internal cost and number of morphemes of the analysis of a text with the dictionaries so
    far and no rewriting. *)
Variable analyse : grammar -> lexset -> text -> res (Z * nat).

Record dictset := DictSet { ds_grammar : grammar; ds_lexicon : lexset }.
(** dictionary.py:66-72 *)
Definition read_system_dictionary (file : bytes) : res dictset :=
  d <- from_system_dictionary file ;;
  match d_grammar d with
  | Some g => Ok (DictSet g (lexset_init (0%nat, d_lexicon d)))
  | None => Err EAttribute       (* not for a system dictionary *)
  end.
(** dictionary.py:74-86 *)
Definition read_user_dictionary (ds : dictset) (file : bytes) : res dictset :=
  if ls_is_full (ds_lexicon ds) then Err EValue
  else
    d <- from_user_dictionary file ;;
    lx <- calculate_cost limit (analyse (ds_grammar ds) (ds_lexicon ds)) (d_lexicon d) ;;
    let set := ls_add (ds_lexicon ds) (length (ls_lexicons (ds_lexicon ds)), lx) (Z.of_nat (length (g_pos (ds_grammar ds)))) in
    Ok (DictSet (match d_grammar d with Some g => add_pos_list (ds_grammar ds) g | None => ds_grammar ds end) set).
(** dictionary.py:43, 63-64 *)
Definition load_dictionaries (system : bytes) (users : list bytes) : res dictset :=
  ds <- read_system_dictionary system ;; foldM read_user_dictionary ds users.
End lexset.
