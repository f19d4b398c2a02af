(** Model of the life of Dictionary objects in one process: sudachipy/dictionary.py:94-102
    (close, create), sudachipy/dictionarylib/binarydictionary.py:62-65 (close) and the cache of
    sudachipy/dictionarylib/lexiconset.py:61, which all the LexiconSets of the process share. *)
From Coq Require Import List ZArith Lia Bool Arith.
From Verif Require Import Base M_Lattice M_Tokenizer M_Bytes M_DicReader M_LexiconSet.
Import ListNotations.
Open Scope Z_scope.

(** binarydictionary.py:25-29: a BinaryDictionary, [bn_parts] when it still has the attributes
    _grammar and _lexicon, [bn_open] when its mmap is not closed. *)
Record binary := Binary { bn_parts : bool; bn_open : bool }.
(** dictionary.py:33-64: a Dictionary after its constructor.  [do_lexicon] is the LexiconSet
    that its attribute lexicon refers to at first, [do_parts] tells that the attributes grammar and
    lexicon are not None, and there is one BinaryDictionary for each lexicon of the set, in
    the same order (dictionary.py:66-86). *)
Record dictobj := DictObj { do_lexicon : lexset; do_parts : bool; do_binaries : list binary }.

(** lexiconset.py:61: [lru_cache(1024)] decorates the function of the class, so there is one
    cache, and its keys are the set (by identity, here the number of the Dictionary) and the
    word id.  The most recent key is first. *)
Definition shared_cache := list ((nat * Z) * word_info).
Definition key_eqb (x y : nat * Z) : bool := Nat.eqb (fst x) (fst y) && (snd x =? snd y).

(** The process: the Dictionaries it made, the tokenizers and lists of morphemes it made
    ([None] for one that the program no longer refers to; [Some d] for one that was made from
    Dictionary [d]) and the cache.  Simplified: a Tokenizer (tokenizer.pyx:104-113), a
    MorphemeList (morphemelist.py:26-30) and a Morpheme (which refers to its list) refer to the
    same two things, the grammar and the LexiconSet, and are not told apart.  The list
    for an empty text (morphemelist.py:23-24) refers to nothing and is left out.  Objects go as
    soon as nothing refers to them (CPython); no exception is being handled when close is called. *)
Record process := Process { ps_dicts : list dictobj; ps_objects : list (option nat); ps_cache : shared_cache }.
Definition started : process := Process [] [] [].

Definition upd {A} (l : list A) (i : nat) (f : A -> A) : list A :=
  match nth_error l i with Some a => firstn i l ++ f a :: skipn (S i) l | None => l end.
Definition upd_dict (p : process) (d : nat) (f : dictobj -> dictobj) : process :=
  Process (upd (ps_dicts p) d f) (ps_objects p) (ps_cache p).
Definition upd_binary (p : process) (d b : nat) (x : binary) : process :=
  upd_dict p d (fun D => DictObj (do_lexicon D) (do_parts D) (upd (do_binaries D) b (fun _ => x))).

(** An object made from Dictionary [d] that the program still refers to *)
Definition in_use (p : process) (d : nat) : bool :=
  existsb (fun o => match o with Some d' => Nat.eqb d' d | None => false end) (ps_objects p).
(** A key of the cache that refers to the LexiconSet of [d] *)
Definition in_cache (p : process) (d : nat) : bool := existsb (fun e => Nat.eqb (fst (fst e)) d) (ps_cache p).

(** Are there memoryviews over the mmap of binary [b] of Dictionary [d]?  Its Grammar has one
    (grammar.py:42-45) and its DoubleArrayLexicon has two (wordidtable.py:23, wordparameterlist.py:26-27).
    The lexicon is held by the BinaryDictionary and by the LexiconSet, which is held by the
    Dictionary, the tokenizers, the lists and the cache; the grammar of the system
    dictionary is held by its BinaryDictionary, the Dictionary, the tokenizers and the lists. *)
Definition viewed (p : process) (d b : nat) : bool :=
  match nth_error (ps_dicts p) d with
  | None => false
  | Some D =>
    match nth_error (do_binaries D) b with
    | None => false
    | Some x => bn_parts x || do_parts D || in_use p d || in_cache p d
    end
  end.

(** dictionary.py:97-98 with binarydictionary.py:62-65, for the binaries [bs] of the list:
    deleting an attribute that is not there is an AttributeError, closing an mmap that has
    memoryviews a BufferError. *)
Fixpoint close_binaries (p : process) (d : nat) (bs : list nat) : process * res unit :=
  match bs with
  | [] => (p, Ok tt)
  | b :: r =>
    match nth_error (ps_dicts p) d with
    | None => (p, Ok tt)
    | Some D =>
      match nth_error (do_binaries D) b with
      | None => (p, Ok tt)
      | Some x =>
        if bn_parts x then
          let p1 := upd_binary p d b (Binary false (bn_open x)) in
          if viewed p1 d b then (p1, Err EBuffer)
          else close_binaries (upd_binary p1 d b (Binary false false)) d r
        else (p, Err EAttribute)
      end
    end
  end.
(** dictionary.py:94-98 *)
Definition close_dict (p : process) (d : nat) : process * res unit :=
  match nth_error (ps_dicts p) d with
  | None => (p, Ok tt)
  | Some D =>
    close_binaries (upd_dict p d (fun D => DictObj (do_lexicon D) false (do_binaries D))) d (seq 0 (length (do_binaries D)))
  end.

Section actions.
(** The interpreter's recursion limit *)
Variable limit : nat.

(** lexiconset.py:61-72 with wordinfolist.py:27-56: a word info that is not in the cache is read
    from the mmap, which raises a ValueError when it is closed. *)
Definition read_word_info (D : dictobj) (wid : Z) : res word_info :=
  match nth_error (do_binaries D) (Z.to_nat (ls_dictionary_id wid)) with
  | Some x => if bn_open x then ls_word_info limit (do_lexicon D) wid else Err EValue
  | None => ls_word_info limit (do_lexicon D) wid
  end.
Definition shared_word_info (p : process) (d : nat) (wid : Z) : process * res word_info :=
  match find (fun e => key_eqb (fst e) (d, wid)) (ps_cache p) with
  | Some e => (Process (ps_dicts p) (ps_objects p) (e :: filter (fun y => negb (key_eqb (fst y) (d, wid))) (ps_cache p)), Ok (snd e))
  | None =>
    match nth_error (ps_dicts p) d with
    | None => (p, Err EAttribute)
    | Some D =>
      match read_word_info D wid with
      | Err e => (p, Err e)
      | Ok wi => (Process (ps_dicts p) (ps_objects p) (firstn CACHE_SIZE (((d, wid), wi) :: ps_cache p)), Ok wi)
      end
    end
  end.
(** The word infos of a call, one after the other; the first exception ends it *)
Fixpoint shared_word_infos (p : process) (d : nat) (wids : list Z) : process * res (list word_info) :=
  match wids with
  | [] => (p, Ok [])
  | w :: r =>
    match shared_word_info p d w with
    | (p1, Err e) => (p1, Err e)
    | (p1, Ok wi) =>
      match shared_word_infos p1 d r with
      | (p2, Err e) => (p2, Err e)
      | (p2, Ok l) => (p2, Ok (wi :: l))
      end
    end
  end.

(** What a program does. *)
Inductive action :=
| AOpen (system : nat * lexicon) (users : list (nat * lexicon)) (offsets : list Z)
    (* Dictionary(): the lexicons it loads and their pos_offsets; its constructor asks for no word info
       of the set (dictionary.py:82-83 analyses in mode C without rewriting) *)
| ACreate (d : nat)                   (* dictionary.create() *)
| AUse (h : nat) (wids : list Z)      (* an accessor of a morpheme: asks for these word infos *)
| AMake (h : nat) (wids : list Z)     (* tokenize, or split of a morpheme: the same, then a new list *)
| ADrop (h : nat)                     (* the program forgets an object *)
| AClose (d : nat).                   (* dictionary.close() *)
Inductive reply := RDone | RObject (h : nat) | RInfos (l : list word_info).

(** [None]: the program has no such object. *)
Definition act (p : process) (a : action) : process * option (res reply) :=
  match a with
  | AOpen system users offsets =>
    (Process (ps_dicts p ++ [DictObj (LexSet (system :: users) offsets) true (repeat (Binary true true) (S (length users)))])
       (ps_objects p) (ps_cache p), Some (Ok RDone))
  | ACreate d =>
    match nth_error (ps_dicts p) d with
    | None => (p, None)
    | Some D =>
      (* dictionary.py:100-102, tokenizer.pyx:113, lattice.pyx:29: None has no get_eos_parameter *)
      if do_parts D then (Process (ps_dicts p) (ps_objects p ++ [Some d]) (ps_cache p), Some (Ok (RObject (length (ps_objects p)))))
      else (p, Some (Err EAttribute))
    end
  | AUse h wids =>
    match nth_error (ps_objects p) h with
    | Some (Some d) =>
      match shared_word_infos p d wids with
      | (p1, Ok l) => (p1, Some (Ok (RInfos l)))
      | (p1, Err e) => (p1, Some (Err e))
      end
    | _ => (p, None)
    end
  | AMake h wids =>
    match nth_error (ps_objects p) h with
    | Some (Some d) =>
      match shared_word_infos p d wids with
      | (p1, Ok l) => (Process (ps_dicts p1) (ps_objects p1 ++ [Some d]) (ps_cache p1), Some (Ok (RObject (length (ps_objects p1)))))
      | (p1, Err e) => (p1, Some (Err e))
      end
    | _ => (p, None)
    end
  | ADrop h =>
    match nth_error (ps_objects p) h with
    | Some (Some d) => (Process (ps_dicts p) (upd (ps_objects p) h (fun _ => None)) (ps_cache p), Some (Ok RDone))
    | _ => (p, None)
    end
  | AClose d =>
    match nth_error (ps_dicts p) d with
    | None => (p, None)
    | Some _ => let '(p1, r) := close_dict p d in (p1, Some (_ <- r ;; Ok RDone))
    end
  end.
Definition acts (p : process) (l : list action) : process := fold_left (fun p a => fst (act p a)) l p.
End actions.
