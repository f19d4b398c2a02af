(** What the claims about the life of a Dictionary are stated with. *)
From Coq Require Import List ZArith Lia Bool Arith.
From Verif Require Import Base M_DicReader M_LexiconSet M_Close.
Import ListNotations.
Open Scope Z_scope.

(** The objects of the process and the references between them *)
Inductive thing :=
| TDictionary (d : nat) | TBinary (d b : nat) | TObject (h : nat) | TKey (k : nat * Z)
| TGrammar (d b : nat) | TSet (d : nat) | TLexicon (d b : nat) | TView (d b : nat).
Inductive refers (p : process) : thing -> thing -> Prop :=
| dictionary_grammar d D : nth_error (ps_dicts p) d = Some D -> do_parts D = true -> refers p (TDictionary d) (TGrammar d 0)
| dictionary_set d D : nth_error (ps_dicts p) d = Some D -> do_parts D = true -> refers p (TDictionary d) (TSet d)
| dictionary_binary d D b x : nth_error (ps_dicts p) d = Some D -> nth_error (do_binaries D) b = Some x -> refers p (TDictionary d) (TBinary d b)
| binary_grammar d D b x : nth_error (ps_dicts p) d = Some D -> nth_error (do_binaries D) b = Some x -> bn_parts x = true -> refers p (TBinary d b) (TGrammar d b)
| binary_lexicon d D b x : nth_error (ps_dicts p) d = Some D -> nth_error (do_binaries D) b = Some x -> bn_parts x = true -> refers p (TBinary d b) (TLexicon d b)
| object_grammar h d : nth_error (ps_objects p) h = Some (Some d) -> refers p (TObject h) (TGrammar d 0)
| object_set h d : nth_error (ps_objects p) h = Some (Some d) -> refers p (TObject h) (TSet d)
| key_set k : refers p (TKey k) (TSet (fst k))
| set_lexicon d D b lx : nth_error (ps_dicts p) d = Some D -> nth_error (ls_lexicons (do_lexicon D)) b = Some lx -> refers p (TSet d) (TLexicon d b)
| grammar_view d b : refers p (TGrammar d b) (TView d b)
| lexicon_view d b : refers p (TLexicon d b) (TView d b).
(** What the program, or the cache, refers to *)
Inductive root (p : process) : thing -> Prop :=
| root_dictionary d D : nth_error (ps_dicts p) d = Some D -> root p (TDictionary d)
| root_object h d : nth_error (ps_objects p) h = Some (Some d) -> root p (TObject h)
| root_key k wi : In (k, wi) (ps_cache p) -> root p (TKey k).
Inductive reachable (p : process) : thing -> Prop :=
| reach_root t : root p t -> reachable p t
| reach_step t u : reachable p t -> refers p t u -> reachable p u.

(** The LexiconSet of the [d]-th Dictionary that the program opened *)
Fixpoint opened (l : list action) (d : nat) : option lexset :=
  match l with
  | [] => None
  | AOpen system users offsets :: r => match d with O => Some (LexSet (system :: users) offsets) | S d' => opened r d' end
  | _ :: r => opened r d
  end.

(** The words that were looked up with success, in order *)
Section asked.
Variable limit : nat.
Fixpoint good_prefix (s : lexset) (wids : list Z) : list Z :=
  match wids with
  | [] => []
  | w :: r => match ls_word_info limit s w with Ok _ => w :: good_prefix s r | Err _ => [] end
  end.
Definition asked_by (p : process) (a : action) : list (nat * Z) :=
  match a with
  | AUse h wids | AMake h wids =>
    match nth_error (ps_objects p) h with
    | Some (Some d) =>
      match nth_error (ps_dicts p) d with Some D => map (pair d) (good_prefix (do_lexicon D) wids) | None => [] end
    | _ => []
    end
  | _ => []
  end.
Fixpoint asked (p : process) (l : list action) : list (nat * Z) :=
  match l with
  | [] => []
  | a :: r => asked_by p a ++ asked (fst (act limit p a)) r
  end.
End asked.

(** The different ones among them, the last one first *)
Definition touch (l : list (nat * Z)) (k : nat * Z) : list (nat * Z) := k :: filter (fun x => negb (key_eqb x k)) l.
Definition latest (l : list (nat * Z)) : list (nat * Z) := fold_left touch l [].
