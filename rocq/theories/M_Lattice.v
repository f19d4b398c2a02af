(** Model of sudachipy/latticenode.pyx and sudachipy/lattice.pyx. *)
From Coq Require Import List ZArith Lia Bool Arith.
From Verif Require Import Base Utf8 M_Builder.
Import ListNotations.
Open Scope Z_scope.

(** dictionarylib/wordinfo.py:15-40 *)
Record word_info := WordInfo {
  wi_surface : text;
  wi_length : nat;            (* head_word_length, in bytes *)
  wi_pos : Z;
  wi_norm : text;
  wi_dic_id : Z;              (* dictionary_form_word_id *)
  wi_dic : text;
  wi_reading : text;
  wi_a : list Z;              (* a_unit_split *)
  wi_b : list Z;
  wi_struct : list Z;
  wi_syn : list Z;
}.

(** latticenode.pyx:19-22: [UNK]; '(null)' *)
Definition null_surface : text := [40; 110; 117; 108; 108; 41].
Definition unk_info : word_info :=
  WordInfo null_surface 0 (-1) null_surface (-1) null_surface null_surface [] [] [] [].

(** latticenode.pxd:1-16 and latticenode.pyx:26-44: the fields of a node that do
    not depend on the lattice. *)
Record wnode := WNode {
  w_begin : nat;
  w_end : nat;
  w_left : Z;
  w_right : Z;
  w_cost : Z;
  w_id : Z;
  w_oov : bool;
  w_defined : bool;
  w_extra : option word_info;
}.

(** latticenode.pyx:26-44 with no argument; C fields start at 0. *)
Definition blank_node : wnode := WNode 0 0 0 0 0 0 false false None.

(** latticenode.pxd:7: [word_id] is a C int; the conversion of a Python int or
    unsigned int outside its range raises OverflowError. *)
Definition to_int (z : Z) : res Z :=
  if (- 2147483648 <=? z) && (z <=? 2147483647) then Ok z else Err EOverflow.

(** latticenode.pyx:26-44 with all the arguments *)
Definition lex_node (left right cost wid : Z) : res wnode :=
  wid' <- to_int wid ;;
  Ok (WNode 0 0 left right cost wid' false true None).

(** latticenode.pyx:46-49 *)
Definition set_parameter (w : wnode) (left right cost : Z) : wnode :=
  WNode (w_begin w) (w_end w) left right cost (w_id w) (w_oov w) (w_defined w) (w_extra w).
(** latticenode.pyx:54-65 *)
Definition set_range (w : wnode) (b e : nat) : wnode :=
  WNode b e (w_left w) (w_right w) (w_cost w) (w_id w) (w_oov w) (w_defined w) (w_extra w).
(** latticenode.pyx:70-71 *)
Definition set_oov (w : wnode) : wnode :=
  WNode (w_begin w) (w_end w) (w_left w) (w_right w) (w_cost w) (w_id w) true (w_defined w) (w_extra w).
(** latticenode.pyx:86-88 *)
Definition set_word_info (w : wnode) (wi : word_info) : wnode :=
  WNode (w_begin w) (w_end w) (w_left w) (w_right w) (w_cost w) (w_id w) (w_oov w) true (Some wi).

(** latticenode.pyx:79-84; [lexinfo] is [self.lexicon.get_word_info]. *)
Definition node_info (lexinfo : Z -> res word_info) (w : wnode) : res word_info :=
  if negb (w_defined w) then Ok unk_info
  else match w_extra w with Some wi => Ok wi | None => lexinfo (w_id w) end.

(** latticenode.pyx:102-105 with lexiconset.py get_dictionary_id *)
Definition node_dictionary_id (w : wnode) : Z :=
  match w_extra w with
  | Some _ => -1
  | None => if negb (w_defined w) then -1 else Z.shiftr (w_id w) 28
  end.

(** A node in the lattice.  [best_previous_node] points to an earlier node, whose
    fields never change after its insertion, so the pointer is modelled by the
    node itself.  [ln_bos] tells the one object [end_lists[0][0]] apart. *)
Inductive lnode := LN (ln_word : wnode) (ln_bos : bool) (ln_total : Z) (ln_prev : option lnode).
Definition ln_word (n : lnode) := let '(LN w _ _ _) := n in w.
Definition ln_bos (n : lnode) := let '(LN _ b _ _) := n in b.
Definition ln_total (n : lnode) := let '(LN _ _ t _) := n in t.
Definition ln_prev (n : lnode) := let '(LN _ _ _ p) := n in p.

(** lattice.pyx:33 and 107: [is_connected_to_bos] *)
Definition connected (n : lnode) : bool :=
  ln_bos n || match ln_prev n with Some _ => true | None => false end.

(** lattice.pxd:8-18 *)
Record lattice := Lattice {
  l_size : nat;
  l_cap : nat;
  l_lists : list (list lnode);
  l_eos : option lnode;
}.

(** C [int] arithmetic, two's complement (formally undefined behaviour in C). *)
Definition wrap32 (z : Z) : Z := (z + 2147483648) mod 4294967296 - 2147483648.
Definition INT_MAX : Z := 2147483647.
(** grammar.py: INHIBITED_CONNECTION *)
Definition INHIBITED : Z := 0x7fff.

Section lattice.
(** [connect_costs[left id of the right node, right id of the left node]]: the cell
    of the typed memory view, [None] where the view has no such cell and its checked
    access raises [IndexError] (lattice.pyx has no [boundscheck] directive). *)
Variable view : Z -> Z -> option Z.
(** [grammar.get_bos_parameter()], [grammar.get_eos_parameter()]: left id, right id, cost *)
Variable bosp eosp : Z * Z * Z.

Definition bos_word : wnode :=
  let '(l, r, c) := bosp in set_parameter blank_node l r c.
(** lattice.pyx:30-34 *)
Definition bos_node : lnode := LN bos_word true 0 None.

(** lattice.pyx:22-35 *)
Definition lattice_init : lattice := Lattice 0 0 [[bos_node]] None.

(** lattice.pyx:41-43: the fresh end-of-sentence node *)
Definition eos_word (n : nat) : wnode :=
  let '(l, r, c) := eosp in set_range (set_parameter blank_node l r c) n n.

(** lattice.pyx:51-54 *)
Definition lat_expand (lat : lattice) (n : nat) : lattice :=
  Lattice (l_size lat) n (l_lists lat ++ repeat [] (n - l_size lat)) (l_eos lat).

(** lattice.pyx:37-43 *)
Definition lat_resize (lat : lattice) (n : nat) : lattice :=
  let lat := if (l_cap lat <? n)%nat then lat_expand lat n else lat in
  Lattice n (l_cap lat) (l_lists lat) (Some (LN (eos_word n) false 0 None)).

(** lattice.pyx:45-49 *)
Definition lat_clear (lat : lattice) : res lattice :=
  ls <- foldM (fun ls i => set_nth ls i []) (l_lists lat) (seq 1 (l_size lat)) ;;
  Ok (Lattice 0 (l_cap lat) ls None).

(** lattice.pyx:94-105: the loop of [connect_node]; [false] when it is left by the
    [IndexError] of a cell that the view does not have. *)
Fixpoint connect_loop (w : wnode) (ls : list lnode) (acc : Z * option lnode) : (Z * option lnode) * bool :=
  match ls with
  | [] => (acc, true)
  | l :: rest =>
      if negb (connected l) then connect_loop w rest acc
      else
        match view (w_left w) (w_right (ln_word l)) with
        | None => (acc, false)
        | Some c =>
            if c =? INHIBITED then connect_loop w rest acc
            else
              let cost := wrap32 (ln_total l + c) in
              connect_loop w rest (if cost <? fst acc then (cost, Some l) else acc)
        end
  end.

(** lattice.pyx:88-108.  [connect_node] is a [cdef void] function: an exception in it
    is reported on the standard error stream and the function returns, before
    lattice.pyx:107 has marked the node as connected.  Simplification: the
    [best_previous_node] of such a node is dropped, since only the predecessors of
    connected nodes are ever followed. *)
Definition connect_node (lists : list (list lnode)) (w : wnode) : res lnode :=
  ls <- get lists (w_begin w) ;;
  match connect_loop w ls (INT_MAX, None) with
  | ((tot, prev), true) => Ok (LN w false (wrap32 (tot + w_cost w)) prev)
  | ((tot, _), false) => Ok (LN w false tot None)
  end.

(** lattice.pyx:72-76.  The node is appended before it is connected; its range is
    that of the word. *)
Definition lat_insert (lat : lattice) (w : wnode) : res lattice :=
  ls <- get (l_lists lat) (w_end w) ;;
  n <- connect_node (l_lists lat) w ;;
  lists <- set_nth (l_lists lat) (w_end w) (ls ++ [n]) ;;
  Ok (Lattice (l_size lat) (l_cap lat) lists (l_eos lat)).

(** lattice.pyx:85-86 *)
Definition has_previous_node (lat : lattice) (i : nat) : res bool :=
  ls <- get (l_lists lat) i ;; Ok (match ls with [] => false | _ => true end).

(** tokenizer.pyx:73, [lattice.connect_node(lattice.eos_node)] *)
Definition connect_eos (lat : lattice) : res lattice :=
  match l_eos lat with
  | None => Err EAttribute
  | Some n =>
    n' <- connect_node (l_lists lat) (ln_word n) ;;
    Ok (Lattice (l_size lat) (l_cap lat) (l_lists lat) (Some n'))
  end.

(** lattice.pyx:118-121: the nodes back to the beginning of the sentence, in
    reverse order ([None] would be an AttributeError on the next access). *)
Fixpoint back (n : lnode) : res (list wnode) :=
  match n with
  | LN w b _ p =>
    if b then Ok []
    else match p with
         | None => Err EAttribute
         | Some n' => r <- back n' ;; Ok (w :: r)
         end
  end.

(** lattice.pyx:113-122 *)
Definition get_best_path (lat : lattice) : res (list wnode) :=
  match l_eos lat with
  | None => Err EAttribute
  | Some eos =>
    match ln_prev eos with
    | None => Err EAttribute       (* "EOS is not connected to BOS" *)
    | Some n => r <- back n ;; Ok (rev r)
    end
  end.

(** lattice.pyx:59-60 *)
Definition get_nodes (lat : lattice) (b e : nat) : res (list wnode) :=
  ls <- get (l_lists lat) e ;;
  Ok (filter (fun w => (w_begin w =? b)%nat) (map ln_word ls)).

(** lattice.pyx:62-70 *)
Definition get_minimum_node (lat : lattice) (b e : nat) : res (option wnode) :=
  ns <- get_nodes lat b e ;;
  match ns with
  | [] => Ok None
  | n :: r => Ok (Some (fold_left (fun m x => if w_cost x <? w_cost m then x else m) r n))
  end.
End lattice.
