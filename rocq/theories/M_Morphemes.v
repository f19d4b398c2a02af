(** Model of sudachipy/morphemelist.py and sudachipy/morpheme.py. *)
From Coq Require Import List ZArith Lia Bool Arith.
From Verif Require Import Base Utf8 M_Builder M_InputText M_Lattice M_Tokenizer.
Import ListNotations.
Open Scope Z_scope.

(** morphemelist.py:26-30: the text and the path; [MorphemeList.empty()] has no text. *)
Record morphemes := Morphemes { ml_text : option input_text; ml_path : list wnode }.

(** The result of [tokenize] as a morpheme list (tokenizer.pyx:133-134, 166-167) *)
Definition morphemes_of (r : option (input_text * list wnode)) : morphemes :=
  match r with None => Morphemes None [] | Some (it, p) => Morphemes (Some it) p end.

(** morphemelist.py:32-38: the index of the morpheme that [l[index]] stands for *)
Definition ml_getitem (l : morphemes) (index : Z) : res nat :=
  let n := Z.of_nat (length (ml_path l)) in
  if (n <=? index) || (index <? - n) then Err EIndex
  else if index <? 0 then Ok (Z.to_nat (n + index)) else Ok (Z.to_nat index).

(** morphemelist.py:40-41, 93-94 *)
Definition ml_len (l : morphemes) : nat := length (ml_path l).

(** morphemelist.py:43-46: the indices that iteration yields *)
Definition ml_iter (l : morphemes) : list nat := seq 0 (length (ml_path l)).

Definition ml_input (l : morphemes) : res input_text :=
  match ml_text l with Some it => Ok it | None => Err EAttribute end.

(** morphemelist.py:51-52 *)
Definition ml_begin (l : morphemes) (i : nat) : res nat :=
  it <- ml_input l ;; w <- get (ml_path l) i ;; get_original_index it (w_begin w).
(** morphemelist.py:54-55 *)
Definition ml_end (l : morphemes) (i : nat) : res nat :=
  it <- ml_input l ;; w <- get (ml_path l) i ;; get_original_index it (w_end w).

(** morphemelist.py:57-60 *)
Definition ml_surface (l : morphemes) (i : nat) : res text :=
  b <- ml_begin l i ;; e <- ml_end l i ;; it <- ml_input l ;; Ok (slice (it_orig it) b e).

(** morphemelist.py:48-49 *)
Definition ml_str (l : morphemes) : res text :=
  ss <- mapM (ml_surface l) (ml_iter l) ;; Ok (concat ss).

(** morphemelist.py:62-63 *)
Definition ml_word_info (lexinfo : Z -> res word_info) (l : morphemes) (i : nat) : res word_info :=
  w <- get (ml_path l) i ;; node_info lexinfo w.

(** morphemelist.py:65-85 through morpheme.py:54-56.  For one or no unit and in
    mode C the code answers a Python list with the morpheme itself instead of a
    MorphemeList; both are sequences of morphemes, and here both are lists of nodes. *)
Definition ml_split (lexinfo : Z -> res word_info) (l : morphemes) (m : mode) (i : nat) : res morphemes :=
  wi <- ml_word_info lexinfo l i ;;
  w <- get (ml_path l) i ;;
  match m with
  | ModeC => Ok (Morphemes (ml_text l) [w])
  | _ =>
    let wids := match m with ModeA => wi_a wi | _ => wi_b wi end in
    if (length wids =? 0)%nat || (length wids =? 1)%nat then Ok (Morphemes (ml_text l) [w])
    else ns <- split_nodes lexinfo (w_begin w) wids ;; Ok (Morphemes (ml_text l) ns)
  end.

(** morphemelist.py:87-88, morpheme.py:58-59 *)
Definition ml_is_oov (l : morphemes) (i : nat) : res bool := w <- get (ml_path l) i ;; Ok (w_oov w).
(** morpheme.py:64-65 *)
Definition ml_dictionary_id (l : morphemes) (i : nat) : res Z := w <- get (ml_path l) i ;; Ok (node_dictionary_id w).
(** morpheme.py:61-62 *)
Definition ml_word_id (l : morphemes) (i : nat) : res Z := w <- get (ml_path l) i ;; Ok (w_id w).

(** morphemelist.py:90-91: [path[-1]], [path[0]] *)
Definition ml_internal_cost (l : morphemes) : res Z :=
  match ml_path l, rev (ml_path l) with
  | a :: _, b :: _ => Ok (w_cost b - w_cost a)
  | _, _ => Err EIndex
  end.
