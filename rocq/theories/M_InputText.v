(** Model of sudachipy/utf8inputtext.py (the accessors). *)
From Coq Require Import List ZArith Lia Bool Arith.
From Verif Require Import Base Utf8 M_Builder.
Import ListNotations.
Open Scope Z_scope.

(** utf8inputtext.py:36-44.  Arguments are Python ints. *)
Definition get_substring (it : input_text) (begin end_ : Z) : res text :=
  if begin <? 0 then Err EIndex
  else if Z.of_nat (length (it_bytes it)) <? end_ then Err EIndex
  else if end_ <? begin then Err EIndex
  else
    b <- get (it_byte_indexes it) (Z.to_nat begin) ;;
    e <- get (it_byte_indexes it) (Z.to_nat end_) ;;
    Ok (slice (it_mod it) b e).

(** utf8inputtext.py:46-47 *)
Definition get_offset_text_length (it : input_text) (i : nat) : res nat :=
  get (it_byte_indexes it) i.

(** utf8inputtext.py:49-50 *)
Definition get_original_index (it : input_text) (i : nat) : res nat :=
  get (it_offsets it) i.

(** utf8inputtext.py:64-65 *)
Definition get_cont_length (it : input_text) (i : nat) : res nat := get (it_conts it) i.

(** utf8inputtext.py:52-54, one argument *)
Definition get_cats_at (it : input_text) (b : nat) : res (list cat) :=
  i <- get (it_byte_indexes it) b ;; get (it_cats it) i.

(** utf8inputtext.py:55-62, two arguments *)
Definition get_cats_range (it : input_text) (begin end_ : nat) : res (list cat) :=
  n <- get_cont_length it begin ;;
  if (begin + n <? end_)%nat then Ok []
  else
    b <- get (it_byte_indexes it) begin ;;
    e <- get (it_byte_indexes it) end_ ;;
    c0 <- get (it_cats it) b ;;
    foldM (fun acc i => c <- get (it_cats it) i ;; cat_and acc c) c0 (seq (b + 1) (e - (b + 1))).

(** utf8inputtext.py:70-74: the loop from [i] on ([k] bytes left) *)
Fixpoint cpo_loop (bi : list nat) (target i k acc : nat) : res nat :=
  match k with
  | O => Ok acc
  | S k' =>
    x <- get bi i ;;
    if (target <=? x)%nat then Ok acc else cpo_loop bi target (S i) k' (S acc)
  end.
(** utf8inputtext.py:67-74 *)
Definition get_code_points_offset_length (it : input_text) (index cpo : nat) : res nat :=
  x <- get (it_byte_indexes it) index ;;
  cpo_loop (it_byte_indexes it) (x + cpo) index (length (it_bytes it) - index) 0.

(** utf8inputtext.py:76-77 *)
Definition can_bow (it : input_text) (i : nat) : res bool :=
  b <- get (it_bytes it) i ;;
  if Z.land b 0xC0 =? 0x80 then Ok false
  else x <- get (it_byte_indexes it) i ;; get (it_bow it) x.

(** utf8inputtext.py:79-80; a Python int, hence Z *)
Definition code_point_count (it : input_text) (begin end_ : nat) : res Z :=
  e <- get (it_byte_indexes it) end_ ;;
  b <- get (it_byte_indexes it) begin ;;
  Ok (Z.of_nat e - Z.of_nat b).

(** utf8inputtext.py:83-86: the loop from [i] on ([k] bytes left) *)
Fixpoint wcl_loop (it : input_text) (index i k : nat) : res nat :=
  match k with
  | O => Ok (length (it_bytes it) - index)%nat
  | S k' => b <- can_bow it i ;; if b then Ok (i - index)%nat else wcl_loop it index (S i) k'
  end.
(** utf8inputtext.py:82-86.  ([index <= len(bytes)] at every call site; the
    subtraction is then exact.) *)
Definition get_word_candidate_length (it : input_text) (index : nat) : res nat :=
  wcl_loop it index (S index) (length (it_bytes it) - S index).
