(** Small specification vocabulary for the input-text properties C01-C10.
    Independent of the model: only lists, UTF-8 and category lists. *)
From Coq Require Import List ZArith Lia Bool Arith Sorted.
From Verif Require Import Base Utf8.
Import ListNotations.

(** [m] sends positions 0..[n] of a rewritten text to positions of an original
    text of [olen] characters: one entry per character plus one for the end,
    begins at 0, ends at [olen], never decreases. *)
Definition position_map (m : list nat) (n olen : nat) : Prop :=
  length m = S n /\ nth_error m 0 = Some 0%nat /\ nth_error m n = Some olen /\
  forall i j x y, (i <= j)%nat -> nth_error m i = Some x -> nth_error m j = Some y -> (x <= y)%nat.

(** Byte position of the [k]-th character of a text, in its UTF-8 encoding. *)
Definition char_start (t : text) (k : nat) : nat :=
  list_sum (map (fun c => length (encode_cp c)) (firstn k t)).

(** A byte position at which a character starts, or the end of the text. *)
Definition boundary (t : text) (i : nat) : Prop :=
  exists k, (k <= length t)%nat /\ i = char_start t k.

Definition scalar_text (t : text) : Prop := Forall (fun c => is_scalar c = true) t.

(** Byte [p] belongs to the [k]-th character. *)
Definition in_char (t : text) (p k : nat) : Prop :=
  (k < length t)%nat /\ (char_start t k <= p < char_start t (S k))%nat.

(** Category [c] is shared by the characters [s], ..., [e]-1. *)
Definition shared {C} (cats : list (list C)) (s e : nat) (c : C) : Prop :=
  forall j, (s <= j < e)%nat -> exists cs, nth_error cats j = Some cs /\ In c cs.

(** [s, e) is a run: extended from [s] as long as some category is shared. *)
Definition is_run {C} (cats : list (list C)) (s e : nat) : Prop :=
  (s < e <= length cats)%nat /\
  (exists c, shared cats s e c) /\
  (e = length cats \/ forall c, ~ shared cats s (S e) c).

(** Runs follow each other from the beginning of the text. *)
Inductive run_start {C} (cats : list (list C)) : nat -> Prop :=
| rs_zero : run_start cats 0
| rs_next s e : run_start cats s -> is_run cats s e -> run_start cats e.
