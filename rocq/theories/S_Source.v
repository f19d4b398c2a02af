(** What the columns of a dictionary source mean, independently of the model. *)
From Coq Require Import List ZArith Lia Bool Arith.
From Verif Require Import Base.
Import ListNotations.
Open Scope Z_scope.

(** Hexadecimal digits: 0-9, A-F, a-f *)
Definition hex_digit (c : Z) : Prop := 48 <= c <= 57 \/ 65 <= c <= 70 \/ 97 <= c <= 102.
Definition digit_value (c : Z) : Z := if c <=? 57 then c - 48 else if c <=? 70 then c - 55 else c - 87.
Definition code_point (h : text) : Z := fold_left (fun a c => 16 * a + digit_value c) h 0.

(** \uXXXX and \u{X...}: the digits [h] and what comes after *)
Inductive escape : text -> text -> text -> Prop :=
| E_four h s : length h = 4%nat -> Forall hex_digit h -> escape (92 :: 117 :: h ++ s) h s
| E_braces h s : h <> [] -> Forall hex_digit h -> escape (92 :: 117 :: 123 :: h ++ 125 :: s) h s.

(** [decoded digits t r]: [r] is [t] with every escape replaced by its character, from the
    left; the numbers of digits of all escapes satisfy [digits]. *)
Inductive decoded (digits : nat -> Prop) : text -> text -> Prop :=
| D_nil : decoded digits [] []
| D_escape t h s r : escape t h s -> digits (length h) -> code_point h <= 0x10FFFF -> decoded digits s r -> decoded digits t (code_point h :: r)
| D_plain c s r : (forall h s', ~ escape (c :: s) h s') -> decoded digits s r -> decoded digits (c :: s) (c :: r).
