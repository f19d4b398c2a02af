(** Specification of the two input-text rewritings (C11, C12). *)
From Coq Require Import List ZArith Lia Bool Arith.
From Verif Require Import Base.
Import ListNotations.

Definition is_prefix (p t : text) : Prop := exists r, t = p ++ r.

Section normalised.
(** [entries]: the replace list (key, replacement); [char_out c]: what a single
    character becomes when no key matches. *)
Variable entries : list (text * text).
Variable char_out : Z -> text.

(** Left to right; the longest matching key wins; otherwise one character. *)
Inductive normalised : text -> text -> Prop :=
| norm_end : normalised [] []
| norm_key k v t out :
    In (k, v) entries -> v <> [] -> k <> [] ->
    (forall k' v', In (k', v') entries -> v' <> [] -> is_prefix k' (k ++ t) -> (length k' <= length k)%nat) ->
    normalised t out -> normalised (k ++ t) (v ++ out)
| norm_char c t out :
    (forall k' v', In (k', v') entries -> v' <> [] -> ~ is_prefix k' (c :: t)) ->
    normalised t out -> normalised (c :: t) (char_out c ++ out).
End normalised.

Section collapsed.
Variable mark : Z -> Prop.
Variable symbol : text.

(** Every maximal run of two or more marks becomes [symbol]; a lone mark and every other
    character stay. *)
Inductive collapsed : text -> text -> Prop :=
| col_end : collapsed [] []
| col_other c t out : ~ mark c -> collapsed t out -> collapsed (c :: t) (c :: out)
| col_run r t out :
    r <> [] -> Forall mark r -> (forall c t', t = c :: t' -> ~ mark c) -> collapsed t out ->
    collapsed (r ++ t) ((match r with [c] => [c] | _ => symbol end) ++ out).
End collapsed.
