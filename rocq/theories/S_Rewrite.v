(** What it means that a path is another one with some neighbours joined. *)
From Coq Require Import List ZArith.
From Verif Require Import Base M_Builder M_InputText M_Lattice M_NumericParser S_Numeric.
Import ListNotations.

(** [joined R rest p q]: [q] is [p] in which some groups [g] of consecutive words have
    each been replaced by one word [w] with the same span; the other words are kept,
    in order.  [R g after w] holds for each replaced group, where [after] are the words
    of [p] after the group (followed by [rest]). *)
Inductive joined (R : list wnode -> list wnode -> wnode -> Prop) (rest : list wnode)
  : list wnode -> list wnode -> Prop :=
| joined_nil : joined R rest [] []
| joined_keep w p q : joined R rest p q -> joined R rest (w :: p) (w :: q)
| joined_group first g last w p q :
    hd_error g = Some first -> hd_error (rev g) = Some last ->
    w_begin w = w_begin first -> w_end w = w_end last ->
    R g (p ++ rest) w -> joined R rest p q -> joined R rest (g ++ p) (w :: q).

(** The boundaries of a path *)
Definition starts (p : list wnode) : list nat := map w_begin p.

(** All characters of the word are known to be katakana. *)
Definition katakana_word (it : input_text) (w : wnode) : Prop :=
  exists cs, get_cats_range it (w_begin w) (w_end w) = Ok cs /\ In KATAKANA cs.
(** An out-of-vocabulary word may start with the first character of the word. *)
Definition oov_may_start (it : input_text) (w : wnode) : Prop :=
  exists cs, get_cats_at it (w_begin w) = Ok cs /\ ~ In NOOOVBOW cs.

(** A word inserted in the lattice with the span [b, e). *)
Definition lattice_word (lat : lattice) (b e : nat) (w : wnode) : Prop :=
  exists ls, nth_error (l_lists lat) e = Some ls /\ In w (map ln_word ls) /\ w_begin w = b.

(** What a katakana group is replaced with: the cheapest lattice word with that span or,
    if there is none, an out-of-vocabulary word made of the surfaces. *)
Definition katakana_group (lexinfo : Z -> res word_info) (it : input_text) (lat : lattice) (pos : Z)
    (g after : list wnode) (w : wnode) : Prop :=
  (2 <= length g)%nat /\ Forall (katakana_word it) g /\
  (forall x, hd_error after = Some x -> ~ katakana_word it x) /\
  (forall x, hd_error g = Some x -> oov_may_start it x) /\
  ((lattice_word lat (w_begin w) (w_end w) w /\
    forall x, lattice_word lat (w_begin w) (w_end w) x -> (w_cost w <= w_cost x)%Z) \/
   ((forall x, ~ lattice_word lat (w_begin w) (w_end w) x) /\ w_oov w = true /\
    exists infos wi, mapM (node_info lexinfo) g = Ok infos /\ w_defined w = true /\ w_extra w = Some wi /\
      wi_pos wi = pos /\ wi_surface wi = concat (map wi_surface infos) /\
      wi_norm wi = wi_surface wi /\ wi_dic wi = wi_surface wi /\ wi_reading wi = [] /\
      wi_length wi = list_sum (map wi_length infos))).

(** The text [s] is a numeral for the parser, which ends in state [p]; [ok] tells whether
    the numeral is complete. *)
Definition parsed (s : text) (ok : bool) (p : parser) : Prop :=
  exists p1, p_feed p_new s = (true, p1) /\ p_done p1 = (ok, p).

(** What a number group is replaced with: a word with the first word's part of speech,
    the forms put together and the normalised number.  The numeral is that of the normalised
    forms of the group; it may be followed by a word with a comma or point that the parser
    has read but that does not belong to the number. *)
Definition number_group (lexinfo : Z -> res word_info) (pos : Z) (normalize : bool)
    (g after : list wnode) (w : wnode) : Prop :=
  exists infos wi,
    mapM (node_info lexinfo) g = Ok infos /\
    (forall i, hd_error infos = Some i -> wi_pos i = pos) /\
    w_oov w = false /\ w_defined w = true /\ w_extra w = Some wi /\
    wi_pos wi = pos /\ wi_surface wi = concat (map wi_surface infos) /\
    wi_dic wi = concat (map wi_dic infos) /\ wi_reading wi = concat (map wi_reading infos) /\
    wi_length wi = list_sum (map wi_length infos) /\
    if normalize then
      exists p p',
        (parsed (concat (map wi_norm infos)) true p \/
         exists x xi, hd_error after = Some x /\ node_info lexinfo x = Ok xi /\
           (wi_norm xi = [comma_char] \/ wi_norm xi = [point_char]) /\
           parsed (concat (map wi_norm infos) ++ wi_norm xi) false p) /\
        p_normalized p = Ok (wi_norm wi, p')
    else (2 <= length g)%nat /\ wi_norm wi = concat (map wi_norm infos).
