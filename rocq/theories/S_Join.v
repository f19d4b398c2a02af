(** What joining katakana words is for: which words are joined, and which are not. *)
From Coq Require Import List ZArith.
From Verif Require Import Base M_Builder M_InputText M_Lattice S_Text S_Rewrite.
Import ListNotations.

(** The byte position [p] of the text [T] belongs to the character number [k]; the end counts
    as one more character *)
Definition within (T : text) (p k : nat) : Prop := in_char T p k \/ (p = char_start T (length T) /\ k = length T).
(** A word of fewer than [m] characters *)
Definition fewer_than (T : text) (m : Z) (w : wnode) : Prop :=
  exists i j, within T (w_begin w) i /\ within T (w_end w) j /\ (Z.of_nat j - Z.of_nat i < m)%Z.
(** A word because of which katakana words are joined: unknown, or shorter than minLength *)
Definition asks_to_join (it : input_text) (m : Z) (w : wnode) : Prop :=
  (w_oov w = true \/ fewer_than (it_mod it) m w) /\ katakana_word it w.

Section runs.
(** katakana words; those that ask for joining; those with which a joined word may begin; what
    a group of words is replaced with *)
Variable K T S : wnode -> Prop.
Variable J : list wnode -> wnode -> Prop.

(** What becomes of a run of katakana words.  Words at its beginning with which no joined word
    may begin stay as they are; if one of all its words asks for it and two words or more are
    left, these become one; otherwise all stay. *)
Inductive run_result : list wnode -> list wnode -> Prop :=
| run_joined s g w : Forall (fun x => ~ S x) s -> (forall x, hd_error g = Some x -> S x) -> (2 <= length g)%nat ->
    Exists T (s ++ g) -> J g w -> run_result (s ++ g) (s ++ [w])
| run_quiet r : Forall (fun x => ~ T x) r -> run_result r r
| run_short s g : Forall (fun x => ~ S x) s -> (length g <= 1)%nat -> run_result (s ++ g) (s ++ g).

(** The whole path: word by word outside the runs, and run by run.  A run is as long as it can
    be: what comes before it and after it, if anything, is no katakana word. *)
Inductive runs_joined : list wnode -> list wnode -> Prop :=
| rj_nil : runs_joined [] []
| rj_other w p q : ~ K w -> runs_joined p q -> runs_joined (w :: p) (w :: q)
| rj_run r r' p q : r <> [] -> Forall K r -> (forall x, hd_error p = Some x -> ~ K x) ->
    run_result r r' -> runs_joined p q -> runs_joined (r ++ p) (r' ++ q).
End runs.

(** ** Numbers *)
(** A word that may be part of a number: a word of digits, a comma or a point; and a word that
    may not *)
Definition number_part (lexinfo : Z -> res word_info) (it : input_text) (w : wnode) : Prop :=
  exists cs i, get_cats_range it (w_begin w) (w_end w) = Ok cs /\ node_info lexinfo w = Ok i /\
    (In NUMERIC cs \/ In KANJINUMERIC cs \/ wi_norm i = [44%Z] \/ wi_norm i = [46%Z]).
Definition no_number_part (lexinfo : Z -> res word_info) (it : input_text) (w : wnode) : Prop :=
  exists cs i, get_cats_range it (w_begin w) (w_end w) = Ok cs /\ node_info lexinfo w = Ok i /\
    ~ In NUMERIC cs /\ ~ In KANJINUMERIC cs /\ wi_norm i <> [44%Z] /\ wi_norm i <> [46%Z].
(** The word [w] stands for the words [g]: the part of speech [pos], the forms put together,
    the normalised form [norm], from where [g] begins to where it ends *)
Definition stands_for (lexinfo : Z -> res word_info) (pos : Z) (norm : text) (g : list wnode) (w : wnode) : Prop :=
  (forall x, hd_error g = Some x -> w_begin w = w_begin x) /\ (forall x, hd_error (rev g) = Some x -> w_end w = w_end x) /\
  exists infos wi, mapM (node_info lexinfo) g = Ok infos /\ node_info lexinfo w = Ok wi /\ wi_pos wi = pos /\
    wi_surface wi = concat (map wi_surface infos) /\ wi_dic wi = concat (map wi_dic infos) /\
    wi_reading wi = concat (map wi_reading infos) /\ wi_length wi = list_sum (map wi_length infos) /\ wi_norm wi = norm.
