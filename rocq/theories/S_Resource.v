(** What resource files say, independently of the model: lines, words, the lines of a
    character definition file, of unk.def, of rewrite.def, CSV rows. *)
From Coq Require Import String Ascii List ZArith Lia Bool Arith.
From Verif Require Import Base M_Builder.
Import ListNotations.
Open Scope list_scope.
Open Scope Z_scope.

(** White space characters: those of the Unicode bidirectional classes and categories that
    Python documents for str.isspace *)
Definition white : list Z :=
  [9; 10; 11; 12; 13; 28; 29; 30; 31; 32; 0x85; 0xA0; 0x1680; 0x2000; 0x2001; 0x2002; 0x2003; 0x2004; 0x2005; 0x2006; 0x2007; 0x2008;
   0x2009; 0x200A; 0x2028; 0x2029; 0x202F; 0x205F; 0x3000].
Definition blank (t : text) : Prop := Forall (fun c => In c white) t.
Definition solid (t : text) : Prop := t <> [] /\ Forall (fun c => ~ In c white) t.

(** [file_of ls f]: a file with the lines [ls] (without their ends) *)
Inductive file_of : list text -> text -> Prop :=
| F_empty : file_of [] []
| F_last l : l <> [] -> ~ In 10 l -> ~ In 13 l -> file_of [l] l
| F_line l e r ls : ~ In 10 l -> ~ In 13 l -> e = [10] \/ e = [13; 10] \/ (e = [13] /\ hd 0 r <> 10) -> file_of ls r ->
    file_of (l :: ls) (l ++ e ++ r).

(** [line_words l ws]: the words of a line, white space around them *)
Inductive line_words : text -> list text -> Prop :=
| W_none s : blank s -> line_words s []
| W_word s w t ws : blank s -> solid w -> t = [] \/ In (hd 0 t) white -> line_words t ws -> line_words (s ++ w ++ t) (w :: ws).

Definition begins (p t : text) : Prop := exists r, t = p ++ r.

(** A text written in ASCII *)
Definition txt (s : string) : text := map (fun a => Z.of_nat (nat_of_ascii a)) (list_ascii_of_string s).

(** The names of the categories *)
Definition named (c : cat) : string :=
  match c with
  | DEFAULT => "DEFAULT" | SPACE => "SPACE" | KANJI => "KANJI" | SYMBOL => "SYMBOL" | NUMERIC => "NUMERIC" | ALPHA => "ALPHA"
  | HIRAGANA => "HIRAGANA" | KATAKANA => "KATAKANA" | KANJINUMERIC => "KANJINUMERIC" | GREEK => "GREEK" | CYRILLIC => "CYRILLIC"
  | USER1 => "USER1" | USER2 => "USER2" | USER3 => "USER3" | USER4 => "USER4" | NOOOVBOW => "NOOOVBOW"
  end%string.

(** ** Character definitions *)
(** A text cut at every "..", from the left *)
Definition no_dots (t : text) : Prop := ~ exists a b, t = a ++ txt ".." ++ b.
Inductive dotted : text -> list text -> Prop :=
| T_one t : no_dots t -> dotted t [t]
| T_more a r ps : no_dots (a ++ txt ".") -> dotted r ps -> dotted (a ++ txt ".." ++ r) (a :: ps).

(** The words after the range: names of categories, up to the end or a comment *)
Definition lists_cats (ws : list text) (cs : list cat) : Prop :=
  exists rest, ws = map (fun c => txt (named c)) cs ++ rest /\ (rest = [] \/ begins (txt "#") (hd [] rest)).

Section char_line.
(** The number that [int(_, 16)] reads *)
Variable number : text -> Z -> Prop.

(** The word of a range, from ... to (inclusive) *)
Definition range_word (w : text) (low high : Z) : Prop :=
  begins (txt "0x") w /\ exists a ps, dotted w (a :: ps) /\ number a low /\ match ps with [] => high = low | b :: _ => number b high end.

(** A line that gives categories to characters: the range is at its very beginning. *)
Definition char_line (l : text) (low high : Z) (cs : list cat) : Prop :=
  exists w ws, line_words l (w :: ws) /\ ~ In (hd 0 l) white /\ ws <> [] /\ range_word w low high /\ low <= high /\ lists_cats ws cs.
(** Other lines: blank ones, comments, indented ones, and those (of two words at least) that
    begin with something else than 0x *)
Definition other_line (l : text) : Prop :=
  blank l \/ begins (txt "#") l \/ (In (hd 0 l) white /\ l <> []) \/
  exists w w' ws, line_words l (w :: w' :: ws) /\ ~ begins (txt "0x") w.
Definition char_def (ls : list text) (rs : list (Z * Z * list cat)) : Prop :=
  exists os, Forall2 (fun l o => match o with Some (low, high, cs) => char_line l low high cs | None => other_line l end) ls os /\ rs = concat (map (fun o => match o with Some r => [r] | None => [] end) os).
End char_line.

(** ** rewrite.def *)
Inductive rewrite_line := Skip | Keep (c : Z) | Replace (k v : text).
Definition comment_line (l : text) : Prop := exists w ws, line_words l (w :: ws) /\ begins (txt "#") w.
Definition says (l : text) (r : rewrite_line) : Prop :=
  match r with
  | Skip => blank l \/ comment_line l
  | Keep c => line_words l [[c]] /\ ~ comment_line l
  | Replace k v => line_words l [k; v] /\ ~ comment_line l
  end.
(** The characters that are kept and the replacements; no key twice *)
Definition rewrite_def (ls : list text) (kept : list Z) (replaced : list (text * text)) : Prop :=
  exists rs, Forall2 says ls rs /\
    kept = concat (map (fun r => match r with Keep c => [c] | _ => [] end) rs) /\
    replaced = concat (map (fun r => match r with Replace k v => [(k, v)] | _ => [] end) rs) /\
    NoDup (map fst replaced).

(** ** The category properties of char.def and the entries of unk.def *)
Section unknown.
(** The number that [int] reads *)
Variable decimal : text -> Z -> Prop.

Record property := Property { p_cat : cat; p_always : bool; p_group : bool; p_length : Z }.
Definition property_line (l : text) (p : property) : Prop :=
  exists a g n rest, line_words l (txt (named (p_cat p)) :: a :: g :: n :: rest) /\
    (p_always p = false <-> a = txt "0") /\ (p_group p = false <-> g = txt "0") /\ decimal n (p_length p).
Definition no_property_line (l : text) : Prop :=
  blank l \/ exists w ws, line_words l (w :: ws) /\ (begins (txt "#") w \/ begins (txt "0x") w).
Definition property_file (ls : list text) (ps : list property) : Prop :=
  exists os, Forall2 (fun l o => match o with Some p => property_line l p | None => no_property_line l end) ls os /\
    ps = concat (map (fun o => match o with Some p => [p] | None => [] end) os) /\ NoDup (map p_cat ps).

(** A line without the white space around it *)
Definition trimmed (l body : text) : Prop :=
  exists s e, l = s ++ body ++ e /\ blank s /\ blank e /\ (body = [] \/ ~ In (hd 0 body) white /\ ~ In (last body 0) white).
(** Texts with commas between them *)
Inductive commas : text -> list text -> Prop :=
| K_one t : ~ In 44 t -> commas t [t]
| K_more w t ws : ~ In 44 w -> commas t ws -> commas (w ++ 44 :: t) (w :: ws).

Record unknown := Unknown { u_cat : cat; u_left : Z; u_right : Z; u_cost : Z; u_pos : list text }.
Definition unknown_line (l : text) (u : unknown) : Prop :=
  exists body a b c rest, trimmed l body /\ commas body (txt (named (u_cat u)) :: a :: b :: c :: u_pos u ++ rest) /\ length (u_pos u) = 6%nat /\
    decimal a (u_left u) /\ decimal b (u_right u) /\ decimal c (u_cost u).
Definition unknown_file (ls : list text) (us : list unknown) : Prop :=
  exists os, Forall2 (fun l o => match o with Some u => unknown_line l u | None => blank l end) ls os /\
    us = concat (map (fun o => match o with Some u => [u] | None => [] end) os).
End unknown.

(** ** Files of comma-separated values *)
Definition doubled (v : text) : text := flat_map (fun c => if c =? 34 then [34; 34] else [c]) v.
(** [cell v w]: the value [v] can be written as [w] *)
Inductive cell : text -> text -> Prop :=
| V_plain v : ~ In 44 v -> ~ In 10 v -> ~ In 13 v -> hd 0 v <> 34 -> cell v v
| V_quoted v : ~ In 13 v -> cell v ([34] ++ doubled v ++ [34]).
Inductive csv_line : list text -> text -> Prop :=
| L_one v w : cell v w -> csv_line [v] w
| L_more v w vs t : cell v w -> csv_line vs t -> csv_line (v :: vs) (w ++ [44] ++ t).
(** The end of a line that is followed by [r] *)
Definition line_end (e r : text) : Prop := e = [10] \/ e = [13; 10] \/ (e = [13] /\ hd 0 r <> 10).
Inductive csv_file : list (list text) -> text -> Prop :=
| X_empty : csv_file [] []
| X_last row t : csv_line row t -> t <> [] -> csv_file [row] t
| X_row row t e r rows : csv_line row t -> t <> [] -> line_end e r -> csv_file rows r -> csv_file (row :: rows) (t ++ e ++ r)
| X_blank e r rows : line_end e r -> csv_file rows r -> csv_file ([] :: rows) (e ++ r).

(** ** matrix.def *)
Section matrix.
Variable decimal : text -> Z -> Prop.
Definition cost_line (l : text) (c : Z * Z * Z) : Prop :=
  exists a b k, line_words l [a; b; k] /\ ~ comment_line l /\ decimal a (fst (fst c)) /\ decimal b (snd (fst c)) /\ decimal k (snd c).
(** Lines without a cost: blank ones, comments *)
Definition no_cost_line (l : text) : Prop := blank l \/ comment_line l.
Definition matrix_file (ls : list text) (n m : Z) (cells : list (Z * Z * Z)) : Prop :=
  exists h r os a b, ls = h :: r /\ line_words h [a; b] /\ decimal a n /\ decimal b m /\
    Forall2 (fun l o => match o with Some c => cost_line l c | None => no_cost_line l end) r os /\
    cells = concat (map (fun o => match o with Some c => [c] | None => [] end) os).
(** The cost that a list of costs gives last *)
Definition last_given (cells : list (Z * Z * Z)) (l r c : Z) : Prop :=
  exists pre post, cells = pre ++ (l, r, c) :: post /\ forall c', ~ In (l, r, c') post.
End matrix.
