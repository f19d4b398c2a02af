(** What the units in the split columns of the word lists name, and which lists are split in
    agreement with the text.  Does not use the builder, the reader or the analyser. *)
From Coq Require Import List ZArith Bool Arith.
From Verif Require Import Base M_Tokenizer M_DicBuilder S_Accept.
Import ListNotations.
Open Scope Z_scope.

Section units.
Variable py_int : text -> res Z.

(** The rows that the unit [t] in the list [own] can name.  [base] is the list of the system
    dictionary and [user] says whether [own] is the list of a user dictionary.  A number is
    that of a row: of the system dictionary below 2^28 in a user dictionary, otherwise of the
    list itself.  A word is named by its surface and its reading; the part of speech is left
    out here, so that all words that differ in it only are asked of. *)
Inductive may_name (user : bool) (base own : list (list text)) : text -> list text -> Prop :=
| MN_system t i cs : hd 0 t <> 85 -> py_int t = Ok i -> user = true -> 0 <= i < 2 ^ 28 -> nth_error base (Z.to_nat i) = Some cs ->
    may_name user base own t cs
| MN_number t i cs : hd 0 t <> 85 -> py_int t = Ok i -> (if user then 2 ^ 28 else 0) <= i -> nth_error own (Z.to_nat (i mod 2 ^ 28)) = Some cs ->
    may_name user base own t cs
| MN_row t i cs : py_int t = Ok i -> 0 <= i -> nth_error own (Z.to_nat (i mod 2 ^ 28)) = Some cs ->
    may_name user base own (85 :: t) cs
| MN_word t ws h r cs : pieces 44 t ws -> (8 <= length ws)%nat -> unescape (nth 0 ws []) = Ok h -> unescape (nth 7 ws []) = Ok r ->
    In cs own \/ user = true /\ In cs base ->
    column cs 4 = h -> column cs 11 = r \/ column cs 11 = [] /\ r = h ->
    may_name user base own t cs.

(** The column with the units of a mode; in mode C nothing is divided. *)
Definition mode_column (md : mode) : option nat := match md with ModeA => Some 15%nat | ModeB => Some 16%nat | ModeC => None end.

(** Where a row has two or more units (column 15 for mode A, 16 for mode B), the headwords of
    the words that they name spell the headword of the row. *)
Definition well_split (user : bool) (base own : list (list text)) : Prop :=
  forall cs i ws css, In cs own -> In i [15; 16]%nat -> pieces 47 (column cs i) ws -> (2 <= length ws)%nat ->
    Forall2 (may_name user base own) ws css -> concat (map (fun cs => column cs 0) css) = column cs 0.
(** The list of the system dictionary and those of the user dictionaries *)
Definition all_well_split (system : list (list text)) (users : list (list (list text))) : Prop :=
  well_split false [] system /\ Forall (well_split true system) users.
End units.
