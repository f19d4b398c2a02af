(** Which dictionary sources are within the limits of the format, independently of the
    builder. *)
From Coq Require Import List ZArith Lia Bool Arith Sorted.
From Verif Require Import Base Utf8 S_Text M_Lattice M_DicReader M_DicBuilder.
Import ListNotations.
Open Scope Z_scope.

(** [t] is [ws] with [sep] between them *)
Inductive pieces (sep : Z) : text -> list text -> Prop :=
| P_last w : ~ In sep w -> pieces sep w [w]
| P_more w t ws : ~ In sep w -> pieces sep t ws -> pieces sep (w ++ sep :: t) (w :: ws).

(** A row, after the escapes were decoded; columns are counted from 0 *)
Definition column (cs : list text) (i : nat) : text := nth i cs [].
(** columns 5 to 10 *)
Definition speech (cs : list text) : list text := map (column cs) [5; 6; 7; 8; 9; 10]%nat.
Definition none : text := [42].                            (* "*" *)
Definition hidden (cs : list text) : Prop := column cs 1 = [45; 49].   (* "-1": not in the trie *)
Definition in_short (z : Z) : Prop := -2 ^ 15 <= z < 2 ^ 15.
Definition in_int (z : Z) : Prop := -2 ^ 31 <= z < 2 ^ 31.

Section source.
Variable k : kind.
Variable py_int : text -> res Z.
Variable is_digit : Z -> bool.

(** A unit of a split column that can be resolved: a number of a word, "U" and the number of
    a row of the source, or a word (surface, part of speech, reading) that is in a row of the
    source or, for a user dictionary, in the system dictionary. *)
Inductive reference (css : list (list text)) : text -> Prop :=
| R_number t i :
    t <> [] -> Forall (fun c => is_digit c = true) t -> hd 0 t <> 85 -> py_int t = Ok i ->
    match k with
    | SystemDic => 0 <= i < Z.of_nat (length css)
    | UserDic _ _ n => 0 <= i < Z.of_nat n /\ i < 2 ^ 28 \/ 2 ^ 28 <= i < 2 ^ 31 /\ i mod 2 ^ 28 < Z.of_nat (length css)
    end -> reference css t
| R_row t i :
    t <> [] -> Forall (fun c => is_digit c = true) t -> py_int t = Ok i -> 0 <= i < Z.of_nat (length css) -> reference css (85 :: t)
| R_word t ws h r cs :
    pieces 44 t ws -> (8 <= length ws)%nat ->
    unescape (nth 0 ws []) = Ok h -> unescape (nth 7 ws []) = Ok r ->
    In cs css -> column cs 4 = h -> speech cs = slice ws 1 7 -> column cs 11 = r -> reference css t
| R_system t ws h r g sys_id n id :
    k = UserDic g sys_id n ->
    pieces 44 t ws -> (8 <= length ws)%nat ->
    unescape (nth 0 ws []) = Ok h -> unescape (nth 7 ws []) = Ok r ->
    In (slice ws 1 7) (g_pos g) ->
    sys_id h (get_part_of_speech_id g (slice ws 1 7)) r = Ok id -> 0 <= id < 2 ^ 31 -> reference css t.

Definition split_column (css : list (list text)) (t : text) : Prop :=
  t = none \/ exists ws, pieces 47 t ws /\ (length ws <= 127)%nat /\ Forall (reference css) ws.

Record good_row (css : list (list text)) (cs : list text) : Prop := {
  gr_columns : (18 <= length cs)%nat;
  gr_headword : column cs 0 <> [] /\ exists b, encode (column cs 0) = Ok b /\ Z.of_nat (length b) <= 32767;
  gr_numbers : Forall (fun i => exists z, py_int (column cs i) = Ok z /\ in_short z) [1; 2; 3]%nat;
  gr_texts : Forall (fun i => scalar_text (column cs i) /\ Z.of_nat (length (column cs i)) <= 32767) [4; 11; 12]%nat;
  gr_speech : Forall (fun t => scalar_text t /\ Z.of_nat (length t) <= 32767 /\ ~ In 44 t) (speech cs);
  gr_form : column cs 13 = none \/ exists z, py_int (column cs 13) = Ok z /\ in_int z;
  gr_unit : column cs 14 = [65] -> column cs 15 = none /\ column cs 16 = none;
  gr_splits : Forall (fun i => split_column css (column cs i)) [15; 16; 17]%nat;
  gr_synonyms : length cs = 18%nat \/ column cs 18 = none \/
    exists ws, pieces 47 (column cs 18) ws /\ (length ws <= 127)%nat /\ Forall (fun w => exists z, py_int w = Ok z /\ in_int z) ws;
}.

Definition same_headword (h : text) (cs : list text) : bool :=
  if list_eq_dec Z.eq_dec (column cs 0) h then if list_eq_dec Z.eq_dec (column cs 1) [45; 49] then false else true else false.

(** The whole source: [speeches] are the parts of speech that occur in it. *)
Record good_source (css : list (list text)) (speeches : list (list text)) : Prop := {
  gs_rows : Forall (good_row css) css;
  gs_speeches : Forall (fun cs => In (speech cs) speeches) css;
  gs_number : Z.of_nat (length speeches + match k with SystemDic => 0 | UserDic g _ _ => length (g_pos g) end) <= 32767;
  gs_same : forall h, (length (filter (same_headword h) css) <= 255)%nat;
}.
End source.

(** A matrix of [l] times [r] cells, some of which are given *)
Definition good_matrix (l r : Z) (ms : matrix_source) : Prop :=
  ms_header ms = [l; r] /\ 0 <= l < 2 ^ 15 /\ 0 <= r < 2 ^ 15 /\
  Forall (fun line => exists i j c, line = [i; j; c] /\ 0 <= i < l /\ 0 <= j < r /\ in_short c) (ms_lines ms).

(** ** Sizes, in bytes *)
Definition sum (l : list nat) : nat := fold_right Nat.add O l.
Definition string_size (t : text) : nat := 2 + 4 * length t.
Definition array_size (t : text) : nat := 5 + 4 * count_occ Z.eq_dec t 47.
Definition row_size (cs : list text) : nat :=
  sum (map (fun i => string_size (column cs i)) [4; 11; 12]%nat) + 8 + sum (map (fun i => array_size (column cs i)) [15; 16; 17; 18]%nat).
Definition speech_size (p : list text) : nat := sum (map string_size p).
(** Everything before the word infos: [trie] is the size of the trie, [cells] the number of
    the cells of the matrix *)
Definition front_size (css speeches : list (list text)) (trie : nat) (cells : Z) : Z :=
  300 + Z.of_nat (sum (map speech_size speeches)) + 2 * cells + Z.of_nat trie + 11 * Z.of_nat (length css).
(** The builder leaves a gap in front of the word infos: they begin at four times the
    position (dictionarybuilder.py:273). *)
Definition total_size (css speeches : list (list text)) (trie : nat) (cells : Z) : Z :=
  4 * front_size css speeches trie cells + Z.of_nat (length css) + Z.of_nat (sum (map row_size css)).
