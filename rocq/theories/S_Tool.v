(** Which word lists and which matrix the tool can be used with from beginning to end.  Does
    not use the builder, the reader or the analyser. *)
From Coq Require Import String Ascii List ZArith Bool Arith.
From Verif Require Import Base S_Text S_Resource M_DicBuilder S_Accept.
Import ListNotations.
Open Scope list_scope.
Open Scope Z_scope.

(** The number of UTF-16 code units of a text *)
Definition code_units (t : text) : nat := fold_right (fun c n => ((if (c <? 0x10000)%Z then 1 else 2) + n)%nat) O t.

(** The parts of speech can be read back, and so can the texts of a word (C51, C53) *)
Record readable_row (cs : list text) : Prop := {
  rr_speech : Forall (fun t => (code_units t <= 127)%nat /\ hd 0 t <> 0xFEFF /\ hd 0 t <> 0xFFFE /\ ~ In 44 t) (speech cs);
  rr_texts : Forall (fun i => Z.of_nat (code_units (column cs i)) < 32768) [4; 11; 12]%nat;
}.

Section words.
Variable py_int : text -> res Z.
Variable limit : nat.

(** From row [i], the dictionary form of the dictionary form ... is one that has none, or itself,
    after [n] rows *)
Inductive form_ends (css : list (list text)) : nat -> nat -> Prop :=
| FE_end i cs : nth_error css i = Some cs ->
    column cs 13 = none \/ (exists z, py_int (column cs 13) = Ok z /\ (z < 0 \/ z = Z.of_nat i)) -> form_ends css 1 i
| FE_step n i cs j : nth_error css i = Some cs ->
    column cs 13 <> none -> py_int (column cs 13) = Ok (Z.of_nat j) -> j <> i -> form_ends css n j -> form_ends css (S n) i.

(** A word list, after the escapes were decoded, that can be read back *)
Record readable_list (css : list (list text)) : Prop := {
  rl_rows : Forall readable_row css;
  rl_forms : forall i, (i < length css)%nat -> exists n, (n <= limit)%nat /\ form_ends css n i;
  rl_length : Z.of_nat (length css) <= 2 ^ 28;
}.

(** It fits a matrix of [n] times [n] cells and the digits (also superscripts, subscripts and
    number forms) and kanji numerals of the package's character definitions *)
Definition digits (t : text) : Prop :=
  Forall (fun c => 48 <= c <= 57 \/ 0x2070 <= c <= 0x209F \/ 0x2150 <= c <= 0x218F \/ 0xFF10 <= c <= 0xFF19) t.
Definition kanji_digits (t : text) : Prop :=
  Forall (fun c => In c [0x3007; 0x4e00; 0x4e8c; 0x4e09; 0x56db; 0x4e94; 0x516d; 0x4e03; 0x516b; 0x4e5d; 0x5341; 0x767e; 0x5343; 0x4e07; 0x5104; 0x5146]) t.
Record fitting_list (n : Z) (css : list (list text)) : Prop := {
  fl_ids : forall cs l r, In cs css -> ~ hidden cs -> py_int (column cs 1) = Ok l -> py_int (column cs 2) = Ok r -> 0 <= l < n /\ 0 <= r < n;
  fl_numbers : forall cs, In cs css -> digits (column cs 0) \/ kanji_digits (column cs 0) ->
    forall ch, In ch (match column cs 12 with [] => column cs 4 | t => t end) -> ch <> 44 /\ ch <> 46;
}.
End words.

(** A matrix of [n] times [n] cells, the last of which is given, that inhibits no pair *)
Definition fitting_matrix (n : Z) (m : matrix_source) : Prop :=
  ms_header m = [n; n] /\ 5968 < n /\
  Forall (fun line => exists i j c, line = [i; j; c] /\ 0 <= i < n /\ 0 <= j < n /\ c <> 0x7fff) (ms_lines m) /\
  exists c, In [n - 1; n - 1; c] (ms_lines m).

(** The parts of speech that the settings and unk.def of the package give to words that are in
    no dictionary, and to numbers *)
Definition unknown_speeches : list (list text) :=
  [ [[0x88dc; 0x52a9; 0x8a18; 0x53f7]; [0x4e00; 0x822c]; txt "*"; txt "*"; txt "*"; txt "*"]
  ; [[0x7a7a; 0x767d]; txt "*"; txt "*"; txt "*"; txt "*"; txt "*"]
  ; [[0x540d; 0x8a5e]; [0x666e; 0x901a; 0x540d; 0x8a5e]; [0x4e00; 0x822c]; txt "*"; txt "*"; txt "*"]
  ; [[0x540d; 0x8a5e]; [0x666e; 0x901a; 0x540d; 0x8a5e]; [0x30b5; 0x5909; 0x53ef; 0x80fd]; txt "*"; txt "*"; txt "*"]
  ; [[0x540d; 0x8a5e]; [0x56fa; 0x6709; 0x540d; 0x8a5e]; [0x4e00; 0x822c]; txt "*"; txt "*"; txt "*"]
  ; [[0x540d; 0x8a5e]; [0x56fa; 0x6709; 0x540d; 0x8a5e]; [0x4eba; 0x540d]; [0x4e00; 0x822c]; txt "*"; txt "*"]
  ; [[0x540d; 0x8a5e]; [0x56fa; 0x6709; 0x540d; 0x8a5e]; [0x5730; 0x540d]; [0x4e00; 0x822c]; txt "*"; txt "*"]
  ; [[0x540d; 0x8a5e]; [0x6570; 0x8a5e]; txt "*"; txt "*"; txt "*"; txt "*"]
  ; [[0x611f; 0x52d5; 0x8a5e]; [0x4e00; 0x822c]; txt "*"; txt "*"; txt "*"; txt "*"] ].
