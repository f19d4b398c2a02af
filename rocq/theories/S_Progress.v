(** What the messages of the build commands should say, independently of the builder. *)
From Coq Require Import List ZArith Lia Bool Arith.
From Verif Require Import Base Utf8 M_Bytes M_DicReader M_DicBuilder M_Resource M_Command S_Accept M_Progress.
Import ListNotations.
Open Scope Z_scope.

(** ** Rows *)
(** A row that can be read by itself.  (Whether the references to other words and the sizes
    of the numbers are right turns out when the dictionary is written.) *)
Definition readable_row (py_int : text -> res Z) (row : list text) : Prop :=
  exists cs, Forall2 (fun c c' => unescape c = Ok c') row cs /\
    (18 <= length cs)%nat /\
    (column cs 0 <> [] /\ exists b, encode (column cs 0) = Ok b /\ Z.of_nat (length b) <= 32767) /\
    Forall (fun i => Z.of_nat (length (column cs i)) <= 32767) [4; 11; 12]%nat /\
    Forall (fun i => exists z, py_int (column cs i) = Ok z) [1; 2; 3]%nat /\
    (column cs 13 = none \/ exists z, py_int (column cs 13) = Ok z) /\
    (column cs 14 = [65] -> column cs 15 = none /\ column cs 16 = none) /\
    Forall (fun i => (count_occ Z.eq_dec (column cs i) 47%Z <= 126)%nat) [15; 16; 17]%nat /\
    (length cs = 18%nat \/ column cs 18 = none \/
      exists ws, pieces 47 (column cs 18) ws /\ (length ws <= 127)%nat /\ Forall (fun w => exists z, py_int w = Ok z) ws).

(** [rows] are the records of the file at [path] *)
Definition records (d : disk) (path : text) (rows : list (list text)) : Prop :=
  exists b t, d path = Some b /\ decode b = Ok t /\ csv_rows t = Ok rows.
(** every record of the file can be read *)
Definition fine (py_int : text -> res Z) (d : disk) (path : text) : Prop :=
  exists rows, records d path rows /\ Forall (readable_row py_int) rows.
(** Of the records of the files, in order, the first that cannot be read is the record
    number [i] (from 0) of [path]. *)
Definition first_bad (py_int : text -> res Z) (d : disk) (ins : list text) (path : text) (i : nat) : Prop :=
  exists before after good row rest, ins = before ++ path :: after /\ Forall (fine py_int d) before /\
    records d path (good ++ row :: rest) /\ length good = i /\ Forall (readable_row py_int) good /\ ~ readable_row py_int row.
(** The first file that is not good is not there or is not UTF-8. *)
Definition no_text (py_int : text -> res Z) (d : disk) (ins : list text) : Prop :=
  exists before path after, ins = before ++ path :: after /\ Forall (fine py_int d) before /\
    forall b, d path = Some b -> exists e, decode b = Err e.

(** ** Sizes *)
(** How much has been written since the last size was reported, or since the reading began *)
Definition since_step (n : Z) (s : step) : Z :=
  match s with Do (Put b) => n + Z.of_nat (length b) | Say (Size _) | Say Reading => 0 | _ => n end.
Definition since (ss : list step) : Z := fold_left since_step ss 0.
Definition sizes_right (ss : list step) : Prop :=
  forall before n after, ss = before ++ Say (Size n) :: after -> n = since before.

(** The messages of a build that was done *)
Definition all_reports (words : nat) (cells : list nat) (pos matrix trie ids params infos offsets : Z) : list report :=
  [Reading; Words words; PosTable; Size pos; Matrix] ++ map BadCell cells ++
  [Size matrix; BuildingTrie; TrieDone; WritingTrie; Size trie; WordIds; Size ids; Parameters; Size params; WordInfos; Size infos; Offsets; Size offsets].
(** A line with one or two columns, which is not a comment; and the numbers of such lines,
    the first of [lines] having number [i] *)
Definition is_short (line : text) : bool :=
  match strip line with [] => false | c :: r => negb (c =? 35) && (length (words (c :: r)) <? 3)%nat end.
Fixpoint short_lines (i : nat) (lines : list text) : list nat :=
  match lines with [] => [] | l :: r => if is_short l then i :: short_lines (S i) r else short_lines (S i) r end.

(** The file: the header and the parts, one after the other, where the part with the offsets
    of the word infos and the word infos themselves have a gap between them *)
Record parts := Parts {
  p_header : bytes; p_pos : bytes; p_matrix : bytes; p_trie : bytes; p_ids : bytes;
  p_params : bytes; p_offsets : bytes; p_gap : bytes; p_infos : bytes }.
Definition whole (p : parts) : bytes :=
  p_header p ++ p_pos p ++ p_matrix p ++ p_trie p ++ p_ids p ++ p_params p ++ p_offsets p ++ p_gap p ++ p_infos p.
(** Three of the parts begin with the number of what is in them. *)
Definition starts_with (n : Z) (b : bytes) : Prop := put_int n = Ok (firstn 4 b).
