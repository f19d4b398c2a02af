(** Several threads that read one memory-mapped dictionary: the position of the mapping is
    shared (wordinfolist.py:27-57 on the buffer of binarydictionary.py:31-47), the interpreter
    may switch threads between any two operations on the mapping. *)
From Coq Require Import List ZArith Lia Bool Arith.
From Verif Require Import Base Utf8 M_Bytes.
Import ListNotations.
Open Scope Z_scope.

(** One operation of a thread; a thread that has ended does nothing. *)
Definition turn {A} (d : bytes) (p : nat) (c : prog A) : nat * prog A :=
  match step d p c with Some r => r | None => (p, c) end.

(** Two threads under a schedule: [true] is the first thread's turn *)
Fixpoint interleave {A B} (d : bytes) (p : nat) (c1 : prog A) (c2 : prog B) (sched : list bool) : nat * prog A * prog B :=
  match sched with
  | [] => (p, c1, c2)
  | true :: r => let '(p', c1') := turn d p c1 in interleave d p' c1' c2 r
  | false :: r => let '(p', c2') := turn d p c2 in interleave d p' c1 c2' r
  end.
