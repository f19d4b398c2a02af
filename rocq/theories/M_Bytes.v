(** Bytes: integers and UTF-16 as Python encodes them, files that are written, and
    memory-mapped files that are read.  External to /repo (CPython's int, codecs, io
    and mmap); used by jtypedbytebuffer.py, wordinfolist.py, grammar.py and others. *)
From Coq Require Import List ZArith Lia Bool Arith.
From Verif Require Import Base Utf8.
Import ListNotations.
Open Scope Z_scope.

(** ** Integers *)
(** The [n] low bytes of [z], the lowest first *)
Fixpoint le (n : nat) (z : Z) : bytes :=
  match n with O => [] | S k => z mod 256 :: le k (z / 256) end.

(** [int.from_bytes(b, 'little')] *)
Fixpoint unle (b : bytes) : Z := match b with [] => 0 | x :: r => x + 256 * unle r end.

(** [int.from_bytes(b, 'little', signed=True)] *)
Definition unle_signed (b : bytes) : Z :=
  match b with
  | [] => 0
  | _ => let m := 2 ^ (8 * Z.of_nat (length b)) in let z := unle b in if 2 * z <? m then z else z - m
  end.

(** [z.to_bytes(n, 'little', signed=signed)] *)
Definition to_bytes (n : nat) (signed : bool) (z : Z) : res bytes :=
  let m := 2 ^ (8 * Z.of_nat n) in
  if (if signed then (- m <=? 2 * z) && (2 * z <? m) else (0 <=? z) && (z <? m)) then Ok (le n z) else Err EOverflow.

(** jtypedbytebuffer.py:29-44 *)
Definition put_byte (z : Z) : res bytes := to_bytes 1 false z.
Definition put_char (z : Z) : res bytes := to_bytes 2 false z.
Definition put_short (z : Z) : res bytes := to_bytes 2 true z.
Definition put_int (z : Z) : res bytes := to_bytes 4 true z.
Definition put_long (signed : bool) (z : Z) : res bytes := to_bytes 8 signed z.

(** ** UTF-16 *)
(** [str.encode('utf-16-le')] of one character; as code units *)
Definition units_cp (c : Z) : list Z :=
  if c <? 0x10000 then [c] else [0xD800 + (c - 0x10000) / 1024; 0xDC00 + (c - 0x10000) mod 1024].
Definition units (t : text) : list Z := concat (map units_cp t).
(** jtypedbytebuffer.py:46-47: [text.encode('utf-16-le')], strict *)
Fixpoint utf16 (t : text) : res bytes :=
  match t with
  | [] => Ok []
  | c :: r => if is_scalar c then b <- utf16 r ;; Ok (concat (map (le 2) (units_cp c)) ++ b) else Err EUnicode
  end.

(** [bytes.decode('utf-16-le')], strict: pairs of bytes, pairs of surrogates *)
Fixpoint pairs (big : bool) (b : bytes) : res (list Z) :=
  match b with
  | [] => Ok []
  | [_] => Err EUnicode
  | x :: y :: r => us <- pairs big r ;; Ok ((if big then 256 * x + y else x + 256 * y) :: us)
  end.
Fixpoint of_units (us : list Z) : res text :=
  match us with
  | [] => Ok []
  | u :: r =>
    if (0xDC00 <=? u) && (u <=? 0xDFFF) then Err EUnicode
    else if (0xD800 <=? u) && (u <=? 0xDBFF) then
      match r with
      | v :: r' =>
        if (0xDC00 <=? v) && (v <=? 0xDFFF)
        then t <- of_units r' ;; Ok (0x10000 + (u - 0xD800) * 1024 + (v - 0xDC00) :: t)
        else Err EUnicode
      | [] => Err EUnicode
      end
    else t <- of_units r ;; Ok (u :: t)
  end.
Definition unutf16_le (b : bytes) : res text := us <- pairs false b ;; of_units us.
(** [bytes.decode('utf-16')] on a little-endian machine: a byte order mark at the
    beginning is obeyed and dropped. *)
Definition unutf16 (b : bytes) : res text :=
  match b with
  | x :: y :: r =>
    if (x =? 255) && (y =? 254) then unutf16_le r
    else if (x =? 254) && (y =? 255) then us <- pairs true r ;; of_units us
    else unutf16_le b
  | _ => unutf16_le b
  end.

(** ** A file that is written: its contents and the position.  Writing past the end
    fills the gap with zeros. *)
Record file := File { f_data : bytes; f_pos : nat }.
Definition f_write (f : file) (b : bytes) : file :=
  match b with
  | [] => f
  | _ => File (firstn (f_pos f) (f_data f) ++ repeat 0 (f_pos f - length (f_data f)) ++ b
                ++ skipn (f_pos f + length b) (f_data f))
              (f_pos f + length b)
  end.
Definition f_seek (f : file) (i : nat) : file := File (f_data f) i.
Definition f_tell (f : file) : nat := f_pos f.

(** ** Programs that read a memory-mapped file: the operations on the mapping and what
    is done with their results.  Each operation is one step (it holds the interpreter
    lock); the contents do not change, the position is shared. *)
Inductive prog (A : Type) : Type :=
| Ret (a : A)
| Raise (e : exn)
| Tell (k : nat -> prog A)
| Seek (i : Z) (k : prog A)
| Read (n : nat) (k : bytes -> prog A)
| ReadByte (k : Z -> prog A)
| Sub (b e : nat) (k : bytes -> prog A).
Arguments Ret {A} a.
Arguments Raise {A} e.
Arguments Tell {A} k.
Arguments Seek {A} i k.
Arguments Read {A} n k.
Arguments ReadByte {A} k.
Arguments Sub {A} b e k.

Fixpoint pbind {A B} (p : prog A) (f : A -> prog B) : prog B :=
  match p with
  | Ret a => f a
  | Raise e => Raise e
  | Tell k => Tell (fun x => pbind (k x) f)
  | Seek i k => Seek i (pbind k f)
  | Read n k => Read n (fun x => pbind (k x) f)
  | ReadByte k => ReadByte (fun x => pbind (k x) f)
  | Sub b e k => Sub b e (fun x => pbind (k x) f)
  end.
Notation "x <~ m ;; f" := (pbind m (fun x => f)) (at level 61, m at next level, right associativity).
Notation "' p <~ m ;; f" := (pbind m (fun p => f)) (at level 61, p pattern, m at next level, right associativity).
Definition plift {A} (r : res A) : prog A := match r with Ok a => Ret a | Err e => Raise e end.

(** One step on contents [d] at position [p]: [None] when there is nothing to do.
    mmap: [seek] past the end and [read_byte] at the end raise ValueError; [read] and
    slices give what there is. *)
Definition step {A} (d : bytes) (p : nat) (c : prog A) : option (nat * prog A) :=
  match c with
  | Ret _ | Raise _ => None
  | Tell k => Some (p, k p)
  | Seek i k => if (0 <=? i) && (i <=? Z.of_nat (length d)) then Some (Z.to_nat i, k) else Some (p, Raise EValue)
  | Read n k => let b := firstn n (skipn p d) in Some ((p + length b)%nat, k b)
  | ReadByte k => match nth_error d p with Some x => Some (S p, k x) | None => Some (p, Raise EValue) end
  | Sub b e k => Some (p, k (slice d b e))
  end.

(** The whole run, alone: the position afterwards and the result. *)
Fixpoint prun {A} (d : bytes) (p : nat) (c : prog A) : nat * res A :=
  match c with
  | Ret a => (p, Ok a)
  | Raise e => (p, Err e)
  | Tell k => prun d p (k p)
  | Seek i k => if (0 <=? i) && (i <=? Z.of_nat (length d)) then prun d (Z.to_nat i) k else (p, Err EValue)
  | Read n k => let b := firstn n (skipn p d) in prun d (p + length b)%nat (k b)
  | ReadByte k => match nth_error d p with Some x => prun d (S p) (k x) | None => (p, Err EValue) end
  | Sub b e k => prun d p (k (slice d b e))
  end.

Definition pread (n : nat) : prog bytes := Read n Ret.
Definition pbyte : prog Z := ReadByte Ret.
Definition pseek (i : Z) : prog unit := Seek i (Ret tt).
Definition ptell : prog nat := Tell Ret.
Definition psub (b e : nat) : prog bytes := Sub b e Ret.
