(** Model of sudachipy/plugin/path_rewrite/numericparser.py. *)
From Coq Require Import List ZArith Lia Bool Arith.
From Verif Require Import Base.
Import ListNotations.
Open Scope Z_scope.

(** io.StringIO: the buffer and the stream position. *)
Record stringio := SIO { sio_buf : text; sio_pos : nat }.
(** [write]: overwrites from the position on (past the end, the gap is filled with NUL). *)
Definition sio_write (s : stringio) (t : text) : stringio :=
  SIO (firstn (sio_pos s) (sio_buf s) ++ repeat 0 (sio_pos s - length (sio_buf s)) ++ t
        ++ skipn (sio_pos s + length t) (sio_buf s))
      (sio_pos s + length t).
(** [seek(i)] for a non-negative position *)
Definition sio_seek (s : stringio) (i : nat) : stringio := SIO (sio_buf s) i.
(** [truncate(i)] does not move the position *)
Definition sio_truncate (s : stringio) (i : nat) : stringio := SIO (firstn i (sio_buf s)) (sio_pos s).
(** [read(1)] *)
Definition sio_read1 (s : stringio) : text * stringio :=
  match nth_error (sio_buf s) (sio_pos s) with
  | Some c => ([c], SIO (sio_buf s) (S (sio_pos s)))
  | None => ([], s)
  end.

(** numericparser.py:23-27; [sn_point] and [sn_scale] are Python ints *)
Record strnum := StrNum { sn_sig : stringio; sn_scale : Z; sn_point : Z; sn_allzero : bool }.

(** [self._significand.tell()] *)
Definition tell (n : strnum) : Z := Z.of_nat (sio_pos (sn_sig n)).

(** numericparser.py:29-34 *)
Definition sn_clear (n : strnum) : strnum :=
  StrNum (sio_truncate (sio_seek (sn_sig n) 0) 0) 0 (-1) true.
(** numericparser.py:23-27 *)
Definition sn_new : strnum := StrNum (SIO [] 0) 0 (-1) true.

(** numericparser.py:36-39; [str(i)] of one digit *)
Definition sn_append (n : strnum) (i : Z) : strnum :=
  StrNum (sio_write (sn_sig n) [48 + i]) (sn_scale n) (sn_point n)
    (if negb (i =? 0) then false else sn_allzero n).

(** numericparser.py:80-81 *)
Definition sn_is_zero (n : strnum) : bool := tell n =? 0.

(** numericparser.py:41-44 *)
Definition sn_shift_scale (n : strnum) (i : Z) : strnum :=
  let s := if sn_is_zero n then sio_write (sn_sig n) [49] else sn_sig n in
  StrNum s (sn_scale n + i) (sn_point n) (sn_allzero n).

(** numericparser.py:83-92 *)
Definition sn_normalize (n : strnum) : strnum :=
  if sn_point n <? 0 then n
  else
    let n_scale := tell n - sn_point n in
    if sn_scale n <? n_scale
    then StrNum (sn_sig n) 0 (sn_point n + sn_scale n) (sn_allzero n)
    else StrNum (sn_sig n) (sn_scale n - n_scale) (-1) (sn_allzero n).

(** numericparser.py:94-96 *)
Definition sn_fill_zero (n : strnum) (len : Z) : strnum :=
  if 0 <? len then StrNum (sio_write (sn_sig n) (repeat 48 (Z.to_nat len))) (sn_scale n) (sn_point n) (sn_allzero n)
  else n.

(** numericparser.py:74-78: the length, and the number after its normalisation *)
Definition sn_int_length (n : strnum) : Z * strnum :=
  let n := sn_normalize n in
  ((if 0 <=? sn_point n then sn_point n else tell n + sn_scale n), n).

(** numericparser.py:46-66: the answer, the number added to and the other number
    (both are changed) *)
Definition sn_add (self number : strnum) : bool * strnum * strnum :=
  if sn_is_zero number then (true, self, number)
  else if sn_is_zero self then
    (true, StrNum (sio_write (sn_sig self) (sio_buf (sn_sig number))) (sn_scale number) (sn_point number) (sn_allzero self), number)
  else
    let self := sn_normalize self in
    let '(len, number) := sn_int_length number in
    if len <=? sn_scale self then
      let self := sn_fill_zero self (sn_scale self - len) in
      let point := if 0 <=? sn_point number then tell self + sn_point number else sn_point self in
      (true, StrNum (sio_write (sn_sig self) (sio_buf (sn_sig number))) (sn_scale number) point (sn_allzero self), number)
    else (false, self, number).

(** numericparser.py:68-72 *)
Definition sn_set_point (n : strnum) : bool * strnum :=
  if (sn_scale n =? 0) && (sn_point n <? 0)
  then (true, StrNum (sn_sig n) (sn_scale n) (tell n) (sn_allzero n))
  else (false, n).

(** numericparser.py:113-118 *)
Definition sio_insert (s : stringio) (idx : nat) (t : text) : stringio :=
  let post_fix := skipn idx (sio_buf s) in
  sio_write (sio_write (sio_seek s idx) t) post_fix.

(** numericparser.py:131-135: the loop that looks for the last character that is not
    '0', from [i] down; [seek(-1)] raises ValueError.  Answers [i]. *)
Fixpoint strip_zeros (buf : text) (i : nat) : res nat :=
  match nth_error buf i with
  | Some 48 => match i with O => Err EValue | S j => strip_zeros buf j end
  | _ => Ok i
  end.

(** numericparser.py:120-141: the string, and the number afterwards *)
Definition sn_str (n : strnum) : res (text * strnum) :=
  if sn_is_zero n then Ok ([48], n)
  else
    let n := sn_normalize n in
    if 0 <? sn_scale n then
      let n := sn_fill_zero n (sn_scale n) in Ok (sio_buf (sn_sig n), n)
    else if 0 <=? sn_point n then
      let s := sio_insert (sn_sig n) (Z.to_nat (sn_point n)) [46] in
      let s := if sn_point n =? 0 then sio_insert s 0 [48] else s in
      (* the position is at least 1: it was not 0 and something was inserted *)
      i <- strip_zeros (sio_buf s) (sio_pos s - 1) ;;
      let s := sio_seek (sio_truncate s (i + 1)) i in
      let '(c, s) := sio_read1 s in
      let s := if list_eqb Z.eqb c [46] then sio_truncate s i else s in
      Ok (sio_buf s, StrNum s (sn_scale n) (sn_point n) (sn_allzero n))
    else Ok (sio_buf (sn_sig n), n).

(** numericparser.py:143-147 *)
Inductive perror := PNone | PPoint | PComma | POther.

(** numericparser.py:149-182 *)
Record parser := Parser {
  p_digits : nat;
  p_first : bool;
  p_comma : bool;
  p_hanging : bool;
  p_error : perror;
  p_total : strnum;
  p_sub : strnum;
  p_tmp : strnum;
}.

(** numericparser.py:184-192 *)
Definition p_clear (p : parser) : parser :=
  Parser 0 true false false PNone (sn_clear (p_total p)) (sn_clear (p_sub p)) (sn_clear (p_tmp p)).
(** numericparser.py:158-182 *)
Definition p_new : parser := p_clear (Parser 0 true false false PNone sn_new sn_new sn_new).

(** numericparser.py:159-177: 0-9, 〇一二三四五六七八九 and 十百千万億兆 *)
Definition char_to_num (c : Z) : option Z :=
  if (48 <=? c) && (c <=? 57) then Some (c - 48)
  else if c =? 0x3007 then Some 0
  else if c =? 0x4E00 then Some 1
  else if c =? 0x4E8C then Some 2
  else if c =? 0x4E09 then Some 3
  else if c =? 0x56DB then Some 4
  else if c =? 0x4E94 then Some 5
  else if c =? 0x516D then Some 6
  else if c =? 0x4E03 then Some 7
  else if c =? 0x516B then Some 8
  else if c =? 0x4E5D then Some 9
  else if c =? 0x5341 then Some (-1)
  else if c =? 0x767E then Some (-2)
  else if c =? 0x5343 then Some (-3)
  else if c =? 0x4E07 then Some (-4)
  else if c =? 0x5104 then Some (-8)
  else if c =? 0x5146 then Some (-12)
  else None.

(** numericparser.py:269-275 *)
Definition is_small_unit (num : Z) : bool := (-3 <=? num) && (num <? 0).
Definition is_large_unit (num : Z) : bool := num <=? -4.

(** numericparser.py:262-267 *)
Definition check_comma (p : parser) : bool :=
  if p_first p then false
  else if negb (p_comma p) then (p_digits p <=? 3)%nat && negb (sn_is_zero (p_tmp p)) && negb (sn_allzero (p_tmp p))
  else (p_digits p =? 3)%nat.

Definition set_error (p : parser) (e : perror) : parser :=
  Parser (p_digits p) (p_first p) (p_comma p) (p_hanging p) e (p_total p) (p_sub p) (p_tmp p).

(** numericparser.py:194-247 *)
Definition p_append (p : parser) (c : Z) : bool * parser :=
  if c =? 46 then
    let p := Parser (p_digits p) (p_first p) (p_comma p) true (p_error p) (p_total p) (p_sub p) (p_tmp p) in
    if p_first p then (false, set_error p PPoint)
    else if p_comma p && negb (check_comma p) then (false, set_error p PComma)
    else
      let '(ok, tmp) := sn_set_point (p_tmp p) in
      if negb ok then (false, set_error p PPoint)
      else (true, Parser (p_digits p) (p_first p) false (p_hanging p) (p_error p) (p_total p) (p_sub p) tmp)
  else if c =? 44 then
    if negb (check_comma p) then (false, set_error p PComma)
    else (true, Parser 0 (p_first p) true (p_hanging p) (p_error p) (p_total p) (p_sub p) (p_tmp p))
  else
    match char_to_num c with
    | None => (false, p)
    | Some num =>
      if is_small_unit num then
        let tmp := sn_shift_scale (p_tmp p) (- num) in
        let '(ok, sub, tmp) := sn_add (p_sub p) tmp in
        if negb ok then (false, Parser (p_digits p) (p_first p) (p_comma p) (p_hanging p) (p_error p) (p_total p) sub tmp)
        else (true, Parser 0 true false (p_hanging p) (p_error p) (p_total p) sub (sn_clear tmp))
      else if is_large_unit num then
        let '(ok, sub, tmp) := sn_add (p_sub p) (p_tmp p) in
        if negb ok || sn_is_zero sub
        then (false, Parser (p_digits p) (p_first p) (p_comma p) (p_hanging p) (p_error p) (p_total p) sub tmp)
        else
          let sub := sn_shift_scale sub (- num) in
          let '(ok, total, sub) := sn_add (p_total p) sub in
          if negb ok then (false, Parser (p_digits p) (p_first p) (p_comma p) (p_hanging p) (p_error p) total sub tmp)
          else (true, Parser 0 true false (p_hanging p) (p_error p) total (sn_clear sub) (sn_clear tmp))
      else
        (true, Parser (S (p_digits p)) false (p_comma p) false (p_error p) (p_total p) (p_sub p) (sn_append (p_tmp p) num))
    end.

(** numericparser.py:249-257 *)
Definition p_done (p : parser) : bool * parser :=
  let '(ok1, sub, tmp) := sn_add (p_sub p) (p_tmp p) in
  let '(ret, total, sub) := if ok1 then sn_add (p_total p) sub else (false, p_total p, sub) in
  let p := Parser (p_digits p) (p_first p) (p_comma p) (p_hanging p) (p_error p) total sub tmp in
  if p_hanging p then (false, set_error p PPoint)
  else if p_comma p && negb (p_digits p =? 3)%nat then (false, set_error p PComma)
  else (ret, p).

(** numericparser.py:259-260 *)
Definition p_normalized (p : parser) : res (text * parser) :=
  '(s, t) <- sn_str (p_total p) ;;
  Ok (s, Parser (p_digits p) (p_first p) (p_comma p) (p_hanging p) (p_error p) t (p_sub p) (p_tmp p)).

(** Feeding a string, as the tests and join_numeric_plugin.py:59-69 do: up to the
    first character that is not accepted. *)
Fixpoint p_feed (p : parser) (s : text) : bool * parser :=
  match s with
  | [] => (true, p)
  | c :: r => let '(ok, p') := p_append p c in if ok then p_feed p' r else (false, p')
  end.
