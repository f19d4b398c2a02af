(** Model of sudachipy/utf8inputtextbuilder.py. *)
From Coq Require Import List ZArith Lia Bool Arith.
From Verif Require Import Base Utf8.
Import ListNotations.
Open Scope Z_scope.

(** dictionarylib/categorytype.py:18-34, the sixteen members of the Enum. *)
Inductive cat :=
| DEFAULT | SPACE | KANJI | SYMBOL | NUMERIC | ALPHA | HIRAGANA | KATAKANA
| KANJINUMERIC | GREEK | CYRILLIC | USER1 | USER2 | USER3 | USER4 | NOOOVBOW.

Definition cat_eq_dec : forall a b : cat, {a = b} + {a <> b}.
Proof. decide equality. Defined.
Definition cat_eqb (a b : cat) : bool := if cat_eq_dec a b then true else false.
Definition cat_mem (c : cat) (s : list cat) : bool := existsb (cat_eqb c) s.

(** A Python set of categories is a list without regard to order; [a & b]. *)
Definition cat_inter (a b : list cat) : list cat := filter (fun c => cat_mem c b) a.

(** [a & b] where [b] is what CharacterCategory.get_category_types returned.
    charactercategory.py:32 turns an empty set into the *list* [[]], so an empty
    right operand is a list and [&] raises TypeError. *)
Definition cat_and (a b : list cat) : res (list cat) :=
  match b with [] => Err EType | _ => Ok (cat_inter a b) end.

(** utf8inputtextbuilder.py:20-26.  [self.grammar] enters at [build]. *)
Record builder := Builder {
  b_orig : text;
  b_mod : text;
  b_m2o : list nat;
}.

(** utf8inputtextbuilder.py:20-25 *)
Definition builder_init (t : text) : builder :=
  {| b_orig := t; b_mod := t; b_m2o := seq 0 (length t + 1) |}.

(** utf8inputtextbuilder.py:49-53, one iteration of the loop *)
Definition replace_step (b e mend : nat) (m : list nat) (i : nat) : res (list nat) :=
  if (b + i <? e)%nat then set_nth m (b + i) mend
  else Ok (insert_at m (b + i) mend).

(** utf8inputtextbuilder.py:28-53 *)
Definition replace (bd : builder) (begin end_ : Z) (s : text) : res builder :=
  let len := Z.of_nat (length (b_mod bd)) in
  if begin <? 0 then Err EIndex
  else if len <? begin then Err EIndex
  else if end_ <? begin then Err EIndex
  else if begin =? end_ then Err EAttribute
  else
    let end_ := if len <? end_ then len else end_ in
    let b := Z.to_nat begin in
    let e := Z.to_nat end_ in
    let mod' := firstn b (b_mod bd) ++ s ++ skipn e (b_mod bd) in
    mbegin <- get (b_m2o bd) b ;;
    mend <- get (b_m2o bd) e ;;
    let length_ := length s in
    let m1 := if (length_ <? e - b)%nat
              then firstn (b + length_) (b_m2o bd) ++ skipn e (b_m2o bd)
              else b_m2o bd in
    m2 <- set_nth m1 b mbegin ;;
    m3 <- foldM (replace_step b e mend) m2 (seq 1 (length_ - 1)) ;;
    Ok {| b_orig := b_orig bd; b_mod := mod'; b_m2o := m3 |}.

(** utf8inputtextbuilder.py:111-123 *)
Definition utf8_byte_length (cp : Z) : nat :=
  if cp <? 0 then 0%nat
  else if cp <=? 0x7F then 1%nat
  else if cp <=? 0x7FF then 2%nat
  else if cp <=? 0xFFFF then 3%nat
  else if cp <=? 0x10FFFF then 4%nat
  else 0%nat.

(** utf8inputtextbuilder.py:71-74: the inner loop writes [v1], [v2] at [j] and
    advances [j], [k] times. *)
Fixpoint fill (k : nat) (j : nat) (v1 v2 : nat) (a1 a2 : list nat)
  : res (nat * list nat * list nat) :=
  match k with
  | O => Ok (j, a1, a2)
  | S k' =>
    a1' <- set_nth a1 j v1 ;;
    a2' <- set_nth a2 j v2 ;;
    fill k' (S j) v1 v2 a1' a2'
  end.

(** utf8inputtextbuilder.py:69-74: the outer loop over the characters *)
Fixpoint fill_all (t : text) (i : nat) (m2o : list nat) (j : nat) (a1 a2 : list nat)
  : res (list nat * list nat) :=
  match t with
  | [] => Ok (a1, a2)
  | c :: r =>
    o <- get m2o i ;;
    '(j', a1', a2') <- fill (utf8_byte_length c) j i o a1 a2 ;;
    fill_all r (S i) m2o j' a1' a2'
  end.

(** utf8inputtextbuilder.py:103-109, the loop from [length = 1] on, over the
    remaining categories; [k] is the current [length]. *)
Fixpoint cont_loop (cur : list cat) (rest : list (list cat)) (k : nat) : res nat :=
  match rest with
  | [] => Ok k
  | c :: r =>
    cur' <- cat_and cur c ;;
    match cur' with [] => Ok k | _ => cont_loop cur' r (S k) end
  end.
(** utf8inputtextbuilder.py:103-109; the argument is [char_categories[offset:]]. *)
Definition continuous_length (cats : list (list cat)) : res nat :=
  match cats with
  | [] => Err EIndex
  | c :: r => cont_loop c r 1
  end.

(** utf8inputtextbuilder.py:98 [range(length, 0, -1)] *)
Fixpoint countdown (n : nat) : list nat :=
  match n with O => [] | S m => n :: countdown m end.

(** utf8inputtextbuilder.py:88-101.  Each step advances by at least one
    character, so the number of characters is enough fuel. *)
Fixpoint continuities (fuel : nat) (t : text) (cats : list (list cat)) : res (list nat) :=
  match cats with
  | [] => Ok []
  | _ =>
    match fuel with
    | O => Err EFuel
    | S f =>
      n <- continuous_length cats ;;
      let len := list_sum (map utf8_byte_length (firstn n t)) in
      r <- continuities f (skipn n t) (skipn n cats) ;;
      Ok (countdown len ++ r)
    end
  end.

(** utf8inputtextbuilder.py:128-141; [prev] is [char_categories[i-1]]. *)
Fixpoint bow_loop (prev : list cat) (cats : list (list cat)) : res (list bool) :=
  match cats with
  | [] => Ok []
  | c :: r =>
    b <- (if cat_mem ALPHA c || cat_mem GREEK c || cat_mem CYRILLIC c
          then types <- cat_and c prev ;; Ok (match types with [] => true | _ => false end)
          else Ok true) ;;
    bs <- bow_loop c r ;;
    Ok (b :: bs)
  end.
(** utf8inputtextbuilder.py:125-141 *)
Definition build_can_bow_list (cats : list (list cat)) : res (list bool) :=
  match cats with
  | [] => Ok []
  | c :: r => bs <- bow_loop c r ;; Ok (true :: bs)
  end.

(** utf8inputtext.py:17-25 *)
Record input_text := InputText {
  it_orig : text;
  it_mod : text;
  it_bytes : bytes;
  it_offsets : list nat;
  it_byte_indexes : list nat;
  it_cats : list (list cat);
  it_conts : list nat;
  it_bow : list bool;
}.

(** [l[-1]] *)
Definition get_last {A} (l : list A) : res A :=
  match l with [] => Err EIndex | _ => get l (length l - 1) end.

(** utf8inputtextbuilder.py:61-83.  [category] is
    [grammar.get_character_category().get_category_types] (lines 85-86). *)
Definition build (category : Z -> list cat) (bd : builder) : res input_text :=
  let t := b_mod bd in
  bs <- encode t ;;
  let len := length bs in
  '(bi, off) <- fill_all t 0 (b_m2o bd) 0 (repeat 0%nat (len + 1)) (repeat 0%nat (len + 1)) ;;
  bi' <- set_nth bi len (length t) ;;
  last <- get_last (b_m2o bd) ;;
  off' <- set_nth off len last ;;
  let cats := map category t in
  conts <- continuities (length cats) t cats ;;
  bow <- build_can_bow_list cats ;;
  Ok {| it_orig := b_orig bd; it_mod := t; it_bytes := bs; it_offsets := off';
        it_byte_indexes := bi'; it_cats := cats; it_conts := conts; it_bow := bow |}.
