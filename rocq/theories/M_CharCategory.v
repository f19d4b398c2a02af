(** Model of sudachipy/dictionarylib/charactercategory.py. *)
From Coq Require Import List ZArith Lia Bool Arith.
From Verif Require Import Base M_Builder.
Import ListNotations.
Open Scope Z_scope.

(** charactercategory.py:24-51 *)
Record range := Range { r_low : Z; r_high : Z; r_cats : list cat }.

(** charactercategory.py:34-35 *)
Definition r_contains (r : range) (cp : Z) : bool := (r_low r <=? cp) && (cp <? r_high r).
(** charactercategory.py:44-45 *)
Definition r_lower (r : range) (cp : Z) : bool := r_high r <=? cp.

(** charactercategory.py:62-63: Python's [list.sort] is stable. *)
Fixpoint insert_by (key : range -> Z) (x : range) (l : list range) : list range :=
  match l with
  | [] => [x]
  | y :: r => if key x <=? key y then x :: l else y :: insert_by key x r
  end.
Definition sort_by (key : range -> Z) (l : list range) : list range :=
  fold_right (insert_by key) [] l.

(** charactercategory.py:86, [states.remove(cat)]: first occurrence, ValueError
    if absent. *)
Fixpoint remove_one (c : cat) (l : list cat) : res (list cat) :=
  match l with
  | [] => Err EValue
  | x :: r => if cat_eqb c x then Ok r else r' <- remove_one c r ;; Ok (x :: r')
  end.

(** [set(states)] *)
Definition to_set (l : list cat) : list cat := nodup cat_eq_dec l.

(** [a == b] on sets (and on the empty list standing for the empty set,
    charactercategory.py:32). *)
Definition set_eqb (a b : list cat) : bool :=
  forallb (fun c => cat_mem c b) a && forallb (fun c => cat_mem c a) b.

Section compile.
(** [left_chain.get()]: some element with the smallest [high]
    (charactercategory.py:26-27); which one is up to the queue. *)
Variable pop : list range -> option (range * list range).

(** charactercategory.py:69-94.  One iteration per unit of fuel.  [right_begin]
    is [math.inf] when [right] is exhausted. *)
Fixpoint sweep (fuel : nat) (left right : list range) (states : list cat) (pivot : Z) (out : list range)
  : res (list range) :=
  match fuel with
  | O => Err EFuel
  | S f =>
    match left with
    | [] =>
      match right with
      | [] => Ok out
      | r :: rs => sweep f [r] rs (states ++ r_cats r) (r_low r) out
      end
    | _ =>
      match pop left with
      | None => Err EValue
      | Some (l, left') =>
        match right with
        | r :: rs =>
          if r_high l <=? r_low r then
            states' <- foldM (fun s c => remove_one c s) states (r_cats l) ;;
            sweep f left' right states' (r_high l)
              (out ++ [Range pivot (r_high l) (to_set states)])
          else
            sweep f (l :: r :: left') rs (states ++ r_cats r) (r_low r)
              (out ++ [Range pivot (r_low r) (to_set states)])
        | [] =>
          states' <- foldM (fun s c => remove_one c s) states (r_cats l) ;;
          sweep f left' right states' (r_high l)
            (out ++ [Range pivot (r_high l) (to_set states)])
        end
      end
    end
  end.

(** charactercategory.py:96-103; [cur] is [_range]. *)
Fixpoint merge (cur : range) (l : list range) : list range :=
  match l with
  | [] => [cur]
  | r :: rs =>
    if (r_low r =? r_high cur) && set_eqb (r_cats r) (r_cats cur)
    then merge (Range (r_low cur) (r_high r) (r_cats cur)) rs
    else cur :: merge r rs
  end.

(** charactercategory.py:56-103 *)
Definition compile (ranges : list range) : res (list range) :=
  let sorted := sort_by r_low (sort_by r_high ranges) in
  new <- sweep (2 * length ranges + 1) [] sorted [] 0 [] ;;
  match new with
  | [] => Err EIndex
  | r :: rs => Ok (merge r rs)
  end.
End compile.

(** charactercategory.py:110-121; one iteration per unit of fuel *)
Fixpoint search (fuel : nat) (l : list range) (cp : Z) (begin end_ pivot : nat) : res (list cat) :=
  match fuel with
  | O => Err EFuel
  | S f =>
    if (pivot <? length l)%nat then
      r <- get l pivot ;;
      if r_contains r cp then Ok (r_cats r)
      else
        let begin' := if r_lower r cp then pivot else begin in
        let end' := if r_lower r cp then end_ else pivot in
        let pivot' := ((begin' + end') / 2)%nat in
        if (pivot' =? pivot)%nat then Ok [DEFAULT] else search f l cp begin' end' pivot'
    else Ok [DEFAULT]
  end.

(** charactercategory.py:105-122 *)
Definition get_category_types (l : list range) (cp : Z) : res (list cat) :=
  search (length l + 1) l cp 0 (length l) (length l / 2)%nat.

(** charactercategory.py:144-161: the range of one definition line, given
    the two numbers and the category names (as far as they are known names).
    A reversed range is rejected. *)
Definition read_range (low : Z) (high : option Z) (cats : list cat) : res range :=
  let h := match high with None => low + 1 | Some x => x + 1 end in
  if h <=? low then Err EAttribute else Ok (Range low h cats).
