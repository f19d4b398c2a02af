(** Specification of the debug output (C83), independent of the model. *)
From Coq Require Import String Ascii List ZArith Bool Arith.
From Verif Require Import Base Utf8 S_Resource.
Import ListNotations.
Open Scope list_scope.
Open Scope Z_scope.

(** The texts of a list with a text between each two *)
Fixpoint between (sep : text) (ts : list text) : text :=
  match ts with
  | [] => []
  | [t] => t
  | t :: r => t ++ sep ++ between sep r
  end.

Section lines.
(** The decimal representation of an integer *)
Variable str : Z -> text.

(** A line of the lattice:
    "number: begin end surface(word id) part of speech left right cost: connection costs" *)
Definition lattice_line (number b e : nat) (surface : text) (id : Z) (pos : text) (left right cost : Z) (costs : list Z) : text :=
  between (txt ": ")
    [str (Z.of_nat number);
     between (txt " ") [str (Z.of_nat b); str (Z.of_nat e); surface ++ txt "(" ++ str id ++ txt ")"; pos; str left; str right; str cost];
     between (txt " ") (map str costs)].

(** A line of a path: "number: begin end surface(word id) left right cost", and a U+FFFF *)
Definition path_line (number b e : nat) (surface : text) (id left right cost : Z) : text :=
  between (txt ": ")
    [str (Z.of_nat number);
     between (txt " ") [str (Z.of_nat b); str (Z.of_nat e); surface ++ txt "(" ++ str id ++ txt ")"; str left; str right; str cost]] ++ [0xFFFF].
End lines.

(** The records of the first list are among those of the second, in the same order. *)
Inductive among {A : Type} : list A -> list A -> Prop :=
| am_nil : among [] []
| am_both a l l' : among l l' -> among (a :: l) (a :: l')
| am_more a l l' : among l l' -> among l (a :: l').
