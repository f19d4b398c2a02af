(** Small specification vocabulary for the lattice: paths of words and their costs. *)
From Coq Require Import List ZArith Lia Bool Arith.
From Verif Require Import Base.
Import ListNotations.
Open Scope Z_scope.

(** What a word in a path is: a span of the text, the two connection ids, a cost. *)
Record step := Step { s_begin : nat; s_end : nat; s_left : Z; s_right : Z; s_cost : Z }.

(** [tiles b p e]: the steps of [p] follow each other from [b] to [e], none empty. *)
Fixpoint tiles (b : nat) (p : list step) (e : nat) : Prop :=
  match p with
  | [] => b = e
  | s :: r => s_begin s = b /\ (s_begin s < s_end s)%nat /\ tiles (s_end s) r e
  end.

(** The left id of each step may follow the right id before it; [inh] is the
    inhibited cost. *)
Fixpoint allowed (conn : Z -> Z -> Z) (inh : Z) (right : Z) (p : list step) (final : Z) : Prop :=
  match p with
  | [] => conn final right <> inh
  | s :: r => conn (s_left s) right <> inh /\ allowed conn inh (s_right s) r final
  end.

(** Connection costs and word costs from right id [right] through [p] to left id [final]. *)
Fixpoint cost_from (conn : Z -> Z -> Z) (right : Z) (p : list step) (final : Z) : Z :=
  match p with
  | [] => conn final right
  | s :: r => conn (s_left s) right + s_cost s + cost_from conn (s_right s) r final
  end.

(** The matrix as a function: the cost of a cell, 0 where there is no cell. *)
Definition cost_of (view : Z -> Z -> option Z) (a b : Z) : Z :=
  match view a b with Some c => c | None => 0 end.
(** The matrix has a cell for each connection of the path. *)
Fixpoint has_cells (view : Z -> Z -> option Z) (right : Z) (p : list step) (final : Z) : Prop :=
  match p with
  | [] => view final right <> None
  | s :: r => view (s_left s) right <> None /\ has_cells view (s_right s) r final
  end.
