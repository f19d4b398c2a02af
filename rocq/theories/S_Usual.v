(** Numerals written the usual way: each part has room before the next unit. *)
From Coq Require Import List ZArith QArith.
From Verif Require Import Base S_Numeric.
Import ListNotations.

(** The unit [u] stands for 10^[k] *)
Definition small_place (u : Z) (k : nat) : Prop := small_unit u (inject_Z (10 ^ Z.of_nat k)).
Definition large_place (u : Z) (k : nat) : Prop := large_unit u (inject_Z (10 ^ Z.of_nat k)).

(** [fits r s]: multiples of 千百十 in this order, and ones, that fill at most [r] decimal
    places: 三百二十七, 2千15, 百五, 4096; no 百123, because 百 leaves two places only *)
Inductive fits : nat -> text -> Prop :=
| fits_nil r : fits r []
| fits_ones r d : all_digits d -> (1 <= length d <= r)%nat -> fits r d
| fits_unit r u k s : small_place u k -> (1 + k <= r)%nat -> fits k s -> fits r (u :: s)
| fits_units r d u k s : all_digits d -> d <> [] -> small_place u k -> (length d + k <= r)%nat -> fits k s -> fits r (d ++ u :: s).

(** The same with 兆億万: 三兆2千億千三百二十七万一四 *)
Inductive fits_large : nat -> text -> Prop :=
| fl_last r s : fits r s -> fits_large r s
| fl_unit r w g u k s : g <> [] -> fits w g -> large_place u k -> (w + k <= r)%nat -> fits_large k s -> fits_large r (g ++ u :: s).

(** Digits with commas at every third place, one to three digits before the first comma, which are
    not all 0 *)
Definition starts_thousands (s : text) : Prop :=
  (s <> [] /\ all_digits s) \/
  exists g r, s = g ++ r /\ all_digits g /\ (1 <= length g <= 3)%nat /\ comma_groups r /\
    Exists (fun c => exists d, digit_char c d /\ d <> 0%Z) g.

(** A numeral written the usual way *)
Inductive usual : text -> Prop :=
| usual_units r s : fits_large r s -> s <> [] -> usual s
| usual_units_fraction r s c d f : fits_large r (s ++ [c]) -> digit_char c d -> all_digits f -> f <> [] ->
    usual ((s ++ [c]) ++ point_char :: f)
| usual_commas s : starts_thousands s -> usual s
| usual_commas_fraction s f : starts_thousands s -> all_digits f -> f <> [] -> usual (s ++ point_char :: f).
