(** The usual reading of Japanese numerals, independently of the parser: what value a
    text of digits, a point and the units 十百千 and 万億兆 denotes. *)
From Coq Require Import List ZArith QArith.
From Verif Require Import Base.
Import ListNotations.

(** A digit character and its value. *)
Inductive digit_char : Z -> Z -> Prop :=
| dc_ascii c d : (0 <= d <= 9)%Z -> (c = 48 + d)%Z -> digit_char c d   (* 0-9 *)
| dc_0 : digit_char 0x3007 0   (* 〇 *)
| dc_1 : digit_char 0x4E00 1   (* 一 *)
| dc_2 : digit_char 0x4E8C 2   (* 二 *)
| dc_3 : digit_char 0x4E09 3   (* 三 *)
| dc_4 : digit_char 0x56DB 4   (* 四 *)
| dc_5 : digit_char 0x4E94 5   (* 五 *)
| dc_6 : digit_char 0x516D 6   (* 六 *)
| dc_7 : digit_char 0x4E03 7   (* 七 *)
| dc_8 : digit_char 0x516B 8   (* 八 *)
| dc_9 : digit_char 0x4E5D 9.  (* 九 *)

(** Units within a group of four digits: 十 = 10, 百 = 100, 千 = 1000. *)
Inductive small_unit : Z -> Q -> Prop :=
| su_10 : small_unit 0x5341 10
| su_100 : small_unit 0x767E 100
| su_1000 : small_unit 0x5343 1000.

(** Units of groups: 万 = 10^4, 億 = 10^8, 兆 = 10^12. *)
Inductive large_unit : Z -> Q -> Prop :=
| lu_man : large_unit 0x4E07 10000
| lu_oku : large_unit 0x5104 100000000
| lu_cho : large_unit 0x5146 1000000000000.

Definition point_char : Z := 46.
Definition comma_char : Z := 44.

(** [digits s v n]: [s] is a positional numeral of [n] > 0 digits with value [v]. *)
Inductive digits : text -> Z -> nat -> Prop :=
| digits_one c d : digit_char c d -> digits [c] d 1
| digits_more s v n c d : digits s v n -> digit_char c d -> digits (s ++ [c]) (10 * v + d)%Z (S n).

(** [decimal s v]: a numeral with an optional point. *)
Inductive decimal : text -> Q -> Prop :=
| decimal_int s v n : digits s v n -> decimal s (inject_Z v)
| decimal_bare_point s v n : digits s v n -> decimal (s ++ [point_char]) (inject_Z v)
| decimal_point s v n f w m :
    digits s v n -> digits f w m ->
    decimal (s ++ point_char :: f) (inject_Z v + inject_Z w / inject_Z (10 ^ Z.of_nat m)).

(** [group s v]: what stands before a large unit: multiples of 十百千 (a unit alone
    counts once) and then ones. *)
Inductive group : text -> Q -> Prop :=
| group_nil : group [] 0
| group_ones d v : decimal d v -> group d v
| group_one_unit u m r w : small_unit u m -> group r w -> group (u :: r) (m + w)
| group_unit d v u m r w : decimal d v -> small_unit u m -> group r w -> group (d ++ u :: r) (v * m + w).

(** [numeral s v]: multiples of 万億兆 (never a unit alone) and then a last group. *)
Inductive numeral : text -> Q -> Prop :=
| numeral_group s v : group s v -> numeral s v
| numeral_unit g v u m r w :
    g <> [] -> group g v -> large_unit u m -> numeral r w -> numeral (g ++ u :: r) (v * m + w).

(** Commas are left out of the reading. *)
Definition without_commas (s : text) : text := filter (fun c => negb (c =? comma_char)%Z) s.

(** The canonical form: ASCII digits, optionally a point and digits of which the last
    is not 0. *)
Definition ascii_digits (s : text) : Prop := s <> [] /\ Forall (fun c => (48 <= c <= 57)%Z) s.
Definition canonical (s : text) : Prop :=
  ascii_digits s \/
  exists i f c, s = i ++ point_char :: f ++ [c] /\ ascii_digits i /\ Forall (fun c => (48 <= c <= 57)%Z) f
                /\ (49 <= c <= 57)%Z.

(** Thousands separators: one to three digits, then comma and three digits, repeated. *)
Definition all_digits (s : text) : Prop := Forall (fun c => exists d, digit_char c d) s.
Inductive comma_groups : text -> Prop :=
| cg_last g : all_digits g -> length g = 3%nat -> comma_groups (comma_char :: g)
| cg_more g r : all_digits g -> length g = 3%nat -> comma_groups r -> comma_groups (comma_char :: g ++ r).
Definition thousands (s : text) : Prop :=
  (s <> [] /\ all_digits s) \/
  exists g r, s = g ++ r /\ all_digits g /\ (1 <= length g <= 3)%nat /\ comma_groups r.
