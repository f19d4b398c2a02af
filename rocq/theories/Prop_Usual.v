(** C91: numerals written the usual way are accepted, and joined. *)
From Coq Require Import List ZArith QArith Lia Bool Arith.
From Verif Require Import Base Utf8 M_Builder M_InputText M_Lattice M_NumericParser M_PathRewrite
  S_Text S_Lattice S_Numeric S_Rewrite S_Join S_Usual P_Tokenizer P_Rewrite P_Numeric P_NumericComma P_Usual
  Prop_Text Prop_Numeric Prop_Rewrite Prop_Join.
Import ListNotations.
Open Scope Z_scope.

Theorem C91_accepted s : usual s -> exists p, accepts s p.
Proof.
  intros [r s' F _|r s' c d f F D Hf Nf|s' T|s' f T Hf Nf].
  - destruct (fits_accepted r s' F) as (p1 & p & E1 & E2). exists p, p1. auto.
  - destruct (fits_fraction_accepted r (s' ++ [c]) f F) as (p1 & p & E1 & E2); eauto 6. exists p, p1. auto.
  - destruct (thousands_accepted s' T) as (p1 & p & E1 & E2). exists p, p1. auto.
  - destruct (thousands_fraction_accepted s' f T Hf Nf) as (p1 & p & E1 & E2). exists p, p1. auto.
Qed.
Print Assumptions C91_accepted.

(** Words that spell such a numeral, between words that are no part of a number, become one
    word whose normalised form is the number. *)
Theorem C91_joined lexinfo cfg it lat A g p infos i0 q :
  read_text it -> tiles 0 (map to_step (A ++ g ++ p)) (length (it_bytes it)) -> Forall (info_ok lexinfo) (A ++ g ++ p) ->
  (forall x, hd_error (rev A) = Some x -> no_number_part lexinfo it x) ->
  (forall x, hd_error p = Some x -> no_number_part lexinfo it x) ->
  Forall (number_part lexinfo it) g -> mapM (node_info lexinfo) g = Ok infos ->
  hd_error infos = Some i0 -> wi_pos i0 = jn_pos cfg -> jn_normalize cfg = true ->
  usual (concat (map wi_norm infos)) ->
  rewrite_with lexinfo (JoinNumeric cfg) it (A ++ g ++ p) lat = Ok q ->
  exists a w r norm v u, q = a ++ w :: r /\ stands_for lexinfo (jn_pos cfg) norm g w /\
    numeral (without_commas (concat (map wi_norm infos))) v /\ decimal norm u /\ (u == v)%Q /\ canonical norm.
Proof.
  intros Rt T F HA Hp Dg EI H0 Pos Nz U E. destruct (C91_accepted _ U) as (pr & Acc).
  destruct (C90_number lexinfo cfg it lat A g p infos i0 pr q Rt T F HA Hp Dg EI H0 Pos Acc E) as (a & w & r & norm & Eq & SF & V).
  rewrite Nz in V. destruct V as (v & u & V). exists a, w, r, norm, v, u. auto.
Qed.
Print Assumptions C91_joined.

(** Not every text that has a reading as a numeral is accepted: 百123, read as 223. *)
Theorem C91_every_reading_refuted : exists s v, numeral s v /\ forall p, ~ accepts s p.
Proof.
  exists [0x767E; 49; 50; 51], (100 + inject_Z (10 * (10 * 1 + 2) + 3))%Q. split.
  - change [0x767E; 49; 50; 51] with (0x767E :: ([49; 50] ++ [51])). apply numeral_group, group_one_unit; [constructor|].
    apply group_ones, decimal_int with (n := 3%nat).
    apply digits_more; [apply (digits_more [49]); [apply digits_one|]|]; apply dc_ascii; lia.
  - intros p (p1 & F & D). vm_compute in F. injection F as <-. vm_compute in D. discriminate.
Qed.
Print Assumptions C91_every_reading_refuted.

(** 三兆2千億千三百二十七万一四.〇五 and 1,234,567.8 are written the usual way. *)
Ltac kanji := first [apply dc_0|apply dc_1|apply dc_2|apply dc_3|apply dc_4|apply dc_5|apply dc_6|apply dc_7|apply dc_8|apply dc_9].
Example C91_nonvacuous : usual sample /\ usual ([49; 44; 50; 51; 52; 44; 53; 54; 55] ++ point_char :: [56]).
Proof.
  split.
  - change sample with (([0x4E09; 0x5146; 50; 0x5343; 0x5104; 0x5343; 0x4E09; 0x767E; 0x4E8C; 0x5341; 0x4E03; 0x4E07; 0x4E00] ++ [0x56DB]) ++ point_char :: [0x3007; 0x4E94]).
    apply usual_units_fraction with (r := 16%nat) (d := 4); [|kanji|repeat constructor; eexists; kanji|discriminate].
    cbn [app].
    apply (fl_unit 16 1 [0x4E09] 0x5146 12); [discriminate| |constructor|lia|].
    { apply fits_ones; [repeat constructor; eexists; kanji|cbn; lia]. }
    apply (fl_unit 12 4 [50; 0x5343] 0x5104 8); [discriminate| |constructor|lia|].
    { apply (fits_units 4 [50] 0x5343 3 []); [repeat constructor; exists 2; apply dc_ascii; lia|discriminate|constructor|cbn; lia|constructor]. }
    apply (fl_unit 8 4 [0x5343; 0x4E09; 0x767E; 0x4E8C; 0x5341; 0x4E03] 0x4E07 4); [discriminate| |constructor|lia|].
    { apply (fits_unit 4 0x5343 3); [constructor|lia|].
      apply (fits_units 3 [0x4E09] 0x767E 2); [repeat constructor; eexists; kanji|discriminate|constructor|cbn; lia|].
      apply (fits_units 2 [0x4E8C] 0x5341 1); [repeat constructor; eexists; kanji|discriminate|constructor|cbn; lia|].
      apply fits_ones; [repeat constructor; eexists; kanji|cbn; lia]. }
    apply fl_last, fits_ones; [repeat constructor; eexists; kanji|cbn; lia].
  - assert (DG : forall x, 48 <= x <= 57 -> exists v, digit_char x v) by (intros x Hx; exists (x - 48); apply dc_ascii; lia).
    apply usual_commas_fraction; [|repeat constructor; apply DG; lia|discriminate].
    right. exists [49], [44; 50; 51; 52; 44; 53; 54; 55]. split; [reflexivity|]. split; [repeat constructor; apply DG; lia|].
    split; [cbn; lia|]. split.
    + apply (cg_more [50; 51; 52] [44; 53; 54; 55]); [repeat constructor; apply DG; lia|reflexivity|].
      apply (cg_last [53; 54; 55]); [repeat constructor; apply DG; lia|reflexivity].
    + constructor. exists 1. split; [apply dc_ascii; lia|lia].
Qed.
