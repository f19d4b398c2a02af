(** C89, C90: which katakana words and which numbers are joined. *)
From Coq Require Import List ZArith QArith Lia Bool Arith.
From Verif Require Import Base Utf8 M_Builder M_InputText M_Lattice M_NumericParser M_PathRewrite
  S_Text S_Lattice S_Numeric S_Rewrite S_Join P_Builder P_InputText P_Accessors P_Tokenizer P_Numeric P_NumericReading
  P_Path P_Rewrite P_RewriteNum P_RewriteTerm P_RewriteValue P_Join P_JoinNum Prop_Text Prop_Numeric Prop_Rewrite.
Import ListNotations.
Open Scope nat_scope.

(** ** C89 *)
(** Every run of katakana words, as long as it can be, is joined exactly if one of its words
    is unknown or shorter than minLength and two words are left with which a joined word may
    begin; nothing else changes. *)
Theorem C89_katakana_runs lexinfo cfg it lat P :
  read_text it -> lists_end (length (it_bytes it)) lat ->
  tiles 0 (map to_step P) (length (it_bytes it)) -> Forall (info_ok lexinfo) P ->
  exists q, rewrite_with lexinfo (JoinKatakana cfg) it P lat = Ok q /\
    runs_joined (katakana_word it) (asks_to_join it (jk_min cfg)) (oov_may_start it)
      (fun g w => katakana_group lexinfo it lat (jk_pos cfg) g [] w) P q.
Proof.
  intros Rt LE T F. destruct (read_built it Rt) as (t & orig & m2o & cats & B).
  exact (join_katakana_runs lexinfo B cfg lat LE P T F).
Qed.
Print Assumptions C89_katakana_runs.

(** If no word asks for it nothing is joined. *)
Corollary C89_none lexinfo cfg it lat P :
  read_text it -> lists_end (length (it_bytes it)) lat ->
  tiles 0 (map to_step P) (length (it_bytes it)) -> Forall (info_ok lexinfo) P ->
  Forall (fun w => ~ asks_to_join it (jk_min cfg) w) P -> rewrite_with lexinfo (JoinKatakana cfg) it P lat = Ok P.
Proof.
  intros Rt LE T F N. destruct (C89_katakana_runs lexinfo cfg it lat P Rt LE T F) as (q & E & J). rewrite E. f_equal.
  clear E T F. induction J as [|w p q Kw J IH|r r' p q Nr Kr Hp RR J IH]; [reflexivity| |].
  - inversion N; subst. f_equal. auto.
  - apply Forall_app in N as (N1 & N2). f_equal; [|auto].
    destruct RR as [s g w Ns Sg Lg Ex Jg|r Q|s g Ns Lg]; [exfalso|reflexivity|reflexivity].
    apply Exists_exists in Ex as (x & Hx & Tx). rewrite Forall_forall in N1. exact (N1 x Hx Tx).
Qed.
Print Assumptions C89_none.

(** ** C90 *)
(** A run of words of digits, commas and points that spells a numeral, between words that
    are no part of a number, whose first word has the part of speech of numbers, becomes one
    word (which is that first word if it is alone and written in the normal form). *)
Theorem C90_number lexinfo cfg it lat A g p infos i0 pr q :
  read_text it -> tiles 0 (map to_step (A ++ g ++ p)) (length (it_bytes it)) -> Forall (info_ok lexinfo) (A ++ g ++ p) ->
  (forall x, hd_error (rev A) = Some x -> no_number_part lexinfo it x) ->
  (forall x, hd_error p = Some x -> no_number_part lexinfo it x) ->
  Forall (number_part lexinfo it) g -> mapM (node_info lexinfo) g = Ok infos ->
  hd_error infos = Some i0 -> wi_pos i0 = jn_pos cfg ->
  accepts (concat (map wi_norm infos)) pr ->
  rewrite_with lexinfo (JoinNumeric cfg) it (A ++ g ++ p) lat = Ok q ->
  exists a w r norm, q = a ++ w :: r /\ stands_for lexinfo (jn_pos cfg) norm g w /\
    if jn_normalize cfg
    then exists v u, numeral (without_commas (concat (map wi_norm infos))) v /\ decimal norm u /\ (u == v)%Q /\ canonical norm
    else norm = concat (map wi_norm infos).
Proof.
  intros Rt T F HA Hp Dg EI H0 Pos Acc E. destruct (read_built it Rt) as (t & orig & m2o & cats & B).
  destruct (C32_value _ _ Acc) as (v & out & pr' & u & Nv & _ & No & Du & Eu). pose proof (C33_canonical _ _ _ _ Acc No) as Cn.
  assert (NE : out <> []). { destruct Cn as [(N & _)|(i & f & c & -> & (N & _) & _)]; auto. destruct i; [congruence|discriminate]. }
  set (norm := if jn_normalize cfg then out else concat (map wi_norm infos)).
  destruct (number_joined lexinfo B cfg (A ++ g ++ p) T F A g p infos i0 pr norm q eq_refl HA Hp Dg EI H0 Pos Acc) as (a & w & r & Eq & SF); auto.
  - unfold written, norm. destruct (jn_normalize cfg); eauto.
  - exists a, w, r, norm. split; [exact Eq|]. split; [exact SF|]. unfold norm. destruct (jn_normalize cfg); [|reflexivity].
    exists v, u. auto.
Qed.
Print Assumptions C90_number.

(** The same if the number is followed by a comma or point that the parser reads, such as
    "10." and "1,000,": the separator stays behind the number. *)
Theorem C90_separator lexinfo cfg it lat A g x p infos i0 xi c pr p2 q :
  read_text it -> tiles 0 (map to_step (A ++ g ++ x :: p)) (length (it_bytes it)) -> Forall (info_ok lexinfo) (A ++ g ++ x :: p) ->
  (forall x, hd_error (rev A) = Some x -> no_number_part lexinfo it x) ->
  (forall x, hd_error p = Some x -> no_number_part lexinfo it x) ->
  Forall (number_part lexinfo it) g -> mapM (node_info lexinfo) g = Ok infos ->
  hd_error infos = Some i0 -> wi_pos i0 = jn_pos cfg ->
  node_info lexinfo x = Ok xi -> wi_norm xi = [c] -> c = comma_char \/ c = point_char ->
  accepts (concat (map wi_norm infos)) pr -> p_feed p_new (concat (map wi_norm infos) ++ [c]) = (true, p2) ->
  rewrite_with lexinfo (JoinNumeric cfg) it (A ++ g ++ x :: p) lat = Ok q ->
  exists a w r norm, q = a ++ w :: x :: r /\ stands_for lexinfo (jn_pos cfg) norm g w /\
    if jn_normalize cfg
    then exists v u, numeral (without_commas (concat (map wi_norm infos))) v /\ decimal norm u /\ (u == v)%Q /\ canonical norm
    else norm = concat (map wi_norm infos).
Proof.
  intros Rt T F HA Hp Dg EI H0 Pos Ex Ec Hc Acc F2 E. destruct (read_built it Rt) as (t & orig & m2o & cats & B).
  destruct (C32_value _ _ Acc) as (v & out & pr' & u & Nv & _ & No & Du & Eu). pose proof (C33_canonical _ _ _ _ Acc No) as Cn.
  assert (NE : out <> []). { destruct Cn as [(N & _)|(i & f & k & -> & (N & _) & _)]; auto. destruct i; [congruence|discriminate]. }
  set (norm := if jn_normalize cfg then out else concat (map wi_norm infos)).
  destruct Acc as (p1 & F1 & D1).
  destruct (separator_error _ c p1 pr p2 Hc F1 D1 F2) as (p3 & D3 & Tr).
  destruct (trailing_same _ c p1 pr p2 false p3 Hc F1 D1 F2 D3 out pr' No) as (pr3 & No3).
  assert (Px : number_part lexinfo it x).
  { pose proof (tiles_inside _ _ _ T) as In. rewrite Forall_forall in In.
    destruct (node_cats_total B x) as (cs & Ecs). { apply In. apply in_or_app. right. apply in_or_app. right. now left. }
    exists cs, xi. split; [exact Ecs|]. split; [exact Ex|]. right. right. rewrite Ec. destruct Hc as [-> | ->]; auto. }
  destruct (number_separated lexinfo B cfg (A ++ g ++ x :: p) T F A g x p infos i0 xi p3 norm q eq_refl HA Hp Dg EI H0 Pos Px Ex)
    as (a & w & r & Eq & SF); auto.
  - rewrite Ec. exists p2. auto.
  - now rewrite Ec.
  - unfold written, norm. destruct (jn_normalize cfg); eauto.
  - exists a, w, r, norm. split; [exact Eq|]. split; [exact SF|]. unfold norm. destruct (jn_normalize cfg); [|reflexivity].
    exists v, u. auto.
Qed.
Print Assumptions C90_separator.

(** ** Examples *)
(** "ーアイあ" with minLength 3 is joined (see C29_nonvacuous), and with minLength 1 too, because
    of the unknown words; the known words "アイ" and "ウエ" of two characters ask for joining with
    minLength 3 and not with 2. *)
Definition known_path : list wnode :=
  [toy_word false 0 6 [0x30A2; 0x30A4] [0x30A2; 0x30A4]; toy_word false 6 12 [0x30A6; 0x30A8] [0x30A6; 0x30A8];
   toy_word false 12 15 [0x3042] [0x3042]]%Z.
Definition spans (r : res (list wnode)) : list (nat * nat) :=
  match r with Ok q => map (fun w => (w_begin w, w_end w)) q | Err _ => [] end.
Example C89_nonvacuous :
  let it := toy_text [0x30A2; 0x30A4; 0x30A6; 0x30A8; 0x3042]%Z in
  read_text it /\ lists_end (length (it_bytes it)) (empty_lattice 15) /\
  tiles 0 (map to_step known_path) (length (it_bytes it)) /\ Forall (info_ok no_lexicon) known_path /\
  spans (rewrite_with no_lexicon (JoinKatakana (KatakanaCfg 5 3)) it known_path (empty_lattice 15)) = [(0, 12); (12, 15)] /\
  spans (rewrite_with no_lexicon (JoinKatakana (KatakanaCfg 5 2)) it known_path (empty_lattice 15)) = [(0, 6); (6, 12); (12, 15)].
Proof.
  cbv zeta. split; [apply toy_read; vm_compute; reflexivity|]. split; [apply empty_lists_end|].
  split; [apply tiles_b_ok; vm_compute; reflexivity|].
  split; [repeat constructor; eexists; reflexivity|]. split; vm_compute; reflexivity.
Qed.

(** "あ12.": the words 1 and 2 become 12, the point stays. *)
Definition a_word := toy_word true 0 3 [0x3042]%Z [0x3042]%Z.
Definition one_two : list wnode := [toy_word false 3 4 [49] [49]; toy_word false 4 5 [50] [50]]%Z.
Definition a_point := toy_word false 5 6 [46]%Z [46]%Z.
Example C90_nonvacuous :
  let it := toy_text [0x3042; 49; 50; 46]%Z in let P := [a_word] ++ one_two ++ a_point :: [] in
  read_text it /\ tiles 0 (map to_step P) (length (it_bytes it)) /\ Forall (info_ok no_lexicon) P /\
  no_number_part no_lexicon it a_word /\ Forall (number_part no_lexicon it) one_two /\
  (exists pr, accepts [49; 50]%Z pr) /\ (exists p2, p_feed p_new ([49; 50] ++ [point_char])%Z = (true, p2)) /\
  exists q, rewrite_with no_lexicon (JoinNumeric (NumericCfg 7 true)) it P (empty_lattice 6) = Ok q /\
    map (fun w => (w_begin w, w_end w, norm_form w)) q = [(0, 3, [0x3042]%Z); (3, 5, [49; 50]%Z); (5, 6, [46]%Z)].
Proof.
  cbv zeta. split; [apply toy_read; vm_compute; reflexivity|].
  split; [apply tiles_b_ok; vm_compute; reflexivity|].
  split; [repeat constructor; eexists; reflexivity|]. split.
  { eexists [DEFAULT], _. split; [vm_compute; reflexivity|]. split; [vm_compute; reflexivity|]. cbn. repeat split; intuition discriminate. }
  split. { repeat constructor; (eexists [NUMERIC], _; split; [vm_compute; reflexivity|]; split; [vm_compute; reflexivity|]; left; now left). }
  split; [eexists; apply accepts_after; vm_compute; reflexivity|]. split; [eexists; vm_compute; reflexivity|].
  set (x := match rewrite_with no_lexicon (JoinNumeric (NumericCfg 7 true)) (toy_text [0x3042; 49; 50; 46]%Z) ([a_word] ++ one_two ++ a_point :: []) (empty_lattice 6) with Ok q => q | Err _ => [] end).
  vm_compute in x. exists x. split; vm_compute; reflexivity.
Qed.
