(** C29-C31, C35: joining katakana words and numbers. *)
From Coq Require Import List ZArith QArith Lia Bool Arith.
From Verif Require Import Base Utf8 M_Builder M_InputText M_Lattice M_NumericParser M_PathRewrite
  S_Text S_Lattice S_Numeric S_Rewrite P_Builder P_InputText P_Accessors P_Tokenizer P_Numeric P_NumericReading
  P_Path P_Rewrite P_RewriteNum P_RewriteTerm P_RewriteValue Prop_Text Prop_Numeric.
Import ListNotations.
Open Scope nat_scope.

(** A text as the tokenizer reads it: built from an edited text. *)
Definition read_text (it : input_text) : Prop :=
  exists category t bd, (forall c, category c <> []) /\ edited t bd /\ scalar_text (b_mod bd) /\ build category bd = Ok it.
Lemma read_built it : read_text it -> exists t orig m2o cats, built t orig m2o cats it.
Proof.
  intros (category & t & bd & Hc & He & Hs & Eb). pose proof (edited_wf _ _ He) as W.
  destruct (build_spec category t bd W Hs (fun c _ => Hc c)) as (it' & Eb' & B). rewrite Eb in Eb'. injection Eb' as <-. eauto.
Qed.

(** ** C29 *)
(** For every path of the text and lattice of its words: the plugin answers a path that
    is the old one with groups of katakana words joined. *)
Theorem C29_katakana lexinfo cfg it lat P :
  read_text it -> lists_end (length (it_bytes it)) lat ->
  tiles 0 (map to_step P) (length (it_bytes it)) -> Forall (info_ok lexinfo) P ->
  exists q, join_katakana lexinfo cfg it P lat = Ok q /\
    joined (katakana_group lexinfo it lat (jk_pos cfg)) [] P q /\
    tiles 0 (map to_step q) (length (it_bytes it)) /\ incl (starts q) (starts P).
Proof.
  intros Rt LE T F. destruct (read_built it Rt) as (t & orig & m2o & cats & B).
  destruct (join_katakana_spec lexinfo B cfg lat LE P T F) as (q & E & J).
  exists q. split; [exact E|]. split; [exact J|]. split; [eapply joined_tiles; eauto|eapply joined_starts; eauto].
Qed.
Print Assumptions C29_katakana.

(** ** C30 *)
Theorem C30_numbers lexinfo cfg it P :
  read_text it -> tiles 0 (map to_step P) (length (it_bytes it)) -> Forall (info_ok lexinfo) P ->
  join_numeric lexinfo cfg it P = Err EFuel \/
  exists q, join_numeric lexinfo cfg it P = Ok q /\
    joined (number_group lexinfo (jn_pos cfg) (jn_normalize cfg)) [] P q /\
    tiles 0 (map to_step q) (length (it_bytes it)) /\ incl (starts q) (starts P).
Proof.
  intros Rt T F. destruct (read_built it Rt) as (t & orig & m2o & cats & B).
  destruct (jn_loop_spec lexinfo B cfg P T F (jn_fuel (length P)) (jn_init P)) as [E|(q & E & J)]; [apply jinv_init|now left|right].
  exists q. split; [exact E|]. split; [exact J|]. split; [eapply joined_tiles; eauto|eapply joined_starts; eauto].
Qed.
Print Assumptions C30_numbers.

(** ** C31 *)
(** "Out of fuel" means that the loop never ends. *)
Theorem C31_no_end_partial lexinfo cfg it P :
  read_text it -> tiles 0 (map to_step P) (length (it_bytes it)) -> Forall (info_ok lexinfo) P ->
  join_numeric lexinfo cfg it P = Err EFuel <-> forall f, jn_loop lexinfo cfg it f (jn_init P) = Err EFuel.
Proof.
  intros Rt T F. destruct (read_built it Rt) as (t & orig & m2o & cats & B). split.
  - exact (fuel_enough lexinfo B cfg P T F).
  - intros H. apply H.
Qed.
Print Assumptions C31_no_end_partial.

(** It ends if no word of digits has a separator in its normalised form. *)
Theorem C31_ends_partial lexinfo cfg it P :
  read_text it -> tiles 0 (map to_step P) (length (it_bytes it)) -> Forall (info_ok lexinfo) P ->
  (forall w info cs, In w P -> node_info lexinfo w = Ok info ->
     get_cats_range it (w_begin w) (w_end w) = Ok cs -> In NUMERIC cs \/ In KANJINUMERIC cs ->
     ~ In comma_char (wi_norm info) /\ ~ In point_char (wi_norm info)) ->
  exists q, join_numeric lexinfo cfg it P = Ok q.
Proof.
  intros Rt T F H. destruct (read_built it Rt) as (t & orig & m2o & cats & B).
  exact (join_numeric_ends lexinfo B cfg P T F H).
Qed.
Print Assumptions C31_ends_partial.

(** ** C35 *)
(** The normalised form of a joined number is a decimal numeral with the value of the
    numeral the group spells, provided the group is a complete numeral by itself - which is
    so unless it was a separator that completed the parse. *)
Theorem C35_value_partial lexinfo pos g after w infos s :
  number_group lexinfo pos true g after w ->
  mapM (node_info lexinfo) g = Ok infos -> s = concat (map wi_norm infos) ->
  ((exists p, accepts s p) \/
   ~ (exists x xi, hd_error after = Some x /\ node_info lexinfo x = Ok xi /\ (wi_norm xi = [comma_char] \/ wi_norm xi = [point_char]))) ->
  exists wi v u, w_extra w = Some wi /\ numeral (without_commas s) v /\
    (forall v', numeral (without_commas s) v' -> (v' == v)%Q) /\ decimal (wi_norm wi) u /\ (u == v)%Q /\ canonical (wi_norm wi).
Proof.
  intros (infos' & wi & EI & _ & _ & _ & Wx & _ & _ & _ & _ & _ & p & p' & J & N) EI' -> H. rewrite EI in EI'. injection EI' as ->.
  assert (K : exists p0 q0, accepts (concat (map wi_norm infos)) p0 /\ p_normalized p0 = Ok (wi_norm wi, q0)).
  { destruct J as [J|(x & xi & Hx & Ex & Sx & p2 & F2 & D2)]; [exists p, p'; auto|].
    destruct H as [(p0 & p1 & F1 & D1)|H]; [|exfalso; apply H; eauto].
    assert (A0 : accepts (concat (map wi_norm infos)) p0) by (exists p1; auto).
    destruct (C32_value _ _ A0) as (v & out & q & u & _ & _ & N0 & _).
    assert (Sc : exists c, wi_norm xi = [c] /\ (c = comma_char \/ c = point_char)) by (destruct Sx as [-> | ->]; eauto).
    destruct Sc as (c & Ec & Hc). rewrite Ec in F2.
    destruct (trailing_same _ c p1 p0 p2 false p Hc F1 D1 F2 D2 out q N0) as (q' & N').
    rewrite N in N'. injection N' as <- <-. exists p0, q. auto. }
  destruct K as (p0 & q0 & A & N0). destruct (C32_value _ _ A) as (v & out & q & u & Nv & Uv & No & Du & Eu).
  rewrite N0 in No. injection No as <- <-. exists wi, v, u. repeat split; auto.
  eapply C33_canonical; eauto.
Qed.
Print Assumptions C35_value_partial.

(** ** Examples *)
Definition toy_cats (c : Z) : list cat :=
  (if (48 <=? c) && (c <=? 57) then [NUMERIC]
   else if (c =? 0x767E) || (c =? 0x5341) then [KANJI; KANJINUMERIC]
   else if c =? 0x30FC then [KATAKANA; NOOOVBOW]
   else if (0x30A1 <=? c) && (c <=? 0x30F6) then [KATAKANA] else [DEFAULT])%Z.
Definition nowhere : input_text := InputText [] [] [] [] [] [] [] [].
Definition toy_text (t : text) : input_text := match build toy_cats (builder_init t) with Ok it => it | Err _ => nowhere end.
(** A word of the text, with surface and normalised form *)
Definition word_info_of (s norm : text) : word_info :=
  WordInfo s (length (match encode s with Ok b => b | Err _ => [] end)) 7 norm (-1) s s [] [] [] [].
Definition toy_word (oov : bool) (b e : nat) (s norm : text) : wnode :=
  WNode b e 0 0 0 0 oov true (Some (word_info_of s norm)).
Definition no_lexicon (_ : Z) : res word_info := Err EKey.
Definition empty_lattice (n : nat) : lattice := Lattice n n (repeat [] (S n)) None.

Lemma toy_read t : (match build toy_cats (builder_init t) with Ok _ => true | Err _ => false end) = true -> read_text (toy_text t).
Proof.
  intros H. exists toy_cats, t, (builder_init t). split; [|split; [apply ed_fresh|]].
  - intros c. unfold toy_cats. repeat (match goal with |- (if ?b then _ else _) <> [] => destruct b end; try discriminate).
  - unfold toy_text. destruct (build toy_cats (builder_init t)) as [it|] eqn:E; [|discriminate]. split; [|reflexivity].
    unfold build in E. apply bind_ok in E as (bs & Ebs & _). eapply encode_scalar; eauto.
Qed.
Lemma empty_lists_end n : lists_end n (empty_lattice n).
Proof.
  split; [cbn; rewrite repeat_length; lia|]. intros e ls w E Hin. unfold empty_lattice in E. cbn [l_lists] in E.
  apply nth_error_In, repeat_spec in E. subst ls. destruct Hin.
Qed.
Fixpoint tiles_b (b : nat) (p : list wnode) (e : nat) : bool :=
  match p with [] => b =? e | w :: r => (w_begin w =? b) && (b <? w_end w) && tiles_b (w_end w) r e end.
Lemma tiles_b_ok p : forall b e, tiles_b b p e = true -> tiles b (map to_step p) e.
Proof.
  induction p as [|w p IH]; intros b e H; cbn [tiles_b map] in *.
  - apply Nat.eqb_eq in H. subst. constructor.
  - apply andb_prop in H as (H & H3). apply andb_prop in H as (H1 & H2). apply Nat.eqb_eq in H1. apply Nat.ltb_lt in H2. subst b.
    cbn [tiles to_step s_begin s_end]. auto.
Qed.

(** "ーアイあ": the mark may not start an OOV word, ア and イ are joined. *)
Definition kata_path : list wnode :=
  [toy_word true 0 3 [0x30FC] [0x30FC]; toy_word true 3 6 [0x30A2] [0x30A2]; toy_word false 6 9 [0x30A4] [0x30A4];
   toy_word false 9 12 [0x3042] [0x3042]]%Z.
Example C29_nonvacuous :
  let it := toy_text [0x30FC; 0x30A2; 0x30A4; 0x3042]%Z in
  read_text it /\ lists_end (length (it_bytes it)) (empty_lattice 12) /\
  tiles 0 (map to_step kata_path) (length (it_bytes it)) /\ Forall (info_ok no_lexicon) kata_path /\
  exists q, join_katakana no_lexicon (KatakanaCfg 5 3) it kata_path (empty_lattice 12) = Ok q /\
    map (fun w => (w_begin w, w_end w, w_oov w)) q = [(0, 3, true); (3, 9, true); (9, 12, false)].
Proof.
  cbv zeta. split; [apply toy_read; vm_compute; reflexivity|]. split; [apply empty_lists_end|].
  split; [apply tiles_b_ok; vm_compute; reflexivity|].
  split; [repeat constructor; eexists; reflexivity|].
  set (x := match join_katakana no_lexicon (KatakanaCfg 5 3) (toy_text [0x30FC; 0x30A2; 0x30A4; 0x3042]%Z) kata_path (empty_lattice 12) with Ok q => q | Err _ => [] end).
  vm_compute in x. exists x. split; vm_compute; reflexivity.
Qed.

(** "10,000.5あ" of one-character words becomes 10000.5 and あ. *)
Definition num_path : list wnode :=
  [toy_word false 0 1 [49] [49]; toy_word false 1 2 [48] [48]; toy_word false 2 3 [44] [44]; toy_word false 3 4 [48] [48];
   toy_word false 4 5 [48] [48]; toy_word false 5 6 [48] [48]; toy_word false 6 7 [46] [46]; toy_word false 7 8 [53] [53];
   toy_word true 8 11 [0x3042] [0x3042]]%Z.
Definition norm_form (w : wnode) : text := match w_extra w with Some wi => wi_norm wi | None => [] end.
Example C30_C31_C35_nonvacuous :
  let it := toy_text [49; 48; 44; 48; 48; 48; 46; 53; 0x3042]%Z in
  read_text it /\ tiles 0 (map to_step num_path) (length (it_bytes it)) /\ Forall (info_ok no_lexicon) num_path /\
  (forall w info cs, In w num_path -> node_info no_lexicon w = Ok info ->
     get_cats_range it (w_begin w) (w_end w) = Ok cs -> In NUMERIC cs \/ In KANJINUMERIC cs ->
     ~ In comma_char (wi_norm info) /\ ~ In point_char (wi_norm info)) /\
  (exists p, accepts (concat (map norm_form (firstn 8 num_path))) p) /\
  exists q, join_numeric no_lexicon (NumericCfg 7 true) it num_path = Ok q /\
    map (fun w => (w_begin w, w_end w, norm_form w)) q =
      [(0, 8, [49; 48; 48; 48; 48; 46; 53]%Z); (8, 11, [0x3042]%Z)].
Proof.
  cbv zeta. split; [apply toy_read; vm_compute; reflexivity|].
  split; [apply tiles_b_ok; vm_compute; reflexivity|].
  split; [repeat constructor; eexists; reflexivity|]. split; [|split].
  - assert (A : forall w, In w num_path -> Forall (fun c => (c = 44 \/ c = 46) ->
        get_cats_range (toy_text [49; 48; 44; 48; 48; 48; 46; 53; 0x3042]%Z) (w_begin w) (w_end w) = Ok [DEFAULT])%Z (norm_form w)).
    { intros w Hw. cbn [num_path In] in Hw.
      repeat (destruct Hw as [<-|Hw]; [repeat constructor; intros [H|H]; try discriminate H; vm_compute; reflexivity|]). all: try destruct Hw. }
    intros w info cs Hw Ei Ec Hc.
    assert (En : wi_norm info = norm_form w).
    { unfold node_info in Ei. unfold norm_form. assert (D : w_defined w = true /\ exists wi, w_extra w = Some wi).
      { cbn [num_path In] in Hw. repeat (destruct Hw as [<-|Hw]; [split; [reflexivity|eexists; reflexivity]|]). all: try destruct Hw. }
      destruct D as (D & wi & X). rewrite D, X in Ei. rewrite X. cbn in Ei. now injection Ei as <-. }
    specialize (A w Hw). rewrite Forall_forall in A. rewrite En.
    split; intros Hin; specialize (A _ Hin); rewrite Ec in A; (injection A as ->; [|tauto]);
      destruct Hc as [[H|[]]|[H|[]]]; discriminate.
  - eexists. apply accepts_after. vm_compute. reflexivity.
  - set (x := match join_numeric no_lexicon (NumericCfg 7 true) (toy_text [49; 48; 44; 48; 48; 48; 46; 53; 0x3042]%Z) num_path with Ok q => q | Err _ => [] end).
    vm_compute in x. exists x. split; vm_compute; reflexivity.
Qed.

(** C31 is false: the text "5" analysed as a word of a user dictionary with the
    normalised form ",5" is read again and again. *)
Theorem C31_user_word_refuted :
  let it := toy_text [53]%Z in let P := [toy_word false 0 1 [53]%Z [44; 53]%Z] in
  read_text it /\ tiles 0 (map to_step P) (length (it_bytes it)) /\ Forall (info_ok no_lexicon) P /\
  forall f, jn_loop no_lexicon (NumericCfg 7 true) it f (jn_init P) = Err EFuel.
Proof.
  cbv zeta. assert (R : read_text (toy_text [53]%Z)) by (apply toy_read; vm_compute; reflexivity).
  assert (T : tiles 0 (map to_step [toy_word false 0 1 [53]%Z [44; 53]%Z]) (length (it_bytes (toy_text [53]%Z)))) by (apply tiles_b_ok; vm_compute; reflexivity).
  assert (F : Forall (info_ok no_lexicon) [toy_word false 0 1 [53]%Z [44; 53]%Z]) by (repeat constructor; eexists; reflexivity).
  split; [exact R|]. split; [exact T|]. split; [exact F|].
  apply (C31_no_end_partial no_lexicon (NumericCfg 7 true) _ _ R T F). vm_compute. reflexivity.
Qed.
Print Assumptions C31_user_word_refuted.

(** C35 is false: in "百123." the words 百, 1, 2, 3 (together 223) are joined into a
    word with the normalised form "0", because of the point. *)
Definition point_path : list wnode :=
  [toy_word false 0 3 [0x767E] [0x767E]; toy_word false 3 4 [49] [49]; toy_word false 4 5 [50] [50];
   toy_word false 5 6 [51] [51]; toy_word false 6 7 [46] [46]]%Z.
Theorem C35_value_refuted :
  let it := toy_text [0x767E; 49; 50; 51; 46]%Z in
  read_text it /\ tiles 0 (map to_step point_path) (length (it_bytes it)) /\ Forall (info_ok no_lexicon) point_path /\
  numeral (concat (map norm_form (firstn 4 point_path))) 223 /\
  exists q, join_numeric no_lexicon (NumericCfg 7 true) it point_path = Ok q /\
    map (fun w => (w_begin w, w_end w, norm_form w)) q = [(0, 6, [48]%Z); (6, 7, [46]%Z)].
Proof.
  cbv zeta. split; [apply toy_read; vm_compute; reflexivity|].
  split; [apply tiles_b_ok; vm_compute; reflexivity|].
  split; [repeat constructor; eexists; reflexivity|]. split.
  - change (concat _) with (0x767E :: ([49; 50] ++ [51]))%Z.
    apply numeral_group. change 223%Q with (100 + inject_Z (10 * (10 * 1 + 2) + 3))%Q.
    apply group_one_unit; [constructor|]. apply group_ones, decimal_int with (n := 3).
    apply digits_more; [apply (digits_more [49]%Z); [apply digits_one|]|]; apply dc_ascii; lia.
  - set (x := match join_numeric no_lexicon (NumericCfg 7 true) (toy_text [0x767E; 49; 50; 51; 46]%Z) point_path with Ok q => q | Err _ => [] end).
    vm_compute in x. exists x. split; vm_compute; reflexivity.
Qed.
Print Assumptions C35_value_refuted.
