(** C64 to C66: what character definition files, unk.def and rewrite.def say. *)
From Coq Require Import String List ZArith Lia Bool Arith Permutation.
From Verif Require Import Base Utf8 M_Builder M_InputText S_Text S_Plugins S_Lattice P_Builder P_Accessors P_Plugins Prop_Text Prop_Plugins P_Oov Prop_Oov M_CharCategory M_InputPlugins M_Lattice M_Oov M_Tokenizer M_Bytes M_DicReader M_DicBuilder P_DicOpen M_Front M_Resource
  S_Resource P_InputText P_CharCategory P_Resource Prop_CharCategory.
Import ListNotations.
Open Scope list_scope.
Open Scope Z_scope.

(** ** Names and ranges *)
Lemma name_txt c : cat_name c = txt (named c).
Proof. destruct c; reflexivity. Qed.
Lemma cat_of_name_spec t c : cat_of_name t = Some c <-> t = txt (named c).
Proof.
  rewrite <- name_txt. unfold cat_of_name. split.
  - intros H. apply find_some in H as (_ & H). apply teqb_eq in H. now symmetry.
  - intros ->. destruct c; reflexivity.
Qed.
Lemma cat_of_name_none t : cat_of_name t = None <-> forall c, t <> txt (named c).
Proof.
  split; intros H.
  - intros c E. apply cat_of_name_spec in E. congruence.
  - destruct (cat_of_name t) as [c|] eqn:E; [|reflexivity]. apply cat_of_name_spec in E. now apply H in E.
Qed.

Lemma split_dots_first a : no_dots (a ++ txt ".") -> forall acc r, split_dots acc (a ++ txt ".." ++ r) = (rev acc ++ a) :: split_dots [] r.
Proof.
  induction a as [|c a IH]; intros N acc r.
  - rewrite app_nil_r. reflexivity.
  - assert (N' : no_dots (a ++ txt ".")). { intros (x & y & E). apply N. exists (c :: x), y. cbn [app]. now rewrite E. }
    cbn [app split_dots]. destruct (a ++ txt ".." ++ r) as [|c' r'] eqn:E; [destruct a; discriminate|].
    destruct ((c =? 46) && (c' =? 46)) eqn:D.
    + exfalso. apply andb_true_iff in D as [D1 D2]. apply Z.eqb_eq in D1, D2. subst c c'. apply N. destruct a as [|x a]; cbn in E.
      * exists [], []. reflexivity.
      * injection E as -> E. exists [], (a ++ txt "."). reflexivity.
    + rewrite <- E, IH by assumption. cbn [rev]. now rewrite <- app_assoc.
Qed.
Lemma split_dots_none t : no_dots t -> forall acc, split_dots acc t = [rev acc ++ t].
Proof.
  induction t as [|c t IH]; intros N acc; [cbn; now rewrite app_nil_r|].
  assert (N' : no_dots t). { intros (x & y & E). apply N. exists (c :: x), y. cbn [app]. now rewrite E. }
  cbn [split_dots]. destruct t as [|c' t].
  - rewrite (IH N'). cbn [rev]. now rewrite <- app_assoc.
  - destruct ((c =? 46) && (c' =? 46)) eqn:D.
    + exfalso. apply andb_true_iff in D as [D1 D2]. apply Z.eqb_eq in D1, D2. subst c c'. apply N. now exists [], t.
    + rewrite (IH N'). cbn [rev]. now rewrite <- app_assoc.
Qed.
Lemma dotted_split t ps : dotted t ps -> split_dots [] t = ps.
Proof.
  induction 1 as [t N|a r ps N D IH]; [now rewrite split_dots_none|]. rewrite split_dots_first by assumption. now rewrite IH.
Qed.
Lemma first_dots t : no_dots t \/ exists a r, t = a ++ txt ".." ++ r /\ no_dots (a ++ txt ".").
Proof.
  induction t as [|c t IH]; [left; intros (a & b & E); destruct a; discriminate|].
  destruct (Z.eq_dec c 46) as [->|Nc].
  - destruct t as [|c' t].
    + left. intros (a & b & E). destruct a as [|? [|? ?]]; discriminate.
    + destruct (Z.eq_dec c' 46) as [->|Nc'].
      * right. exists [], t. split; [reflexivity|]. intros (a & b & E). destruct a as [|? [|? ?]]; discriminate.
      * destruct IH as [N|(a & r & E & N)].
        -- left. intros (a & b & E). destruct a as [|x a]; [injection E as E _; congruence|]. injection E as _ E. apply N. exists a, b. exact E.
        -- right. exists (46 :: a), r. split; [cbn [app]; now rewrite E|]. intros (x & y & E2). destruct x as [|z x].
           ++ destruct a as [|w a]; [injection E as E _; congruence|]. injection E as Ew _. injection E2 as E2 _. congruence.
           ++ injection E2 as _ E2. apply N. exists x, y. exact E2.
  - destruct IH as [N|(a & r & E & N)].
    + left. intros (a & b & E). destruct a as [|x a]; [injection E as E _; congruence|]. injection E as _ E. apply N. exists a, b. exact E.
    + right. exists (c :: a), r. split; [cbn [app]; now rewrite E|]. intros (x & y & E2). destruct x as [|z x]; [injection E2 as E2 _; congruence|].
      injection E2 as _ E2. apply N. exists x, y. exact E2.
Qed.
Lemma dotted_exists t : dotted t (split_dots [] t).
Proof.
  assert (G : forall n t, (length t <= n)%nat -> exists ps, dotted t ps).
  { clear t. induction n as [|n IH]; intros t H.
    - destruct t; [|cbn in H; lia]. exists [[]]. constructor. intros (a & b & E). destruct a; discriminate.
    - destruct (first_dots t) as [N|(a & r & -> & N)]; [exists [t]; now constructor|].
      destruct (IH r) as (ps & D); [rewrite !app_length in H; cbn in H; lia|]. exists (a :: ps). now constructor. }
  destruct (G _ t (le_n _)) as (ps & D). now rewrite (dotted_split _ _ D).
Qed.
Lemma split_dots_nonempty t : forall acc, split_dots acc t <> [].
Proof.
  assert (G : forall n t acc, (length t <= n)%nat -> split_dots acc t <> []).
  { clear. induction n as [|n IH]; intros t acc H; (destruct t as [|c t]; [discriminate|]); [cbn in H; lia|]. cbn [split_dots]. destruct t as [|c' t].
    - apply IH. cbn in *; lia.
    - destruct (_ && _); [discriminate|]. apply IH. cbn in *; lia. }
  intros acc. eapply G. reflexivity.
Qed.

Lemma named_solid c : solid (txt (named c)) /\ starts hash (txt (named c)) = false.
Proof.
  split; [|destruct c; reflexivity]. split; [destruct c; discriminate|]. apply Forall_forall. intros x Hx. apply not_space_white.
  destruct c; cbn in Hx; repeat (destruct Hx as [<-|Hx]; [reflexivity|]); destruct Hx.
Qed.
Lemma line_cats_spec ws cs : Forall (fun w => w <> []) ws -> line_cats ws = Ok cs <-> lists_cats ws cs.
Proof.
  intros N. split.
  - revert cs. induction N as [|w ws Nw N IH]; intros cs H; cbn [line_cats] in H.
    + injection H as <-. exists []. auto.
    + destruct (starts hash w) eqn:E.
      * cbn in H. injection H as <-. exists (w :: ws). split; [reflexivity|]. right. cbn [hd]. now apply starts_begins.
      * destruct w as [|a w']; [congruence|]. cbn [orb] in H. destruct (cat_of_name (a :: w')) as [c|] eqn:C; [|discriminate H].
        apply bind_ok in H as (cs' & H & E'). injection E' as <-. destruct (IH _ H) as (rest & -> & R). apply cat_of_name_spec in C. exists rest.
        split; [|exact R]. cbn [map app]. now rewrite C.
  - intros (rest & -> & R). induction cs as [|c cs IH]; cbn [map app line_cats].
    + destruct rest as [|w rest]; [reflexivity|]. destruct R as [R|R]; [discriminate|]. cbn [hd] in R. apply starts_begins in R. cbn [line_cats].
      change (txt "#") with hash in R. now rewrite R.
    + destruct (named_solid c) as ((Nc & _) & Sc). rewrite Sc. cbn [orb]. destruct (txt (named c)) as [|x l] eqn:E; [congruence|].
      rewrite (proj2 (cat_of_name_spec (x :: l) c)) by (now symmetry). inversion N; subst. rewrite IH by assumption. reflexivity.
Qed.

Lemma line_words_solid l ws : line_words l ws -> Forall solid ws.
Proof. induction 1; constructor; auto. Qed.
Lemma line_words_hd l w ws : line_words l (w :: ws) -> ~ In (hd 0 l) white -> hd 0 l = hd 0 w.
Proof.
  intros H N. inversion H as [|s w' t ws' B (Nw & _) E L]; subst. destruct s as [|c s]; cbn [app hd] in *.
  - destruct w; [congruence|reflexivity].
  - inversion B; subst. contradiction.
Qed.
Lemma line_words_blank l : line_words l [] <-> blank l.
Proof. split; [intros H; now inversion H|now constructor]. Qed.

(** ** C64 *)
Section char_def.
Variable int16 : text -> res Z.
Let number t n := int16 t = Ok n.

Lemma columns_rstrip l : rstrip_all l <> [] -> columns (rstrip_all l) = (if is_space (hd 0 l) then [[]] else []) ++ words l.
Proof.
  intros N. rewrite <- (words_rstrip l). rewrite <- (rstrip_hd l N). unfold columns. destruct (rstrip_all l) as [|c r]; [congruence|]. cbn [hd].
  destruct (is_space c); reflexivity.
Qed.
(** The outcome of a line, by its words *)
Lemma read_char_line_eq raw l : raw = l ++ [10] \/ raw = l ->
  read_char_line int16 raw = read_char_line int16 l.
Proof.
  intros [-> | ->]; [|reflexivity]. unfold read_char_line. rewrite rstrip_app; [reflexivity|]. constructor; [|constructor]. cbn. tauto.
Qed.
Lemma hash_solid : Forall (fun c => ~ In c white) hash.
Proof. constructor; [|constructor]. apply not_space_white. reflexivity. Qed.

Lemma char_line_read l low high cs : char_line number l low high cs -> read_char_line int16 l = Ok (Some (Range low (high + 1) cs)).
Proof.
  intros (w & ws & L & NH & NW & (B & a & ps & D & Ha & Hp) & Le & C). unfold read_char_line.
  assert (NB : rstrip_all l <> []). { intros X. apply rstrip_nil in X. apply line_words_blank in X. apply line_words_words in X, L. congruence. }
  pose proof (columns_rstrip l NB) as EC. rewrite (proj2 (not_space_white _)) in EC by assumption. rewrite (line_words_words _ _ L) in EC. cbn [app] in EC.
  assert (SH : starts hash (rstrip_all l) = false).
  { rewrite starts_rstrip by apply hash_solid. apply not_true_iff_false. intros X. apply starts_begins in X as (r & X).
    pose proof (line_words_hd _ _ _ L NH) as E. destruct B as (r' & B). rewrite X, B in E. cbn in E. discriminate E. }
  apply starts_begins in B. change (txt "0x") with zero_x in B. apply dotted_split in D.
  destruct (rstrip_all l) as [|c0 r0]; [congruence|]. rewrite SH, EC. destruct ws as [|w' ws]; [congruence|]. rewrite B. cbn [negb]. rewrite D. cbn [nth]. rewrite Ha. cbn [bind].
  assert (CL : line_cats (w' :: ws) = Ok cs).
  { apply line_cats_spec; [|exact C]. apply line_words_solid in L. inversion L; subst. eapply Forall_impl; [|eassumption]. intros x (X & _). exact X. }
  unfold read_range. destruct ps as [|b ps].
  - subst high. cbn [bind]. leb_f (low + 1) low. cbn [bind]. rewrite CL. reflexivity.
  - rewrite Hp. cbn [bind]. leb_f (high + 1) low. cbn [bind]. rewrite CL. reflexivity.
Qed.
Lemma other_line_read l : other_line l -> read_char_line int16 l = Ok None.
Proof.
  intros H. unfold read_char_line. destruct (rstrip_all l) as [|c0 r0] eqn:E; [reflexivity|]. rewrite <- E.
  assert (NB : rstrip_all l <> []) by congruence. pose proof (columns_rstrip l NB) as EC. rewrite EC.
  rewrite (starts_rstrip _ _ hash_solid). destruct (starts hash l) eqn:SH; [reflexivity|].
  destruct H as [H|[H|[(H & _)|(w & w' & ws & L & NB0)]]].
  - apply rstrip_nil in H. congruence.
  - exfalso. apply starts_begins in H. change (txt "#") with hash in H. congruence.
  - apply is_space_white in H. rewrite H. cbn [app]. destruct (words l) eqn:W; [|reflexivity].
    exfalso. apply NB, rstrip_nil, line_words_blank, words_spec. exact W.
  - rewrite (line_words_words _ _ L). destruct (is_space (hd 0 l)); cbn [app]; [reflexivity|].
    destruct (starts zero_x w) eqn:Z0; [exfalso; apply NB0; now apply starts_begins|]. reflexivity.
Qed.
Lemma read_char_line_inv l o : read_char_line int16 l = Ok o ->
  match o with Some r => exists high, r = Range (r_low r) (high + 1) (r_cats r) /\ char_line number l (r_low r) high (r_cats r) | None => other_line l end.
Proof.
  unfold read_char_line. destruct (rstrip_all l) as [|c0 r0] eqn:E.
  { intros H. injection H as <-. left. now apply rstrip_nil. }
  rewrite <- E. assert (NB : rstrip_all l <> []) by congruence. pose proof (columns_rstrip l NB) as EC. rewrite EC. clear EC.
  rewrite (starts_rstrip _ _ hash_solid). destruct (starts hash l) eqn:SH.
  { intros H. injection H as <-. right; left. now apply starts_begins. }
  assert (NE : l <> []) by (intros ->; apply NB; reflexivity).
  destruct (is_space (hd 0 l)) eqn:SP; cbn [app].
  { apply is_space_white in SP. destruct (words l) eqn:W; [discriminate|]. intros H. cbn in H. injection H as <-. right; right; left. auto. }
  apply not_space_white in SP. destruct (words l) as [|w [|w' ws]] eqn:W; try discriminate. apply words_spec in W.
  destruct (starts zero_x w) eqn:ZX; cbn [negb].
  2: { intros H. injection H as <-. right; right; right. exists w, w', ws. split; [exact W|]. intros X. apply starts_begins in X. change (txt "0x") with zero_x in X. congruence. }
  intros H. pose proof (dotted_exists w) as D. destruct (split_dots [] w) as [|a ps] eqn:SD; [now apply split_dots_nonempty in SD|]. cbn [nth] in H.
  apply bind_ok in H as (low & Ha & H). apply bind_ok in H as (oh & Hh & H). apply bind_ok in H as (u & Hu & H). apply bind_ok in H as (cs & Hc & H).
  apply bind_ok in H as (r & Hr & H). injection H as <-. unfold read_range in Hr.
  assert (CL : lists_cats (w' :: ws) cs).
  { apply line_cats_spec; [|exact Hc]. apply line_words_solid in W. inversion W; subst. eapply Forall_impl; [|eassumption]. intros x (X & _). exact X. }
  destruct ps as [|b ps].
  - injection Hh as <-. destruct (Z.leb_spec (low + 1) low); [lia|]. injection Hr as <-. cbn [r_low r_cats]. exists low. split; [reflexivity|].
    exists w, (w' :: ws). repeat split; auto; try discriminate; [now apply starts_begins| |lia]. exists a, []. auto.
  - apply bind_ok in Hh as (x & Hx & Hh). injection Hh as <-. destruct (Z.leb_spec (x + 1) low); [discriminate Hr|]. injection Hr as <-. cbn [r_low r_cats].
    exists x. split; [reflexivity|]. exists w, (w' :: ws). repeat split; auto; try discriminate; [now apply starts_begins| |lia]. exists a, (b :: ps). auto.
Qed.

Definition range_of (r : Z * Z * list cat) : range := let '(low, high, cs) := r in Range low (high + 1) cs.
Lemma char_ranges_ok raws ls : Forall2 (fun raw l => raw = l ++ [10] \/ raw = l) raws ls ->
  forall rs, char_def number ls rs -> char_ranges int16 raws = Ok (map range_of rs).
Proof.
  intros F rs (os & H & ->). revert os H. induction F as [|raw l raws ls E F IH]; intros os H; inversion H as [|? o ? os' Ho Hos]; subst; [reflexivity|].
  cbn [char_ranges]. rewrite (read_char_line_eq _ _ E). rewrite (IH _ Hos). destruct o as [((low, high), cs)|].
  - rewrite (char_line_read _ _ _ _ Ho). reflexivity.
  - rewrite (other_line_read _ Ho). reflexivity.
Qed.
Lemma char_ranges_inv raws ls : Forall2 (fun raw l => raw = l ++ [10] \/ raw = l) raws ls ->
  forall rs, char_ranges int16 raws = Ok rs -> exists rs', char_def number ls rs' /\ rs = map range_of rs'.
Proof.
  induction 1 as [|raw l raws ls E F IH]; intros rs H; cbn [char_ranges] in H.
  - injection H as <-. exists []. split; [|reflexivity]. exists []. split; [constructor|reflexivity].
  - apply bind_ok in H as (o & Ho & H). apply bind_ok in H as (rs0 & H0 & H). injection H as <-. destruct (IH _ H0) as (rs' & (os & Fo & ->) & ->).
    rewrite (read_char_line_eq _ _ E) in Ho. apply read_char_line_inv in Ho. destruct o as [r|].
    + destruct Ho as (high & Er & C). exists ((r_low r, high, r_cats r) :: concat (map (fun o => match o with Some r => [r] | None => [] end) os)). split.
      * exists (Some (r_low r, high, r_cats r) :: os). split; [constructor; auto|reflexivity].
      * cbn [map range_of]. now rewrite <- Er.
    + exists (concat (map (fun o => match o with Some r => [r] | None => [] end) os)). split; [|reflexivity]. exists (None :: os). split; [constructor; auto|reflexivity].
Qed.

(** The categories of every character, for every definition file that gives some: exactly the
    union over the lines that cover it, DEFAULT when there is none.  Blank lines, comments,
    spacing and order of lines do not matter. *)
Theorem C64_definition_file (pop : list range -> option (range * list range)) file ls rs :
  pop_ok pop -> file_of ls file -> char_def number ls rs -> rs <> [] ->
  exists table, read_character_definition int16 pop file = Ok table /\
  forall cp, exists cats, get_category_types table cp = Ok cats /\ NoDup cats /\
    ((exists low high cs, In (low, high, cs) rs /\ low <= cp <= high) ->
       forall c, In c cats <-> exists low high cs, In (low, high, cs) rs /\ low <= cp <= high /\ In c cs) /\
    ((forall low high cs, In (low, high, cs) rs -> ~ low <= cp <= high) -> cats = [DEFAULT]).
Proof.
  intros P F D NE. unfold read_character_definition. rewrite (char_ranges_ok _ _ (file_lines_spec _ _ F) _ D). cbn [bind].
  assert (Hw : Forall (fun r => r_low r < r_high r) (map range_of rs)).
  { apply Forall_map, Forall_forall. intros ((low, high), cs) Hr. cbn. destruct D as (os & Fo & ->). apply in_concat in Hr as (x & Hx & Hr).
    apply in_map_iff in Hx as (o & <- & Ho). destruct o as [r|]; [|destruct Hr]. destruct Hr as [->|[]]. clear - Fo Ho.
    induction Fo as [|l o ls os H Fo IH]; [destruct Ho|]. destruct Ho as [->|Ho]; [|now apply IH]. destruct H as (w & ws & _ & _ & _ & _ & Le & _). lia. }
  destruct (C13_category_union pop (map range_of rs) P) as (table & Ec & H); [destruct rs; [congruence|discriminate]|exact Hw|].
  exists table. split; [exact Ec|]. intros cp. destruct (H cp) as (cats & Eg & ND & H1 & H2). exists cats. split; [exact Eg|]. split; [exact ND|]. split.
  - intros (low & high & cs & Hr & Hcp) c. rewrite H1.
    + unfold defines. split.
      * intros (r & Hin & Hc & Hcs). apply in_map_iff in Hin as (((low', high'), cs') & <- & Hin). cbn in *. exists low', high', cs'. split; [exact Hin|]. split; [lia|exact Hcs].
      * intros (low' & high' & cs' & Hin & Hc & Hcs). exists (range_of (low', high', cs')). split; [now apply in_map|]. cbn. split; [lia|exact Hcs].
    + exists (range_of (low, high, cs)). split; [now apply in_map|]. cbn. lia.
  - intros N. apply H2. intros (r & Hin & Hc). apply in_map_iff in Hin as (((low', high'), cs') & <- & Hin). cbn in *. apply (N _ _ _ Hin). lia.
Qed.

(** And a file that loads is such a file: every line is either a definition or one of the
    lines that are passed over.  In particular a category that does not exist, a reversed
    range and a number that cannot be read are errors. *)
Theorem C64_nothing_else pop file ls table :
  file_of ls file -> read_character_definition int16 pop file = Ok table -> exists rs, char_def number ls rs /\ rs <> [].
Proof.
  intros F H. unfold read_character_definition in H. apply bind_ok in H as (rs & Hr & H).
  destruct (char_ranges_inv _ _ (file_lines_spec _ _ F) _ Hr) as (rs' & D & ->). exists rs'. split; [exact D|]. intros ->. discriminate H.
Qed.

(** The property as a user reads it - a line that begins, white space apart, with a range
    gives the range its categories - fails: an indented line is passed over without a word. *)
Theorem C64_indented_refuted :
  number (txt "0x30") 48 -> number (txt "0x31") 49 ->
  exists file table, file_of [txt "0x31 KANJI"; txt "   0x30 NUMERIC"] file /\
    char_line number (txt "0x30 NUMERIC") 48 48 [NUMERIC] /\
    read_character_definition int16 pop_first file = Ok table /\ get_category_types table 48 = Ok [DEFAULT].
Proof.
  intros N30 N31.
  assert (L1 : forall w v c, solid (txt w) -> begins (txt "0x") (txt w) -> no_dots (txt w) -> number (txt w) v -> char_line number (txt w ++ 32 :: txt (named c)) v v [c]).
  { intros w v c (Nw & Sw) B ND N. exists (txt w), [txt (named c)]. split.
    { apply (W_word [] (txt w) (32 :: txt (named c)) [txt (named c)]); [constructor|split; auto|right; cbn; tauto|].
      replace (32 :: txt (named c)) with ([32] ++ txt (named c) ++ []) by (now rewrite app_nil_r). apply (W_word [32] (txt (named c)) [] []); [repeat constructor; cbn; tauto|apply named_solid|now left|constructor; constructor]. }
    split; [destruct (txt w); [congruence|]; inversion Sw; subst; auto|]. split; [discriminate|]. split; [|split; [lia|]].
    - split; [exact B|]. exists (txt w), []. split; [now constructor|]. auto.
    - exists []. rewrite app_nil_r. auto. }
  assert (S30 : solid (txt "0x30") /\ solid (txt "0x31")).
  { split; (split; [discriminate|]); repeat constructor; apply not_space_white; reflexivity. }
  assert (D30 : no_dots (txt "0x30") /\ no_dots (txt "0x31")).
  { split; intros (a & b & E); do 4 (destruct a as [|? a]; [discriminate E|]; injection E as _ E); destruct a; discriminate E. }
  exists (txt "0x31 KANJI" ++ [10] ++ txt "   0x30 NUMERIC"), [Range 49 50 [KANJI]]. split.
  { apply F_line; [cbn; intuition discriminate|cbn; intuition discriminate|now left|]. apply F_last; [discriminate|cbn; intuition discriminate|cbn; intuition discriminate]. }
  split; [apply (L1 "0x30"%string 48 NUMERIC); try tauto; exists (txt "30"); reflexivity|].
  assert (D : char_def number [txt "0x31 KANJI"; txt "   0x30 NUMERIC"] [(49, 49, [KANJI])]).
  { exists [Some (49, 49, [KANJI]); None]. split; [|reflexivity]. constructor; [|constructor; [|constructor]].
    - apply (L1 "0x31"%string 49 KANJI); try tauto. exists (txt "31"). reflexivity.
    - right; right; left. split; [cbn; tauto|discriminate]. }
  assert (F : file_of [txt "0x31 KANJI"; txt "   0x30 NUMERIC"] (txt "0x31 KANJI" ++ [10] ++ txt "   0x30 NUMERIC")).
  { apply F_line; [cbn; intuition discriminate|cbn; intuition discriminate|now left|]. apply F_last; [discriminate|cbn; intuition discriminate|cbn; intuition discriminate]. }
  unfold read_character_definition. rewrite (char_ranges_ok _ _ (file_lines_spec _ _ F) _ D). split; reflexivity.
Qed.
End char_def.
Print Assumptions C64_definition_file.
Print Assumptions C64_nothing_else.
Print Assumptions C64_indented_refuted.

(** ** C66 *)
Lemma zero_x_solid : Forall (fun c => ~ In c white) zero_x.
Proof. repeat constructor; apply not_space_white; reflexivity. Qed.
Lemma comment_words l : comment_line l <-> match words l with w :: _ => starts hash w | [] => false end = true.
Proof.
  unfold comment_line. split.
  - intros (w & ws & L & B). rewrite (line_words_words _ _ L). now apply starts_begins.
  - destruct (words l) as [|w ws] eqn:W; [discriminate|]. intros H. exists w, ws. split; [now apply words_spec|now apply starts_begins].
Qed.
(** The columns of a line, by what it says *)
Lemma rewrite_columns_eq raw l : raw = l ++ [10] \/ raw = l ->
  rewrite_columns raw = match words l with [] => [] | w :: ws => if starts hash w then [] else [w :: ws] end.
Proof.
  intros E. unfold rewrite_columns. rewrite words_strip, (words_eol _ _ E).
  pose proof (starts_strip hash raw ltac:(discriminate) hash_solid) as SS. rewrite (words_eol _ _ E) in SS.
  destruct (strip raw) as [|c r] eqn:S.
  - apply strip_nil, words_nil in S. rewrite (words_eol _ _ E) in S. now rewrite S.
  - rewrite SS. destruct (words l) as [|w ws] eqn:W; [|reflexivity].
    rewrite <- (words_eol _ _ E) in W. apply words_nil, strip_nil in W. congruence.
Qed.
Definition line_of (r : rewrite_line) : list (list text) :=
  match r with Skip => [] | Keep c => [[[c]]] | Replace k v => [[k; v]] end.
Lemma says_columns raw l r : raw = l ++ [10] \/ raw = l -> says l r -> rewrite_columns raw = line_of r.
Proof.
  intros E H. rewrite (rewrite_columns_eq _ _ E). destruct r as [|c|k v]; cbn [says line_of] in *.
  - destruct H as [H|H]; [apply words_nil in H; now rewrite H|]. apply comment_words in H. destruct (words l); [reflexivity|]. now rewrite H.
  - destruct H as (L & N). rewrite comment_words in N. rewrite (line_words_words _ _ L) in *. destruct (starts hash [c]); [congruence|reflexivity].
  - destruct H as (L & N). rewrite comment_words in N. rewrite (line_words_words _ _ L) in *. destruct (starts hash k); [congruence|reflexivity].
Qed.
Lemma file_columns raws ls : Forall2 (fun raw l => raw = l ++ [10] \/ raw = l) raws ls -> forall rs, Forall2 says ls rs ->
  concat (map rewrite_columns raws) = concat (map line_of rs).
Proof.
  induction 1 as [|raw l raws ls E F IH]; intros rs H; inversion H; subst; [reflexivity|]. cbn [map concat]. erewrite says_columns by eauto. f_equal. auto.
Qed.
Lemma assoc_none k m : ~ In k (map fst m) -> assoc_text k m = None.
Proof.
  induction m as [|(k', v) m IH]; intros N; [reflexivity|]. cbn [assoc_text]. destruct (text_eqb k k') eqn:E.
  - exfalso. apply N. left. change text_eqb with teqb in E. apply teqb_eq in E. now symmetry.
  - apply IH. intros X. apply N. now right.
Qed.
Lemma read_lines_ok rs : forall cfg,
  (forall k, In k (map fst (d_map cfg)) -> ~ In k (map fst (concat (map (fun r => match r with Replace k v => [(k, v)] | _ => [] end) rs)))) ->
  NoDup (map fst (concat (map (fun r => match r with Replace k v => [(k, v)] | _ => [] end) rs))) ->
  (forall k v, In (Replace k v) rs -> k <> []) ->
  exists cfg', foldM read_line cfg (concat (map line_of rs)) = Ok cfg'.
Proof.
  induction rs as [|r rs IH]; intros cfg D ND NE; [eexists; reflexivity|]. cbn [map concat] in *. rewrite foldM_app. destruct r as [|c|k v]; cbn [line_of app] in *.
  - apply IH; auto. intros k v H. apply (NE k v). now right.
  - cbn. apply IH; auto. intros k v H. apply (NE k v). now right.
  - cbn [foldM read_line]. inversion ND as [|? ? Nk ND']; subst. rewrite assoc_none.
    + destruct k as [|x k]; [exfalso; eapply NE; [left; reflexivity|reflexivity]|]. cbn [bind]. apply IH; auto.
      * cbn [d_map map fst]. intros k' [<-|H'] H2; [contradiction|]. apply (D _ H'). now right.
      * intros k' v' H. apply (NE k' v'). now right.
    + intros H. apply (D _ H). now left.
Qed.

(** Whatever rewrite.def says (comments, indentation, line ends and the order of its lines
    do not matter), the plugin does it: the longest listed key at each position is replaced,
    the listed characters are only lower-cased, everything else is lower-cased and NFKC
    normalised. *)
Theorem C66_rewrite_file (lower : Z -> text) (nfkc : text -> text) file ls kept replaced (t0 : text) (bd : builder) :
  (forall c, lower c <> []) -> (forall t, t <> [] -> nfkc t <> []) -> edited t0 bd ->
  file_of ls file -> rewrite_def ls kept replaced ->
  exists cfg bd', read_rewrite_def file = Ok cfg /\ default_rewrite lower nfkc cfg bd = Ok bd' /\ edited t0 bd' /\
    exists out, (forall c, (exists x, lower c = [x] /\ In x kept) -> out c = lower c) /\
      (forall c, ~ (exists x, lower c = [x] /\ In x kept) -> out c = nfkc (lower c)) /\
      normalised replaced out (b_mod bd) (b_mod bd') /\ forall o, normalised replaced out (b_mod bd) o -> o = b_mod bd'.
Proof.
  intros Hl Hn He F (rs & Hs & -> & -> & ND).
  assert (NE : forall k v, In (Replace k v) rs -> k <> []).
  { intros k v H. clear - Hs H. induction Hs as [|l r ls rs S Hs IH]; [destruct H|]. destruct H as [->|H]; [|auto]. destruct S as (L & _).
    apply line_words_solid in L. inversion L as [|? ? (X & _) _]; subst. exact X. }
  unfold read_rewrite_def. rewrite (file_columns _ _ (file_lines_spec _ _ F) _ Hs). unfold read_rewrite_lists.
  destruct (read_lines_ok rs {| d_ignore := []; d_keylen := []; d_map := [] |}) as (cfg & E); [intros k []|exact ND|exact NE|].
  destruct (C11_default_rewrite lower nfkc (concat (map line_of rs)) cfg t0 bd Hl Hn E He) as (A & B & bd' & Ed & He' & N & U).
  set (replaced := concat (map (fun r => match r with Replace k v => [(k, v)] | _ => [] end) rs)) in *.
  set (kept := concat (map (fun r => match r with Keep c => [c] | _ => [] end) rs)).
  assert (A' : forall k v, In (k, v) (d_map cfg) <-> In (k, v) replaced).
  { intros k v. rewrite A. unfold replaced. rewrite !in_concat. split.
    - intros (x & Hx & H). apply in_map_iff in Hx as (r & <- & Hr). destruct r; cbn in H; try tauto; destruct H as [H|[]]; [discriminate H|].
      injection H as -> ->. exists [(k, v)]. split; [|now left]. apply in_map_iff. exists (Replace k v). auto.
    - intros (x & Hx & H). apply in_map_iff in Hx as (r & <- & Hr). destruct r; cbn in H; try tauto. destruct H as [H|[]].
      injection H as -> ->. exists [[k; v]]. split; [|now left]. apply in_map_iff. exists (Replace k v). auto. }
  assert (B' : forall x, In x (d_ignore cfg) <-> exists c, x = [c] /\ In c kept).
  { intros x. rewrite B. unfold kept. rewrite in_concat. split.
    - intros (y & Hy & H). apply in_map_iff in Hy as (r & <- & Hr). destruct r; cbn in H; try tauto; destruct H as [H|[]]; [|discriminate H].
      injection H as <-. exists c. split; [reflexivity|]. apply in_concat. exists [c]. split; [|now left]. apply in_map_iff. exists (Keep c). auto.
    - intros (c & -> & H). apply in_concat in H as (y & Hy & H). apply in_map_iff in Hy as (r & <- & Hr). destruct r; cbn in H; try tauto. destruct H as [<-|[]].
      exists [[[c0]]]. split; [|now left]. apply in_map_iff. exists (Keep c0). auto. }
  assert (Eq : forall o t u, (forall k v, In (k, v) (d_map cfg) <-> In (k, v) replaced) -> normalised (d_map cfg) o t u <-> normalised replaced o t u).
  { clear. intros o t u H. split.
    - induction 1 as [|k v t out Hin Hv Hk Hm Hn IH|c t out Hm Hn IH]; [constructor| |].
      + apply norm_key; auto; [now apply H|]. intros k' v' H'. apply Hm. now apply H.
      + apply norm_char; auto. intros k' v' H'. apply Hm. now apply H.
    - induction 1 as [|k v t out Hin Hv Hk Hm Hn IH|c t out Hm Hn IH]; [constructor| |].
      + apply norm_key; auto; [now apply H|]. intros k' v' H'. apply Hm. now apply H.
      + apply norm_char; auto. intros k' v' H'. apply Hm. now apply H. }
  exists cfg, bd'. split; [exact E|]. split; [exact Ed|]. split; [exact He'|].
  exists (fun c => if in_set (lower c) (d_ignore cfg) then lower c else nfkc (lower c)).
  assert (IS : forall c, in_set (lower c) (d_ignore cfg) = true <-> exists x, lower c = [x] /\ In x kept).
  { intros c. rewrite <- B'. unfold in_set. rewrite existsb_exists. split.
    - intros (x & Hx & Ex). change text_eqb with teqb in Ex. apply teqb_eq in Ex. now rewrite Ex.
    - intros H. exists (lower c). split; [exact H|]. change text_eqb with teqb. now apply teqb_eq. }
  split; [intros c H; apply IS in H; now rewrite H|]. split.
  { intros c H. destruct (in_set (lower c) (d_ignore cfg)) eqn:X; [|reflexivity]. apply IS in X. contradiction. }
  split; [now apply Eq|]. intros o H. apply U. now apply Eq.
Qed.
(** A file that loads is such a file. *)
Theorem C66_nothing_else file ls cfg :
  file_of ls file -> read_rewrite_def file = Ok cfg -> exists kept replaced, rewrite_def ls kept replaced.
Proof.
  intros F H. pose proof (file_lines_spec _ _ F) as FL. unfold read_rewrite_def, read_rewrite_lists in H.
  assert (G : forall raws ls, Forall2 (fun raw l => raw = l ++ [10] \/ raw = l) raws ls -> forall cfg0 cfg,
     foldM read_line cfg0 (concat (map rewrite_columns raws)) = Ok cfg ->
     exists rs, Forall2 says ls rs /\ NoDup (map fst (concat (map (fun r => match r with Replace k v => [(k, v)] | _ => [] end) rs))) /\
       forall k, In k (map fst (d_map cfg0)) -> ~ In k (map fst (concat (map (fun r => match r with Replace k v => [(k, v)] | _ => [] end) rs)))).
  { clear. induction 1 as [|raw l raws ls E FL IH]; intros cfg0 cfg H.
    - exists []. split; [constructor|]. split; [constructor|]. intros k _ [].
    - cbn [map concat] in H. rewrite (rewrite_columns_eq _ _ E) in H.
      destruct (words l) as [|w ws] eqn:W.
      + cbn [app] in H. destruct (IH _ _ H) as (rs & Hs & ND & D). exists (Skip :: rs). split; [constructor; [left; now apply words_nil|exact Hs]|]. auto.
      + destruct (starts hash w) eqn:SH.
        * cbn [app] in H. destruct (IH _ _ H) as (rs & Hs & ND & D). exists (Skip :: rs). split; [|auto].
          constructor; [right; apply comment_words; now rewrite W|exact Hs].
        * cbn [app foldM] in H. apply bind_ok in H as (cfg1 & H1 & H). destruct (IH _ _ H) as (rs & Hs & ND & D).
          assert (NC : ~ comment_line l) by (rewrite comment_words, W, SH; discriminate). apply words_spec in W.
          unfold read_line in H1. destruct ws as [|v [|v' ws]]; [| |discriminate H1].
          -- destruct (length w =? 1)%nat eqn:Lw; [|discriminate H1]. injection H1 as <-. apply Nat.eqb_eq in Lw. destruct w as [|c [|? ?]]; try discriminate Lw.
             exists (Keep c :: rs). split; [constructor; [split; auto|exact Hs]|]. auto.
          -- destruct (assoc_text w (d_map cfg0)) eqn:AT; [discriminate H1|]. destruct w as [|c w]; [discriminate H1|]. injection H1 as <-. cbn [d_map map fst] in D.
             exists (Replace (c :: w) v :: rs). split; [constructor; [split; auto|exact Hs]|]. cbn [map concat app fst]. split.
             ++ constructor; [|exact ND]. apply D. now left.
             ++ intros k Hk [<-|H2]; [|exact (D k (or_intror Hk) H2)]. apply in_map_iff in Hk as ((k', v') & Ek & Hk). cbn in Ek. subst k'.
                eapply assoc_text_None; eauto. }
  destruct (G _ _ FL _ _ H) as (rs & Hs & ND & _). eexists _, _. exists rs. split; [exact Hs|]. split; [reflexivity|]. split; [reflexivity|exact ND].
Qed.
Print Assumptions C66_rewrite_file.
Print Assumptions C66_nothing_else.

(** ** C65 *)
Section unknown_words.
Variable int10 : text -> res Z.
Let decimal t n := int10 t = Ok n.

Definition info_of (p : property) : cat * cat_info := (p_cat p, CatInfo (p_always p) (p_group p) (p_length p)).
Lemma one_zero_spec b a : (b = false <-> a = txt "0") -> one_zero a = b.
Proof.
  intros H. unfold one_zero. destruct (teqb a [48]) eqn:E; cbn [negb].
  - apply teqb_eq in E. symmetry. now apply H.
  - destruct b; [reflexivity|]. assert (a = [48]) as -> by (now apply H). rewrite (proj2 (teqb_eq _ _) eq_refl) in E. discriminate.
Qed.
Lemma one_zero_inv a : one_zero a = false <-> a = txt "0".
Proof.
  unfold one_zero. rewrite negb_false_iff, teqb_eq. reflexivity.
Qed.
Lemma existsb_cat {A} (m : list (cat * A)) c : existsb (fun x => cat_eqb (fst x) c) m = true <-> In c (map fst m).
Proof.
  rewrite existsb_exists, in_map_iff. split.
  - intros (x & Hx & E). exists x. split; [|exact Hx]. destruct (fst x), c; (reflexivity || discriminate E).
  - intros (x & <- & Hx). exists x. split; [exact Hx|]. destruct (fst x); reflexivity.
Qed.

Lemma property_line_read m raw l p : raw = l ++ [10] \/ raw = l -> property_line decimal l p -> ~ In (p_cat p) (map fst m) ->
  read_property_line int10 m raw = Ok (m ++ [info_of p]).
Proof.
  intros E (a & g & n & rest & L & Ha & Hg & Hn) N. unfold read_property_line. rewrite words_strip.
  pose proof (starts_strip hash raw ltac:(discriminate) hash_solid) as S1. pose proof (starts_strip zero_x raw ltac:(discriminate) zero_x_solid) as S2.
  rewrite (words_eol _ _ E), (line_words_words _ _ L) in S1, S2. rewrite (words_eol _ _ E), (line_words_words _ _ L).
  replace (starts hash (txt (named (p_cat p)))) with false in S1 by (symmetry; apply named_solid).
  replace (starts zero_x (txt (named (p_cat p)))) with false in S2 by (destruct (p_cat p); reflexivity).
  destruct (strip raw) as [|c0 r0] eqn:S.
  { exfalso. apply strip_nil, words_nil in S. rewrite (words_eol _ _ E), (line_words_words _ _ L) in S. discriminate. }
  rewrite S1, S2. cbn [orb]. unfold category_attr. rewrite (proj2 (cat_of_name_spec _ _) eq_refl). cbn [bind].
  destruct (existsb _ m) eqn:X; [apply existsb_cat in X; contradiction|]. rewrite Hn. cbn [bind].
  now rewrite (one_zero_spec _ _ Ha), (one_zero_spec _ _ Hg).
Qed.
Lemma no_property_read m raw l : raw = l ++ [10] \/ raw = l -> no_property_line l -> read_property_line int10 m raw = Ok m.
Proof.
  intros E H. unfold read_property_line. destruct (strip raw) as [|c0 r0] eqn:S; [reflexivity|]. rewrite <- S.
  destruct H as [H|(w & ws & L & H)].
  { exfalso. apply (blank_eol _ _ E) in H. apply strip_nil in H. congruence. }
  rewrite (starts_strip hash raw ltac:(discriminate) hash_solid), (starts_strip zero_x raw ltac:(discriminate) zero_x_solid).
  rewrite (words_eol _ _ E), (line_words_words _ _ L). destruct H as [H|H]; apply starts_begins in H; [change (txt "#") with hash in H|change (txt "0x") with zero_x in H];
    rewrite H; [reflexivity|]. now rewrite orb_true_r.
Qed.
Lemma property_line_inv m m' raw l : raw = l ++ [10] \/ raw = l -> read_property_line int10 m raw = Ok m' ->
  m' = m /\ no_property_line l \/ exists p, property_line decimal l p /\ ~ In (p_cat p) (map fst m) /\ m' = m ++ [info_of p].
Proof.
  intros E H. unfold read_property_line in H. destruct (strip raw) as [|c0 r0] eqn:S.
  { injection H as <-. left. split; [reflexivity|]. left. apply (blank_eol _ _ E). now apply strip_nil. }
  rewrite <- S in H. rewrite (starts_strip hash raw ltac:(discriminate) hash_solid), (starts_strip zero_x raw ltac:(discriminate) zero_x_solid) in H.
  rewrite words_strip, (words_eol _ _ E) in H. destruct (words l) as [|w ws] eqn:W; [discriminate H|]. apply words_spec in W.
  destruct (starts hash w || starts zero_x w) eqn:X.
  { injection H as <-. left. split; [reflexivity|]. right. exists w, ws. split; [exact W|]. apply orb_true_iff in X as [X|X]; apply starts_begins in X; auto. }
  destruct ws as [|a [|g [|n rest]]]; try discriminate H. apply bind_ok in H as (c & Hc & H). unfold category_attr in Hc.
  destruct (cat_of_name w) as [c'|] eqn:C; [|discriminate Hc]. injection Hc as ->. apply cat_of_name_spec in C.
  destruct (existsb _ m) eqn:EX; [discriminate H|]. apply bind_ok in H as (k & Hk & H). injection H as <-. right.
  exists (Property c (one_zero a) (one_zero g) k). split; [|split; [|reflexivity]].
  - exists a, g, n, rest. cbn [p_cat p_always p_group p_length]. rewrite <- C. repeat split; auto; apply one_zero_inv.
  - cbn. intros Hin. apply existsb_cat in Hin. congruence.
Qed.
Lemma properties_read raws ls : Forall2 (fun raw l => raw = l ++ [10] \/ raw = l) raws ls -> forall os m,
  Forall2 (fun l o => match o with Some p => property_line decimal l p | None => no_property_line l end) ls os ->
  let ps := concat (map (fun o => match o with Some p => [p] | None => [] end) os) in
  NoDup (map fst m ++ map p_cat ps) -> foldM (read_property_line int10) m raws = Ok (m ++ map info_of ps).
Proof.
  induction 1 as [|raw l raws ls E F IH]; intros os m H; inversion H as [|? o ? os' Ho Hos]; subst; cbv zeta; intros ND; [cbn; now rewrite app_nil_r|].
  cbn [foldM map concat]. destruct o as [p|].
  - cbn [map concat app] in ND. assert (N : ~ In (p_cat p) (map fst m)).
    { intros X. apply NoDup_remove_2 in ND. apply ND. apply in_or_app. now left. }
    rewrite (property_line_read _ _ _ _ E Ho N). cbn [bind]. rewrite (IH os').
    + cbn [app map]. now rewrite <- app_assoc.
    + exact Hos.
    + rewrite map_app. cbn [map info_of fst]. rewrite <- app_assoc. exact ND.
  - cbn [map concat app] in *. rewrite (no_property_read _ _ _ E Ho). cbn [bind]. now apply IH.
Qed.

(** The position of a part of speech in the table *)
Lemma list_eqb_teqb_eq (x y : list text) : list_eqb (list_eqb Z.eqb) x y = true <-> x = y.
Proof.
  change (list_eqb Z.eqb) with teqb. revert y. induction x as [|a x IH]; intros [|b y]; cbn [list_eqb]; try (split; [discriminate|discriminate]); [tauto|].
  rewrite andb_true_iff, teqb_eq, IH. split; [intros (-> & ->); reflexivity|intros [= -> ->]; auto].
Qed.
Lemma pos_id_spec g pos : In pos (g_pos g) -> part_of_speech g (get_part_of_speech_id g pos) = Ok pos /\ 0 <= get_part_of_speech_id g pos.
Proof.
  intros H. unfold get_part_of_speech_id, part_of_speech.
  assert (G : exists i, index_of (list_eqb (list_eqb Z.eqb)) (g_pos g) pos = Some i /\ nth_error (g_pos g) i = Some pos).
  { induction (g_pos g) as [|x l IH]; [destruct H|]. cbn [index_of]. destruct (list_eqb (list_eqb Z.eqb) x pos) eqn:E.
    - apply list_eqb_teqb_eq in E as ->. exists 0%nat. auto.
    - destruct H as [->|H]; [rewrite (proj2 (list_eqb_teqb_eq pos pos) eq_refl) in E; discriminate|]. destruct (IH H) as (i & -> & N). exists (S i). auto. }
  destruct G as (i & -> & N). leb_t 0 (Z.of_nat i). rewrite Nat2Z.id. unfold get. rewrite N. split; [reflexivity|lia].
Qed.
Lemma pos_id_unknown g pos : ~ In pos (g_pos g) -> get_part_of_speech_id g pos = -1.
Proof.
  intros H. unfold get_part_of_speech_id. replace (index_of (list_eqb (list_eqb Z.eqb)) (g_pos g) pos) with (@None nat); [reflexivity|].
  induction (g_pos g) as [|x l IH]; [reflexivity|]. cbn [index_of]. destruct (list_eqb (list_eqb Z.eqb) x pos) eqn:E.
  - apply list_eqb_teqb_eq in E. exfalso. apply H. now left.
  - rewrite <- IH by (intros X; apply H; now right). reflexivity.
Qed.

Definition entry_of (g : grammar) (u : unknown) : cat * oov_entry := (u_cat u, OovEntry (u_left u) (u_right u) (u_cost u) (get_part_of_speech_id g (u_pos u))).
Lemma unknown_line_read g props m raw l u : raw = l ++ [10] \/ raw = l -> unknown_line decimal l u -> In (u_cat u) (map fst props) ->
  read_unk_line int10 g props m raw = Ok (m ++ [entry_of g u]).
Proof.
  intros E (body & a & b & c & rest & T & C & L6 & Ha & Hb & Hc) Hp. unfold read_unk_line. apply strip_trimmed in T. apply commas_split in C.
  assert (ES : strip raw = body).
  { destruct (strip_eol _ _ E) as [B|Eq]; [|congruence]. exfalso. apply strip_nil in B. rewrite B in T. subst body. destruct (u_cat u); discriminate C. }
  rewrite ES. destruct body as [|c0 r0] eqn:EB; [destruct (u_cat u); discriminate C|]. rewrite <- EB in *. clear EB. rewrite C.
  replace (_ <? 10)%nat with false by (symmetry; apply Nat.ltb_ge; cbn [length]; rewrite app_length; lia).
  cbn [nth]. unfold category_attr. rewrite (proj2 (cat_of_name_spec _ _) eq_refl). cbn [bind].
  rewrite (proj2 (existsb_cat props (u_cat u)) Hp). cbn [negb]. rewrite Ha, Hb, Hc. cbn [bind].
  replace (slice (txt (named (u_cat u)) :: a :: b :: c :: u_pos u ++ rest) 4 10) with (u_pos u); [reflexivity|].
  change (u_pos u = firstn 6 (u_pos u ++ rest)). rewrite <- L6, firstn_app, firstn_all, Nat.sub_diag. cbn [firstn]. now rewrite app_nil_r.
Qed.
Lemma unknown_blank_read g props m raw l : raw = l ++ [10] \/ raw = l -> blank l -> read_unk_line int10 g props m raw = Ok m.
Proof.
  intros E B. unfold read_unk_line. apply (blank_eol _ _ E) in B. apply strip_nil in B. now rewrite B.
Qed.
Lemma unknown_line_inv g props m m' raw l : raw = l ++ [10] \/ raw = l -> read_unk_line int10 g props m raw = Ok m' ->
  m' = m /\ blank l \/ exists u, unknown_line decimal l u /\ In (u_cat u) (map fst props) /\ m' = m ++ [entry_of g u].
Proof.
  intros E H. unfold read_unk_line in H. destruct (strip_eol _ _ E) as [B|ES].
  { apply (blank_eol _ _ E) in B as B'. apply strip_nil in B'. rewrite B' in H. injection H as <-. auto. }
  rewrite ES in H. destruct (strip l) as [|c0 r0] eqn:S.
  { injection H as <-. left. split; [reflexivity|]. now apply strip_nil. }
  remember (c0 :: r0) as body eqn:EB. clear EB c0 r0. cbv zeta in H. destruct (split_on comma body) as [|n [|a [|b [|c ps]]]] eqn:SP; try discriminate H.
  destruct (length (n :: a :: b :: c :: ps) <? 10)%nat eqn:L10; [discriminate H|]. apply Nat.ltb_ge in L10. cbn [nth] in H.
  apply bind_ok in H as (k & Hk & H). unfold category_attr in Hk. destruct (cat_of_name n) as [k'|] eqn:C; [|discriminate Hk]. injection Hk as ->. apply cat_of_name_spec in C.
  destruct (existsb _ props) eqn:X; [|discriminate H]. apply existsb_cat in X. cbn [negb] in H.
  apply bind_ok in H as (va & Ha & H). apply bind_ok in H as (vb & Hb & H). apply bind_ok in H as (vc & Hc & H). injection H as <-. right.
  exists (Unknown k va vb vc (firstn 6 ps)). split; [|split; [exact X|]].
  - exists body, a, b, c, (skipn 6 ps). cbn [u_cat u_left u_right u_cost u_pos]. rewrite firstn_skipn, <- C. split; [now apply strip_trimmed|].
    split; [now apply commas_split|]. split; [apply firstn_length_le; cbn [length] in L10; lia|]. auto.
  - reflexivity.
Qed.
Lemma unknowns_read g props raws ls : Forall2 (fun raw l => raw = l ++ [10] \/ raw = l) raws ls -> forall os m,
  Forall2 (fun l o => match o with Some u => unknown_line decimal l u | None => blank l end) ls os ->
  let us := concat (map (fun o => match o with Some u => [u] | None => [] end) os) in
  Forall (fun u => In (u_cat u) (map fst props)) us -> foldM (read_unk_line int10 g props) m raws = Ok (m ++ map (entry_of g) us).
Proof.
  induction 1 as [|raw l raws ls E F IH]; intros os m H; inversion H as [|? o ? os' Ho Hos]; subst; cbv zeta; intros D; [cbn; now rewrite app_nil_r|].
  cbn [foldM map concat] in *. destruct o as [u|].
  - cbn [app] in D. inversion D; subst. rewrite (unknown_line_read _ _ _ _ _ _ E Ho) by assumption. cbn [bind]. rewrite (IH os') by assumption.
    cbn [app map]. now rewrite <- app_assoc.
  - rewrite (unknown_blank_read _ _ _ _ _ E Ho). cbn [bind]. now apply IH.
Qed.

Lemma assoc_cat_spec {A} (m : list (cat * A)) c x : NoDup (map fst m) -> assoc_cat m c = Some x <-> In (c, x) m.
Proof.
  intros ND. unfold assoc_cat. split.
  - destruct (find _ m) as [(c', y)|] eqn:F; [|discriminate]. intros [= ->]. apply find_some in F as (F & E). cbn in *.
    assert (c' = c) as -> by (destruct c', c; (reflexivity || discriminate E)). exact F.
  - intros H. induction m as [|(c', y) m IH]; [destruct H|]. cbn [find fst]. inversion ND as [|? ? N ND']; subst. destruct H as [[= -> ->]|H].
    + replace (cat_eqb c c) with true by (destruct c; reflexivity). reflexivity.
    + replace (cat_eqb c' c) with false; [now apply IH|]. symmetry. apply not_true_iff_false. intros E. apply N.
      assert (c' = c) as -> by (destruct c', c; (reflexivity || discriminate E)). apply in_map_iff. exists (c, x). auto.
Qed.

(** What the files say is what the plugin is set up with: the properties of each category,
    and its entries in the order of unk.def, with their part of speech when the dictionary
    has it. *)
Theorem C65_set_up g char_file cls ps unk_file uls us :
  file_of cls char_file -> property_file decimal cls ps -> file_of uls unk_file -> unknown_file decimal uls us ->
  Forall (fun u => In (u_cat u) (map p_cat ps)) us ->
  exists cfg, mecab_set_up int10 g char_file unk_file = Ok cfg /\
    (forall c info, mc_info cfg c = Some info <->
       exists p, In p ps /\ p_cat p = c /\ ci_invoke info = p_always p /\ ci_group info = p_group p /\ ci_length info = p_length p) /\
    (forall c, match mc_oovs cfg c with
       | None => forall u, In u us -> u_cat u <> c
       | Some os => Forall2 (fun o u => oe_left o = u_left u /\ oe_right o = u_right u /\ oe_cost o = u_cost u /\
                       (In (u_pos u) (g_pos g) -> part_of_speech g (oe_pos o) = Ok (u_pos u) /\ 0 <= oe_pos o))
                     os (filter (fun u => cat_eqb (u_cat u) c) us)
       end).
Proof.
  intros FC (co & HC & -> & ND) FU (uo & HU & ->) D. unfold mecab_set_up, read_character_property, read_oov.
  rewrite (properties_read _ _ (file_lines_spec _ _ FC) _ [] HC) by exact ND. cbn [bind app].
  assert (MF : forall ps, map fst (map info_of ps) = map p_cat ps) by (intros; rewrite map_map; reflexivity).
  rewrite (unknowns_read g _ _ _ (file_lines_spec _ _ FU) _ [] HU) by (rewrite MF; exact D). cbn [bind app].
  set (ps := concat (map (fun o => match o with Some p => [p] | None => [] end) co)) in *.
  set (us := concat (map (fun o => match o with Some u => [u] | None => [] end) uo)) in *.
  eexists. split; [reflexivity|]. cbn [mc_info mc_oovs]. split.
  - intros c info. rewrite assoc_cat_spec by (now rewrite MF). rewrite in_map_iff. split.
    + intros (p & E & Hp). injection E as <- <-. exists p. cbn. auto.
    + intros (p & Hp & <- & E1 & E2 & E3). exists p. split; [|exact Hp]. unfold info_of. f_equal. destruct info. cbn in *. congruence.
  - intros c. unfold oovs_of.
    assert (FE : filter (fun x => cat_eqb (fst x) c) (map (entry_of g) us) = map (entry_of g) (filter (fun u => cat_eqb (u_cat u) c) us)).
    { clear. induction us as [|u l IH]; [reflexivity|]. cbn [map filter entry_of fst]. destruct (cat_eqb (u_cat u) c); cbn [map]; now rewrite IH. }
    rewrite FE. assert (FF : Forall2 (fun o u => oe_left o = u_left u /\ oe_right o = u_right u /\ oe_cost o = u_cost u /\
                       (In (u_pos u) (g_pos g) -> part_of_speech g (oe_pos o) = Ok (u_pos u) /\ 0 <= oe_pos o)) (map snd (map (entry_of g) (filter (fun u => cat_eqb (u_cat u) c) us))) (filter (fun u => cat_eqb (u_cat u) c) us)).
    { clear. induction (filter _ us) as [|u l IH]; cbn [map]; constructor; auto. cbn. split; [reflexivity|]. split; [reflexivity|]. split; [reflexivity|]. apply pos_id_spec. }
    destruct (map (entry_of g) (filter (fun u => cat_eqb (u_cat u) c) us)) eqn:EM; [|exact FF].
    intros u Hu Ec. apply map_eq_nil in EM. assert (X : In u (filter (fun u => cat_eqb (u_cat u) c) us)).
    { apply filter_In. split; [exact Hu|]. rewrite Ec. destruct c; reflexivity. }
    rewrite EM in X. exact X.
Qed.
(** Files that load are such files. *)
Theorem C65_nothing_else g char_file cls unk_file uls cfg :
  file_of cls char_file -> file_of uls unk_file -> mecab_set_up int10 g char_file unk_file = Ok cfg ->
  exists ps us, property_file decimal cls ps /\ unknown_file decimal uls us /\ Forall (fun u => In (u_cat u) (map p_cat ps)) us.
Proof.
  intros FC FU H. unfold mecab_set_up, read_character_property, read_oov in H. apply bind_ok in H as (props & Hp & H). apply bind_ok in H as (oovs & Ho & H). clear H.
  assert (G1 : forall raws ls, Forall2 (fun raw l => raw = l ++ [10] \/ raw = l) raws ls -> forall m m', foldM (read_property_line int10) m raws = Ok m' -> NoDup (map fst m) ->
     exists os, Forall2 (fun l o => match o with Some p => property_line decimal l p | None => no_property_line l end) ls os /\
       m' = m ++ map info_of (concat (map (fun o => match o with Some p => [p] | None => [] end) os)) /\ NoDup (map fst m')).
  { clear. induction 1 as [|raw l raws ls E F IH]; intros m m' H ND.
    - injection H as <-. exists []. split; [constructor|]. cbn. rewrite app_nil_r. auto.
    - cbn [foldM] in H. apply bind_ok in H as (m1 & H1 & H). destruct (property_line_inv _ _ _ _ E H1) as [(-> & NP)|(p & Hp & N & ->)].
      + destruct (IH _ _ H ND) as (os & Fo & E' & ND'). exists (None :: os). split; [constructor; auto|]. auto.
      + destruct (IH _ _ H) as (os & Fo & E' & ND').
        { rewrite map_app. cbn. apply NoDup_rev in ND. rewrite <- (rev_involutive (map fst m ++ [p_cat p])). apply NoDup_rev. rewrite rev_app_distr. cbn. constructor; [|exact ND]. now rewrite <- in_rev. }
        exists (Some p :: os). split; [constructor; auto|]. split; [|exact ND']. rewrite E'. cbn [map concat app]. now rewrite <- app_assoc. }
  assert (G2 : forall raws ls, Forall2 (fun raw l => raw = l ++ [10] \/ raw = l) raws ls -> forall m m', foldM (read_unk_line int10 g props) m raws = Ok m' ->
     exists os, Forall2 (fun l o => match o with Some u => unknown_line decimal l u | None => blank l end) ls os /\
       Forall (fun u => In (u_cat u) (map fst props)) (concat (map (fun o => match o with Some u => [u] | None => [] end) os))).
  { clear. induction 1 as [|raw l raws ls E F IH]; intros m m' H.
    - exists []. split; constructor.
    - cbn [foldM] in H. apply bind_ok in H as (m1 & H1 & H). destruct (IH _ _ H) as (os & Fo & D).
      destruct (unknown_line_inv _ _ _ _ _ _ E H1) as [(-> & B)|(u & Hu & Hin & ->)].
      + exists (None :: os). split; [constructor; auto|exact D].
      + exists (Some u :: os). split; [constructor; auto|]. cbn. constructor; auto. }
  destruct (G1 _ _ (file_lines_spec _ _ FC) _ _ Hp) as (co & HC & Ep & ND); [constructor|]. cbn [app] in Ep.
  destruct (G2 _ _ (file_lines_spec _ _ FU) _ _ Ho) as (uo & HU & D).
  assert (MF : map fst props = map p_cat (concat (map (fun o => match o with Some p => [p] | None => [] end) co))) by (rewrite Ep, map_map; reflexivity).
  eexists _, _. split; [|split].
  - exists co. split; [exact HC|]. split; [reflexivity|]. now rewrite <- MF.
  - exists uo. split; [exact HU|reflexivity].
  - now rewrite <- MF.
Qed.

(** Every candidate that the plugin offers comes from an entry of unk.def for a category of
    the first character, and shows the part of speech that the entry names when the
    dictionary has it. *)
Theorem C65_candidates_partial g char_file cls ps unk_file uls us category t bd it k has :
  file_of cls char_file -> property_file decimal cls ps -> file_of uls unk_file -> unknown_file decimal uls us ->
  Forall (fun u => In (u_cat u) (map p_cat ps)) us -> Forall (fun u => In (u_pos u) (g_pos g)) us ->
  (forall c, category c <> []) -> edited t bd -> build category bd = Ok it -> (k < length (b_mod bd))%nat ->
  exists cfg ns, mecab_set_up int10 g char_file unk_file = Ok cfg /\ get_oov (MeCab cfg) it (char_start (b_mod bd) k) has = Ok ns /\
  forall w, In w ns -> exists u p ch j wi, In u us /\ In p ps /\ p_cat p = u_cat u /\ (has = true -> p_always p = true) /\
    nth_error (b_mod bd) k = Some ch /\ In (u_cat u) (category ch) /\
    w_left w = u_left u /\ w_right w = u_right u /\ w_cost w = u_cost u /\ w_extra w = Some wi /\
    (k < j)%nat /\ wi_surface wi = slice (b_mod bd) k j /\ part_of_speech g (wi_pos wi) = Ok (u_pos u).
Proof.
  intros FC HC FU HU D DP Hc He Eb Hk. destruct (C65_set_up g _ _ _ _ _ _ FC HC FU HU D) as (cfg & Es & HI & HO).
  destruct (C26_mecab_sound category t bd it cfg k has Hc He Eb Hk) as (ns & Eg & H). exists cfg, ns. split; [exact Es|]. split; [exact Eg|].
  intros w Hw. destruct (H w Hw) as (j & e & ch & c & info & oovs & o & Hj & _ & Hch & Hcc & Hinfo & Hoovs & Ho & Hinv & _ & OW).
  destruct OW as (_ & _ & _ & WL & WR & WC & wi & Ewi & Ws & _ & _ & _ & Wp & _).
  specialize (HO c). rewrite Hoovs in HO. apply HI in Hinfo as (p & Hp & Hpc & Hpi & _).
  assert (X : exists u, In u (filter (fun u => cat_eqb (u_cat u) c) us) /\ oe_left o = u_left u /\ oe_right o = u_right u /\ oe_cost o = u_cost u /\
                       (In (u_pos u) (g_pos g) -> part_of_speech g (oe_pos o) = Ok (u_pos u) /\ 0 <= oe_pos o)).
  { clear - HO Ho. induction HO as [|o' u os us' P F IH]; [destruct Ho|]. destruct Ho as [->|Ho]; [exists u; split; [now left|exact P]|].
    destruct (IH Ho) as (u' & Hu & R). exists u'. split; [now right|exact R]. }
  destruct X as (u & Hu & E1 & E2 & E3 & E4). apply filter_In in Hu as (Hu & Ec). assert (u_cat u = c) as EC by (destruct (u_cat u), c; (reflexivity || discriminate Ec)).
  exists u, p, ch, j, wi. rewrite EC. repeat (split; [solve [auto | congruence]|]). split; [intros Hh; rewrite <- Hpi; auto|].
  repeat (split; [solve [auto | congruence | lia]|]). rewrite Wp. apply E4. rewrite Forall_forall in DP. auto.
Qed.

(** The part of speech of an entry is not checked: when the dictionary does not have it, the
    words of the entry are shown with another one, the last of the table. *)
Theorem C65_unknown_pos_refuted g char_file cls ps unk_file uls u :
  file_of cls char_file -> property_file decimal cls ps -> file_of uls unk_file -> unknown_file decimal uls [u] ->
  In (u_cat u) (map p_cat ps) -> ~ In (u_pos u) (g_pos g) -> g_pos g <> [] ->
  exists cfg o pos, mecab_set_up int10 g char_file unk_file = Ok cfg /\ mc_oovs cfg (u_cat u) = Some [o] /\
    part_of_speech g (oe_pos o) = Ok pos /\ pos = last (g_pos g) [] /\ pos <> u_pos u.
Proof.
  intros FC (co & HC & -> & ND) FU (uo & HU & Eu) D N NE. unfold mecab_set_up, read_character_property, read_oov.
  rewrite (properties_read _ _ (file_lines_spec _ _ FC) _ [] HC) by exact ND. cbn [bind app].
  assert (MF : forall ps, map fst (map info_of ps) = map p_cat ps) by (intros; rewrite map_map; reflexivity).
  rewrite (unknowns_read g _ _ _ (file_lines_spec _ _ FU) _ [] HU) by (rewrite MF, <- Eu; constructor; [exact D|constructor]). rewrite <- Eu. cbn [bind app map].
  destruct (exists_last NE) as (l & x & El).
  eexists _, _, _. split; [reflexivity|]. cbn [mc_oovs]. unfold oovs_of. cbn [filter entry_of fst]. replace (cat_eqb (u_cat u) (u_cat u)) with true by (destruct (u_cat u); reflexivity).
  cbn [map snd]. split; [reflexivity|]. unfold entry_of. cbn [snd oe_pos]. rewrite pos_id_unknown by assumption. unfold part_of_speech. rewrite El, last_last, app_length. cbn [length].
  leb_t 0 (-1 + Z.of_nat (length l + 1)). replace (Z.to_nat (-1 + Z.of_nat (length l + 1))) with (length l) by lia.
  change (0 <=? -1) with false. cbn [orb]. split; [unfold get; rewrite nth_error_app2, Nat.sub_diag by lia; reflexivity|]. split; [reflexivity|].
  intros ->. apply N. rewrite El. apply in_or_app. right. now left.
Qed.
End unknown_words.
Print Assumptions C65_candidates_partial.
Print Assumptions C65_unknown_pos_refuted.
Print Assumptions C65_set_up.
Print Assumptions C65_nothing_else.

(** ** The theorems apply: a small character definition file, unk.def and rewrite.def *)
Definition digit (c : Z) : option Z := if (48 <=? c) && (c <=? 57) then Some (c - 48) else if (65 <=? c) && (c <=? 70) then Some (c - 55) else None.
Fixpoint digits (b acc : Z) (t : text) : res Z :=
  match t with [] => Ok acc | c :: r => match digit c with Some d => digits b (acc * b + d) r | None => Err EValue end end.
Definition sample_int16 (t : text) : res Z := match t with 48 :: 120 :: r => digits 16 0 r | _ => digits 16 0 t end.
Definition sample_int10 (t : text) : res Z := match t with 45 :: r => x <- digits 10 0 r ;; Ok (- x) | _ => digits 10 0 t end.
Definition lf : text := [10].
Definition sample_char_def : text :=
  txt "# categories" ++ [13; 10] ++ txt "DEFAULT 0 1 0 # other" ++ lf ++ txt "  NUMERIC 1 1 2" ++ lf ++ lf ++
  txt "0x0030..0x0039 NUMERIC # digits" ++ lf ++ txt "0x0035   KANJI ALPHA" ++ lf ++ txt " 0x0041 ALPHA".
Example C64_nonvacuous :
  exists ls rs table, file_of ls sample_char_def /\ char_def (fun t n => sample_int16 t = Ok n) ls rs /\ rs <> [] /\
    read_character_definition sample_int16 pop_first sample_char_def = Ok table /\
    get_category_types table 0x30 = Ok [NUMERIC] /\ get_category_types table 0x35 = Ok [NUMERIC; KANJI; ALPHA] /\ get_category_types table 0x3A = Ok [DEFAULT].
Proof.
  destruct (file_of_exists sample_char_def) as (ls & F).
  assert (E : exists table, read_character_definition sample_int16 pop_first sample_char_def = Ok table /\
    get_category_types table 0x30 = Ok [NUMERIC] /\ get_category_types table 0x35 = Ok [NUMERIC; KANJI; ALPHA] /\ get_category_types table 0x3A = Ok [DEFAULT]).
  { eexists. split; [vm_compute; reflexivity|]. vm_compute. repeat split; reflexivity. }
  destruct E as (table & E & H). destruct (C64_nothing_else _ _ _ _ _ F E) as (rs & D & N). exists ls, rs, table. repeat (split; [assumption|]). exact H.
Qed.
Definition sample_unk_def : text :=
  txt "DEFAULT,5,5,3857,noun,a,b,c,d,e" ++ lf ++ txt " " ++ lf ++ txt "NUMERIC,7,8,-10,noun,num,*,*,*,*,more" ++ lf ++ txt "NUMERIC,7,9,30,noun,a,b,c,d,e ".
Definition sample_grammar : grammar :=
  Grammar [map txt ["verb"; "a"; "b"; "c"; "d"; "e"]%string; map txt ["noun"; "a"; "b"; "c"; "d"; "e"]%string; map txt ["noun"; "num"; "*"; "*"; "*"; "*"]%string] 10 10 [] 0.
Example C65_nonvacuous :
  exists cls ps uls us cfg, file_of cls sample_char_def /\ property_file (fun t n => sample_int10 t = Ok n) cls ps /\
    file_of uls sample_unk_def /\ unknown_file (fun t n => sample_int10 t = Ok n) uls us /\ Forall (fun u => In (u_cat u) (map p_cat ps)) us /\
    mecab_set_up sample_int10 sample_grammar sample_char_def sample_unk_def = Ok cfg /\
    mc_info cfg NUMERIC = Some (CatInfo true true 2) /\ mc_info cfg KANJI = None /\
    mc_oovs cfg NUMERIC = Some [OovEntry 7 8 (-10) 2; OovEntry 7 9 30 1].
Proof.
  destruct (file_of_exists sample_char_def) as (cls & FC). destruct (file_of_exists sample_unk_def) as (uls & FU).
  assert (E : exists cfg, mecab_set_up sample_int10 sample_grammar sample_char_def sample_unk_def = Ok cfg /\
    mc_info cfg NUMERIC = Some (CatInfo true true 2) /\ mc_info cfg KANJI = None /\
    mc_oovs cfg NUMERIC = Some [OovEntry 7 8 (-10) 2; OovEntry 7 9 30 1]).
  { eexists. split; [vm_compute; reflexivity|]. vm_compute. repeat split; reflexivity. }
  destruct E as (cfg & E & H). destruct (C65_nothing_else _ _ _ _ _ _ _ FC FU E) as (ps & us & HP & HU & D). exists cls, ps, uls, us, cfg. repeat (split; [assumption|]). exact H.
Qed.
Definition sample_rewrite : text := txt "# kept" ++ lf ++ txt "  Z" ++ lf ++ lf ++ txt "ab x" ++ [13] ++ txt "abc	yz ".
Example C66_nonvacuous :
  exists ls kept replaced cfg, file_of ls sample_rewrite /\ rewrite_def ls kept replaced /\ read_rewrite_def sample_rewrite = Ok cfg /\
    d_ignore cfg = [txt "Z"] /\ d_map cfg = [(txt "abc", txt "yz"); (txt "ab", txt "x")].
Proof.
  destruct (file_of_exists sample_rewrite) as (ls & F).
  assert (E : exists cfg, read_rewrite_def sample_rewrite = Ok cfg /\ d_ignore cfg = [txt "Z"] /\ d_map cfg = [(txt "abc", txt "yz"); (txt "ab", txt "x")]).
  { eexists. split; [vm_compute; reflexivity|]. vm_compute. repeat split; reflexivity. }
  destruct E as (cfg & E & H). destruct (C66_nothing_else _ _ _ F E) as (kept & replaced & D). exists ls, kept, replaced, cfg. repeat (split; [assumption|]). exact H.
Qed.
