(** What the resource files of the package say, whatever [int] does with numbers that are not
    plainly written. *)
From Coq Require Import String Ascii List ZArith Lia Bool Arith.
From Verif Require Import Base Utf8 M_Builder M_CharCategory M_Oov M_InputPlugins M_DicReader M_Front M_Resource M_Setup M_Resources S_Resource
  P_Resource Prop_Resource.
Import ListNotations.
Open Scope list_scope.
Open Scope Z_scope.

(** ** Numbers as they are plainly written *)
Definition hex_digit (c : Z) : option Z :=
  if (48 <=? c) && (c <=? 57) then Some (c - 48)
  else if (65 <=? c) && (c <=? 70) then Some (c - 55)
  else if (97 <=? c) && (c <=? 102) then Some (c - 87)
  else None.
Fixpoint number_from (base acc : Z) (t : text) : res Z :=
  match t with
  | [] => Ok acc
  | c :: r => match hex_digit c with Some d => if d <? base then number_from base (base * acc + d) r else Err EValue | None => Err EValue end
  end.
(** 0x and hexadecimal digits *)
Definition plain_hex (t : text) : res Z :=
  match t with 48 :: 120 :: ((_ :: _) as r) => number_from 16 0 r | _ => Err EValue end.
(** decimal digits *)
Definition plain_decimal (t : text) : res Z := match t with _ :: _ => number_from 10 0 t | [] => Err EValue end.

(** ** Reading with a function that reads more numbers *)
Section more.
Variables f g : text -> res Z.
Hypothesis M : forall t n, f t = Ok n -> g t = Ok n.

Lemma read_char_line_more l o : read_char_line f l = Ok o -> read_char_line g l = Ok o.
Proof.
  unfold read_char_line. destruct (rstrip_all l); [auto|]. destruct (starts hash _); [auto|]. destruct (columns _) as [|w [|w' cols]]; auto. destruct (starts zero_x w); cbn [negb]; [|auto].
  intros H. apply bind_ok in H as (low & H1 & H). apply bind_ok in H as (high & H2 & H). rewrite (M _ _ H1). cbn [bind].
  destruct (split_dots [] w) as [|a [|b ps]]; cbn [bind] in *.
  - injection H2 as <-. cbn [bind]. exact H.
  - injection H2 as <-. cbn [bind]. exact H.
  - apply bind_ok in H2 as (x & H2 & [= <-]). rewrite (M _ _ H2). cbn [bind]. exact H.
Qed.
Lemma char_ranges_more ls rs : char_ranges f ls = Ok rs -> char_ranges g ls = Ok rs.
Proof.
  revert rs. induction ls as [|l ls IH]; intros rs H; cbn [char_ranges] in *; [exact H|]. apply bind_ok in H as (o & H1 & H). apply bind_ok in H as (rs' & H2 & H).
  rewrite (read_char_line_more _ _ H1). cbn [bind]. rewrite (IH _ H2). cbn [bind]. exact H.
Qed.
Lemma read_property_line_more m l m' : read_property_line f m l = Ok m' -> read_property_line g m l = Ok m'.
Proof.
  unfold read_property_line. destruct (strip l); [auto|]. destruct (_ || _); [auto|]. destruct (words _) as [|w0 [|w1 [|w2 [|w3 r]]]]; auto.
  intros H. apply bind_ok in H as (c & Hc & H). rewrite Hc. cbn [bind]. destruct (existsb _ m); [exact H|]. apply bind_ok in H as (n & Hn & H). rewrite (M _ _ Hn). exact H.
Qed.
Lemma read_unk_line_more gr props m l m' : read_unk_line f gr props m l = Ok m' -> read_unk_line g gr props m l = Ok m'.
Proof.
  unfold read_unk_line. destruct (strip l); [auto|]. destruct (_ <? _)%nat; [auto|]. intros H. apply bind_ok in H as (c & Hc & H). rewrite Hc. cbn [bind]. destruct (negb _); [exact H|].
  apply bind_ok in H as (a & Ha & H). apply bind_ok in H as (b & Hb & H). apply bind_ok in H as (k & Hk & H). rewrite (M _ _ Ha). cbn [bind]. rewrite (M _ _ Hb). cbn [bind]. rewrite (M _ _ Hk). exact H.
Qed.
Lemma foldM_more {A S} (p q : S -> A -> res S) (l : list A) : (forall s x s', p s x = Ok s' -> q s x = Ok s') -> forall s s', foldM p s l = Ok s' -> foldM q s l = Ok s'.
Proof.
  intros H. induction l as [|x l IH]; intros s s' E; cbn [foldM] in *; [exact E|]. apply bind_ok in E as (s1 & E1 & E). rewrite (H _ _ _ E1). cbn [bind]. eauto.
Qed.
Lemma properties_more file m : read_character_property f file = Ok m -> read_character_property g file = Ok m.
Proof. apply foldM_more. intros s x s'. apply read_property_line_more. Qed.
Lemma oovs_more gr props file m : read_oov f gr props file = Ok m -> read_oov g gr props file = Ok m.
Proof. apply foldM_more. intros s x s'. apply read_unk_line_more. Qed.
Lemma mecab_more gr cf uf cfg : mecab_set_up f gr cf uf = Ok cfg -> mecab_set_up g gr cf uf = Ok cfg.
Proof.
  unfold mecab_set_up. intros H. apply bind_ok in H as (props & Hp & H). apply bind_ok in H as (oovs & Ho & H). rewrite (properties_more _ _ Hp). cbn [bind]. rewrite (oovs_more _ _ _ _ Ho). exact H.
Qed.
End more.

Lemma ok_inj {A} (x y : A) : Ok x = Ok y -> x = y.
Proof. congruence. Qed.

(** ** The shipped files *)
Definition value {A} (d : A) (r : res A) : A := match r with Ok x => x | Err _ => d end.
Definition no_grammar : grammar := Grammar [] 0 0 [] 0.
Definition every_cat : list (cat * cat_info) := map (fun c => (c, CatInfo false false 0)) all_cats.
Definition shipped_ranges : list range := Eval vm_compute in value [] (char_ranges plain_hex (file_lines shipped_char_def)).
Definition shipped_properties : list (cat * cat_info) := Eval vm_compute in value [] (read_character_property plain_decimal shipped_char_def).
Definition shipped_unknowns : list (cat * oov_entry) := Eval vm_compute in value [] (read_oov plain_decimal no_grammar every_cat shipped_unk_def).
Lemma shipped_ranges_read : char_ranges plain_hex (file_lines shipped_char_def) = Ok shipped_ranges.
Proof. vm_compute. reflexivity. Qed.
Lemma shipped_properties_read : read_character_property plain_decimal shipped_char_def = Ok shipped_properties.
Proof. vm_compute. reflexivity. Qed.
Lemma shipped_unknowns_read : read_oov plain_decimal no_grammar every_cat shipped_unk_def = Ok shipped_unknowns.
Proof. vm_compute. reflexivity. Qed.
Lemma shipped_set_up : exists cfg, mecab_set_up plain_decimal no_grammar shipped_char_def shipped_unk_def = Ok cfg.
Proof.
  assert (X : match mecab_set_up plain_decimal no_grammar shipped_char_def shipped_unk_def with Ok _ => true | Err _ => false end = true) by (vm_compute; reflexivity).
  revert X. generalize (mecab_set_up plain_decimal no_grammar shipped_char_def shipped_unk_def). intros [x|] X; [eauto|discriminate].
Qed.
Lemma shipped_rewrite : exists cfg, read_rewrite_def shipped_rewrite_def = Ok cfg.
Proof.
  assert (X : match read_rewrite_def shipped_rewrite_def with Ok _ => true | Err _ => false end = true) by (vm_compute; reflexivity).
  revert X. generalize (read_rewrite_def shipped_rewrite_def). intros [x|] X; [eauto|discriminate].
Qed.

(** For any file *)
Section any.
Variables f g : text -> res Z.
Hypothesis M : forall t n, f t = Ok n -> g t = Ok n.
Lemma any_ranges_exist ls file rs0 : char_ranges f (file_lines file) = Ok rs0 -> file_of ls file -> exists rs, char_def (fun t n => g t = Ok n) ls rs /\ map range_of rs = rs0.
Proof.
  intros R F. destruct (char_ranges_inv g _ _ (file_lines_spec _ _ F) rs0) as (rs & D & E); [|eauto].
  apply (char_ranges_more _ _ M). exact R.
Qed.
Lemma any_ranges_are ls file rs0 rs : char_ranges f (file_lines file) = Ok rs0 -> file_of ls file -> char_def (fun t n => g t = Ok n) ls rs -> map range_of rs = rs0.
Proof.
  intros R F D. pose proof (char_ranges_ok g _ _ (file_lines_spec _ _ F) _ D) as X. rewrite (char_ranges_more _ _ M _ _ R) in X. congruence.
Qed.
Lemma any_properties_are ls file m ps : read_character_property f file = Ok m -> file_of ls file -> property_file (fun t n => g t = Ok n) ls ps -> map info_of ps = m.
Proof.
  intros R F (os & D & -> & ND). pose proof (properties_read g _ _ (file_lines_spec _ _ F) os [] D ND) as X. cbn [app] in X.
  pose proof (properties_more _ _ M _ _ R) as Y. unfold read_character_property in Y. rewrite X in Y. congruence.
Qed.
Lemma any_unknowns_are ls file m us : read_oov f no_grammar every_cat file = Ok m -> file_of ls file -> unknown_file (fun t n => g t = Ok n) ls us -> map (entry_of no_grammar) us = m.
Proof.
  intros R F (os & D & ->). pose proof (unknowns_read g no_grammar every_cat _ _ (file_lines_spec _ _ F) os [] D) as X. cbn [app] in X.
  pose proof (oovs_more _ _ M _ _ _ _ R) as Y. unfold read_oov in Y. cbv zeta in X. rewrite X in Y; [congruence|].
  apply Forall_forall. intros u _. unfold every_cat. rewrite map_map. cbn [fst]. rewrite map_id. destruct (u_cat u); cbn; tauto.
Qed.
Lemma any_set_up ls file uls ufile : (exists cfg, mecab_set_up f no_grammar file ufile = Ok cfg) -> file_of ls file -> file_of uls ufile ->
  exists ps us, property_file (fun t n => g t = Ok n) ls ps /\ unknown_file (fun t n => g t = Ok n) uls us /\ Forall (fun u => In (u_cat u) (map p_cat ps)) us.
Proof. intros (cfg & E) F FU. exact (C65_nothing_else g _ _ _ _ _ _ F FU (mecab_more _ _ M _ _ _ _ E)). Qed.
End any.
Lemma any_rewrite ls file : (exists cfg, read_rewrite_def file = Ok cfg) -> file_of ls file -> exists kept replaced, rewrite_def ls kept replaced.
Proof. intros (cfg & E) F. exact (C66_nothing_else _ _ _ F E). Qed.

(** ** What any reading of the files gives *)
Section files.
Variables int16 int10 : text -> res Z.
Hypothesis H16 : forall t n, plain_hex t = Ok n -> int16 t = Ok n.
Hypothesis H10 : forall t n, plain_decimal t = Ok n -> int10 t = Ok n.

Lemma ranges_exist ls : file_of ls shipped_char_def -> exists rs, char_def (fun t n => int16 t = Ok n) ls rs /\ map range_of rs = shipped_ranges.
Proof. exact (any_ranges_exist _ _ H16 ls _ _ shipped_ranges_read). Qed.
Lemma ranges_are ls rs : file_of ls shipped_char_def -> char_def (fun t n => int16 t = Ok n) ls rs -> map range_of rs = shipped_ranges.
Proof. exact (any_ranges_are _ _ H16 ls _ _ rs shipped_ranges_read). Qed.
Lemma properties_are ls ps : file_of ls shipped_char_def -> property_file (fun t n => int10 t = Ok n) ls ps -> map info_of ps = shipped_properties.
Proof. exact (any_properties_are _ _ H10 ls _ _ ps shipped_properties_read). Qed.
Lemma unknowns_are ls us : file_of ls shipped_unk_def -> unknown_file (fun t n => int10 t = Ok n) ls us -> map (entry_of no_grammar) us = shipped_unknowns.
Proof. exact (any_unknowns_are _ _ H10 ls _ _ us shipped_unknowns_read). Qed.
Lemma set_up_exists ls uls : file_of ls shipped_char_def -> file_of uls shipped_unk_def ->
  exists ps us, property_file (fun t n => int10 t = Ok n) ls ps /\ unknown_file (fun t n => int10 t = Ok n) uls us /\ Forall (fun u => In (u_cat u) (map p_cat ps)) us.
Proof. exact (any_set_up _ _ H10 ls _ uls _ shipped_set_up). Qed.
End files.
Lemma rewrite_exists ls : file_of ls shipped_rewrite_def -> exists kept replaced, rewrite_def ls kept replaced.
Proof. exact (any_rewrite ls _ shipped_rewrite). Qed.

(** ** The conditions of C71, by looking at the files *)
Definition cats_at (ch : Z) : list cat := concat (map (fun r => if (r_low r <=? ch) && (ch <? r_high r) then r_cats r else []) shipped_ranges).
Lemma in_range rs low high cs : map range_of rs = shipped_ranges -> In (low, high, cs) rs -> In (Range low (high + 1) cs) shipped_ranges.
Proof. intros <- H. exact (in_map range_of _ _ H). Qed.

(** Characters of the categories that are numerals *)
Definition decimal_chars : list (Z * Z) := [(0x30, 0x39); (0x2070, 0x209F); (0x2150, 0x218F); (0xFF10, 0xFF19)].
Definition kanji_numerals : list Z :=
  [0x3007; 0x4E00; 0x4E8C; 0x4E09; 0x56DB; 0x4E94; 0x516D; 0x4E03; 0x516B; 0x4E5D; 0x5341; 0x767E; 0x5343; 0x4E07; 0x5104; 0x5146].
Definition decimal_char (ch : Z) : Prop := exists low high, In (low, high) decimal_chars /\ low <= ch <= high.

Definition overlap (a b : range) : bool := (Z.max (r_low a) (r_low b) <? Z.min (r_high a) (r_high b)).
Definition alphabetic (x : cat) : bool := match x with ALPHA | GREEK | CYRILLIC => true | _ => false end.
Lemma alone_ok : forallb (fun a => forallb (fun b => negb (overlap a b) || forallb (fun x => negb (alphabetic x) || forallb (cat_eqb x) (r_cats b)) (r_cats a)) shipped_ranges) shipped_ranges = true.
Proof. vm_compute. reflexivity. Qed.
Lemma alone r r' ch a x : In r shipped_ranges -> In r' shipped_ranges -> r_low r <= ch < r_high r -> r_low r' <= ch < r_high r' -> In a [ALPHA; GREEK; CYRILLIC] -> In a (r_cats r) -> In x (r_cats r') -> x = a.
Proof.
  intros Hr Hr' C C' Ha Hc Hx. pose proof alone_ok as K. rewrite forallb_forall in K. specialize (K _ Hr). rewrite forallb_forall in K. specialize (K _ Hr').
  apply orb_true_iff in K as [K|K]; [unfold overlap in K; apply negb_true_iff, Z.ltb_ge in K; lia|].
  rewrite forallb_forall in K. specialize (K _ Hc). apply orb_true_iff in K as [K|K]; [destruct Ha as [<-|[<-|[<-|[]]]]; discriminate K|].
  rewrite forallb_forall in K. specialize (K _ Hx). destruct a, x; try discriminate K; reflexivity.
Qed.
Lemma numeric_ok : forallb (fun r => negb (existsb (cat_eqb NUMERIC) (r_cats r)) || existsb (fun p => (fst p =? r_low r) && (snd p + 1 =? r_high r)) decimal_chars) shipped_ranges = true.
Proof. vm_compute. reflexivity. Qed.
Lemma kanji_ok : forallb (fun r => negb (existsb (cat_eqb KANJINUMERIC) (r_cats r)) || existsb (fun p => (p =? r_low r) && (p + 1 =? r_high r)) kanji_numerals) shipped_ranges = true.
Proof. vm_compute. reflexivity. Qed.
Lemma has_cat x l : In x l -> existsb (cat_eqb x) l = true.
Proof. intros H. apply existsb_exists. exists x. split; [exact H|destruct x; reflexivity]. Qed.
Lemma numeric_chars r ch : In r shipped_ranges -> r_low r <= ch < r_high r -> In NUMERIC (r_cats r) -> decimal_char ch.
Proof.
  intros Hr C Hc. pose proof numeric_ok as K. rewrite forallb_forall in K. specialize (K _ Hr). cbv beta in K. rewrite (has_cat _ _ Hc) in K. cbn [negb orb] in K.
  apply existsb_exists in K as ((a, b) & Hp & K). apply andb_true_iff in K as (K1 & K2). apply Z.eqb_eq in K1, K2. cbn [fst snd] in *. exists a, b. split; [exact Hp|lia].
Qed.
Lemma kanji_chars r ch : In r shipped_ranges -> r_low r <= ch < r_high r -> In KANJINUMERIC (r_cats r) -> In ch kanji_numerals.
Proof.
  intros Hr C Hc. pose proof kanji_ok as K. rewrite forallb_forall in K. specialize (K _ Hr). cbv beta in K. rewrite (has_cat _ _ Hc) in K. cbn [negb orb] in K.
  apply existsb_exists in K as (a & Hp & K). apply andb_true_iff in K as (K1 & K2). apply Z.eqb_eq in K1, K2. assert (ch = a) by lia. now subst.
Qed.
Lemma not_point ch : decimal_char ch \/ In ch kanji_numerals -> ch <> 44 /\ ch <> 46.
Proof.
  intros [(a & b & Hp & C)|H].
  - unfold decimal_chars in Hp. cbn [In] in Hp. destruct Hp as [[= <- <-]|[[= <- <-]|[[= <- <-]|[[= <- <-]|[]]]]]; lia.
  - unfold kanji_numerals in H. cbn [In] in H. lia.
Qed.
Lemma unknown_ok : forallb (fun x => (-32768 <=? oe_cost (snd x)) && (oe_cost (snd x) <=? 32767) && (0 <=? oe_left (snd x)) && (oe_left (snd x) <=? 5968) && (0 <=? oe_right (snd x)) && (oe_right (snd x) <=? 5968)) shipped_unknowns = true.
Proof. vm_compute. reflexivity. Qed.
Lemma unknown_range us u : map (entry_of no_grammar) us = shipped_unknowns -> In u us -> -32768 <= u_cost u <= 32767 /\ 0 <= u_left u <= 5968 /\ 0 <= u_right u <= 5968.
Proof.
  intros E H. pose proof unknown_ok as K. rewrite <- E, forallb_forall in K. specialize (K _ (in_map _ _ _ H)). unfold entry_of in K. cbn [snd oe_cost oe_left oe_right] in K.
  repeat (apply andb_true_iff in K as (K & ?)). Zbool. lia.
Qed.
Lemma group_ok : forallb (fun x => negb (alphabetic (fst x)) || ci_group (snd x)) shipped_properties = true.
Proof. vm_compute. reflexivity. Qed.
Lemma group_all ps q : map info_of ps = shipped_properties -> In q ps -> In (p_cat q) [ALPHA; GREEK; CYRILLIC] -> p_group q = true.
Proof.
  intros E H C. pose proof group_ok as K. rewrite <- E, forallb_forall in K. specialize (K _ (in_map _ _ _ H)). unfold info_of in K. cbn [fst snd ci_group] in K.
  apply orb_true_iff in K as [K|K]; [|exact K]. destruct C as [C|[C|[C|[]]]]; rewrite <- C in K; discriminate K.
Qed.
Lemma nonempty_ok : forallb (fun r => match r_cats r with [] => false | _ => true end) shipped_ranges = true.
Proof. vm_compute. reflexivity. Qed.
