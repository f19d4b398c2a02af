(** Splitting the words of built dictionaries: the units of a word and the text they cover. *)
From Coq Require Import String Ascii List ZArith Lia Bool Arith Sorting.Sorted Sorting.Permutation.
From Verif Require Import Base Utf8 M_Builder M_CharCategory M_InputText M_InputPlugins M_Lattice M_Oov M_Tokenizer M_NumericParser M_PathRewrite M_Morphemes
  M_Shipped M_Bytes M_DicReader M_DicBuilder M_LexiconSet M_Front M_Resource M_Setup S_Text S_Plugins S_Lattice S_Resource S_Accept S_Units
  P_Builder P_InputText P_Accessors P_Lattice P_Tokenizer P_Path P_Config P_Morphemes P_Bytes P_DicFormat P_DicWrite P_DicOpen P_DicGrammar P_DicSource P_DicLexicon P_DicFile Prop_Format P_LexiconSet P_Resource
  Prop_Text Prop_Source Prop_Lexicon Prop_Resource Prop_Shipped P_Words P_Setup P_System Prop_System Prop_Accept P_Tool.
Import ListNotations.
Open Scope list_scope.
Open Scope Z_scope.

Lemma parse_id_inv k py_int entries t x : parse_id k py_int entries t = Ok x ->
  (exists r i, t = 85 :: r /\ py_int r = Ok i /\ x = match k with UserDic _ _ _ => Z.lor i (2 ^ 28) | SystemDic => i end) \/ (hd 0 t <> 85 /\ py_int t = Ok x).
Proof.
  unfold parse_id. intros H. apply bind_ok in H as (y & H & H'). apply bind_ok in H' as (u & _ & [= <-]).
  destruct t as [|c r]; [right; cbn; split; [lia|exact H]|]. destruct (Z.eq_dec c 85) as [-> |N].
  - left. apply bind_ok in H as (i & Hi & H). exists r, i. split; [reflexivity|]. split; [exact Hi|]. change (Z.shiftl 1 28) with (2 ^ 28) in H. destruct k; congruence.
  - right. split; [exact N|]. rewrite <- H. destruct c as [|p|p]; auto. do 7 (destruct p as [p|p|]; auto). congruence.
Qed.

Lemma forall2_at {A B} (R : A -> B -> Prop) l l' : Forall2 R l l' -> forall i x, nth_error l i = Some x -> exists y, nth_error l' i = Some y /\ R x y.
Proof. induction 1 as [|a b l l' H F IH]; intros i x E; [destruct i; discriminate|]. destruct i as [|i]; cbn [nth_error] in *; [injection E as <-; eauto|auto]. Qed.

Section units.
Variable text_file : text -> res text.
Variable binary_file : text -> res bytes.
Variable join : text -> text -> text.
Variable is_absolute : text -> bool.
Variable DEFAULT_RESOURCEDIR : text.
Variable int16 int10 : text -> res Z.
Variable pop : list range -> option (range * list range).
Variable order : list cat -> list cat.
Variable lower : Z -> text.
Variable nfkc : text -> text.
Variable search : bytes -> bytes -> list (Z * nat).
Variable limit : nat.
Variable py_int : text -> res Z.
Variable is_digit : Z -> bool.
Variable trie_array : list (bytes * Z) -> res bytes.
Notation make_dictionary := (make_dictionary text_file binary_file join is_absolute DEFAULT_RESOURCEDIR int16 int10 pop order lower nfkc search limit).
Notation md_settings := (md_settings order lower nfkc search limit).
Notation created := (created order lower nfkc search limit).
Notation built_from := (built_from binary_file join is_absolute search limit py_int is_digit trie_array).

Variables (c : conf) (d : text) (m : made) (g0 : grammar) (sys_id : text -> Z -> text -> res Z) (system : dic) (users : list dic).
Hypothesis BF : built_from c d g0 sys_id system users.
Hypothesis MK : make_dictionary c d = Ok m.
Let n0 := length (s_entries (dc_source system)).

(** the word lists after the escapes are decoded *)
Variable sys_css : list (list text).
Variable user_csss : list (list (list text)).
Notation csss := (sys_css :: user_csss).
Hypothesis DEC : Forall2 (fun u css => Forall2 (Forall2 (fun c c' => unescape c = Ok c')) (dc_rows u) css) (system :: users) csss.
(** what is found in the system dictionary has the surface and the reading that were looked for *)
Hypothesis SID : forall h p r id, sys_id h p r = Ok id -> 0 <= id ->
  exists e, nth_error (s_entries (dc_source system)) (Z.to_nat id) = Some e /\ e_surface e = h /\ (match e_reading e with [] => e_surface e | _ => e_reading e end) = r.

Definition row_at (k i : nat) (cs : list text) : Prop := exists css, nth_error csss k = Some css /\ nth_error css i = Some cs.

Lemma entry_columns k u i e : nth_error (system :: users) k = Some u -> nth_error (s_entries (dc_source u)) i = Some e ->
  exists cs, row_at k i cs /\ e_surface e = column cs 4 /\ e_reading e = column cs 11 /\ (exists b, encode (column cs 0) = Ok b /\ e_head_length e = length b) /\
    (forall h, e_headword e = Some h -> h = column cs 0) /\ e_a e = column cs 15 /\ e_b e = column cs 16.
Proof.
  intros Hk Hi. destruct (entry_row _ _ _ _ _ _ _ _ _ _ _ _ _ _ BF _ _ _ _ Hk Hi) as (row & tb & tb' & Hr & HP).
  destruct (C58_accepted _ _ _ _ _ _ HP) as (_ & cs & Fc & _ & A0 & _ & _ & _ & A4 & A11 & A12 & A00 & _ & _ & A15 & A16 & _).
  destruct (forall2_at _ _ _ DEC k u Hk) as (css & Hcss & D). exists cs. split; [exists css; split; [exact Hcss|eapply decoded_nth; eauto]|].
  repeat (split; [assumption|]). split; [|auto]. intros h Hh. rewrite Hh in A0. unfold column. destruct (teqb _ _); congruence.
Qed.

Definition resolves (k : nat) (u : dic) (x y : Z) : Prop :=
  (0 <= x < 2 ^ 28 /\ y = x /\ (Z.to_nat y < length (s_entries (dc_source system)))%nat) \/
  (2 ^ 28 <= x /\ y = Z.of_nat k * 2 ^ 28 + x mod 2 ^ 28 /\ (Z.to_nat (x mod 2 ^ 28) < length (s_entries (dc_source u)))%nat).
(** [y] is the id of the entry whose row is [cs] *)
Definition entry_of (y : Z) (cs : list text) : Prop :=
  exists k u i e, nth_error (system :: users) k = Some u /\ nth_error (s_entries (dc_source u)) i = Some e /\ y = Z.of_nat k * 2 ^ 28 + Z.of_nat i /\ row_at k i cs.
Definition user_list (k : nat) : bool := match k with O => false | S _ => true end.
Definition base_list (k : nat) : list (list text) := match k with O => [] | S _ => sys_css end.

Lemma own_entry k u i cs' : nth_error (system :: users) k = Some u -> nth_error csss k = Some cs' -> (i < length (s_entries (dc_source u)))%nat ->
  exists e cs, nth_error (s_entries (dc_source u)) i = Some e /\ nth_error cs' i = Some cs /\ entry_of (Z.of_nat k * 2 ^ 28 + Z.of_nat i) cs /\
    e_surface e = column cs 4 /\ e_reading e = column cs 11.
Proof.
  intros Hk Hc Hi. destruct (nth_error (s_entries (dc_source u)) i) as [e|] eqn:He; [|apply nth_error_None in He; lia].
  destruct (entry_columns k u i e Hk He) as (cs & R & A4 & A11 & _). pose proof R as (css & H1 & H2). assert (css = cs') by congruence. subst css.
  exists e, cs. split; [reflexivity|]. split; [exact H2|]. split; [exists k, u, i, e; auto|auto].
Qed.

Lemma unit_row k u css t x tb tb' y : nth_error (system :: users) k = Some u -> nth_error csss k = Some css ->
  parse_unit (kind_of g0 sys_id n0 k) py_int is_digit (s_entries (dc_source u)) tb t = Ok (x, tb') -> resolves k u x y ->
  exists cs, entry_of y cs /\ may_name py_int (user_list k) (base_list k) css t cs.
Proof.
  intros Hk Hc HP R. unfold parse_unit in HP. destruct (is_id is_digit t) eqn:ID.
  - apply bind_ok in HP as (z & HP & [= -> _]). apply parse_id_inv in HP as [(r & i & -> & Hi & Ex)|(N & Hi)].
    + (* U and a number *)
      assert (I : 0 <= i /\ x mod 2 ^ 28 = i mod 2 ^ 28 /\ (k <> 0%nat -> 2 ^ 28 <= x)).
      { destruct k as [|k]; cbn [kind_of] in Ex.
        - subst x. destruct R as [(R & _)|(R & _)]; (split; [lia|split; [reflexivity|congruence]]).
        - assert (0 <= i) by (destruct (Z_lt_le_dec i 0) as [L|L]; [|exact L]; assert (x < 0) by (subst x; apply Z.lor_neg; auto); destruct R as [(R & _)|(R & _)]; lia).
          destruct (lor_28 i) as (L1 & L2); [lia|]. subst x. auto. }
      destruct I as (I0 & IM & IK). assert (Q : y = Z.of_nat k * 2 ^ 28 + x mod 2 ^ 28 /\ (Z.to_nat (x mod 2 ^ 28) < length (s_entries (dc_source u)))%nat).
      { destruct R as [(R1 & -> & R2)|(_ & R1 & R2)]; [|auto]. destruct k as [|k]; [|specialize (IK ltac:(lia)); lia]. cbn [nth_error] in Hk. injection Hk as <-.
        rewrite (Z.mod_small x) by lia. split; [lia|exact R2]. }
      destruct Q as (-> & L). destruct (own_entry k u _ css Hk Hc L) as (e & cs & _ & Hcs & E & _). exists cs. pose proof (Z.mod_pos_bound x (2 ^ 28) ltac:(lia)). rewrite Z2Nat.id in E by lia. split; [exact E|].
      eapply MN_row; eauto. rewrite <- IM. exact Hcs.
    + destruct R as [(R1 & -> & R2)|(R1 & -> & R2)].
      * destruct (own_entry 0 system _ sys_css eq_refl eq_refl R2) as (e & cs & _ & Hcs & E & _). exists cs. rewrite Z2Nat.id in E by lia. cbn [Z.of_nat Z.mul Z.add] in E. split; [exact E|].
        destruct k as [|k]; cbn [user_list base_list].
        -- cbn [nth_error] in Hc. injection Hc as <-. eapply MN_number; [exact N|exact Hi|lia|]. rewrite Z.mod_small by lia. exact Hcs.
        -- eapply MN_system; [exact N|exact Hi|reflexivity|lia|exact Hcs].
      * destruct (own_entry k u _ css Hk Hc R2) as (e & cs & _ & Hcs & E & _). exists cs. pose proof (Z.mod_pos_bound x (2 ^ 28) ltac:(lia)). rewrite Z2Nat.id in E by lia. split; [exact E|].
        eapply MN_number; [exact N|exact Hi|destruct k; cbn [user_list]; lia|exact Hcs].
  - assert (HP' : parse_unit (kind_of g0 sys_id n0 k) py_int is_digit (s_entries (dc_source u)) tb t = Ok (x, tb')) by (unfold parse_unit; rewrite ID; exact HP).
    apply bind_ok in HP as ((w & tb1) & HW & _). unfold word_to_id in HW. destruct (Nat.ltb_spec (length (split_on comma t)) 8) as [|L8]; [discriminate|].
    apply bind_ok in HW as (h & Hh & HW). destruct (get_posid _ _ _) as [pos tb2]. destruct (pos <? 0); [discriminate|]. apply bind_ok in HW as (r & Hr & _).
    destruct (C56_word_reference _ _ _ _ _ _ _ _ h r ID HP' Hh Hr) as [(i & e & Hi & E1 & _ & E2 & Ex)|(g & si & n & Ek & Es & Ep)].
    + assert (Li : (i < length (s_entries (dc_source u)))%nat) by (apply nth_error_Some; congruence).
      assert (SZ : Z.of_nat (length (s_entries (dc_source u))) <= 2 ^ 28).
      { pose proof (dic_built _ _ _ _ _ _ _ _ (bf_system _ _ _ _ _ _ _ _ _ _ _ _ _ _ BF) (bf_users _ _ _ _ _ _ _ _ _ _ _ _ _ _ BF) k u Hk) as B. destruct B as (_ & _ & _ & _ & _ & _ & _ & _ & _ & _ & SZ). exact SZ. }
      assert (Q : y = Z.of_nat k * 2 ^ 28 + Z.of_nat i).
      { destruct k as [|k]; cbn [kind_of] in Ex.
        - subst x. destruct R as [(_ & -> & _)|(R & _)]; lia.
        - destruct (lor_28 (Z.of_nat i)) as (L1 & L2); [lia|]. rewrite <- Ex in L1, L2. destruct R as [(R & _)|(_ & -> & _)]; [lia|]. rewrite L2, Z.mod_small by lia. reflexivity. }
      subst y. destruct (own_entry k u i css Hk Hc Li) as (e' & cs & He & Hcs & E & A4 & A11). assert (e' = e) by congruence. subst e'.
      exists cs. split; [exact E|]. eapply MN_word; [apply split_pieces|exact L8|exact Hh|exact Hr|left; eapply nth_error_In; eauto|congruence|left; congruence].
    + destruct k as [|k]; cbn [kind_of] in Ek; [discriminate|]. injection Ek as <- <- <-. destruct (SID _ _ _ _ Es Ep) as (e & He & E1 & E2).
      assert (LX : (Z.to_nat x < length (s_entries (dc_source system)))%nat) by (apply nth_error_Some; congruence).
      assert (SZ : Z.of_nat (length (s_entries (dc_source system))) <= 2 ^ 28).
      { pose proof (dic_built _ _ _ _ _ _ _ _ (bf_system _ _ _ _ _ _ _ _ _ _ _ _ _ _ BF) (bf_users _ _ _ _ _ _ _ _ _ _ _ _ _ _ BF) 0 system eq_refl) as B. destruct B as (_ & _ & _ & _ & _ & _ & _ & _ & _ & _ & SZ). exact SZ. }
      assert (y = x) as -> by (destruct R as [(_ & R & _)|(R & _)]; [exact R|lia]).
      destruct (own_entry 0 system _ sys_css eq_refl eq_refl LX) as (e' & cs & He' & Hcs & E & A4 & A11). assert (e' = e) by congruence. subst e'. rewrite Z2Nat.id in E by lia. cbn [Z.of_nat Z.mul Z.add] in E.
      exists cs. split; [exact E|]. cbn [user_list base_list]. eapply MN_word; [apply split_pieces|exact L8|exact Hh|exact Hr|right; split; [reflexivity|eapply nth_error_In; exact Hcs]|congruence|].
      rewrite <- A11, <- E1. destruct (e_reading e); [right; auto|left; exact E2].
Qed.

Lemma units_rows k u css ws : nth_error (system :: users) k = Some u -> nth_error csss k = Some css -> forall tb xs tb' ys,
  parse_units (kind_of g0 sys_id n0 k) py_int is_digit (s_entries (dc_source u)) tb ws = Ok (xs, tb') -> Forall2 (resolves k u) xs ys ->
  exists rows, Forall2 entry_of ys rows /\ Forall2 (may_name py_int (user_list k) (base_list k) css) ws rows.
Proof.
  intros Hk Hc. induction ws as [|t ws IH]; intros tb xs tb' ys HP F; cbn [parse_units] in HP.
  - injection HP as <- <-. inversion F; subst. exists []. split; constructor.
  - apply bind_ok in HP as ((x & tb1) & H1 & HP). apply bind_ok in HP as ((xs' & tb2) & H2 & [= <- <-]). inversion F as [|? y ? ys' R F']; subst.
    destruct (unit_row k u css t x tb tb1 y Hk Hc H1 R) as (cs & E & N). destruct (IH _ _ _ _ H2 F') as (rows & E' & N'). exists (cs :: rows). split; constructor; assumption.
Qed.

(** The units of the word of a row *)
Lemma units_named k u i e css cs : nth_error (system :: users) k = Some u -> nth_error (s_entries (dc_source u)) i = Some e -> nth_error csss k = Some css -> nth_error css i = Some cs ->
  exists wi, s_lexinfo (md_settings m) (Z.of_nat k * 2 ^ 28 + Z.of_nat i) = Ok wi /\
  forall md col, mode_column md = Some col -> let ws := split_on slash (column cs col) in
    ((length ws <= 1)%nat -> (length (P_Morphemes.units md wi) <= 1)%nat) /\
    ((2 <= length ws)%nat -> length (P_Morphemes.units md wi) = length ws /\ exists rows, Forall2 entry_of (P_Morphemes.units md wi) rows /\ Forall2 (may_name py_int (user_list k) (base_list k) css) ws rows).
Proof.
  intros Hk Hi Hc Hcs. pose proof (bf_contract _ _ _ _ _ _ _ _ _ _ _ _ _ _ BF) as CT. pose proof (bf_system _ _ _ _ _ _ _ _ _ _ _ _ _ _ BF) as SB. pose proof (bf_grammar _ _ _ _ _ _ _ _ _ _ _ _ _ _ BF) as GO. pose proof (bf_users _ _ _ _ _ _ _ _ _ _ _ _ _ _ BF) as UB.
  pose proof (files_loaded _ _ _ _ _ _ _ _ _ _ _ _ _ _ _ _ _ _ _ _ _ _ _ BF MK) as FL.
  destruct (bf_forms _ _ _ _ _ _ _ _ _ _ _ _ _ _ BF u i (nth_error_In _ _ Hk)) as (n & Hn & CE); [apply nth_error_Some; congruence|].
  destruct (entry_columns k u i e Hk Hi) as (cs' & R' & _ & _ & _ & _ & A15 & A16).
  assert (cs' = cs) by (destruct R' as (css' & Y1 & Y2); congruence). subst cs'.
  assert (SI : system_ids (kind_of g0 sys_id n0 k)) by (destruct k; [exact I|exact (bf_sys_id _ _ _ _ _ _ _ _ _ _ _ _ _ _ BF)]).
  destruct (C40_splits _ _ _ _ CT _ _ _ _ _ _ _ _ SB GO eq_refl UB FL k u i e n SI Hk Hi CE Hn) as (wi & a & bb & c' & t1 & t2 & t3 & t4 & E' & PA & PB & _ & RA & RB & _).
  exists wi. split; [exact E'|].
  assert (G : forall col text tb xs tb' ys, text = column cs col -> parse_splitinfo (kind_of g0 sys_id n0 k) py_int is_digit (s_entries (dc_source u)) tb text = Ok (xs, tb') -> Forall2 (resolves k u) xs ys ->
     let ws := split_on slash (column cs col) in
     ((length ws <= 1)%nat -> (length ys <= 1)%nat) /\ ((2 <= length ws)%nat -> length ys = length ws /\ exists rows, Forall2 entry_of ys rows /\ Forall2 (may_name py_int (user_list k) (base_list k) css) ws rows)).
  { intros col txt0 tb xs tb' ys -> HP F. cbn zeta. assert (LF : forall A B (P : A -> B -> Prop) l l', Forall2 P l l' -> length l = length l') by (induction 1; cbn [length]; congruence).
    unfold parse_splitinfo in HP. destruct (teqb (column cs col) star) eqn:ES.
    { apply teqb_eq in ES. rewrite ES. injection HP as <- <-. inversion F; subst. split; [cbn; lia|]. intros L. exfalso. change (split_on slash star) with [star] in L. cbn [length] in L. lia. }
    destruct (_ <? _)%nat; [discriminate|]. destruct (units_rows k u css _ Hk Hc _ _ _ _ HP F) as (rows & FE & FN).
    assert (LL : length ys = length (split_on slash (column cs col))) by (apply LF in FE, FN; congruence).
    split; [lia|]. intros _. split; [exact LL|]. exists rows. auto. }
  intros md col Hm. destruct md; cbn [mode_column] in Hm; try discriminate; injection Hm as <-; cbn [P_Morphemes.units].
  - eapply G; [exact A15|exact PA|exact RA].
  - eapply G; [exact A16|exact PB|exact RB].
Qed.

Lemma nodes_ids ys : forall o ns, split_nodes (s_lexinfo (md_settings m)) o ys = Ok ns -> Forall2 (fun y v => w_id v = y /\ lexical v) ys ns.
Proof.
  induction ys as [|y ys IH]; intros o ns S; cbn [split_nodes] in S; [injection S as <-; constructor|].
  apply bind_ok in S as (nd & End & S). apply bind_ok in S as (wi & _ & S). apply bind_ok in S as (ns' & Es & [= <-]).
  unfold lex_node in End. apply bind_ok in End as (z & Ez & [= <-]). apply to_int_ok in Ez as (-> & _). constructor; [|eauto]. split; [reflexivity|]. repeat split.
Qed.

Hypothesis WS : all_well_split py_int sys_css user_csss.
Lemma list_well k css : nth_error csss k = Some css -> well_split py_int (user_list k) (base_list k) css.
Proof.
  destruct WS as (W0 & WU). destruct k as [|k]; cbn [nth_error user_list base_list]; intros H; [injection H as <-; exact W0|]. rewrite Forall_forall in WU. apply WU. eapply nth_error_In; eauto.
Qed.

Lemma word_units y cs : entry_of y cs -> exists wi b, s_lexinfo (md_settings m) y = Ok wi /\ encode (column cs 0) = Ok b /\ wi_length wi = length b /\
  forall md, (length (P_Morphemes.units md wi) <= 1)%nat \/ exists rows, Forall2 entry_of (P_Morphemes.units md wi) rows /\ concat (map (fun cs => column cs 0) rows) = column cs 0.
Proof.
  intros (k & u & i & e & Hk & Hi & -> & R). pose proof (bf_contract _ _ _ _ _ _ _ _ _ _ _ _ _ _ BF) as CT. pose proof (bf_system _ _ _ _ _ _ _ _ _ _ _ _ _ _ BF) as SB. pose proof (bf_grammar _ _ _ _ _ _ _ _ _ _ _ _ _ _ BF) as GO. pose proof (bf_users _ _ _ _ _ _ _ _ _ _ _ _ _ _ BF) as UB.
  pose proof (files_loaded _ _ _ _ _ _ _ _ _ _ _ _ _ _ _ _ _ _ _ _ _ _ _ BF MK) as FL.
  destruct (bf_forms _ _ _ _ _ _ _ _ _ _ _ _ _ _ BF u i (nth_error_In _ _ Hk)) as (n & Hn & CE); [apply nth_error_Some; congruence|].
  destruct (entry_columns k u i e Hk Hi) as (cs' & R' & _ & _ & (b & Eb & Lb) & _ & A15 & A16).
  assert (cs' = cs) by (destruct R as (css & X1 & X2), R' as (css' & Y1 & Y2); congruence). subst cs'.
  destruct R as (css & Hc & Hcs).
  assert (SI : system_ids (kind_of g0 sys_id n0 k)) by (destruct k; [exact I|exact (bf_sys_id _ _ _ _ _ _ _ _ _ _ _ _ _ _ BF)]).
  destruct (C40_other_columns _ _ _ _ CT _ _ _ _ _ _ _ _ SB GO eq_refl UB FL k u i e n Hk Hi CE Hn) as (wi & Ewi & _ & EL & _).
  destruct (C40_splits _ _ _ _ CT _ _ _ _ _ _ _ _ SB GO eq_refl UB FL k u i e n SI Hk Hi CE Hn) as (wi' & a & bb & c' & t1 & t2 & t3 & t4 & E' & PA & PB & _ & RA & RB & _).
  rewrite Ewi in E'. injection E' as <-. exists wi, b. split; [exact Ewi|]. split; [exact Eb|]. split; [congruence|].
  assert (G : forall col text tb xs tb' ys, In col [15; 16]%nat -> text = column cs col -> parse_splitinfo (kind_of g0 sys_id n0 k) py_int is_digit (s_entries (dc_source u)) tb text = Ok (xs, tb') -> Forall2 (resolves k u) xs ys ->
     (length ys <= 1)%nat \/ exists rows, Forall2 entry_of ys rows /\ concat (map (fun cs => column cs 0) rows) = column cs 0).
  { intros col txt0 tb xs tb' ys Hcol -> HP F. unfold parse_splitinfo in HP. destruct (teqb _ _); [injection HP as <- <-; inversion F; subst; left; cbn; lia|].
    destruct (_ <? _)%nat; [discriminate|]. destruct (units_rows k u css _ Hk Hc _ _ _ _ HP F) as (rows & FE & FN).
    assert (LL : length ys = length (split_on slash (column cs col))).
    { assert (LF : forall A B (P : A -> B -> Prop) l l', Forall2 P l l' -> length l = length l') by (induction 1; cbn [length]; congruence). apply LF in FE, FN. congruence. }
    destruct (le_lt_dec (length ys) 1) as [L|L]; [left; exact L|right]. exists rows. split; [exact FE|].
    apply (list_well k css Hc cs col (split_on slash (column cs col)) rows); [eapply nth_error_In; eauto|exact Hcol|apply split_pieces|lia|exact FN]. }
  intros md. destruct md; cbn [P_Morphemes.units].
  - eapply (G 15%nat); [now left|exact A15|exact PA|exact RA].
  - eapply (G 16%nat); [right; now left|exact A16|exact PB|exact RB].
  - eapply (G 16%nat); [right; now left|exact A16|exact PB|exact RB].
Qed.

(** A word of the lexicon that stands where its headword is in the text *)
Section text.
Context {t orig : text} {m2o : list nat} {cats : list (list cat)} {it : input_text}.
Context (B : P_InputText.built t orig m2o cats it).
Definition spelled (w : wnode) : Prop :=
  lexical w /\ exists cs a b, entry_of (w_id w) cs /\ (a <= b <= length t)%nat /\ w_begin w = char_start t a /\ w_end w = char_start t b /\ column cs 0 = slice t a b.

Lemma app_cut {A} (a a' b b' : list A) : length a = length a' -> a ++ b = a' ++ b' -> a = a' /\ b = b'.
Proof. revert a'. induction a as [|x a IH]; intros [|x' a'] L E; cbn in L; try discriminate; [auto|]. injection E as -> E. injection L as L. destruct (IH _ L E). subst. auto. Qed.

Lemma slice_cut {A} (l : list A) o e b1 b2 : (o <= e <= length l)%nat -> slice l o e = b1 ++ b2 ->
  (o + length b1 <= e)%nat /\ slice l o (o + length b1) = b1 /\ slice l (o + length b1) e = b2.
Proof.
  intros H E. assert (L : (length b1 + length b2 = e - o)%nat) by (rewrite <- app_length, <- E, slice_length; lia).
  split; [lia|]. pose proof (P_Morphemes.slice_split l o (o + length b1) e ltac:(lia) ltac:(lia)) as S. rewrite E in S.
  assert (L1 : length (slice l o (o + length b1)) = length b1) by (rewrite slice_length; lia).
  destruct (app_cut _ _ _ _ L1 S). auto.
Qed.

Lemma start_plus a b bs : (a <= b <= length t)%nat -> encode (slice t a b) = Ok bs -> char_start t b = (char_start t a + length bs)%nat.
Proof.
  intros H E. rewrite (slice_encode B a b) in E by lia. injection E as <-. pose proof (char_start_mono t a b ltac:(lia)). pose proof (char_start_mono t b (length t) ltac:(lia)). pose proof (len_bytes B) as L.
  rewrite slice_length by lia. lia.
Qed.

Lemma nodes_spelled ys : forall rows a b ns, Forall2 entry_of ys rows -> concat (map (fun cs => column cs 0) rows) = slice t a b -> (a <= b <= length t)%nat ->
  split_nodes (s_lexinfo (md_settings m)) (char_start t a) ys = Ok ns -> Forall spelled ns /\ covers (char_start t a) (map to_step ns) (char_start t b).
Proof.
  induction ys as [|y ys IH]; intros rows a b ns F E H S; inversion F as [|? cs ? rows' Ey F']; subst; cbn [split_nodes] in S.
  - injection S as <-. split; [constructor|]. cbn [map concat] in E. cbn [map covers]. assert (L : length (slice t a b) = 0%nat) by (rewrite <- E; reflexivity). rewrite slice_length in L by lia. f_equal. lia.
  - apply bind_ok in S as (nd & End & S). apply bind_ok in S as (wi & Ew & S). apply bind_ok in S as (ns' & Es & [= <-]).
    unfold lex_node in End. apply bind_ok in End as (z & Ez & [= <-]). apply to_int_ok in Ez as (-> & _). unfold node_info in Ew. cbn [w_defined w_extra negb w_id] in Ew.
    destruct (word_units y cs Ey) as (wi' & bs & Ewi & Eb & Lb & _). rewrite Ew in Ewi. injection Ewi as <-.
    cbn [map concat] in E. symmetry in E. destruct (slice_cut _ _ _ _ _ H E) as (L & S1 & S2).
    assert (ST : (char_start t a + wi_length wi = char_start t (a + length (column cs 0)))%nat) by (rewrite Lb; symmetry; apply start_plus; [lia|rewrite S1; exact Eb]).
    rewrite ST in *.
    destruct (IH rows' (a + length (column cs 0))%nat b ns' F') as (A & C); [symmetry; exact S2|lia|exact Es|].
    split.
    + constructor; [|exact A]. split; [repeat split|]. cbn [set_range w_begin w_end w_id]. exists cs, a, (a + length (column cs 0))%nat. split; [exact Ey|]. split; [lia|]. auto.
    + cbn [map covers to_step s_begin s_end set_range w_begin w_end]. split; [reflexivity|]. split; [apply char_start_mono; lia|exact C].
Qed.

Definition placed (w : wnode) : Prop := (exists o pos, made_up w o pos) \/ spelled w.

Lemma one_placed md w ns : (w_begin w <= w_end w)%nat -> placed w -> split_one (s_lexinfo (md_settings m)) md w = Ok ns ->
  Forall placed ns /\ covers (w_begin w) (map to_step ns) (w_end w) /\ ns <> [].
Proof.
  intros LE H E. unfold split_one in E. apply bind_ok in E as (wi & Ew & E). fold (P_Morphemes.units md wi) in E.
  assert (SELF : ns = [w] -> Forall placed ns /\ covers (w_begin w) (map to_step ns) (w_end w) /\ ns <> []).
  { intros ->. split; [constructor; [exact H|constructor]|]. split; [cbn [map covers to_step s_begin s_end]; auto|discriminate]. }
  destruct (Nat.leb_spec (length (P_Morphemes.units md wi)) 1) as [L|L]; [injection E as <-; auto|].
  destruct H as [(o & pos & _ & D1 & wi' & X & _ & A & C)|((_ & X & D1) & cs & a & b & Ey & BE & Hb & He & Ec)]; unfold node_info in Ew; rewrite D1, X in Ew; cbn [negb] in Ew.
  - injection Ew as <-. exfalso. unfold P_Morphemes.units in L. destruct md; rewrite ?A, ?C in L; cbn in L; lia.
  - destruct (word_units _ _ Ey) as (wi' & bs & Ewi & Eb & _ & U). rewrite Ew in Ewi. injection Ewi as <-. destruct (U md) as [U'|(rows & FE & FC)]; [lia|].
    rewrite Hb, He in *. destruct (nodes_spelled (P_Morphemes.units md wi) rows a b ns FE) as (A & C); [congruence|exact BE|exact E|].
    split; [eapply Forall_impl; [|exact A]; intros v Hv; right; exact Hv|]. split; [exact C|].
    intros ->. destruct (P_Morphemes.units md wi) as [|y ys]; [cbn in L; lia|]. cbn [split_nodes] in E. repeat (apply bind_ok in E as (? & _ & E)). discriminate E.
Qed.

(** The words of the C mode path and what they are split into *)
Lemma path_placed md p : forall b e q, covers b (map to_step p) e -> Forall (placed) p -> split_path (s_lexinfo (md_settings m)) md p = Ok q ->
  exists nss, q = concat nss /\ Forall2 (fun w ns => Forall (placed) ns /\ covers (w_begin w) (map to_step ns) (w_end w) /\ ns <> []) p nss.
Proof.
  intros b e q C F E.
  assert (Q : md = ModeC /\ q = p \/ exists nss, mapM (split_one (s_lexinfo (md_settings m)) md) p = Ok nss /\ q = concat nss).
  { destruct md; cbn [split_path] in E; [right|right|left; injection E as <-; auto]; apply bind_ok in E as (nss & E1 & [= <-]); eauto. }
  clear E. assert (LE : Forall (fun w => (w_begin w <= w_end w)%nat) p).
  { clear - C. revert b C. induction p as [|w p IH]; intros b C; constructor; cbn [map covers to_step s_begin s_end] in C; [lia|]. eapply IH. apply C. }
  destruct Q as [(-> & ->)|(nss & E & ->)].
  - exists (map (fun w => [w]) p). split; [clear; induction p; cbn [map concat app]; congruence|]. clear C. induction p as [|w p IH]; cbn [map]; constructor; inversion F; inversion LE; subst; auto.
    split; [constructor; [assumption|constructor]|]. split; [cbn [map covers to_step s_begin s_end]; auto|discriminate].
  - exists nss. split; [reflexivity|]. clear C. revert nss E. induction p as [|w p IH]; intros nss E; cbn [mapM] in E; [injection E as <-; constructor|].
    apply bind_ok in E as (ns & E1 & E). apply bind_ok in E as (nss' & E2 & [= <-]). inversion F; inversion LE; subst. constructor; [eapply one_placed; eauto|eauto].
Qed.

Lemma concat_covers p (K : wnode -> Prop) : forall nss b e, covers b (map to_step p) e ->
  Forall2 (fun w ns => Forall K ns /\ covers (w_begin w) (map to_step ns) (w_end w) /\ ns <> []) p nss -> covers b (map to_step (concat nss)) e /\ Forall K (concat nss).
Proof.
  induction p as [|w p IH]; intros nss b e C F; inversion F as [|? ns ? nss' (F1 & F2 & F3) F']; subst; cbn [concat map]; [split; [exact C|constructor]|].
  cbn [map covers to_step s_begin s_end] in C. destruct C as (C1 & C2 & C3). destruct (IH _ _ _ C3 F') as (X & Y). split; [|apply Forall_app; auto].
  rewrite map_app, covers_app. exists (w_end w). split; [rewrite <- C1; exact F2|exact X].
Qed.
End text.
End units.
