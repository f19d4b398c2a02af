(** C37-C43: lexicons and sets of lexicons. *)
From Coq Require Import List ZArith Lia Bool Arith Sorted FinFun.
From Verif Require Import Base Utf8 M_Builder M_Lattice M_Tokenizer M_Bytes P_Bytes M_DicReader M_DicBuilder P_DicFormat P_DicWrite P_DicOpen
  P_DicGrammar P_DicSource P_DicLexicon P_DicFile P_DicToy Prop_Format Prop_Source M_LexiconSet P_LexiconSet.
Import ListNotations.
Open Scope Z_scope.

(** ** C37 *)
(** Dictionary [k] and entry [i] give an id, and the id gives them back; so different words
    have different ids.  The id of the system dictionary is the entry number. *)
Theorem C37_ids s k i :
  0 <= k < Z.of_nat (length (ls_lexicons s)) -> 0 <= i <= 0x0FFFFFFF ->
  exists id, ls_build_word_id s k i = Ok id /\ ls_dictionary_id id = k /\ ls_word_id1 id = i /\ (k = 0 -> id = i).
Proof.
  intros Hk Hi. exists (k * 2 ^ 28 + i). split; [apply build_word_id_ok; lia|]. split; [apply dictionary_id_pack; lia|].
  split; [apply word_id1_pack; lia|]. intros ->. reflexivity.
Qed.
Theorem C37_too_large s k i : 0x0FFFFFFF < i -> ls_build_word_id s k i = Err EAttribute.
Proof. intros H. unfold ls_build_word_id. replace (_ <? i) with true by (symmetry; apply Z.ltb_lt; lia). reflexivity. Qed.
Print Assumptions C37_ids.
Print Assumptions C37_too_large.

(** A part of speech that a row was accepted with is not negative. *)
Lemma row_pos_nonneg k py_int tb row e tb' : parse_line k py_int tb row = Ok (e, tb') -> 0 <= e_pos e.
Proof.
  unfold parse_line. destruct (length row <? 18)%nat; [discriminate|]. intros H.
  apply bind_ok in H as (cs & Hc & H). apply bind_ok in H as (head & Hh & H). cbv zeta in H.
  destruct (negb _); [discriminate H|]. destruct (nth 0 cs []) as [|c0 h0]; [discriminate H|].
  apply bind_ok in H as (left & Hl & H). apply bind_ok in H as (right & Hr & H). apply bind_ok in H as (cost & Hk & H).
  destruct (get_posid k tb (slice cs 5 11)) as [pos t2]. destruct (pos <? 0) eqn:P; [discriminate H|]. Zbool.
  apply bind_ok in H as (u1 & _ & H). apply bind_ok in H as (u2 & _ & H). apply bind_ok in H as (u3 & _ & H).
  destruct (_ && _); [discriminate H|].
  apply bind_ok in H as (syn & _ & H). apply bind_ok in H as (did & _ & H).
  match type of H with Ok (?x, _) = Ok _ => assert (Ee : e_pos e = e_pos x) by congruence end. rewrite Ee. exact P.
Qed.

Section loading.
Variable py_int : text -> res Z.
Variable is_digit : Z -> bool.
Variable search : bytes -> bytes -> list (Z * nat).
Variable trie_array : list (bytes * Z) -> res bytes.
Hypothesis contract : trie_contract search trie_array.
Variable limit : nat.
Variable analyse : grammar -> lexset -> text -> res (Z * nat).
(** A system dictionary and user dictionaries made with it, each from its source; all are
    loaded. *)
Variables (g0 : grammar) (sys_id : text -> Z -> text -> res Z) (n0 : nat) (system : dic) (users : list dic) (ds : dictset).
Hypothesis system_built : built py_int is_digit trie_array SystemDic system.
Hypothesis g0_of : exists dict, from_system_dictionary (dc_file system) = Ok dict /\ d_grammar dict = Some g0.
Hypothesis n0_of : n0 = length (s_entries (dc_source system)).
Hypothesis users_built : Forall (built py_int is_digit trie_array (UserDic g0 sys_id n0)) users.
Hypothesis dictionaries_loaded : load_dictionaries limit analyse (dc_file system) (map dc_file users) = Ok ds.

Let L : loaded py_int is_digit search g0 sys_id n0 system users ds.
Proof. eapply load_ok; eauto. Qed.

Lemma dic_built k u : nth_error (system :: users) k = Some u -> built py_int is_digit trie_array (kind_of g0 sys_id n0 k) u.
Proof.
  destruct k as [|k]; cbn [nth_error kind_of]; intros H; [injection H as <-; exact system_built|].
  rewrite Forall_forall in users_built. apply users_built. eapply nth_error_In; eauto.
Qed.

(** ** C38 *)
Lemma dic_lookup k u lx id t off : nth_error (system :: users) k = Some u -> nth_error (ls_lexicons (ds_lexicon ds)) k = Some (id, lx) ->
  snd (lx_lookup search lx t off) = None /\ NoDup (fst (lx_lookup search lx t off)) /\
  ((off <= length t)%nat -> forall w e, In (w, e) (fst (lx_lookup search lx t off)) <->
     exists i x h, w = Z.of_nat i /\ (off <= e <= length t)%nat /\ nth_error (s_entries (dc_source u)) i = Some x /\ e_headword x = Some h /\ encode h = Ok (slice t off e)) /\
  Forall small (fst (lx_lookup search lx t off)).
Proof.
  intros Hk Hl. destruct (ld_words _ _ _ _ _ _ _ _ _ L k u Hk) as (id' & lx' & Hl' & lx0 & LO & LS & SW).
  rewrite Hl in Hl'. injection Hl' as <- <-. rewrite <- (same_lookup _ _ _ t off SW).
  pose proof (dic_built _ _ Hk) as B. destruct (built_opens _ _ _ _ contract _ _ B) as (SO & _). destruct B as (_ & _ & _ & _ & _ & _ & _ & _ & _ & _ & SZ).
  destruct (lookup_nodup _ _ _ _ _ _ t off LO SO) as [ND NN]. split; [exact NN|]. split; [exact ND|]. split.
  - intros Ho w e. rewrite (lookup_iff _ _ _ _ _ _ _ _ _ _ LO SO Ho). split.
    + intros (i & -> & He & x & h & A & B & C). exists i, x, h. auto.
    + intros (i & x & h & -> & He & A & B & C). exists i. split; [auto|]. split; [auto|]. exists x, h. auto.
  - rewrite Forall_forall. intros (w & e) Hin. unfold small. cbn [fst].
    rewrite (lexicon_lookup _ _ _ _ _ _ _ _ LO) in Hin. cbn [fst] in Hin. apply in_concat in Hin as (l & Hl1 & Hin).
    apply in_map_iff in Hl1 as ((key & ws) & <- & Hk1). apply filter_In in Hk1 as [Hk1 _]. cbn [fst snd] in Hin. apply in_map_iff in Hin as (i & Ei & Hi).
    injection Ei as <- _. pose proof (so_wids _ SO) as W. rewrite Forall_forall in W. destruct (W _ Hk1) as (_ & Wb & _). cbn [snd] in Wb.
    rewrite Forall_forall in Wb. apply Wb in Hi. lia.
Qed.

Lemma set_not_empty : ls_lexicons (ds_lexicon ds) <> [].
Proof. intros E. pose proof (ld_count _ _ _ _ _ _ _ _ _ L) as X. rewrite E in X. discriminate X. Qed.

Lemma all_lookups t off : Forall (fun lx => snd (lx_lookup search (snd lx) t off) = None /\ Forall small (fst (lx_lookup search (snd lx) t off))) (ls_lexicons (ds_lexicon ds)).
Proof.
  rewrite Forall_forall. intros (id & lx) Hin. apply In_nth_error in Hin as (k & Hk). cbn [snd].
  assert (Lt : (k < S (length users))%nat). { rewrite <- (ld_count _ _ _ _ _ _ _ _ _ L). apply nth_error_Some. congruence. }
  destruct (nth_error (system :: users) k) as [u|] eqn:E; [|apply nth_error_None in E; cbn [length] in E; lia].
  destruct (dic_lookup _ _ _ _ t off E Hk) as (A & _ & _ & B). auto.
Qed.

(** [lookup] does not fail and finds exactly the words: the words of the loaded dictionaries
    of which the headword is the text from [off] to the end that is reported. *)
Theorem C38_finds t off : (off <= length t)%nat ->
  snd (ls_lookup search (ds_lexicon ds) t off) = None /\
  forall id e, In (id, e) (fst (ls_lookup search (ds_lexicon ds) t off)) <->
    exists k u i x h, nth_error (system :: users) k = Some u /\ nth_error (s_entries (dc_source u)) i = Some x /\ id = Z.of_nat k * 2 ^ 28 + Z.of_nat i /\
      (off <= e <= length t)%nat /\ e_headword x = Some h /\ encode h = Ok (slice t off e).
Proof.
  intros Ho. rewrite (ls_lookup_ok _ _ _ _ set_not_empty (all_lookups t off)). cbn [fst snd]. split; [reflexivity|]. intros id e. rewrite in_concat. split.
  - intros (l & Hl & Hin). apply in_map_iff in Hl as ((k & lx) & <- & Hk). cbn [fst snd] in Hin. apply in_map_iff in Hin as ((w & e') & Ew & Hw).
    unfold in_dictionary in Ew. cbn [fst snd] in Ew. injection Ew as <- <-.
    apply turns_spec in Hk as (id & Hk).
    assert (Lt : (k < S (length users))%nat). { rewrite <- (ld_count _ _ _ _ _ _ _ _ _ L). apply nth_error_Some. congruence. }
    destruct (nth_error (system :: users) k) as [u|] eqn:E; [|apply nth_error_None in E; cbn [length] in E; lia].
    destruct (dic_lookup _ _ _ _ t off E Hk) as (_ & _ & I & _). apply (I Ho) in Hw as (i & x & h & -> & He & A & B & C).
    exists k, u, i, x, h. auto 8.
  - intros (k & u & i & x & h & Hk & Hi & -> & He & Hh & Hs).
    destruct (ld_words _ _ _ _ _ _ _ _ _ L k u Hk) as (id' & lx & Hl & _).
    exists (map (in_dictionary k) (fst (lx_lookup search lx t off))). split.
    + apply in_map_iff. exists (k, lx). split; [reflexivity|]. apply turns_spec. eauto.
    + apply in_map_iff. exists (Z.of_nat i, e). split; [reflexivity|]. destruct (dic_lookup _ _ _ _ t off Hk Hl) as (_ & _ & I & _).
      apply (I Ho). exists i, x, h. auto 8.
Qed.

(** No word is found twice; the words of user dictionaries come first, by dictionary, and the
    words of the system dictionary last. *)
Theorem C38_order t off :
  let found := fst (ls_lookup search (ds_lexicon ds) t off) in
  NoDup found /\
  StronglySorted (fun a b => fst b < 2 ^ 28 \/ (2 ^ 28 <= fst a /\ fst a / 2 ^ 28 <= fst b / 2 ^ 28)) found.
Proof.
  cbn zeta. rewrite (ls_lookup_ok _ _ _ _ set_not_empty (all_lookups t off)). cbn [fst].
  assert (T : forall k lx, In (k, lx) (turns (ds_lexicon ds)) -> NoDup (fst (lx_lookup search lx t off)) /\ Forall small (fst (lx_lookup search lx t off))).
  { intros k lx Hk. apply turns_spec in Hk as (id & Hk).
    assert (Lt : (k < S (length users))%nat). { rewrite <- (ld_count _ _ _ _ _ _ _ _ _ L). apply nth_error_Some. congruence. }
    destruct (nth_error (system :: users) k) as [u|] eqn:E; [|apply nth_error_None in E; cbn [length] in E; lia].
    destruct (dic_lookup _ _ _ _ t off E Hk) as (_ & A & _ & B). auto. }
  pose proof (turns_sorted (ds_lexicon ds)) as TS. revert T TS. generalize (turns (ds_lexicon ds)) as l.
  assert (DIV : forall k p, small p -> fst (in_dictionary k p) / 2 ^ 28 = Z.of_nat k).
  { intros k p Hp. unfold in_dictionary. cbn [fst]. rewrite Z.div_add_l by lia. rewrite Z.div_small by exact Hp. lia. }
  induction l as [|(k & lx) l IH]; intros T TS; [split; constructor|]. cbn [map concat fst snd].
  destruct (T k lx (or_introl eq_refl)) as [ND SM]. inversion TS as [|? ? TS' F]; subst.
  destruct (IH (fun a b H => T a b (or_intror H)) TS') as [ND' SS']. clear IH.
  set (rest := concat (map _ l)) in *.
  assert (R : forall x, In x rest -> exists k' p, In k' (map fst l) /\ small p /\ x = in_dictionary k' p).
  { intros x Hx. unfold rest in Hx. apply in_concat in Hx as (y & Hy & Hx). apply in_map_iff in Hy as ((k' & lx') & <- & Hk'). cbn [fst snd] in Hx.
    apply in_map_iff in Hx as (p & <- & Hp). exists k', p. split; [apply in_map_iff; exists (k', lx'); auto|]. split; [|reflexivity].
    destruct (T k' lx' (or_intror Hk')) as [_ X]. rewrite Forall_forall in X. auto. }
  assert (F' : forall k', In k' (map fst l) -> k <> 0%nat /\ before k k').
  { intros k' Hk'. apply in_map_iff in Hk' as (y & <- & Hy). rewrite Forall_forall in F. apply F in Hy. exact Hy. }
  split.
  - assert (X : forall a b : list (Z * nat), NoDup a -> NoDup b -> (forall x, In x a -> ~ In x b) -> NoDup (a ++ b)).
    { clear. induction a as [|x a IH]; intros b Ha Hb D; cbn [app]; auto. inversion Ha; subst. constructor.
      - intros Y. apply in_app_or in Y as [Y|Y]; [auto|]. apply (D x); [now left|auto].
      - apply IH; auto. intros y Hy. apply D. now right. }
    apply X; auto.
    + apply Injective_map_NoDup; [|exact ND]. intros (w & e) (w' & e') E. unfold in_dictionary in E. cbn [fst snd] in E. injection E as E1 E2. f_equal; [lia|exact E2].
    + intros x Hx Hy. apply in_map_iff in Hx as (p & <- & Hp). apply R in Hy as (k' & p' & Hk' & Sp' & E).
      rewrite Forall_forall in SM. apply SM in Hp. pose proof (DIV k p Hp) as D1. rewrite E, (DIV k' p' Sp') in D1.
      destruct (F' _ Hk') as [N0 [B|B]]; lia.
  - assert (X : forall a, Forall small a -> StronglySorted (fun a b => fst b < 2 ^ 28 \/ (2 ^ 28 <= fst a /\ fst a / 2 ^ 28 <= fst b / 2 ^ 28)) (map (in_dictionary k) a ++ rest)).
    { induction 1 as [|p a Hp Fa IHa]; cbn [map app]; [exact SS'|]. constructor; [exact IHa|]. apply Forall_app. split.
      - rewrite Forall_forall in *. intros y Hy. apply in_map_iff in Hy as (q & <- & Hq). pose proof (DIV k q (Fa q Hq)). pose proof (DIV k p Hp).
        unfold in_dictionary in *. cbn [fst] in *. destruct k as [|k]; [left|right]; unfold small in *; [specialize (Fa q Hq); cbn [Z.of_nat]; lia|]. lia.
      - rewrite Forall_forall. intros y Hy. apply R in Hy as (k' & q & Hk' & Sq & ->). rewrite (DIV k p Hp), (DIV k' q Sq).
        destruct (F' _ Hk') as [N0 [->|B]].
        + left. unfold in_dictionary. cbn [fst]. unfold small in Sq. lia.
        + right. unfold in_dictionary. cbn [fst]. unfold small in Hp. lia. }
    apply X. exact SM.
Qed.

(** ** C39 and C40 *)
(** An id in the split information of a word of dictionary [k] *)
Definition resolved (k : nat) (x : Z) : Z := if x <? 2 ^ 28 then x else Z.of_nat k * 2 ^ 28 + x mod 2 ^ 28.

Lemma convert_split_ok s k l : (k <= length (ls_lexicons s))%nat -> ls_convert_split s l (Z.of_nat k) = Ok (map (resolved k) l).
Proof.
  intros Hk. unfold ls_convert_split. induction l as [|x l IH]; [reflexivity|]. cbn [mapM map]. rewrite IH.
  assert (R : (if 0 <? ls_dictionary_id x then ls_build_word_id s (Z.of_nat k) (ls_word_id1 x) else Ok x) = Ok (resolved k x)).
  { unfold resolved, ls_dictionary_id. rewrite Z.shiftr_div_pow2 by lia. destruct (x <? 2 ^ 28) eqn:E; Zbool.
    - replace (0 <? x / 2 ^ 28) with false; [reflexivity|]. symmetry. apply Z.ltb_ge.
      assert (x / 2 ^ 28 < 1) by (apply Z.div_lt_upper_bound; lia). lia.
    - replace (0 <? x / 2 ^ 28) with true; [|symmetry; apply Z.ltb_lt; assert (1 <= x / 2 ^ 28) by (apply Z.div_le_lower_bound; lia); lia].
      pose proof (Z.mod_pos_bound x (2 ^ 28) ltac:(lia)). rewrite build_word_id_ok, word_id1_mod; [reflexivity|lia|]. rewrite word_id1_mod. lia. }
  rewrite R. reflexivity.
Qed.

Lemma offset_first : users <> [] -> get (ls_offsets (ds_lexicon ds)) 1 = Ok (Z.of_nat (length (g_pos g0))).
Proof.
  intros NE. rewrite (ld_offsets _ _ _ _ _ _ _ _ _ L), (g0_pos _ _ _ _ contract _ _ system_built g0_of).
  destruct users as [|u us]; [congruence|]. reflexivity.
Qed.

Lemma offset_of_nth us : forall n j u, nth_error us j = Some u -> get (offsets_of n us) j = Ok (Z.of_nat (n + length (concat (map own_pos (firstn j us))))).
Proof.
  induction us as [|v us IH]; intros n j u Hj; [destruct j; discriminate Hj|]. destruct j as [|j].
  - cbn [offsets_of firstn map concat length]. now rewrite Nat.add_0_r.
  - cbn [offsets_of firstn map concat length]. cbn [nth_error] in Hj. rewrite app_length, Nat.add_assoc. apply (IH _ _ _ Hj).
Qed.

(** The word info of entry [i] of dictionary [k]: all columns but part of speech and ids are
    those of the dictionary's own lexicon. *)
Lemma dic_word_info k u i e n : nth_error (system :: users) k = Some u -> nth_error (s_entries (dc_source u)) i = Some e ->
  chain_ends (s_entries (dc_source u)) n i -> (n <= limit)%nat ->
  exists wi0 wi, info_of (kind_of g0 sys_id n0 k) py_int is_digit (s_entries (dc_source u)) i wi0 /\
    ls_word_info limit (ds_lexicon ds) (Z.of_nat k * 2 ^ 28 + Z.of_nat i) = Ok wi /\
    wi_surface wi = e_surface e /\ wi_length wi = wi_length wi0 /\ wi_norm wi = wi_norm wi0 /\ wi_reading wi = wi_reading wi0 /\
    wi_dic_id wi = e_dic_id e /\ wi_dic wi = dictionary_form_of (s_entries (dc_source u)) e /\ wi_syn wi = wi_syn wi0 /\
    wi_a wi = map (resolved k) (wi_a wi0) /\ wi_b wi = map (resolved k) (wi_b wi0) /\ wi_struct wi = map (resolved k) (wi_struct wi0) /\
    wi_pos wi = (if (0 <? k)%nat && (Z.of_nat (length (g_pos g0)) <=? e_pos e)
                 then e_pos e - Z.of_nat (length (g_pos g0)) + Z.of_nat (length (own_pos system ++ concat (map own_pos (firstn (k - 1) users))))
                 else e_pos e).
Proof.
  intros Hk Hi C Hn. destruct (ld_words _ _ _ _ _ _ _ _ _ L k u Hk) as (id & lx & Hl & lx0 & LO & LS & SW).
  pose proof (dic_built _ _ Hk) as B. destruct B as (_ & _ & _ & _ & _ & _ & _ & _ & _ & F & SZ).
  assert (Ii : (i < length (s_entries (dc_source u)))%nat) by (apply nth_error_Some; congruence).
  destruct (lexicon_word_info _ _ _ _ _ _ limit n i 0 LO LS F C Hn ltac:(lia)) as (e' & wi0 & He' & I & P).
  assert (e' = e) by congruence. subst e'.
  assert (P' : lx_word_info limit lx (Z.of_nat i) = Ok (set_dictionary_form wi0 (dictionary_form_of (s_entries (dc_source u)) e))).
  { rewrite <- (same_info _ _ _ _ SW). unfold lx_word_info. now rewrite P. }
  assert (Kl : (k < length (ls_lexicons (ds_lexicon ds)))%nat) by (apply nth_error_Some; congruence).
  assert (PI : wi_pos wi0 = e_pos e /\ wi_surface wi0 = e_surface e /\ wi_dic_id wi0 = e_dic_id e).
  { destruct I as (e1 & ia & ib & ic & t1 & t2 & t3 & t4 & Hi1 & _ & _ & _ & ->). assert (e1 = e) by congruence. subst e1. auto. }
  destruct PI as (PI1 & PI2 & PI3).
  unfold ls_word_info, ls_lexicon. rewrite dictionary_id_pack, word_id1_pack by lia. rewrite Nat2Z.id.
  rewrite (proj2 (get_ok _ _ _) Hl). cbn [bind snd]. rewrite P'. cbn [bind].
  cbn [set_dictionary_form wi_pos wi_a wi_b wi_struct]. rewrite !convert_split_ok by lia. rewrite PI1.
  assert (PO : (if 0 <? Z.of_nat k then
            first <- get (ls_offsets (ds_lexicon ds)) 1 ;;
            if first <=? e_pos e then own <- get (ls_offsets (ds_lexicon ds)) k ;; Ok (e_pos e - first + own) else Ok (e_pos e)
          else Ok (e_pos e)) = Ok (if (0 <? k)%nat && (Z.of_nat (length (g_pos g0)) <=? e_pos e)
                 then e_pos e - Z.of_nat (length (g_pos g0)) + Z.of_nat (length (own_pos system ++ concat (map own_pos (firstn (k - 1) users))))
                 else e_pos e)).
  { destruct k as [|j]; [reflexivity|]. cbn [nth_error] in Hk. replace (0 <? Z.of_nat (S j)) with true by (symmetry; apply Z.ltb_lt; lia).
    rewrite offset_first by (intros ->; destruct j; discriminate Hk). cbn [bind]. replace (0 <? S j)%nat with true by (symmetry; apply Nat.ltb_lt; lia).
    cbn [andb]. destruct (_ <=? e_pos e); [|reflexivity].
    rewrite (ld_offsets _ _ _ _ _ _ _ _ _ L). unfold get at 1. cbn [nth_error]. fold (get (offsets_of (length (own_pos system)) users) j).
    rewrite (offset_of_nth _ _ _ _ Hk). cbn [bind]. rewrite app_length. replace (S j - 1)%nat with j by lia. reflexivity. }
  rewrite PO. cbn [bind]. exists wi0. eexists. split; [exact I|]. split; [reflexivity|].
  cbn [set_dictionary_form wi_surface wi_length wi_norm wi_reading wi_dic_id wi_dic wi_syn wi_a wi_b wi_struct wi_pos]. rewrite PI2, PI3. repeat (split; [reflexivity|]). reflexivity.
Qed.

Lemma concat_nth {A} (ls : list (list A)) : forall j l i x, nth_error ls j = Some l -> nth_error l i = Some x ->
  nth_error (concat ls) (length (concat (firstn j ls)) + i) = Some x.
Proof.
  induction ls as [|l0 ls IH]; intros j l i x Hj Hi; [destruct j; discriminate Hj|]. destruct j as [|j].
  - cbn [nth_error] in Hj. injection Hj as ->. cbn [firstn concat length Nat.add]. rewrite nth_error_app1; [exact Hi|]. apply nth_error_Some. congruence.
  - cbn [nth_error] in Hj. cbn [firstn concat]. rewrite app_length, nth_error_app2 by lia.
    replace (length l0 + length (concat (firstn j ls)) + i - length l0)%nat with (length (concat (firstn j ls)) + i)%nat by lia. eauto.
Qed.

(** The part of speech of a word, of a system word or of a word of any user dictionary, is
    the one of the columns 5 to 10 of its row. *)
Theorem C39_part_of_speech k u i row pos n :
  nth_error (system :: users) k = Some u -> nth_error (dc_rows u) i = Some row -> source_pos row pos ->
  chain_ends (s_entries (dc_source u)) n i -> (n <= limit)%nat ->
  exists wi, ls_word_info limit (ds_lexicon ds) (Z.of_nat k * 2 ^ 28 + Z.of_nat i) = Ok wi /\
    0 <= wi_pos wi /\ get_part_of_speech_string (ds_grammar ds) (wi_pos wi) = Ok pos.
Proof.
  intros Hk Hr (cs & Fc & ->) C Hn.
  pose proof (dic_built _ _ Hk) as B. destruct B as (_ & _ & _ & _ & _ & _ & HB & RP & _).
  destruct (build_rows _ _ _ _ _ HB) as (_ & _ & _ & R). destruct (R i row Hr) as (e & tb & tb' & He & Hp & EX). cbn [new_source s_entries length Nat.add] in He.
  destruct (C58_part_of_speech _ _ _ _ _ _ Hp) as (cs' & Fc' & X & Y). cbn zeta in Y.
  assert (cs' = cs). { clear - Fc Fc'. revert cs' Fc'. induction Fc as [|a b row cs H F IH]; intros cs' Fc'; inversion Fc'; subst; [reflexivity|]. f_equal; [congruence|auto]. } subst cs'.
  assert (L6 : length (slice cs 5 11) = 6%nat).
  { assert (LR : (18 <= length row)%nat) by (unfold parse_line in Hp; destruct (length row <? 18)%nat eqn:E; [discriminate Hp|]; now apply Nat.ltb_ge).
    assert (LE : length row = length cs) by (clear - Fc; induction Fc; cbn [length]; congruence). rewrite LE in LR. unfold slice. rewrite skipn_length, firstn_length. lia. }
  assert (OWN : forall j, nth_error tb' j = Some (join_with comma (slice cs 5 11)) -> nth_error (own_pos u) j = Some (slice cs 5 11)).
  { intros j Hj. apply EX in Hj. unfold own_pos. rewrite (map_nth_error (split_on comma) _ _ Hj). f_equal. apply split_join_count.
    - intros E. rewrite E in L6. discriminate L6.
    - rewrite Forall_forall in RP. apply nth_error_In in Hj. apply RP in Hj as [D _]. rewrite D, L6. reflexivity. }
  destruct (dic_word_info _ _ _ _ _ Hk He C Hn) as (wi0 & wi & _ & E & _ & _ & _ & _ & _ & _ & _ & _ & _ & _ & EP).
  exists wi. split; [exact E|]. rewrite EP. unfold get_part_of_speech_string. rewrite (ld_pos _ _ _ _ _ _ _ _ _ L).
  destruct k as [|j].
  - cbn [kind_of] in Y. cbn [nth_error] in Hk. injection Hk as <-. replace (0 <? 0)%nat with false by reflexivity. cbn [andb].
    assert (E0 : 0 <= e_pos e) by (apply (row_pos_nonneg _ _ _ _ _ _ Hp)). split; [exact E0|].
    rewrite get_app1; [apply get_ok, OWN; exact Y|]. apply nth_error_Some. rewrite (OWN _ Y). discriminate.
  - cbn [kind_of] in Y. cbn [nth_error] in Hk. replace (0 <? S j)%nat with true by reflexivity. cbn [andb].
    pose proof (g0_pos _ _ _ _ contract _ _ system_built g0_of) as G0. destruct Y as [(Yr & Yn)|(Yr & _ & Yn)].
    + replace (_ <=? e_pos e) with false by (symmetry; apply Z.leb_gt; lia). split; [lia|]. rewrite <- G0.
      rewrite get_app1; [apply get_ok, Yn|]. apply nth_error_Some. congruence.
    + replace (_ <=? e_pos e) with true by (symmetry; apply Z.leb_le; lia). split; [lia|]. rewrite app_length, <- G0.
      rewrite get_app2 by lia. apply get_ok.
      match goal with |- nth_error _ ?z = _ => replace z with (length (concat (firstn j (map own_pos users))) + (Z.to_nat (e_pos e) - length (g_pos g0)))%nat end.
      * eapply concat_nth; [apply map_nth_error; exact Hk|]. apply OWN, Yn.
      * replace (S j - 1)%nat with j by lia. rewrite firstn_map. lia.
Qed.

(** The ids of the splits and the structure: what [parse_splitinfo] (C56) gives for the
    columns of the entry, with ids of a user dictionary's own words turned into ids of
    dictionary [k]; each is the id of a word of the system dictionary or of dictionary [k]. *)
Theorem C40_splits k u i e n :
  system_ids (kind_of g0 sys_id n0 k) ->
  nth_error (system :: users) k = Some u -> nth_error (s_entries (dc_source u)) i = Some e ->
  chain_ends (s_entries (dc_source u)) n i -> (n <= limit)%nat ->
  exists wi a b c t1 t2 t3 t4, ls_word_info limit (ds_lexicon ds) (Z.of_nat k * 2 ^ 28 + Z.of_nat i) = Ok wi /\
    parse_splitinfo (kind_of g0 sys_id n0 k) py_int is_digit (s_entries (dc_source u)) t1 (e_a e) = Ok (a, t2) /\
    parse_splitinfo (kind_of g0 sys_id n0 k) py_int is_digit (s_entries (dc_source u)) t2 (e_b e) = Ok (b, t3) /\
    parse_splitinfo (kind_of g0 sys_id n0 k) py_int is_digit (s_entries (dc_source u)) t3 (e_c e) = Ok (c, t4) /\
    let resolves x y := (0 <= x < 2 ^ 28 /\ y = x /\ (Z.to_nat y < length (s_entries (dc_source system)))%nat) \/
                        (2 ^ 28 <= x /\ y = Z.of_nat k * 2 ^ 28 + x mod 2 ^ 28 /\ (Z.to_nat (x mod 2 ^ 28) < length (s_entries (dc_source u)))%nat) in
    Forall2 resolves a (wi_a wi) /\ Forall2 resolves b (wi_b wi) /\ Forall2 resolves c (wi_struct wi).
Proof.
  intros SI Hk Hi C Hn. destruct (dic_word_info _ _ _ _ _ Hk Hi C Hn) as (wi0 & wi & I & E & _ & _ & _ & _ & _ & _ & _ & EA & EB & EC & _).
  destruct I as (e1 & a & b & c & t1 & t2 & t3 & t4 & He1 & P1' & P2' & P3' & ->). assert (e1 = e) by congruence. subst e1.
  cbn [entry_info wi_a wi_b wi_struct] in EA, EB, EC. exists wi, a, b, c, t1, t2, t3, t4. repeat (split; [assumption|]). cbn zeta.
  rewrite EA, EB, EC.
  pose proof (dic_built _ _ Hk) as B. destruct B as (_ & _ & _ & _ & _ & _ & _ & _ & _ & _ & SZ).
  assert (G : forall l, Forall (denotes (kind_of g0 sys_id n0 k) (s_entries (dc_source u))) l ->
    Forall2 (fun x y => (0 <= x < 2 ^ 28 /\ y = x /\ (Z.to_nat y < length (s_entries (dc_source system)))%nat) \/
                        (2 ^ 28 <= x /\ y = Z.of_nat k * 2 ^ 28 + x mod 2 ^ 28 /\ (Z.to_nat (x mod 2 ^ 28) < length (s_entries (dc_source u)))%nat)) l (map (resolved k) l)).
  { induction 1 as [|x l Hx F IH]; cbn [map]; constructor; auto. clear IH F. unfold resolved.
    pose proof (dic_built 0 system eq_refl) as B0. destruct B0 as (_ & _ & _ & _ & _ & _ & _ & _ & _ & _ & SZ0).
    destruct k as [|j]; cbn [kind_of denotes] in Hx.
    - cbn [nth_error] in Hk. injection Hk as <-. left. replace (x <? 2 ^ 28) with true by (symmetry; apply Z.ltb_lt; lia). lia.
    - destruct Hx as [Hx|[Hx Hy]].
      + left. rewrite n0_of in Hx. replace (x <? 2 ^ 28) with true by (symmetry; apply Z.ltb_lt; lia). lia.
      + right. replace (x <? 2 ^ 28) with false by (symmetry; apply Z.ltb_ge; lia). pose proof (Z.mod_pos_bound x (2 ^ 28) ltac:(lia)). lia. }
  split; [|split]; apply G; eapply C56_never_dangles; eauto.
Qed.

(** Everything else in the word info of a user word is what its dictionary says. *)
Theorem C40_other_columns k u i e n :
  nth_error (system :: users) k = Some u -> nth_error (s_entries (dc_source u)) i = Some e ->
  chain_ends (s_entries (dc_source u)) n i -> (n <= limit)%nat ->
  exists wi, ls_word_info limit (ds_lexicon ds) (Z.of_nat k * 2 ^ 28 + Z.of_nat i) = Ok wi /\
    wi_surface wi = e_surface e /\ wi_length wi = e_head_length e /\
    wi_norm wi = (match e_norm e with [] => e_surface e | _ => e_norm e end) /\
    wi_reading wi = (match e_reading e with [] => e_surface e | _ => e_reading e end) /\
    (e_dic_id e < 0 -> wi_dic wi = e_surface e) /\
    (forall j e', e_dic_id e = Z.of_nat j -> nth_error (s_entries (dc_source u)) j = Some e' -> wi_dic wi = e_surface e') /\
    wi_syn wi = e_syn e.
Proof.
  intros Hk Hi C Hn. destruct (dic_word_info _ _ _ _ _ Hk Hi C Hn) as (wi0 & wi & I & E & ES & EL & EN & ER & _ & ED & EY & _).
  destruct I as (e1 & a & b & c & t1 & t2 & t3 & t4 & He1 & _ & _ & _ & ->). assert (e1 = e) by congruence. subst e1.
  exists wi. split; [exact E|]. split; [exact ES|]. split; [exact EL|]. split; [exact EN|]. split; [exact ER|]. rewrite ED. unfold dictionary_form_of. split.
  { intros D. replace (e_dic_id e <? 0) with true by (symmetry; now apply Z.ltb_lt). reflexivity. }
  split; [|exact EY]. intros j e' D Hj. rewrite D. replace (Z.of_nat j <? 0) with false by (symmetry; apply Z.ltb_ge; lia). now rewrite Nat2Z.id, Hj.
Qed.

(** ** C43, as loaded: a user word's cost is the one of its row or, if that is -32768, a value
    of 16 bits; its connection ids are those of its row.  System words keep all three. *)
Theorem C43_loaded k u i e :
  nth_error (system :: users) k = Some u -> nth_error (s_entries (dc_source u)) i = Some e ->
  let id := Z.of_nat k * 2 ^ 28 + Z.of_nat i in
  ls_left_id (ds_lexicon ds) id = Ok (e_left e) /\ ls_right_id (ds_lexicon ds) id = Ok (e_right e) /\
  exists c, ls_cost (ds_lexicon ds) id = Ok c /\ -32768 <= c <= 32767 /\ (e_cost e <> -32768 \/ k = 0%nat -> c = e_cost e).
Proof.
  intros Hk Hi. cbn zeta. destruct (ld_words _ _ _ _ _ _ _ _ _ L k u Hk) as (id & lx & Hl & _).
  pose proof (dic_built _ _ Hk) as B. destruct B as (_ & _ & _ & _ & _ & _ & _ & _ & _ & _ & SZ).
  assert (Ii : (i < length (s_entries (dc_source u)))%nat) by (apply nth_error_Some; congruence).
  destruct (ld_params _ _ _ _ _ _ _ _ _ L k u id lx Hk Hl i e Hi) as (P1 & P2 & c & P3 & P4 & P5).
  unfold ls_left_id, ls_right_id, ls_cost, ls_lexicon. rewrite dictionary_id_pack, word_id1_pack, Nat2Z.id by lia.
  rewrite (proj2 (get_ok _ _ _) Hl). cbn [bind snd]. split; [exact P1|]. split; [exact P2|]. exists c. split; [exact P3|]. split; [exact P4|].
  intros [X|X]; apply P5; [now left|right; now subst k].
Qed.
End loading.
Print Assumptions C38_finds.
Print Assumptions C38_order.
Print Assumptions C39_part_of_speech.
Print Assumptions C40_splits.
Print Assumptions C40_other_columns.
Print Assumptions C43_loaded.

(** ** C41 *)
(** Dictionaries are added and word infos asked for, in any order. *)
Inductive event := Add (lx : nat * lexicon) (pos_offset : Z) | Ask (wid : Z).
Section cache.
Variable limit : nat.
(** The answers with the cache and without *)
Fixpoint answers_cached (s : lexset) (c : cache) (es : list event) : list (res word_info) :=
  match es with
  | [] => []
  | Add lx p :: r => answers_cached (ls_add s lx p) c r
  | Ask wid :: r => let '(c', a) := cached_word_info limit s c wid in a :: answers_cached s c' r
  end.
Fixpoint answers (s : lexset) (es : list event) : list (res word_info) :=
  match es with
  | [] => []
  | Add lx p :: r => answers (ls_add s lx p) r
  | Ask wid :: r => ls_word_info limit s wid :: answers s r
  end.

Lemma mapM_le {A B} (f g : A -> res B) l : (forall x y, f x = Ok y -> g x = Ok y) -> forall ys, mapM f l = Ok ys -> mapM g l = Ok ys.
Proof.
  intros H. induction l as [|x l IH]; intros ys E; cbn [mapM] in *; [exact E|].
  apply bind_ok in E as (y & Ey & E). apply bind_ok in E as (ys' & Eys & E). rewrite (H _ _ Ey), (IH _ Eys). exact E.
Qed.
Lemma get_prefix {A} (l r : list A) i a : get l i = Ok a -> get (l ++ r) i = Ok a.
Proof. intros H. rewrite get_app1; [exact H|]. eapply get_ok_lt; eauto. Qed.

Lemma word_info_add s lx p wid wi : ls_word_info limit s wid = Ok wi -> ls_word_info limit (ls_add s lx p) wid = Ok wi.
Proof.
  unfold ls_add. destruct (existsb _ _); [auto|]. set (s' := LexSet _ _).
  assert (B : forall k w id, ls_build_word_id s k w = Ok id -> ls_build_word_id s' k w = Ok id).
  { intros k w id. unfold ls_build_word_id, s'. cbn [ls_lexicons]. rewrite app_length. destruct (_ <? w); [auto|].
    destruct (_ <? k) eqn:E1; [discriminate|]. Zbool. replace (_ <? k) with false by (symmetry; apply Z.ltb_ge; cbn [length]; lia). auto. }
  assert (CS : forall l k l', ls_convert_split s l k = Ok l' -> ls_convert_split s' l k = Ok l').
  { intros l k l'. unfold ls_convert_split. apply mapM_le. intros x y. destruct (0 <? _); [apply B|auto]. }
  unfold ls_word_info, ls_lexicon. intros H. apply bind_ok in H as (l & Hl & H). apply bind_ok in Hl as (l0 & Hl & El).
  unfold s' at 1. cbn [ls_lexicons]. rewrite (get_prefix _ _ _ _ Hl). cbn [bind]. injection El as <-.
  apply bind_ok in H as (wi0 & Hwi & H). rewrite Hwi. cbn [bind].
  apply bind_ok in H as (pos & Hpos & H).
  assert (Hp' : (if 0 <? ls_dictionary_id wid then
            first <- get (ls_offsets s') 1 ;;
            if first <=? wi_pos wi0 then own <- get (ls_offsets s') (Z.to_nat (ls_dictionary_id wid)) ;; Ok (wi_pos wi0 - first + own) else Ok (wi_pos wi0)
          else Ok (wi_pos wi0)) = Ok pos).
  { destruct (0 <? ls_dictionary_id wid); [|exact Hpos]. apply bind_ok in Hpos as (first & Hf & Hpos). unfold s' at 1. cbn [ls_offsets].
    rewrite (get_prefix _ _ _ _ Hf). cbn [bind]. destruct (first <=? _); [|exact Hpos]. apply bind_ok in Hpos as (own & Ho & Hpos).
    unfold s'. cbn [ls_offsets]. rewrite (get_prefix _ _ _ _ Ho). exact Hpos. }
  rewrite Hp'. cbn [bind]. apply bind_ok in H as (a & Ha & H). apply bind_ok in H as (b & Hb & H). apply bind_ok in H as (c & Hc & H).
  rewrite (CS _ _ _ Ha), (CS _ _ _ Hb), (CS _ _ _ Hc). exact H.
Qed.

Lemma in_firstn {A} (x : A) n l : In x (firstn n l) -> In x l.
Proof. intros H. rewrite <- (firstn_skipn n l). apply in_or_app. now left. Qed.

(** The answers are the same: what is in the cache is still right after dictionaries were
    added. *)
Theorem C41_transparent system es : answers_cached (lexset_init system) [] es = answers (lexset_init system) es.
Proof.
  assert (G : forall es s c, (forall w wi, In (w, wi) c -> ls_word_info limit s w = Ok wi) -> answers_cached s c es = answers s es).
  { clear. induction es as [|[lx p|wid] es IH]; intros s c I; cbn [answers_cached answers]; [reflexivity| |].
    - apply IH. intros w wi Hw. apply word_info_add. auto.
    - unfold cached_word_info. destruct (find (fun x => fst x =? wid) c) as [(w & wi)|] eqn:F.
      + apply find_some in F as [Hin Ew]. cbn [fst snd] in *. Zbool. subst w. rewrite (I _ _ Hin). f_equal. apply IH.
        intros w' wi' [E|H]; [injection E as <- <-; auto|]. apply filter_In in H as [H _]. auto.
      + destruct (ls_word_info limit s wid) as [wi|x] eqn:E.
        * f_equal. apply IH. intros w' wi' H. apply in_firstn in H. destruct H as [H|H]; [injection H as <- <-; exact E|auto].
        * f_equal. apply IH. exact I. }
  apply G. intros w wi [].
Qed.
End cache.
Print Assumptions C41_transparent.

(** ** C42 *)
Section word_id.
Variable search : bytes -> bytes -> list (Z * nat).
Variable limit : nat.

(** The entry [i] has this surface, part of speech and reading. *)
Definition is_word (lx : lexicon) (headword : text) (pos : Z) (reading : text) (i : Z) : Prop :=
  0 <= i < Z.of_nat (lx_size lx) /\ exists wi, lx_word_info limit lx i = Ok wi /\ wi_surface wi = headword /\ wi_pos wi = pos /\ wi_reading wi = reading.

Lemma first_match_ok lx h p r l : Forall (fun i => exists wi, lx_word_info limit lx i = Ok wi) l ->
  (exists w, first_match limit lx h p r l = Ok (Some w) /\ In w l /\ exists wi, lx_word_info limit lx w = Ok wi /\ wi_surface wi = h /\ wi_pos wi = p /\ wi_reading wi = r) \/
  (first_match limit lx h p r l = Ok None /\ forall w wi, In w l -> lx_word_info limit lx w = Ok wi -> ~ (wi_surface wi = h /\ wi_pos wi = p /\ wi_reading wi = r)).
Proof.
  induction 1 as [|w l (wi & Hw) F IH]; [right; split; [reflexivity|intros w wi []]|]. cbn [first_match]. unfold compare_word_id. rewrite Hw. cbn [bind].
  destruct (list_eqb Z.eqb (wi_surface wi) h && (wi_pos wi =? p) && list_eqb Z.eqb (wi_reading wi) r) eqn:E.
  - left. exists w. split; [reflexivity|]. split; [now left|]. exists wi. split; [exact Hw|].
    apply andb_true_iff in E as [E E3]. apply andb_true_iff in E as [E1 E2]. apply teqb_eq in E1, E3. Zbool. auto.
  - destruct IH as [(w' & A & B & C)|[A B]].
    + left. exists w'. split; [exact A|]. split; [now right|exact C].
    + right. split; [exact A|]. intros w' wi' [<-|Hin] Hw'; [|eauto]. rewrite Hw in Hw'. injection Hw' as <-. intros (E1 & E2 & E3).
      assert (X : list_eqb Z.eqb (wi_surface wi) h && (wi_pos wi =? p) && list_eqb Z.eqb (wi_reading wi) r = true); [|congruence].
      rewrite !andb_true_iff. split; [split|]; [now apply teqb_eq|now apply Z.eqb_eq|now apply teqb_eq].
Qed.

(** A lexicon of which all word infos can be read and the index can be used *)
Definition usable (lx : lexicon) : Prop :=
  (forall i, (i < lx_size lx)%nat -> exists wi, lx_word_info limit lx (Z.of_nat i) = Ok wi) /\
  (forall t, snd (lx_lookup search lx t 0) = None /\ Forall (fun p => 0 <= fst p < Z.of_nat (lx_size lx)) (fst (lx_lookup search lx t 0))).

(** A single lexicon: the id of such an entry if there is one, and -1 otherwise *)
Theorem C42_lexicon lx headword pos reading :
  usable lx -> (exists key, encode headword = Ok key) ->
  exists w, lx_get_word_id search limit lx headword pos reading = Ok w /\
    (is_word lx headword pos reading w \/ (w = -1 /\ forall i, ~ is_word lx headword pos reading i)).
Proof.
  intros [UI UL] (key & Hk). unfold lx_get_word_id. rewrite Hk. cbn [bind]. destruct (UL key) as [N F].
  destruct (lx_lookup search lx key 0) as [found x]. cbn [fst snd] in *. subst x.
  assert (R : forall i, 0 <= i < Z.of_nat (lx_size lx) -> exists wi, lx_word_info limit lx i = Ok wi).
  { intros i Hi. destruct (UI (Z.to_nat i) ltac:(lia)) as (wi & H). rewrite Z2Nat.id in H by lia. eauto. }
  destruct (first_match_ok lx headword pos reading (map fst found)) as [(w & A & B & C)|[A B]].
  { rewrite Forall_forall in *. intros i Hi. apply in_map_iff in Hi as (p & <- & Hp). apply R. auto. }
  { rewrite A. cbn [bind]. exists w. split; [reflexivity|]. left. split; [|exact C]. apply in_map_iff in B as (p & <- & Hp). rewrite Forall_forall in F. auto. }
  rewrite A. cbn [bind].
  destruct (first_match_ok lx headword pos reading (map Z.of_nat (seq 0 (lx_size lx)))) as [(w & A' & B' & C)|[A' B']].
  { rewrite Forall_forall. intros i Hi. apply in_map_iff in Hi as (j & <- & Hj). apply in_seq in Hj. apply R. lia. }
  { rewrite A'. cbn [bind]. exists w. split; [reflexivity|]. left. split; [|exact C]. apply in_map_iff in B' as (j & <- & Hj). apply in_seq in Hj. lia. }
  rewrite A'. cbn [bind]. exists (-1). split; [reflexivity|]. right. split; [reflexivity|]. intros i (Hi & wi & Hw & X). eapply B'; eauto.
  apply in_map_iff. exists (Z.to_nat i). split; [lia|]. apply in_seq. lia.
Qed.

(** The lexicon of a dictionary made from a source, when all chains of dictionary forms end *)
Lemma built_usable py_int is_digit trie_array k u lx :
  trie_contract search trie_array -> built py_int is_digit trie_array k u -> has_words py_int is_digit search k u lx ->
  (forall i, (i < length (s_entries (dc_source u)))%nat -> exists n, (n <= limit)%nat /\ chain_ends (s_entries (dc_source u)) n i) -> usable lx.
Proof.
  intros CT B (lx0 & LO & LS & SW) CH. destruct (built_opens _ _ _ _ CT _ _ B) as (SO & _). destruct B as (_ & _ & _ & _ & _ & _ & _ & _ & _ & F & _).
  assert (ES : lx_size lx = length (s_entries (dc_source u))). { rewrite <- (lo_size _ _ _ _ _ _ LO). symmetry. apply SW. }
  split.
  - intros i Hi. rewrite ES in Hi. destruct (CH i Hi) as (n & Hn & C).
    destruct (lexicon_word_info _ _ _ _ _ _ limit n i 0 LO LS F C Hn (Nat.le_0_l _)) as (e & wi & _ & _ & P).
    rewrite <- (same_info _ _ _ _ SW). unfold lx_word_info. rewrite P. eexists. reflexivity.
  - intros t. rewrite <- (same_lookup _ _ _ t 0 SW). destruct (lookup_nodup _ _ _ _ _ _ t 0 LO SO) as [_ N]. split; [exact N|].
    rewrite Forall_forall. intros (w & e) Hin. apply (lookup_iff _ _ _ _ _ _ _ _ _ _ LO SO (Nat.le_0_l _)) in Hin as (i & -> & _ & x & h & Hx & _).
    cbn [fst]. assert ((i < length (s_entries (dc_source u)))%nat) by (apply nth_error_Some; congruence). lia.
Qed.

(** So for a dictionary made from a source: the number of an entry with that surface, part of
    speech and reading, or -1 when there is none *)
Theorem C42_built py_int is_digit trie_array k u lx headword pos reading :
  trie_contract search trie_array -> built py_int is_digit trie_array k u -> has_words py_int is_digit search k u lx ->
  (forall i, (i < length (s_entries (dc_source u)))%nat -> exists n, (n <= limit)%nat /\ chain_ends (s_entries (dc_source u)) n i) ->
  (exists key, encode headword = Ok key) ->
  let matches e := e_surface e = headword /\ e_pos e = pos /\ (match e_reading e with [] => e_surface e | _ => e_reading e end) = reading in
  exists w, lx_get_word_id search limit lx headword pos reading = Ok w /\
    ((exists i e, w = Z.of_nat i /\ nth_error (s_entries (dc_source u)) i = Some e /\ matches e) \/
     (w = -1 /\ forall i e, nth_error (s_entries (dc_source u)) i = Some e -> ~ matches e)).
Proof.
  intros CT B HW CH EK. cbn zeta. pose proof (built_usable _ _ _ _ _ _ CT B HW CH) as U.
  destruct (C42_lexicon lx headword pos reading U EK) as (w & Hw & R). exists w. split; [exact Hw|].
  destruct HW as (lx0 & LO & LS & SW). destruct B as (_ & _ & _ & _ & _ & _ & _ & _ & _ & F & _).
  assert (ES : lx_size lx = length (s_entries (dc_source u))). { rewrite <- (lo_size _ _ _ _ _ _ LO). symmetry. apply SW. }
  assert (INFO : forall i e, nth_error (s_entries (dc_source u)) i = Some e -> exists wi, lx_word_info limit lx (Z.of_nat i) = Ok wi /\
    wi_surface wi = e_surface e /\ wi_pos wi = e_pos e /\ wi_reading wi = (match e_reading e with [] => e_surface e | _ => e_reading e end)).
  { intros i e Hi. assert (Li : (i < length (s_entries (dc_source u)))%nat) by (apply nth_error_Some; congruence). destruct (CH i Li) as (n & Hn & C).
    destruct (lexicon_word_info _ _ _ _ _ _ limit n i 0 LO LS F C Hn (Nat.le_0_l _)) as (e' & wi & He' & I & P). assert (e' = e) by congruence. subst e'.
    destruct I as (e1 & a & b & c & t1 & t2 & t3 & t4 & He1 & _ & _ & _ & ->). assert (e1 = e) by congruence. subst e1.
    eexists. split; [rewrite <- (same_info _ _ _ _ SW); unfold lx_word_info; rewrite P; reflexivity|]. auto. }
  destruct R as [(Hr & wi & Hwi & R1 & R2 & R3)|(-> & R)].
  - left. assert (Li : (Z.to_nat w < length (s_entries (dc_source u)))%nat) by lia.
    destruct (nth_error (s_entries (dc_source u)) (Z.to_nat w)) as [e|] eqn:He; [|apply nth_error_None in He; lia].
    exists (Z.to_nat w), e. split; [lia|]. split; [exact He|]. destruct (INFO _ _ He) as (wi' & Hwi' & I1 & I2 & I3). rewrite Z2Nat.id in Hwi' by lia.
    assert (wi' = wi) by congruence. subst wi'. split; [congruence|]. split; [congruence|]. rewrite <- I3. exact R3.
  - right. split; [reflexivity|]. intros i e Hi (M1 & M2 & M3). destruct (INFO _ _ Hi) as (wi & Hwi & I1 & I2 & I3).
    assert (Li : (i < length (s_entries (dc_source u)))%nat) by (apply nth_error_Some; congruence).
    apply (R (Z.of_nat i)). split; [lia|]. exists wi. split; [exact Hwi|]. split; [congruence|]. split; [congruence|]. rewrite I3. exact M3.
Qed.

(** A set of one lexicon, the same *)
Theorem C42_one_lexicon_partial s id lx headword pos reading :
  ls_lexicons s = [(id, lx)] -> usable lx -> (exists key, encode headword = Ok key) ->
  exists w, ls_get_word_id search limit s headword pos reading = Ok w /\
    (is_word lx headword pos reading w \/ (w = -1 /\ forall i, ~ is_word lx headword pos reading i)).
Proof.
  intros E U K. destruct (C42_lexicon lx headword pos reading U K) as (w & Hw & R). exists w. split; [|exact R].
  unfold ls_get_word_id. rewrite E. cbn [ls_get_word_id_from snd]. rewrite Hw. cbn [bind].
  destruct (w <=? 0) eqn:W; Zbool.
  - assert (w = 0 \/ w = -1) as [-> | ->] by (destruct R as [(X & _)|(X & _)]; lia).
    + unfold ls_build_word_id. rewrite E. reflexivity.
    + unfold ls_build_word_id. rewrite E. reflexivity.
  - unfold get. cbn [nth_error bind snd]. exact Hw.
Qed.
End word_id.
Print Assumptions C42_lexicon.
Print Assumptions C42_built.
Print Assumptions C42_one_lexicon_partial.

(** ** C43 *)
(** [calculate_cost] changes nothing but costs, and no cost but those that are -32768; each of
    those is replaced by the internal cost of the analysis of the surface less 20 for each
    morpheme, forced into the range of 16 bits. *)
Theorem C43_costs limit internal lx lx' :
  calculate_cost limit internal lx = Ok lx' ->
  (forall i, lx_left_id lx' (Z.of_nat i) = lx_left_id lx (Z.of_nat i) /\ lx_right_id lx' (Z.of_nat i) = lx_right_id lx (Z.of_nat i)) /\
  (forall search t off, lx_lookup search lx' t off = lx_lookup search lx t off) /\ (forall w, lx_word_info limit lx' w = lx_word_info limit lx w) /\
  lx_size lx' = lx_size lx /\
  forall i, (i < lx_size lx)%nat -> exists c c', lx_cost lx (Z.of_nat i) = Ok c /\ lx_cost lx' (Z.of_nat i) = Ok c' /\
    (c <> -32768 -> c' = c) /\
    (c = -32768 -> -32768 <= c' <= 32767 /\ exists wi n m, lx_word_info limit lx (Z.of_nat i) = Ok wi /\ internal (wi_surface wi) = Ok (n, m) /\
       let v := n - 20 * Z.of_nat m in c' = (if v <? -32768 then -32768 else if 32767 <? v then 32767 else v)).
Proof.
  intros H. destruct (calculate_fold _ _ _ _ _ _ H) as (SW & U & W). unfold lx_left_id, lx_right_id, lx_cost. split.
  { intros i. rewrite Nat2Z.id. split; apply U; intros w _; lia. }
  split; [intros; symmetry; apply same_lookup; exact SW|]. split; [intros; symmetry; apply same_info; exact SW|]. split; [symmetry; apply SW|].
  intros i Hi. rewrite Nat2Z.id. destruct (W i ltac:(lia)) as (c & C & W1 & W2). destruct (Z.eq_dec c (-32768)) as [E|N].
  - destruct (W2 E) as (_ & wi & n & m & I1 & I2 & I3). exists c, (auto_cost n m). split; [exact C|]. split; [exact I3|]. split; [congruence|]. intros _.
    split; [apply auto_cost_range|]. exists wi, n, m. split; [exact I1|]. split; [exact I2|]. cbn zeta. unfold auto_cost.
    destruct (_ <? _) eqn:L1; [|destruct (32767 <? _) eqn:L2]; Zbool; lia.
  - exists c, c. split; [exact C|]. split; [auto|]. split; [auto|congruence].
Qed.
Print Assumptions C43_costs.

(** ** The hypotheses are met: the dictionary of P_DicToy with two user dictionaries *)
Definition toy_dictionary : dictionary :=
  match from_system_dictionary toy_bytes with Ok d => d | Err _ => Dictionary None (Header 0 0 []) (Lexicon [] [] [] [] 0 0 false) end.
Definition toy_grammar : grammar := match d_grammar toy_dictionary with Some g => g | None => Grammar [] 0 0 [] 0 end.
Definition toy_sys_id (h : text) (p : Z) (r : text) : res Z := lx_get_word_id toy_search 10 (d_lexicon toy_dictionary) h p r.
Definition toy_kind : kind := UserDic toy_grammar toy_sys_id 3.
Definition P3 : list text := [[22320]; [99]; star; star; star; star].   (* 地,c,*,*,*,* *)
Definition P4 : list text := [[38917]; [100]; star; star; star; star].
(** 都 with a part of speech of its own; 東京都, with automatic cost, split into the system
    word 2 and the own word 0 *)
Definition user_rows1 : list (list text) :=
  [ toy_row [37117] [57] P3 [6] [37117] star star star;
    toy_row [26481; 20140; 37117] [45; 51; 50; 55; 54; 56] P1 [7] [8] star [50; 47; 85; 48] star ].
(** Another 東, with a part of speech that only this dictionary has *)
Definition user_rows2 : list (list text) := [ toy_row [26481] [45; 53] P4 [1] [26481] star star star ].
Definition toy_dic (k : kind) (rows : list (list text)) (ms : option matrix_source) : dic :=
  Dic rows (match build_command k toy_int toy_digit toy_array 1600000000 [116; 111; 121] rows ms with Ok d => d | Err _ => [] end)
    (match build_lexicon k toy_int new_source rows with Ok s => s | Err _ => new_source end).
Definition toy_system : dic := toy_dic SystemDic toy_rows (Some toy_matrix).
Definition toy_users : list dic := [toy_dic toy_kind user_rows1 None; toy_dic toy_kind user_rows2 None].
(** Every surface is analysed as 2 morphemes of internal cost 32800. *)
Definition toy_analyse (g : grammar) (s : lexset) (t : text) : res (Z * nat) := Ok (32800, 2%nat).
Definition toy_set : dictset :=
  match load_dictionaries 10 toy_analyse (dc_file toy_system) (map dc_file toy_users) with Ok ds => ds | Err _ => DictSet toy_grammar (LexSet [] []) end.

Lemma toy_built_tac k rows ms :
  (match build_command k toy_int toy_digit toy_array 1600000000 [116; 111; 121] rows ms with Ok _ => true | Err _ => false end) = true ->
  (match build_lexicon k toy_int new_source rows with Ok _ => true | Err _ => false end) = true ->
  Forall readable_pos (s_table (dc_source (toy_dic k rows ms))) -> (forall m, matrix_written k ms = Some m -> exists n, has_matrix n m) ->
  Forall fits (s_entries (dc_source (toy_dic k rows ms))) -> Z.of_nat (length (s_entries (dc_source (toy_dic k rows ms)))) <= 2 ^ 28 ->
  built toy_int toy_digit toy_array k (toy_dic k rows ms).
Proof.
  intros H1 H2 A B C D. exists 1600000000, [116; 111; 121], ms. unfold toy_dic. cbn [dc_rows dc_file dc_source]. cbn [toy_dic dc_source] in *.
  split; [destruct (build_command _ _ _ _ _ _ _ _); [reflexivity|discriminate H1]|]. split; [lia|]. split; [cbn; lia|].
  split; [destruct (build_lexicon _ _ _ _); [reflexivity|discriminate H2]|]. auto.
Qed.

Example C38_nonvacuous :
  built toy_int toy_digit toy_array SystemDic toy_system /\
  (exists dict, from_system_dictionary (dc_file toy_system) = Ok dict /\ d_grammar dict = Some toy_grammar) /\
  3%nat = length (s_entries (dc_source toy_system)) /\
  Forall (built toy_int toy_digit toy_array (UserDic toy_grammar toy_sys_id 3)) toy_users /\
  load_dictionaries 10 toy_analyse (dc_file toy_system) (map dc_file toy_users) = Ok toy_set /\
  trie_contract toy_search toy_array.
Proof.
  split.
  { apply toy_built_tac; [vm_compute; reflexivity|vm_compute; reflexivity| | | |vm_compute; discriminate].
    - vm_compute s_table. repeat constructor; vm_compute; (reflexivity || lia || discriminate).
    - intros m E. injection E as <-. exists 2. split; [reflexivity|]. split; [lia|]. split; [|exists 7; cbn; auto].
      repeat constructor; cbn [toy_matrix ms_lines]; do 3 eexists; (split; [reflexivity|lia]).
    - vm_compute s_entries. repeat constructor; vm_compute; (reflexivity || discriminate). }
  split. { exists toy_dictionary. split; vm_compute; reflexivity. }
  split; [vm_compute; reflexivity|]. split.
  { fold toy_kind. unfold toy_users.
    constructor; [|constructor; [|constructor]].
    all: apply toy_built_tac; [vm_compute; reflexivity|vm_compute; reflexivity| | | |vm_compute; discriminate].
    1, 4: vm_compute s_table; repeat constructor; vm_compute; (reflexivity || lia || discriminate).
    1, 3: intros m E; discriminate E.
    all: vm_compute s_entries; repeat constructor; vm_compute; (reflexivity || discriminate). }
  split; [vm_compute; reflexivity|exact toy_contract].
Qed.

(** Computed: the words at the start of 東京都; parts of speech of the words of both user
    dictionaries; splits and cost of 東京都 *)
Example C38_toy :
  (t <- encode [26481; 20140; 37117] ;;
   let s := ds_lexicon toy_set in
   w1 <- ls_word_info 10 s (2 ^ 28) ;; w2 <- ls_word_info 10 s (2 ^ 28 + 1) ;; w3 <- ls_word_info 10 s (2 * 2 ^ 28) ;;
   p1 <- get_part_of_speech_string (ds_grammar toy_set) (wi_pos w1) ;; p2 <- get_part_of_speech_string (ds_grammar toy_set) (wi_pos w2) ;;
   p3 <- get_part_of_speech_string (ds_grammar toy_set) (wi_pos w3) ;; c <- ls_cost s (2 ^ 28 + 1) ;;
   Ok (fst (ls_lookup toy_search s t 0), [wi_pos w1; wi_pos w2; wi_pos w3], [p1; p2; p3], wi_a w2, c))
  = Ok ([(2 ^ 28 + 1, 9%nat); (2 * 2 ^ 28, 3%nat); (0, 3%nat); (2, 6%nat)], [2; 0; 3], [P3; P1; P4], [2; 2 ^ 28], 32760).
Proof. vm_compute. reflexivity. Qed.

Example C39_nonvacuous :
  exists u row, nth_error (toy_system :: toy_users) 2 = Some u /\ nth_error (dc_rows u) 0 = Some row /\ source_pos row P4 /\ chain_ends (s_entries (dc_source u)) 1 0.
Proof.
  do 2 eexists. split; [reflexivity|]. split; [reflexivity|]. split.
  - exists (nth 0 user_rows2 []). split; [|reflexivity]. repeat constructor.
  - eapply CE_end; [vm_compute; reflexivity|]. left. vm_compute. reflexivity.
Qed.

Lemma toy_system_file : dc_file toy_system = toy_bytes.
Proof. vm_compute. reflexivity. Qed.
Lemma toy_system_entries : length (s_entries (dc_source toy_system)) = 3%nat.
Proof. vm_compute. reflexivity. Qed.
Lemma toy_system_size : lx_size (d_lexicon toy_dictionary) = 3%nat.
Proof. vm_compute. reflexivity. Qed.

Example C40_nonvacuous :
  system_ids (UserDic toy_grammar toy_sys_id 3) /\
  exists u e, nth_error (toy_system :: toy_users) 1 = Some u /\ nth_error (s_entries (dc_source u)) 1 = Some e /\ chain_ends (s_entries (dc_source u)) 1 1 /\ e_a e = [50; 47; 85; 48].
Proof.
  split.
  - intros h p r id H. unfold toy_sys_id in H.
    destruct (encode h) as [key|] eqn:EK; [|unfold lx_get_word_id in H; rewrite EK in H; discriminate H].
    assert (U : usable toy_search 10 (d_lexicon toy_dictionary)).
    { destruct (built_opens _ _ _ _ toy_contract _ _ (proj1 C38_nonvacuous)) as (SO & dict & g & _ & _ & E & _ & LO & LS).
      assert (ED : dict = toy_dictionary) by (rewrite toy_system_file in E; unfold toy_dictionary; rewrite E; reflexivity). subst dict.
      eapply (built_usable toy_search 10 toy_int toy_digit toy_array SystemDic toy_system _ toy_contract).
      - exact (proj1 C38_nonvacuous).
      - eexists. split; [exact LO|]. split; [exact LS|apply same_refl].
      - intros i Hi. rewrite toy_system_entries in Hi. exists (match i with 1%nat => 2 | _ => 1 end)%nat.
        split; [destruct i as [|[|i]]; lia|]. destruct i as [|[|[|i]]]; [| | |lia].
        + eapply CE_end; [vm_compute; reflexivity|]. left. vm_compute. reflexivity.
        + eapply CE_step with (j := 0%nat); [vm_compute; reflexivity|vm_compute; reflexivity|lia|].
          eapply CE_end; [vm_compute; reflexivity|]. left. vm_compute. reflexivity.
        + eapply CE_end; [vm_compute; reflexivity|]. left. vm_compute. reflexivity. }
    destruct (C42_lexicon _ _ _ h p r U (ex_intro _ key EK)) as (w & Hw & R). rewrite H in Hw. injection Hw as <-.
    destruct R as [(X & _)|(-> & _)]; [|lia]. rewrite toy_system_size in X. lia.
  - do 2 eexists. split; [reflexivity|]. split; [vm_compute; reflexivity|]. split; [|reflexivity].
    eapply CE_end; [vm_compute; reflexivity|]. left. vm_compute. reflexivity.
Qed.

(** A word of a user dictionary, and a word of the system dictionary that no user dictionary
    has, are not found in the set: -1. *)
Theorem C42_several_refuted :
  let s := ds_lexicon toy_set in let dictionary k := snd (nth k (ls_lexicons s) (0%nat, d_lexicon toy_dictionary)) in
  length (ls_lexicons s) = 3%nat /\
  is_word 10 (dictionary 1%nat) [37117] 2 [6] 0 /\ ls_get_word_id toy_search 10 s [37117] 2 [6] = Ok (-1) /\
  is_word 10 (dictionary 0%nat) [26481; 20140] 0 [4] 2 /\ ls_get_word_id toy_search 10 s [26481; 20140] 0 [4] = Ok (-1).
Proof.
  cbn zeta. split; [vm_compute; reflexivity|]. split.
  { split; [vm_compute; split; [discriminate|reflexivity]|]. eexists. split; [vm_compute; reflexivity|]. auto. }
  split; [vm_compute; reflexivity|]. split; [|vm_compute; reflexivity].
  split; [vm_compute; split; [discriminate|reflexivity]|]. eexists. split; [vm_compute; reflexivity|]. auto.
Qed.
Print Assumptions C42_several_refuted.

Example C41_nonvacuous :
  let es := [Ask 0; Ask (2 ^ 28); Add (1%nat, d_lexicon toy_dictionary) 2; Ask (2 ^ 28); Ask 0] in
  map (fun r => match r with Ok wi => Some (wi_pos wi) | Err _ => None end) (answers_cached 10 (lexset_init (0%nat, d_lexicon toy_dictionary)) [] es) = [Some 0; None; Some 0; Some 0].
Proof. vm_compute. reflexivity. Qed.

Example C43_nonvacuous :
  exists lx, (match calculate_cost 10 (fun _ => Ok (-40000, 3%nat)) lx with Ok lx' => lx_cost lx' 1 = Ok (-32768) | Err _ => False end) /\ lx_cost lx 1 = Ok (-32768) /\ lx_cost lx 0 = Ok 9.
Proof.
  exists (match from_user_dictionary (dc_file (nth 0 toy_users toy_system)) with Ok d => d_lexicon d | Err _ => Lexicon [] [] [] [] 0 0 false end).
  split; [vm_compute; reflexivity|]. split; vm_compute; reflexivity.
Qed.
