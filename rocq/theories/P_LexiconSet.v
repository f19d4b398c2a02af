(** Facts about lexicon sets: ids, lookup, what loading gives. *)
From Coq Require Import List ZArith Lia Bool Arith Sorted.
From Verif Require Import Base Utf8 M_Builder M_Lattice M_Tokenizer M_Bytes P_Bytes M_DicReader M_DicBuilder P_DicFormat P_DicWrite P_DicOpen
  P_DicGrammar P_DicSource P_DicLexicon P_DicFile Prop_Format Prop_Source M_LexiconSet.
Import ListNotations.
Open Scope Z_scope.

(** ** Ids *)
Lemma pack_lor k i : 0 <= k -> 0 <= i < 2 ^ 28 -> Z.lor (Z.shiftl k 28) i = k * 2 ^ 28 + i.
Proof.
  intros Hk Hi. rewrite Z.shiftl_mul_pow2 by lia.
  rewrite <- Z.lxor_lor, <- Z.add_nocarry_lxor; auto.
  all: apply Z.bits_inj'; intros n Hn; rewrite Z.land_spec, Z.bits_0.
  all: destruct (Z.lt_ge_cases n 28) as [L|L].
  1, 3: rewrite Z.mul_pow2_bits_low by lia; reflexivity.
  all: rewrite andb_comm; destruct (Z.eq_dec i 0) as [->|Z]; [rewrite Z.bits_0; reflexivity|];
    rewrite (Z.bits_above_log2 i n); [reflexivity|lia|]; apply Z.log2_lt_pow2; [lia|]; apply Z.lt_le_trans with (2 ^ 28); [lia|]; apply Z.pow_le_mono_r; lia.
Qed.

Lemma dictionary_id_pack k i : 0 <= i < 2 ^ 28 -> ls_dictionary_id (k * 2 ^ 28 + i) = k.
Proof. intros H. unfold ls_dictionary_id. rewrite Z.shiftr_div_pow2 by lia. rewrite Z.div_add_l by lia. rewrite Z.div_small; lia. Qed.
Lemma word_id1_mod x : ls_word_id1 x = x mod 2 ^ 28.
Proof. unfold ls_word_id1. rewrite Z.land_comm. change 0x0FFFFFFF with (Z.ones 28). apply Z.land_ones. lia. Qed.
Lemma word_id1_pack k i : 0 <= i < 2 ^ 28 -> ls_word_id1 (k * 2 ^ 28 + i) = i.
Proof. intros H. rewrite word_id1_mod, Z.add_comm, Z.mod_add by lia. apply Z.mod_small. lia. Qed.
Lemma build_word_id_ok s k i : 0 <= k <= Z.of_nat (length (ls_lexicons s)) -> 0 <= i < 2 ^ 28 -> ls_build_word_id s k i = Ok (k * 2 ^ 28 + i).
Proof.
  intros Hk Hi. unfold ls_build_word_id. replace (0x0FFFFFFF <? i) with false by (symmetry; apply Z.ltb_ge; lia).
  replace (_ <? k) with false by (symmetry; apply Z.ltb_ge; lia). rewrite pack_lor by lia. reflexivity.
Qed.

(** ** Lookup *)
Section lookup.
Variable search : bytes -> bytes -> list (Z * nat).

Definition small (p : Z * nat) : Prop := 0 <= fst p < 2 ^ 28.
Definition in_dictionary (k : nat) (p : Z * nat) : Z * nat := (Z.of_nat k * 2 ^ 28 + fst p, snd p).

Lemma ls_pairs_ok s k l : (k <= length (ls_lexicons s))%nat -> Forall small l -> ls_pairs s k l = (map (in_dictionary k) l, None).
Proof.
  intros Hk. induction 1 as [|(w & e) l Hw F IH]; [reflexivity|]. unfold small in Hw. cbn [fst] in Hw. cbn [ls_pairs].
  rewrite build_word_id_ok by lia. rewrite IH. reflexivity.
Qed.

Lemma ls_lookup_in_ok s t off l :
  Forall (fun kl => (fst kl <= length (ls_lexicons s))%nat /\ snd (lx_lookup search (snd kl) t off) = None /\ Forall small (fst (lx_lookup search (snd kl) t off))) l ->
  ls_lookup_in search s t off l = (concat (map (fun kl => map (in_dictionary (fst kl)) (fst (lx_lookup search (snd kl) t off))) l), None).
Proof.
  induction 1 as [|(k & lx) l (Hk & Hn & Hs) F IH]; [reflexivity|]. cbn [fst snd] in *. cbn [ls_lookup_in map concat fst snd].
  destruct (lx_lookup search lx t off) as [found x0]. cbn [fst snd] in *. subst x0. rewrite ls_pairs_ok by auto. rewrite IH. reflexivity.
Qed.

(** The dictionaries in the order of the search, with their numbers *)
Definition turns (s : lexset) : list (nat * lexicon) :=
  match ls_lexicons s with [] => [] | lx :: r => combine (seq 1 (length r)) (map snd r) ++ [(0%nat, snd lx)] end.

Lemma ls_lookup_ok s t off : ls_lexicons s <> [] ->
  Forall (fun lx => snd (lx_lookup search (snd lx) t off) = None /\ Forall small (fst (lx_lookup search (snd lx) t off))) (ls_lexicons s) ->
  ls_lookup search s t off = (concat (map (fun kl => map (in_dictionary (fst kl)) (fst (lx_lookup search (snd kl) t off))) (turns s)), None).
Proof.
  intros NE F. unfold ls_lookup, turns. destruct (ls_lexicons s) as [|lx r] eqn:E; [congruence|].
  assert (X : ls_lookup_in search s t off (combine (seq 1 (length r)) (map snd r) ++ [(0%nat, snd lx)]) =
    (concat (map (fun kl => map (in_dictionary (fst kl)) (fst (lx_lookup search (snd kl) t off))) (combine (seq 1 (length r)) (map snd r) ++ [(0%nat, snd lx)])), None)).
  { apply ls_lookup_in_ok. rewrite E. inversion F as [|? ? [F1 F2] F']; subst. apply Forall_app. split.
    - rewrite Forall_forall in *. intros (k & l) Hin. pose proof (in_combine_l _ _ _ _ Hin) as Hk. pose proof (in_combine_r _ _ _ _ Hin) as Hl.
      apply in_seq in Hk. apply in_map_iff in Hl as (x & <- & Hx). cbn [fst snd length]. split; [lia|]. auto.
    - constructor; [|constructor]. cbn [fst snd length]. split; [lia|]. auto. }
  destruct r as [|lx2 r]; [|exact X]. clear X. cbn [length seq combine map app concat fst snd].
  inversion F as [|? ? [F1 F2] _]; subst. destruct (lx_lookup search (snd lx) t off) as [found e]. cbn [fst snd] in *. subst e.
  rewrite app_nil_r. f_equal. rewrite <- (map_id found) at 1. apply map_ext. intros (w & e). unfold in_dictionary. cbn [fst snd]. f_equal.
Qed.

Lemma turns_spec s k lx : In (k, lx) (turns s) <-> exists id, nth_error (ls_lexicons s) k = Some (id, lx).
Proof.
  unfold turns. destruct (ls_lexicons s) as [|(id0 & lx0) r].
  { split; [intros []|intros (id & H); destruct k; discriminate H]. }
  cbn [snd]. rewrite in_app_iff.
  assert (G : forall (r : list (nat * lexicon)) a k lx, In (k, lx) (combine (seq a (length r)) (map snd r)) <-> (a <= k)%nat /\ exists id, nth_error r (k - a) = Some (id, lx)).
  { clear. induction r as [|(id1 & lx1) r IH]; intros a k lx; cbn [length seq map combine].
    - split; [intros []|intros (_ & id & H); destruct (k - a)%nat; discriminate H].
    - cbn [In snd]. rewrite IH. split.
      + intros [E|(L & id & H)]; [injection E as <- <-; split; [lia|]; exists id1; now rewrite Nat.sub_diag|].
        split; [lia|]. exists id. replace (k - a)%nat with (S (k - S a)) by lia. exact H.
      + intros (L & id & H). destruct (Nat.eq_dec k a) as [->|N].
        * left. rewrite Nat.sub_diag in H. cbn [nth_error] in H. congruence.
        * right. split; [lia|]. exists id. replace (k - a)%nat with (S (k - S a)) in H by lia. exact H. }
  rewrite G. split.
  - intros [(L & id & H)|[E|[]]].
    + exists id. replace k with (S (k - 1)) by lia. exact H.
    + injection E as <- <-. exists id0. reflexivity.
  - intros (id & H). destruct k as [|k].
    + right. left. cbn [nth_error] in H. congruence.
    + left. split; [lia|]. exists id. replace (S k - 1)%nat with k by lia. exact H.
Qed.

(** User dictionaries by number, then the system dictionary *)
Definition before (a b : nat) : Prop := (b = 0 \/ (0 < a /\ a < b))%nat.
Lemma turns_sorted s : StronglySorted (fun a b => fst a <> 0%nat /\ before (fst a) (fst b)) (turns s).
Proof.
  unfold turns. destruct (ls_lexicons s) as [|lx r]; [constructor|]. generalize (map snd r) as l. intros l.
  assert (G : forall n a l, (0 < a)%nat -> StronglySorted (fun a b => fst a <> 0%nat /\ before (fst a) (fst b)) (combine (seq a n) l ++ [(0%nat, snd lx)])).
  { clear. induction n as [|n IH]; intros a l Ha; cbn [seq combine app]; [repeat constructor|].
    destruct l as [|x l]; cbn [combine app]; [repeat constructor|]. constructor; [apply IH; lia|].
    apply Forall_app. split.
    - rewrite Forall_forall. intros (k & y) Hy. apply in_combine_l, in_seq in Hy. cbn [fst]. split; [lia|]. right. lia.
    - constructor; [|constructor]. cbn [fst]. split; [lia|]. left. reflexivity. }
  apply G. lia.
Qed.
End lookup.

(** ** A lexicon whose costs were changed *)
Definition same_words (a b : lexicon) : Prop :=
  lx_data a = lx_data b /\ lx_trie a = lx_trie b /\ lx_wids a = lx_wids b /\ lx_size a = lx_size b /\ lx_infos a = lx_infos b /\ lx_syn a = lx_syn b.
Lemma same_refl a : same_words a a.
Proof. repeat split. Qed.
Lemma same_trans a b c : same_words a b -> same_words b c -> same_words a c.
Proof. unfold same_words. intuition congruence. Qed.
Lemma same_lookup search a b t off : same_words a b -> lx_lookup search a t off = lx_lookup search b t off.
Proof. intros (_ & E1 & E2 & _). unfold lx_lookup. now rewrite E1, E2. Qed.
Lemma same_info limit a b w : same_words a b -> lx_word_info limit a w = lx_word_info limit b w.
Proof. intros (E1 & _ & _ & _ & E2 & E3). unfold lx_word_info. now rewrite E1, E2, E3. Qed.

Lemma set_nth_other {A} (l l' : list A) i a j : set_nth l i a = Ok l' -> j <> i -> get l' j = get l j.
Proof.
  revert l' i j. induction l as [|x l IH]; intros l' i j H N; [discriminate H|].
  destruct i as [|i]; cbn [set_nth] in H.
  - injection H as <-. destruct j; [congruence|]. reflexivity.
  - apply bind_ok in H as (r & Hr & H). injection H as <-. destruct j as [|j]; [reflexivity|]. apply (IH _ _ _ Hr). lia.
Qed.
Lemma set_nth_same {A} (l l' : list A) i a : set_nth l i a = Ok l' -> get l' i = Ok a /\ length l' = length l.
Proof.
  revert l' i. induction l as [|x l IH]; intros l' i H; [discriminate H|].
  destruct i as [|i]; cbn [set_nth] in H.
  - injection H as <-. split; reflexivity.
  - apply bind_ok in H as (r & Hr & H). injection H as <-. destruct (IH _ _ Hr) as [A1 A2]. split; [exact A1|]. cbn [length]. lia.
Qed.

Section costs.
Variable limit : nat.
Variable internal : text -> res (Z * nat).

(** What [calculate_cost] does to the place [j] of the parameters *)
Definition recalculated (lx : lexicon) (ps : list Z) (w : nat) : Prop :=
  get (lx_params lx) (3 * w + 2) = Ok (-32768) /\
  exists info c n, lx_word_info limit lx (Z.of_nat w) = Ok info /\ internal (wi_surface info) = Ok (c, n) /\ get ps (3 * w + 2) = Ok (auto_cost c n).

Lemma calculate_fold n : forall a lx lx', foldM (calculate_one limit internal) lx (seq a n) = Ok lx' ->
  same_words lx lx' /\
  (forall j, (forall w, (a <= w < a + n)%nat -> j <> (3 * w + 2)%nat) -> get (lx_params lx') j = get (lx_params lx) j) /\
  (forall w, (a <= w < a + n)%nat -> exists c, get (lx_params lx) (3 * w + 2) = Ok c /\
     (c <> -32768 -> get (lx_params lx') (3 * w + 2) = Ok c) /\ (c = -32768 -> recalculated lx (lx_params lx') w)).
Proof.
  induction n as [|n IH]; intros a lx lx' H; cbn [seq foldM] in H.
  - injection H as <-. split; [apply same_refl|]. split; [auto|]. intros w Hw. lia.
  - apply bind_ok in H as (lx1 & H1 & H2). destruct (IH _ _ _ H2) as (S2 & U2 & C2). clear IH H2.
    unfold calculate_one in H1. apply bind_ok in H1 as (c & Hc & H1). unfold lx_cost in Hc. rewrite Nat2Z.id in Hc.
    destruct (c =? -32768) eqn:Ec; cbn [negb] in H1.
    + apply Z.eqb_eq in Ec. apply bind_ok in H1 as (info & Hi & H1). apply bind_ok in H1 as ((i & m) & Ha & H1).
      unfold lx_set_cost in H1. destruct (_ && _); [|discriminate H1]. apply bind_ok in H1 as (ps & Hps & H1). injection H1 as <-.
      rewrite Nat2Z.id in Hps. cbn [lx_params] in *.
      destruct (set_nth_same _ _ _ _ Hps) as [P1 _].
      assert (Sw : same_words lx (Lexicon (lx_data lx) (lx_trie lx) (lx_wids lx) ps (lx_size lx) (lx_infos lx) (lx_syn lx))) by (repeat split).
      split; [eapply same_trans; eauto|]. split.
      * intros j Hj. rewrite U2 by (intros w Hw; apply Hj; lia). apply (set_nth_other _ _ _ _ _ Hps). apply Hj. lia.
      * intros w Hw. destruct (Nat.eq_dec w a) as [->|N].
        -- exists c. split; [exact Hc|]. split; [congruence|]. intros _. split; [congruence|]. exists info, i, m. split; [auto|]. split; [auto|].
           rewrite U2 by (intros w Hw2; lia). exact P1.
        -- destruct (C2 w ltac:(lia)) as (c' & G1 & G2 & G3). rewrite (set_nth_other _ _ _ _ _ Hps) in G1 by lia. exists c'. split; [exact G1|]. split; [exact G2|].
           intros E. destruct (G3 E) as (_ & info' & i' & m' & I1 & I2 & I3). split; [congruence|]. exists info', i', m'. split; [|auto].
           rewrite (same_info _ _ _ _ Sw). exact I1.
    + injection H1 as <-. apply Z.eqb_neq in Ec. split; [exact S2|]. split.
      * intros j Hj. apply U2. intros w Hw. apply Hj. lia.
      * intros w Hw. destruct (Nat.eq_dec w a) as [->|N]; [|apply C2; lia].
        exists c. split; [exact Hc|]. split; [|congruence]. intros _. rewrite U2 by (intros w Hw2; lia). exact Hc.
Qed.

Lemma calculate_same lx lx' : calculate_cost limit internal lx = Ok lx' -> same_words lx lx'.
Proof. intros H. apply (calculate_fold _ _ _ _ H). Qed.
End costs.

(** ** Rows and entries *)
Section rows.
Variable k : kind.
Variable py_int : text -> res Z.

(** The columns of part of speech in the row of an entry *)
Definition source_pos (row : list text) (pos : list text) : Prop :=
  exists cs, Forall2 (fun c c' => unescape c = Ok c') row cs /\ pos = slice cs 5 11.

Definition extends (a b : list text) : Prop := forall i x, nth_error a i = Some x -> nth_error b i = Some x.

Lemma build_rows rows : forall s s', build_lexicon k py_int s rows = Ok s' ->
  extends (s_table s) (s_table s') /\
  length (s_entries s') = (length (s_entries s) + length rows)%nat /\
  (forall i e, nth_error (s_entries s) i = Some e -> nth_error (s_entries s') i = Some e) /\
  (forall i row, nth_error rows i = Some row ->
     exists e tb tb', nth_error (s_entries s') (length (s_entries s) + i) = Some e /\ parse_line k py_int tb row = Ok (e, tb') /\ extends tb' (s_table s')).
Proof.
  unfold build_lexicon. induction rows as [|r rows IH]; intros s s' H; cbn [foldM] in H.
  - injection H as <-. split; [intros i x; auto|]. split; [cbn [length]; lia|]. split; [auto|]. intros i row Hr. destruct i; discriminate Hr.
  - apply bind_ok in H as (s1 & H1 & H2). destruct (IH _ _ H2) as (T2 & L2 & E2 & R2). clear IH H2.
    unfold build_row in H1. apply bind_ok in H1 as ((e & tb') & Hp & H1). apply bind_ok in H1 as (keys & _ & H1).
    assert (E1 : s_entries s1 = s_entries s ++ [e]) by (injection H1 as <-; reflexivity).
    assert (T1 : s_table s1 = tb') by (injection H1 as <-; reflexivity). clear H1.
    rewrite E1 in *. rewrite T1 in *. destruct (C58_part_of_speech _ _ _ _ _ _ Hp) as (_ & _ & X & _).
    split; [intros i x Hx; apply T2, X, Hx|]. split; [rewrite L2, app_length; cbn [length]; lia|]. split.
    + intros i y Hy. apply E2. rewrite nth_error_app1; auto. apply nth_error_Some. congruence.
    + intros i row Hr. destruct i as [|i].
      * cbn [nth_error] in Hr. injection Hr as <-. exists e, (s_table s), tb'. rewrite Nat.add_0_r. split; [|auto].
        apply E2. rewrite nth_error_app2 by lia. now rewrite Nat.sub_diag.
      * cbn [nth_error] in Hr. destruct (R2 i row Hr) as (e' & tb & tb2 & A & B & C). exists e', tb, tb2. split; [|auto].
        rewrite app_length in A. cbn [length] in A. replace (length (s_entries s) + S i)%nat with (length (s_entries s) + 1 + i)%nat by lia. exact A.
Qed.
End rows.

Definition occurrences (c : Z) (t : text) : nat := length (filter (Z.eqb c) t).
Lemma split_on_length c t : length (split_on c t) = S (occurrences c t).
Proof.
  unfold occurrences. induction t as [|x t IH]; [reflexivity|]. cbn [split_on filter]. rewrite (Z.eqb_sym c x). destruct (x =? c); cbn [length].
  - now rewrite IH.
  - destruct (split_on c t); cbn [length] in *; [discriminate IH|exact IH].
Qed.
Lemma occurrences_app c a b : occurrences c (a ++ b) = (occurrences c a + occurrences c b)%nat.
Proof. unfold occurrences. now rewrite filter_app, app_length. Qed.
Lemma occurrences_none c t : occurrences c t = 0%nat -> ~ In c t.
Proof.
  unfold occurrences. intros H X. assert (Y : In c (filter (Z.eqb c) t)) by (apply filter_In; split; [auto|apply Z.eqb_refl]).
  destruct (filter (Z.eqb c) t); [destruct Y|discriminate H].
Qed.
Lemma occurrences_join c l : l <> [] -> S (occurrences c (join_with c l)) = (length l + list_sum (map (occurrences c) l))%nat.
Proof.
  intros NE. induction l as [|w l IH]; [congruence|]. cbn [join_with map list_sum fold_right length]. destruct l as [|w' l].
  - cbn [map fold_right length]. lia.
  - rewrite occurrences_app. specialize (IH ltac:(discriminate)).
    assert (E : occurrences c (c :: join_with c (w' :: l)) = S (occurrences c (join_with c (w' :: l)))).
    { unfold occurrences. cbn [filter]. rewrite Z.eqb_refl. reflexivity. }
    rewrite E, IH. cbn [map list_sum fold_right length]. lia.
Qed.
Lemma split_join_count c l : l <> [] -> length (split_on c (join_with c l)) = length l -> split_on c (join_with c l) = l.
Proof.
  intros NE L. apply split_join; [exact NE|]. rewrite split_on_length, occurrences_join in L by exact NE.
  assert (Z0 : list_sum (map (occurrences c) l) = 0%nat) by lia. clear - Z0. induction l as [|w l IH]; constructor.
  - apply occurrences_none. cbn [map list_sum fold_right] in Z0. lia.
  - apply IH. cbn [map list_sum fold_right] in Z0. unfold list_sum. lia.
Qed.

(** ** Loading a system dictionary and user dictionaries *)
(** A dictionary: the rows of its source, the file, what the rows mean *)
Record dic := Dic { dc_rows : list (list text); dc_file : bytes; dc_source : source }.

Section loading.
Variable py_int : text -> res Z.
Variable is_digit : Z -> bool.
Variable search : bytes -> bytes -> list (Z * nat).
Variable trie_array : list (bytes * Z) -> res bytes.
Hypothesis contract : trie_contract search trie_array.
Variable limit : nat.
Variable analyse : grammar -> lexset -> text -> res (Z * nat).

(** The file is what the builder of kind [k] makes of the rows, which are within the limits
    of C51, C53 and C54; a dictionary has at most 2^28 entries. *)
Definition built (k : kind) (u : dic) : Prop :=
  exists now description ms, build_command k py_int is_digit trie_array now description (dc_rows u) ms = Ok (dc_file u) /\
    0 <= now /\ ~ In 0 description /\ build_lexicon k py_int new_source (dc_rows u) = Ok (dc_source u) /\
    Forall readable_pos (s_table (dc_source u)) /\ (forall m, matrix_written k ms = Some m -> exists n, has_matrix n m) /\
    Forall fits (s_entries (dc_source u)) /\ Z.of_nat (length (s_entries (dc_source u))) <= 2 ^ 28.

(** The lexicon in memory has the words of the dictionary. *)
Definition has_words (k : kind) (u : dic) (lx : lexicon) : Prop :=
  exists lx0, lexicon_of k py_int is_digit search (dc_source u) lx0 /\ lx_syn lx0 = true /\ same_words lx0 lx.
(** It has their parameters; the cost -32768 of a user word was replaced. *)
Definition has_params (k : kind) (u : dic) (lx : lexicon) : Prop :=
  forall i e, nth_error (s_entries (dc_source u)) i = Some e ->
    lx_left_id lx (Z.of_nat i) = Ok (e_left e) /\ lx_right_id lx (Z.of_nat i) = Ok (e_right e) /\
    exists c, lx_cost lx (Z.of_nat i) = Ok c /\ -32768 <= c <= 32767 /\ (e_cost e <> -32768 \/ k = SystemDic -> c = e_cost e).

Lemma fresh_params k u lx : lexicon_of k py_int is_digit search (dc_source u) lx -> has_params k u lx.
Proof.
  intros LO i e Hi. destruct (lexicon_params _ _ _ _ _ _ _ _ LO Hi) as (A & B & C). split; [exact A|]. split; [exact B|]. exists (e_cost e). split; [exact C|].
  split; [|auto]. pose proof (lo_params_range _ _ _ _ _ _ LO) as R. rewrite Forall_forall in R. assert (X : short_range (e_cost e)); [|unfold short_range in X; lia].
  apply R. unfold lx_cost in C. apply get_ok in C. eapply nth_error_In; eauto.
Qed.
Lemma auto_cost_range c n : -32768 <= auto_cost c n <= 32767.
Proof. unfold auto_cost. lia. Qed.
Lemma calculated_range lx lx' internal : Forall short_range (lx_params lx) -> calculate_cost limit internal lx = Ok lx' -> Forall short_range (lx_params lx').
Proof.
  intros F H. destruct (calculate_fold _ _ _ _ _ _ H) as (_ & U & W). rewrite Forall_forall in F. apply Forall_forall. intros c Hc. apply In_nth_error in Hc as (j & Hj). apply get_ok in Hj.
  destruct (Nat.lt_ge_cases (j / 3) (lx_size lx)) as [Lt|Ge]; [destruct (Nat.eq_dec (j mod 3) 2) as [E|N]|].
  - pose proof (Nat.div_mod j 3 ltac:(lia)) as D. rewrite E in D. destruct (W (j / 3)%nat ltac:(lia)) as (c' & C' & W1 & W2). rewrite <- D in *.
    destruct (Z.eq_dec c' (-32768)) as [E'|N']; [destruct (W2 E') as (_ & info & ic & m & _ & _ & R)|rewrite W1 in Hj by exact N'].
    + rewrite <- D in R. rewrite R in Hj. injection Hj as <-. unfold short_range. pose proof (auto_cost_range ic m). lia.
    + injection Hj as <-. apply F. apply get_ok in C'. eapply nth_error_In; eauto.
  - rewrite U in Hj; [apply get_ok in Hj; apply F; eapply nth_error_In; eauto|]. intros w _ ->. apply N. replace (3 * w + 2)%nat with (2 + w * 3)%nat by lia. rewrite Nat.mod_add by lia. reflexivity.
  - rewrite U in Hj; [apply get_ok in Hj; apply F; eapply nth_error_In; eauto|]. intros w Hw ->. replace (3 * w + 2)%nat with (2 + w * 3)%nat in Ge by lia. rewrite Nat.div_add in Ge by lia. cbn in Ge. lia.
Qed.
Lemma calculated_params g n sy u lx lx' internal : lx_size lx = length (s_entries (dc_source u)) ->
  has_params (UserDic g sy n) u lx -> calculate_cost limit internal lx = Ok lx' -> has_params (UserDic g sy n) u lx'.
Proof.
  intros SZ P H i e Hi. destruct (P i e Hi) as (A & B & c & C & Rc & Kc). destruct (calculate_fold _ _ _ _ _ _ H) as (_ & U & W).
  assert (Li : (i < length (s_entries (dc_source u)))%nat) by (apply nth_error_Some; congruence).
  unfold lx_left_id, lx_right_id, lx_cost in *. rewrite Nat2Z.id in *.
  split; [rewrite U; [exact A|intros w _; lia]|]. split; [rewrite U; [exact B|intros w _; lia]|].
  destruct (W i ltac:(lia)) as (c' & C' & W1 & W2). rewrite C in C'. injection C' as <-.
  destruct (Z.eq_dec c (-32768)) as [E|N].
  - destruct (W2 E) as (_ & info & ic & m & _ & _ & G). exists (auto_cost ic m). split; [exact G|]. split; [apply auto_cost_range|].
    intros [X|X]; [|discriminate X]. exfalso. apply X. rewrite <- E. symmetry. apply Kc. now left.
  - exists c. split; [apply W1, N|]. split; [exact Rc|exact Kc].
Qed.

Lemma built_opens k u : built k u ->
  source_ok (dc_source u) /\
  exists dict g, read_dictionary (dc_file u) = Ok dict /\ d_grammar dict = Some g /\
    (match k with SystemDic => from_system_dictionary (dc_file u) | UserDic _ _ _ => from_user_dictionary (dc_file u) end) = Ok dict /\
    g_pos g = map (split_on comma) (s_table (dc_source u)) /\
    lexicon_of k py_int is_digit search (dc_source u) (d_lexicon dict) /\ lx_syn (d_lexicon dict) = true.
Proof.
  intros (now & de & ms & H & T & N & Hs & R & M & F & _).
  pose proof (build_lexicon_ok _ _ _ _ _ new_source_ok Hs) as SO. split; [exact SO|].
  destruct (build_command_ok _ _ _ _ _ contract _ _ _ _ _ H T N) as (s & Hs' & G). rewrite Hs in Hs'. injection Hs' as <-.
  destruct (G R M) as (dict & g & E & Eh & Eg & G1 & _ & _ & LO & LS). exists dict, g. split; [exact E|]. split; [exact Eg|]. split.
  { unfold from_system_dictionary, from_user_dictionary. rewrite E. cbn [bind]. rewrite Eh. destruct k; reflexivity. }
  auto.
Qed.

Variable g0 : grammar.
Variable sys_id : text -> Z -> text -> res Z.
Variable n0 : nat.
Variable system : dic.
Hypothesis system_built : built SystemDic system.
(** The user dictionaries were built with this system dictionary: its grammar and its number
    of words. *)
Hypothesis g0_of : exists dict, from_system_dictionary (dc_file system) = Ok dict /\ d_grammar dict = Some g0.
Hypothesis n0_of : n0 = length (s_entries (dc_source system)).

Definition kind_of (k : nat) : kind := match k with O => SystemDic | S _ => UserDic g0 sys_id n0 end.

(** The parts of speech that a dictionary brings with it *)
Definition own_pos (u : dic) : list (list text) := map (split_on comma) (s_table (dc_source u)).
Fixpoint offsets_of (n : nat) (us : list dic) : list Z :=
  match us with [] => [] | u :: r => Z.of_nat n :: offsets_of (n + length (own_pos u)) r end.

Record loaded (us : list dic) (ds : dictset) : Prop := {
  ld_pos : g_pos (ds_grammar ds) = own_pos system ++ concat (map own_pos us);
  ld_matrix : g_lsize (ds_grammar ds) = g_lsize g0 /\ g_rsize (ds_grammar ds) = g_rsize g0 /\ g_matrix (ds_grammar ds) = g_matrix g0;
  ld_count : length (ls_lexicons (ds_lexicon ds)) = S (length us);
  ld_ids : map fst (ls_lexicons (ds_lexicon ds)) = seq 0 (S (length us));
  ld_offsets : ls_offsets (ds_lexicon ds) = 0 :: offsets_of (length (own_pos system)) us;
  ld_words : forall k u, nth_error (system :: us) k = Some u ->
    exists id lx, nth_error (ls_lexicons (ds_lexicon ds)) k = Some (id, lx) /\ has_words (kind_of k) u lx;
  ld_params : forall k u id lx, nth_error (system :: us) k = Some u -> nth_error (ls_lexicons (ds_lexicon ds)) k = Some (id, lx) -> has_params (kind_of k) u lx;
  ld_shorts : Forall (fun x => Forall short_range (lx_params (snd x))) (ls_lexicons (ds_lexicon ds));
}.

Lemma g0_pos : g_pos g0 = own_pos system.
Proof.
  destruct g0_of as (dict & E & Eg). destruct (built_opens _ _ system_built) as (_ & dict' & g & _ & Eg' & E' & G1 & _).
  rewrite E in E'. injection E' as <-. rewrite Eg in Eg'. injection Eg' as <-. exact G1.
Qed.

Lemma offsets_app us : forall n u, offsets_of n (us ++ [u]) = offsets_of n us ++ [Z.of_nat (n + length (concat (map own_pos us)))].
Proof.
  induction us as [|v us IH]; intros n u; cbn [app offsets_of map concat length]; [now rewrite Nat.add_0_r|].
  rewrite IH, app_length, Nat.add_assoc. reflexivity.
Qed.
Lemma offsets_length us : forall n, length (offsets_of n us) = length us.
Proof. induction us as [|v us IH]; intros n; cbn [offsets_of length]; auto. Qed.

Lemma load_one us ds u ds' : loaded us ds -> built (UserDic g0 sys_id n0) u ->
  read_user_dictionary limit analyse ds (dc_file u) = Ok ds' -> loaded (us ++ [u]) ds'.
Proof.
  intros L B H. unfold read_user_dictionary in H. destruct (ls_is_full _); [discriminate H|].
  apply bind_ok in H as (dict & Hd & H). apply bind_ok in H as (lx & Hc & H).
  destruct (built_opens _ _ B) as (SO & dict' & g & _ & Eg & E & G1 & LO & LS). rewrite Hd in E. injection E as <-. rewrite Eg in H.
  injection H as <-. pose proof (calculate_same _ _ _ _ Hc) as SW.
  assert (NA : existsb (fun x => Nat.eqb (fst x) (fst (length (ls_lexicons (ds_lexicon ds)), lx))) (ls_lexicons (ds_lexicon ds)) = false).
  { apply not_true_iff_false. intros X. apply existsb_exists in X as (x & Hx & Ex). cbn [fst] in Ex. apply Nat.eqb_eq in Ex.
    apply (in_map fst) in Hx. rewrite (ld_ids _ _ L) in Hx. apply in_seq in Hx. rewrite (ld_count _ _ L) in Ex. lia. }
  assert (LA : ls_add (ds_lexicon ds) (length (ls_lexicons (ds_lexicon ds)), lx) (Z.of_nat (length (g_pos (ds_grammar ds)))) =
    LexSet (ls_lexicons (ds_lexicon ds) ++ [(length (ls_lexicons (ds_lexicon ds)), lx)]) (ls_offsets (ds_lexicon ds) ++ [Z.of_nat (length (g_pos (ds_grammar ds)))])).
  { unfold ls_add. rewrite NA. reflexivity. }
  constructor; cbn [ds_grammar ds_lexicon]; rewrite ?LA; cbn [ls_lexicons ls_offsets].
  - cbn [add_pos_list g_pos]. rewrite (ld_pos _ _ L), G1, map_app, concat_app. cbn [map concat]. rewrite app_nil_r, <- app_assoc. reflexivity.
  - cbn [add_pos_list g_lsize g_rsize g_matrix]. apply (ld_matrix _ _ L).
  - rewrite !app_length, (ld_count _ _ L). cbn [length]. lia.
  - rewrite map_app, (ld_ids _ _ L), app_length, (ld_count _ _ L). cbn [map fst length]. replace (S (length us + 1)) with (S (length us) + 1)%nat by lia.
    rewrite seq_app. reflexivity.
  - rewrite (ld_offsets _ _ L), offsets_app, (ld_pos _ _ L), app_length. reflexivity.
  - intros k v Hk. change (system :: us ++ [u]) with ((system :: us) ++ [u]) in Hk. destruct (Nat.lt_ge_cases k (S (length us))) as [Lt|Ge].
    + rewrite nth_error_app1 in Hk by (cbn [length]; lia). destruct (ld_words _ _ L k v Hk) as (id & l & A & W). exists id, l.
      split; [|exact W]. rewrite nth_error_app1; [exact A|]. rewrite (ld_count _ _ L). lia.
    + rewrite nth_error_app2 in Hk by (cbn [length]; lia). cbn [length] in Hk. destruct (k - S (length us))%nat as [|m] eqn:Ek; [|destruct m; discriminate Hk].
      cbn [nth_error] in Hk. injection Hk as <-. replace k with (S (length us)) by lia. exists (length (ls_lexicons (ds_lexicon ds))), lx. split.
      * rewrite nth_error_app2; rewrite (ld_count _ _ L); [|lia]. now rewrite Nat.sub_diag.
      * cbn [kind_of]. exists (d_lexicon dict). auto.
  - intros k v id l Hk Hl. change (system :: us ++ [u]) with ((system :: us) ++ [u]) in Hk. destruct (Nat.lt_ge_cases k (S (length us))) as [Lt|Ge].
    + rewrite nth_error_app1 in Hk by (cbn [length]; lia). rewrite nth_error_app1 in Hl by (rewrite (ld_count _ _ L); lia). eapply (ld_params _ _ L); eauto.
    + rewrite nth_error_app2 in Hk by (cbn [length]; lia). cbn [length] in Hk. destruct (k - S (length us))%nat as [|m] eqn:Ek; [|destruct m; discriminate Hk].
      cbn [nth_error] in Hk. injection Hk as <-. assert (k = S (length us)) by lia. subst k.
      rewrite nth_error_app2 in Hl; rewrite (ld_count _ _ L) in *; [|lia]. rewrite Nat.sub_diag in Hl. cbn [nth_error] in Hl. injection Hl as _ <-.
      cbn [kind_of]. eapply calculated_params; [apply (lo_size _ _ _ _ _ _ LO)|apply fresh_params; exact LO|exact Hc].
  - apply Forall_app. split; [apply (ld_shorts _ _ L)|]. constructor; [|constructor]. cbn [snd]. eapply calculated_range; [apply (lo_params_range _ _ _ _ _ _ LO)|exact Hc].
Qed.

Theorem load_ok users ds : Forall (built (UserDic g0 sys_id n0)) users ->
  load_dictionaries limit analyse (dc_file system) (map dc_file users) = Ok ds -> loaded users ds.
Proof.
  intros F H. unfold load_dictionaries in H. apply bind_ok in H as (ds0 & H0 & H).
  assert (L0 : loaded [] ds0).
  { unfold read_system_dictionary in H0. apply bind_ok in H0 as (dict & Hd & H0).
    destruct (built_opens _ _ system_built) as (SO & dict' & g & _ & Eg & E & G1 & LO & LS). rewrite Hd in E. injection E as <-. rewrite Eg in H0. injection H0 as <-.
    assert (g = g0). { destruct g0_of as (dict2 & E2 & Eg2). rewrite Hd in E2. injection E2 as <-. congruence. } subst g.
    constructor; cbn [ds_grammar ds_lexicon lexset_init ls_lexicons ls_offsets map fst length seq offsets_of concat]; auto.
    - rewrite app_nil_r. exact G1.
    - intros [|k] u Hk; [|destruct k; discriminate Hk]. cbn [nth_error] in Hk. injection Hk as <-. exists 0%nat, (d_lexicon dict). split; [reflexivity|].
      exists (d_lexicon dict). split; [exact LO|]. split; [exact LS|apply same_refl].
    - intros [|k] u id lx Hk Hl; [|destruct k; discriminate Hk]. cbn [nth_error] in Hk, Hl. injection Hk as <-. injection Hl as _ <-. apply fresh_params. exact LO.
    - constructor; [|constructor]. apply (lo_params_range _ _ _ _ _ _ LO). }
  assert (G : forall rest done ds1, Forall (built (UserDic g0 sys_id n0)) rest -> loaded done ds1 ->
    foldM (read_user_dictionary limit analyse) ds1 (map dc_file rest) = Ok ds -> loaded (done ++ rest) ds).
  { clear H L0 F. induction rest as [|u rest IH]; intros done ds1 F L H; cbn [map foldM] in H.
    - injection H as <-. now rewrite app_nil_r.
    - inversion F; subst. apply bind_ok in H as (ds2 & H1 & H2). replace (done ++ u :: rest) with ((done ++ [u]) ++ rest) by (rewrite <- app_assoc; reflexivity).
      eapply IH; eauto. eapply load_one; eauto. }
  apply (G users [] ds0); auto.
Qed.
End loading.
