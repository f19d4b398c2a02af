(** From what the word lists say to what the dictionaries are: lemmas for C86. *)
From Coq Require Import String Ascii List ZArith Lia Bool Arith Sorting.Sorted Sorting.Permutation.
From Verif Require Import Base Utf8 M_Builder M_CharCategory M_Lattice M_Oov M_Tokenizer M_Bytes M_DicReader M_DicBuilder M_LexiconSet M_Front M_Resource M_Setup M_Resources M_Command S_Text S_Resource S_Accept S_Tool
  P_Bytes P_DicFormat P_DicWrite P_DicOpen P_DicGrammar P_DicSource P_DicLexicon P_DicFile P_LexiconSet Prop_Source P_Resource Prop_Resource P_Setup P_System Prop_System P_AsShipped Prop_Accept.
Import ListNotations.
Open Scope list_scope.
Open Scope Z_scope.

Lemma units_length t : length (units t) = code_units t.
Proof.
  induction t as [|c t IH]; [reflexivity|]. unfold units in *. cbn [map concat code_units fold_right]. fold (code_units t). rewrite app_length, IH. unfold units_cp. destruct (c <? 0x10000); reflexivity.
Qed.
Lemma speech_of cs : (18 <= length cs)%nat -> slice cs 5 11 = speech cs.
Proof.
  intros L. unfold slice, speech, column. do 11 (destruct cs as [|? cs]; [cbn in L; lia|]). reflexivity.
Qed.
Lemma decoded_same {row a b} : Forall2 (fun c c' => unescape c = Ok c') row a -> Forall2 (fun c c' => unescape c = Ok c') row b -> a = b.
Proof. intros A. revert b. induction A as [|x y l1 l2 E A IH]; intros b B; inversion B; subst; [reflexivity|]. f_equal; [congruence|auto]. Qed.
Lemma decoded_all_same {rows a b} : Forall2 (Forall2 (fun c c' => unescape c = Ok c')) rows a -> Forall2 (Forall2 (fun c c' => unescape c = Ok c')) rows b -> a = b.
Proof. intros A. revert b. induction A as [|x y l1 l2 E A IH]; intros b B; inversion B; subst; [reflexivity|]. f_equal; [eapply decoded_same; eauto|auto]. Qed.
Lemma decoded_in {rows css row cs} : Forall2 (Forall2 (fun c c' => unescape c = Ok c')) rows css -> In row rows -> Forall2 (fun c c' => unescape c = Ok c') row cs -> In cs css.
Proof.
  intros A. induction A as [|x y l1 l2 E A IH]; intros I D; [destruct I|]. destruct I as [->|I]; [left; eapply decoded_same; eauto|right; auto].
Qed.
Lemma decoded_back {rows css cs} : Forall2 (Forall2 (fun c c' => unescape c = Ok c')) rows css -> In cs css -> exists row, In row rows /\ Forall2 (fun c c' => unescape c = Ok c') row cs.
Proof.
  intros A. induction A as [|x y l1 l2 E A IH]; intros I; [destruct I|]. destruct I as [->|I]; [exists x; split; [now left|exact E]|]. destruct (IH I) as (row & R & D). exists row. split; [now right|exact D].
Qed.
Lemma decoded_at {rows css} : Forall2 (Forall2 (fun c c' => unescape c = Ok c')) rows css -> forall i cs, nth_error css i = Some cs -> exists row, nth_error rows i = Some row /\ Forall2 (fun c c' => unescape c = Ok c') row cs.
Proof.
  intros A. induction A as [|x y l1 l2 E A IH]; intros i cs I; [destruct i; discriminate|]. destruct i as [|i]; cbn [nth_error] in *; [assert (y = cs) by congruence; subst; eauto|eauto].
Qed.
Lemma decoded_nth {rows css} : Forall2 (Forall2 (fun c c' => unescape c = Ok c')) rows css -> forall i row cs, nth_error rows i = Some row -> Forall2 (fun c c' => unescape c = Ok c') row cs -> nth_error css i = Some cs.
Proof.
  intros A. induction A as [|x y l1 l2 E A IH]; intros i row cs I D; [destruct i; discriminate|]. destruct i as [|i]; cbn [nth_error] in *; [|eauto].
  assert (x = row) by congruence. subst. f_equal. eapply decoded_same; eauto.
Qed.

Section rows.
Variable k : kind.
Variable py_int : text -> res Z.

(** The table of the parts of speech has nothing but those of the rows. *)
Lemma posid_table table strs i table' x : get_posid k table strs = (i, table') -> In x table' -> In x table \/ x = join_with comma strs.
Proof.
  assert (T : forall i t, table_id table (join_with comma strs) = (i, t) -> In x t -> In x table \/ x = join_with comma strs).
  { intros j t H I. unfold table_id in H. destruct (index_of teqb table _); [assert (t = table) by congruence; subst; auto|].
    assert (t = table ++ [join_with comma strs]) by congruence. subst. apply in_app_iff in I. destruct I as [I|[I|[]]]; auto. }
  unfold get_posid. destruct k as [|g f n]; [apply T|]. destruct (_ <? 0); [|intros H I; assert (table' = table) by congruence; subst; auto].
  destruct (table_id _ _) as [j t] eqn:E. intros H I. assert (table' = t) by congruence. subst. eapply T; eauto.
Qed.
Lemma line_table table row e table' x : parse_line k py_int table row = Ok (e, table') -> In x table' ->
  In x table \/ exists cs, Forall2 (fun c c' => unescape c = Ok c') row cs /\ (18 <= length cs)%nat /\ x = join_with comma (speech cs).
Proof.
  unfold parse_line. destruct (length row <? 18)%nat eqn:L; [discriminate|]. apply Nat.ltb_ge in L. intros H I.
  apply bind_ok in H as (cs & Hc & H). pose proof (mapM_ok_length _ _ _ Hc) as Lc. apply mapM_Forall2 in Hc.
  apply bind_ok in H as (head & Hh & H). cbv zeta in H.
  destruct (negb _); [discriminate|]. destruct (nth 0 cs []) as [|c0 h0] eqn:E0; [discriminate|].
  apply bind_ok in H as (left & Hl & H). apply bind_ok in H as (right & Hr & H). apply bind_ok in H as (cost & Hk & H).
  destruct (get_posid k table (slice cs 5 11)) as [pos tb] eqn:G. destruct (pos <? 0) eqn:P; [discriminate|].
  apply bind_ok in H as (u1 & S1 & H). apply bind_ok in H as (u2 & S2 & H). apply bind_ok in H as (u3 & S3 & H).
  destruct (_ && _); [discriminate|].
  apply bind_ok in H as (syn & Hsyn & H). apply bind_ok in H as (did & Hd & H).
  assert (table' = tb) by congruence. subst tb. clear H.
  assert (Ls : (18 <= length cs)%nat) by lia.
  destruct (posid_table _ _ _ _ _ G I) as [X|X]; [now left|]. right. exists cs. split; [exact Hc|]. split; [exact Ls|]. rewrite X. now rewrite speech_of.
Qed.
Lemma lexicon_table x rows : forall s s', build_lexicon k py_int s rows = Ok s' -> In x (s_table s') ->
  In x (s_table s) \/ exists row cs, In row rows /\ Forall2 (fun c c' => unescape c = Ok c') row cs /\ (18 <= length cs)%nat /\ x = join_with comma (speech cs).
Proof.
  unfold build_lexicon. induction rows as [|r rows IH]; intros s s' E I; cbn [foldM] in E.
  - assert (s' = s) by congruence. subst. now left.
  - apply bind_ok in E as (s1 & E1 & E2). destruct (IH _ _ E2 I) as [X|(row & cs & R & X)]; [|right; exists row, cs; split; [now right|exact X]].
    unfold build_row in E1. apply bind_ok in E1 as ((e & tb') & Ep & E1).
    apply bind_ok in E1 as (keys & _ & E1). assert (T : s_table s1 = tb') by (assert (s1 = Source (s_entries s ++ [e]) keys tb') by congruence; subst; reflexivity). rewrite T in X.
    destruct (line_table _ _ _ _ _ Ep X) as [Y|(cs & Y)]; [now left|]. right. exists r, cs. split; [now left|exact Y].
Qed.

Variable limit : nat.
Variables (rows css : list (list text)) (s : source).
Hypothesis D : Forall2 (Forall2 (fun c c' => unescape c = Ok c')) rows css.
Hypothesis B : build_lexicon k py_int new_source rows = Ok s.
Hypothesis R : readable_list py_int limit css.

Lemma table_readable : Forall readable_pos (s_table s).
Proof.
  apply Forall_forall. intros x I. destruct (lexicon_table _ _ _ _ B I) as [[]|(row & cs & Ir & Dr & L & ->)].
  pose proof (decoded_in D Ir Dr) as Ic. pose proof (rl_rows _ _ _ R) as F. rewrite Forall_forall in F. pose proof (rr_speech _ (F _ Ic)) as F'.
  unfold readable_pos. assert (E : split_on comma (join_with comma (speech cs)) = speech cs).
  { apply split_join; [discriminate|]. eapply Forall_impl; [|exact F']. intros t (_ & _ & _ & H). exact H. }
  rewrite E. split; [reflexivity|]. eapply Forall_impl; [|exact F']. intros t (H1 & H2 & H3 & _). unfold readable_component. rewrite units_length. auto.
Qed.
(** Every entry is what its row says. *)
Definition says (cs : list text) (e : entry) : Prop :=
  accepted py_int cs e /\ 0 <= e_pos e /\ (column cs 13 = [42] -> e_dic_id e = -1).
Lemma entries_say : Forall2 says css (s_entries s).
Proof.
  destruct (entries_rows _ _ _ _ _ B) as (es & Ee & F). cbn [new_source s_entries app] in Ee. rewrite Ee. clear Ee. clear R B.
  revert css D. induction F as [|row e rows' es (tb & tb' & P) F IH]; intros css' D'; inversion D'; subst; constructor; auto.
  destruct (accepted_row _ _ _ _ _ _ P) as (cs & A1 & A2). destruct (C58_accepted _ _ _ _ _ _ P) as (_ & cs' & B1 & _ & _ & _ & _ & _ & _ & _ & _ & _ & B2 & _ & _ & _ & _ & _ & _ & B3).
  rewrite (decoded_same A1 H1) in A2. rewrite (decoded_same B1 H1) in B2. split; [exact A2|]. split; [exact B3|exact B2].
Qed.
Lemma entries_count : length (s_entries s) = length css.
Proof. pose proof entries_say as F. clear - F. induction F; cbn [length]; congruence. Qed.
Lemma entry_at i e : nth_error (s_entries s) i = Some e -> exists cs, nth_error css i = Some cs /\ says cs e.
Proof.
  pose proof entries_say as F. clear - F. revert i. induction F as [|cs e' css es H F IH]; intros i E; [destruct i; discriminate|].
  destruct i as [|i]; cbn [nth_error] in *; [assert (e' = e) by congruence; subst; eauto|eauto].
Qed.
Lemma entry_for i cs : nth_error css i = Some cs -> exists e, nth_error (s_entries s) i = Some e /\ says cs e.
Proof.
  pose proof entries_say as F. clear - F. revert i. induction F as [|cs' e' css es H F IH]; intros i E; [destruct i; discriminate|].
  destruct i as [|i]; cbn [nth_error] in *; [assert (cs' = cs) by congruence; subst; eauto|eauto].
Qed.
Lemma entries_fit : Forall fits (s_entries s).
Proof.
  apply Forall_forall. intros e I. destruct (In_nth_error _ _ I) as (i & E). destruct (entry_at _ _ E) as (cs & Ec & (A & P & _)).
  pose proof (rl_rows _ _ _ R) as F. rewrite Forall_forall in F. pose proof (rr_texts _ (F _ (nth_error_In _ _ Ec))) as T.
  inversion T as [|? ? T4 T']; subst. inversion T' as [|? ? T11 T'']; subst. inversion T'' as [|? ? T12 _]; subst.
  unfold fits. rewrite !units_length, (ac_surface _ _ _ A), (ac_norm _ _ _ A), (ac_reading _ _ _ A).
  split; [exact T4|]. split; [exact T12|]. split; [exact T11|]. split; [|exact P].
  destruct (ac_head _ _ _ A) as (_ & b & Eb & ->). destruct (Z.lt_ge_cases (Z.of_nat (length b)) 32768) as [|G]; [assumption|].
  exfalso. apply (ac_bad _ _ _ A). right. left. exists b. split; [exact Eb|lia].
Qed.
Lemma chains_end i : (i < length (s_entries s))%nat -> exists n, (n <= limit)%nat /\ chain_ends (s_entries s) n i.
Proof.
  intros L. rewrite entries_count in L. destruct (rl_forms _ _ _ R i L) as (n & Ln & F). exists n. split; [exact Ln|]. clear - F D B.
  induction F as [i cs E H|n i cs j E N P J F IH].
  - destruct (entry_for _ _ E) as (e & Ee & (A & _ & M)). eapply CE_end; [exact Ee|].
    destruct (list_eq_dec Z.eq_dec (column cs 13) none) as [X|X]; [rewrite (M X); left; lia|]. destruct H as [H|(z & Hz & H)]; [contradiction|].
    pose proof (ac_form _ _ _ A X) as Y. assert (e_dic_id e = z) as -> by congruence. exact H.
  - destruct (entry_for _ _ E) as (e & Ee & (A & _ & M)). pose proof (ac_form _ _ _ A N) as Y. eapply CE_step; [exact Ee| |exact J|exact IH]. congruence.
Qed.
Lemma few_entries : Z.of_nat (length (s_entries s)) <= 2 ^ 28.
Proof. rewrite entries_count. exact (rl_length _ _ _ R). Qed.
End rows.

(** ** The matrix *)
Lemma fitting_has n m : fitting_matrix n m -> has_matrix n m.
Proof.
  intros (H & L & F & C). split; [exact H|]. split; [lia|]. split; [|exact C]. eapply Forall_impl; [|exact F].
  intros line (i & j & c & E & Hi & Hj & _). exists i, j, c. auto.
Qed.
Lemma last_given lines l r : not_given lines l r \/ exists c, given lines l r c /\ In [l; r; c] lines.
Proof.
  induction lines as [|x lines IH]; [left; intros c []|]. destruct IH as [N|(c & (pre & post & E & G) & I)].
  - destruct (list_eq_dec Z.eq_dec (firstn 2 x) [l; r]) as [E|E].
    + destruct x as [|a [|b [|c [|]]]]; try discriminate E; [left; intros c [X|X]; [discriminate X|exact (N _ X)]| |left; intros c' [X|X]; [discriminate X|exact (N _ X)]].
      assert (a = l /\ b = r) as (-> & ->) by (cbn in E; split; congruence). right. exists c. split; [exists [], lines; split; [reflexivity|exact N]|now left].
    + left. intros c [X|X]; [subst; apply E; reflexivity|exact (N _ X)].
  - right. exists c. split; [exists (x :: pre), post; split; [cbn; congruence|exact G]|now right].
Qed.
Lemma fitting_cells g n m : fitting_matrix n m -> P_DicGrammar.matrix_of g n m -> forall l r, get_connect_cost g l r <> Ok 0x7fff.
Proof.
  intros (_ & N0 & F & _) (L & R & C) l r.
  assert (V : forall i k, view_index n i = Some k -> (0 <= Z.of_nat k < n) /\ view_index n (Z.of_nat k) = Some k).
  { intros i k H. unfold view_index in H. cbv zeta in H. destruct ((0 <=? _) && _) eqn:X in H; [|discriminate]. apply andb_true_iff in X as [X1 X2]. apply Z.leb_le in X1. apply Z.ltb_lt in X2.
    assert (K : k = Z.to_nat (if i <? 0 then i + n else i)) by congruence. assert (B : 0 <= Z.of_nat k < n) by lia. split; [exact B|].
    unfold view_index. cbv zeta. replace (Z.of_nat k <? 0) with false by (symmetry; apply Z.ltb_ge; lia). replace ((0 <=? Z.of_nat k) && (Z.of_nat k <? n)) with true by (symmetry; apply andb_true_iff; split; [apply Z.leb_le|apply Z.ltb_lt]; lia).
    now rewrite Nat2Z.id. }
  destruct (view_index n r) as [i|] eqn:Ei; [|unfold get_connect_cost; rewrite L, R, Ei; destruct (n * n =? 0); discriminate].
  destruct (view_index n l) as [j|] eqn:Ej; [|unfold get_connect_cost; rewrite L, R, Ei, Ej; destruct (n * n =? 0); discriminate].
  destruct (V _ _ Ei) as (Bi & Vi). destruct (V _ _ Ej) as (Bj & Vj).
  assert (E : get_connect_cost g l r = get_connect_cost g (Z.of_nat j) (Z.of_nat i)) by (unfold get_connect_cost; rewrite L, R, Ei, Ej, Vi, Vj; reflexivity).
  rewrite E. destruct (C (Z.of_nat j) (Z.of_nat i) Bj Bi) as (C1 & C2).
  destruct (last_given (ms_lines m) (Z.of_nat j) (Z.of_nat i)) as [N|(c & G & I)]; [rewrite (C2 N); discriminate|]. rewrite (C1 _ G).
  rewrite Forall_forall in F. destruct (F _ I) as (a & b & c' & X & _ & _ & Nc). assert (c' = c) by congruence. subst. congruence.
Qed.

(** ** The word ids that the builder of a user dictionary gets from the system dictionary *)
Lemma match_in limit lx h p r : forall l id, first_match limit lx h p r l = Ok (Some id) -> In id l.
Proof.
  induction l as [|w l IH]; intros id H; cbn [first_match] in H; [discriminate|]. apply bind_ok in H as (b & _ & H). destruct b; [left; congruence|right; auto].
Qed.

Lemma system_word_id k py_int is_digit search limit s lx h p r id : lexicon_of k py_int is_digit search s lx -> source_ok s ->
  lx_get_word_id search limit lx h p r = Ok id -> id < Z.of_nat (length (s_entries s)).
Proof.
  intros LO SO H. unfold lx_get_word_id in H. apply bind_ok in H as (key & _ & H). destruct (lx_lookup search lx key 0) as [found x] eqn:E.
  apply bind_ok in H as (m & M & H). destruct m as [w|].
  - assert (w = id) by congruence. subst. apply match_in, in_map_iff in M as ((w & e) & Q & I). cbn [fst] in Q. subst w.
    assert (J : In (id, e) (fst (lx_lookup search lx key 0))) by (rewrite E; exact I).
    apply (lookup_iff _ _ _ _ _ _ _ _ _ _ LO SO (Nat.le_0_l _)) in J as (i & -> & _ & (en & hd & N & _)).
    assert (i < length (s_entries s))%nat by (apply nth_error_Some; congruence). lia.
  - destruct x; [discriminate|]. apply bind_ok in H as (m' & M' & H). destruct m' as [w|].
    + assert (w = id) by congruence. subst. apply match_in, in_map_iff in M' as (j & <- & I). apply in_seq in I. rewrite (lo_size _ _ _ _ _ _ LO) in I. lia.
    + assert (id = -1) by congruence. lia.
Qed.

(** ** The parts of speech of unk.def *)
Definition unknown_grammar : grammar := Grammar unknown_speeches 0 0 [] 0.
Lemma unknowns_have ls us : file_of ls shipped_unk_def -> forall int10, (forall t n, plain_decimal t = Ok n -> int10 t = Ok n) -> unknown_file (fun t n => int10 t = Ok n) ls us ->
  forall u, In u us -> In (u_pos u) unknown_speeches.
Proof.
  intros F int10 M (os & D & ->) u I.
  pose proof (unknowns_read int10 unknown_grammar every_cat _ _ (file_lines_spec _ _ F) os [] D) as X. cbn [app] in X.
  assert (Y : exists es, read_oov plain_decimal unknown_grammar every_cat shipped_unk_def = Ok es /\ forallb (fun e => 0 <=? oe_pos (snd e)) es = true).
  { assert (K : match read_oov plain_decimal unknown_grammar every_cat shipped_unk_def with Ok es => forallb (fun e => 0 <=? oe_pos (snd e)) es | Err _ => false end = true) by (vm_compute; reflexivity).
    revert K. generalize (read_oov plain_decimal unknown_grammar every_cat shipped_unk_def). intros [es|] K; [eauto|discriminate]. }
  destruct Y as (es & Y & P). apply (oovs_more _ _ M) in Y. unfold read_oov in Y. cbv zeta in X. rewrite X in Y.
  - apply ok_inj in Y. rewrite <- Y in P. rewrite forallb_forall in P. specialize (P _ (in_map _ _ _ I)).
    unfold entry_of in P. cbn [snd oe_pos] in P. apply Z.leb_le in P. clear - P.
    destruct (in_dec (list_eq_dec (list_eq_dec Z.eq_dec)) (u_pos u) unknown_speeches) as [H|H]; [exact H|]. rewrite (pos_id_unknown unknown_grammar _ H) in P. lia.
  - apply Forall_forall. intros v _. unfold every_cat. rewrite map_map. cbn [fst]. rewrite map_id. destruct (u_cat v); cbn; tauto.
Qed.
