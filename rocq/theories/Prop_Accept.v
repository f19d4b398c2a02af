(** C82: the builder accepts exactly the sources within the limits of the format. *)
From Coq Require Import List ZArith Lia Bool Arith Sorted.
From Verif Require Import Base Utf8 S_Text M_Builder M_Lattice M_Bytes P_Bytes M_DicReader M_DicBuilder P_DicFormat P_DicWrite P_DicOpen P_DicGrammar P_DicSource P_DicLexicon P_DicFile
  P_DicToy M_LexiconSet P_LexiconSet Prop_Source Prop_Resource Prop_Format S_Accept P_Accept.
Import ListNotations.
Open Scope Z_scope.

Section accept.
Variable k : kind.
Variable py_int : text -> res Z.
Variable is_digit : Z -> bool.
Variable trie_array : list (bytes * Z) -> res bytes.

(** A source within the limits is built, whatever is in it.  [trie] bounds the size of the
    trie that dartsclone builds for the headwords. *)
Theorem C82_accepts now description rows ms css speeches trie cells db :
  is_digit 44 = false ->
  -2 ^ 63 <= now < 2 ^ 63 -> encode description = Ok db -> (length db <= 256)%nat ->
  Forall2 (Forall2 (fun c c' => unescape c = Ok c')) rows css ->
  good_source k py_int is_digit css speeches ->
  match k, ms with
  | SystemDic, Some m => exists l r, good_matrix l r m /\ cells = l * r
  | _, _ => cells = 0
  end ->
  (forall kvs,
    NoDup (map fst kvs) -> StronglySorted (fun a b => bytes_lt a b = true) (map fst kvs) ->
    Forall (fun kv => (exists cs, In cs css /\ ~ hidden cs /\ encode (column cs 0) = Ok (fst kv)) /\ 0 <= snd kv < 5 * Z.of_nat (length css)) kvs ->
    exists a, trie_array kvs = Ok a /\ (length a <= trie)%nat) ->
  total_size css speeches trie cells < 2 ^ 31 ->
  exists d, build_command k py_int is_digit trie_array now description rows ms = Ok d.
Proof.
  intros CD T ED LD F G M TA B. unfold total_size, front_size in B. assert (Cp : 0 <= cells).
  { destruct k; [|lia]. destruct ms; [|lia]. destruct M as (l & r & (_ & A & C & _) & ->). nia. }
  unfold build_command.
  destruct (C47_accepted (Header (match k with SystemDic => SYSTEM_DICT_VERSION_2 | UserDic _ _ _ => USER_DICT_VERSION_3 end) now description)) with (s := db) as [X _];
    [destruct k; vm_compute; split; congruence|exact T|exact ED|].
  destruct (X LD) as (h & Eh). clear X. rewrite Eh. cbn [bind]. unfold build_dictionary.
  assert (Lh : length h = 272%nat).
  { unfold header_to_bytes in Eh. apply bind_ok in Eh as (v & Ev & Eh). apply bind_ok in Eh as (t & Et & Eh). apply bind_ok in Eh as (b & Eb & Eh).
    destruct (DESCRIPTION_SIZE <? length b)%nat eqn:L; [discriminate|]. apply Nat.ltb_ge in L. unfold DESCRIPTION_SIZE in L.
    apply (to_bytes_length 8 false) in Ev. apply (to_bytes_length 8 true) in Et. cbv zeta in Eh. match type of Eh with Ok ?x = Ok _ => assert (h = x) as -> by congruence end.
    rewrite !app_length, skipn_length, repeat_length. unfold HEADER_SIZE. lia. }
  destruct (build_lexicon_total k py_int is_digit css rows [] new_source css (holds_new k py_int) F (gs_rows _ _ _ _ _ G)) as (s & Es & H).
  cbn [app] in H. rewrite Es. cbn [bind].
  destruct (write_grammar_total k py_int is_digit css s H speeches G (match k with SystemDic => ms | UserDic _ _ _ => None end) cells (f_write (File [] 0) h)) as (f & Ef & Pf).
  { destruct k; [exact M|exact M]. }
  rewrite f_write_pos in Pf. cbn [f_pos] in Pf. rewrite Ef. cbn [bind].
  destruct (write_lexicon_total k py_int is_digit CD css s H ltac:(lia) speeches G trie_array trie TA f) as (f' & Ef').
  { lia. }
  rewrite Ef'. cbn [bind]. eauto.
Qed.

Lemma split_pieces sep t : pieces sep t (split_on sep t).
Proof.
  induction t as [|c t IH]; [constructor; auto|]. cbn [split_on]. destruct (Z.eqb_spec c sep) as [-> |N].
  - apply (P_more sep [] t); [auto|exact IH].
  - inversion IH as [w Nw E1 E2|w t' ws Nw P E1 E2]; subst.
    + constructor. intros [X|X]; [congruence|contradiction].
    + rewrite app_comm_cons. constructor; [|exact P]. intros [X|X]; [congruence|contradiction].
Qed.
Lemma put_range z : (forall b, put_short z = Ok b -> in_short z) /\ (forall b, put_int z = Ok b -> in_int z).
Proof.
  split; intros b E; [unfold put_short, to_bytes in E; change (2 ^ (8 * Z.of_nat 2)) with 65536 in E|unfold put_int, to_bytes in E; change (2 ^ (8 * Z.of_nat 4)) with 4294967296 in E];
    (destruct (_ && _) eqn:X in E; [|discriminate]); apply andb_true_iff in X as [X1 X2]; apply Z.leb_le in X1; apply Z.ltb_lt in X2; [unfold in_short|unfold in_int]; lia.
Qed.
Lemma put_string_scalar t b : put_string t = Ok b -> scalar_text t.
Proof.
  unfold put_string. intros E. apply bind_ok in E as (x & _ & E). apply bind_ok in E as (y & Ey & _). clear - Ey. revert y Ey.
  induction t as [|c t IH]; intros y E; [constructor|]. cbn [utf16] in E. destruct (is_scalar c) eqn:S; [|discriminate]. apply bind_ok in E as (z & Ez & _).
  constructor; [exact S|]. exact (IH z Ez).
Qed.
Lemma put_all_each {A} (f : A -> res bytes) l : forall b, put_all f l = Ok b -> forall x, In x l -> exists c, f x = Ok c.
Proof.
  induction l as [|y l IH]; intros b E x I; [destruct I|]. cbn [put_all] in E. apply bind_ok in E as (c & Ec & E). apply bind_ok in E as (c' & Ec' & _).
  destruct I as [->|I]; eauto.
Qed.
Lemma put_array_each l b : put_int_array l = Ok b -> Forall in_int l.
Proof.
  unfold put_int_array. intros E. apply bind_ok in E as (x & _ & E). apply bind_ok in E as (y & Ey & _). apply Forall_forall. intros z I.
  destruct (put_all_each _ _ _ Ey z I) as (c & Ec). now apply (proj2 (put_range z)) in Ec.
Qed.
Lemma wid_table_each keys : forall pos r, wid_table pos keys = Ok r -> forall key ws, In (key, ws) keys -> (length ws <= 255)%nat.
Proof.
  induction keys as [|(x, l) keys IH]; intros pos r E key ws I; [destruct I|]. cbn [wid_table] in E. apply bind_ok in E as (a & Ea & E). apply bind_ok in E as (b & _ & E).
  apply bind_ok in E as (p & Ep & _). destruct I as [I|I]; [|eauto]. assert (l = ws) by congruence. subst l. apply put_byte_ok in Ea as [_ Ea]. lia.
Qed.

Lemma entries_rows rows : forall s s', build_lexicon k py_int s rows = Ok s' ->
  exists es, s_entries s' = s_entries s ++ es /\ Forall2 (fun row e => exists tb tb', parse_line k py_int tb row = Ok (e, tb')) rows es.
Proof.
  unfold build_lexicon. induction rows as [|r rows IH]; intros s s' E; cbn [foldM] in E.
  - assert (s' = s) by congruence. subst. exists []. split; [now rewrite app_nil_r|constructor].
  - apply bind_ok in E as (s1 & E1 & E2). destruct (IH _ _ E2) as (es & Ees & F). unfold build_row in E1. apply bind_ok in E1 as ((e & tb') & Ep & E1).
    apply bind_ok in E1 as (keys & _ & E1). assert (X : s_entries s1 = s_entries s ++ [e]) by (assert (s1 = Source (s_entries s ++ [e]) keys tb') by congruence; subst; reflexivity).
    exists (e :: es). split; [rewrite Ees, X, <- app_assoc; reflexivity|]. constructor; eauto.
Qed.
Record accepted (cs : list text) (e : entry) : Prop := {
  ac_columns : (18 <= length cs)%nat;
  ac_bad : ~ bad_columns cs;
  ac_headword : e_headword e = (if teqb (column cs 1) [45; 49] then None else Some (column cs 0));
  ac_left : py_int (column cs 1) = Ok (e_left e);
  ac_right : py_int (column cs 2) = Ok (e_right e);
  ac_cost : py_int (column cs 3) = Ok (e_cost e);
  ac_surface : e_surface e = column cs 4;
  ac_reading : e_reading e = column cs 11;
  ac_norm : e_norm e = column cs 12;
  ac_form : column cs 13 <> [42] -> py_int (column cs 13) = Ok (e_dic_id e);
  ac_syn : (18 < length cs)%nat -> column cs 18 <> [42] -> Forall2 (fun t z => py_int t = Ok z) (split_on slash (column cs 18)) (e_syn e);
  ac_synonyms : (18 < length cs)%nat -> column cs 18 <> [42] -> (length (split_on slash (column cs 18)) <= 127)%nat;
  ac_head : column cs 0 <> [] /\ exists b, encode (column cs 0) = Ok b /\ e_head_length e = length b;
}.
Lemma accepted_row table row e table' : parse_line k py_int table row = Ok (e, table') -> exists cs, Forall2 (fun c c' => unescape c = Ok c') row cs /\ accepted cs e.
Proof.
  intros H. destruct (C58_accepted _ _ _ _ _ _ H) as (L & cs & F & B & A1 & A2 & A3 & A4 & A5 & A6 & A7 & A8 & A9 & A10 & A11 & A12 & A13 & A14 & A15 & A16).
  assert (Lr : length row = length cs) by (clear - F; induction F; cbn [length]; congruence). exists cs. split; [exact F|].
  assert (N : column cs 0 <> []) by (intros X; apply B; left; exact X).
  constructor; auto; try (rewrite <- Lr; auto; fail); try congruence.
  - intros X Y. unfold parse_line in H. destruct (length row <? 18)%nat; [discriminate|]. apply bind_ok in H as (cs' & Hc & H). apply mapM_Forall2 in Hc.
    assert (cs' = cs). { clear - Hc F. revert cs F. induction Hc as [|x y l1 l2 E Hc IH]; intros cs F; inversion F; subst; [reflexivity|]. f_equal; [congruence|auto]. }
    subst cs'. apply bind_ok in H as (head & _ & H). cbv zeta in H. destruct (negb _); [discriminate|]. destruct (nth 0 cs []); [discriminate|].
    apply bind_ok in H as (l & _ & H). apply bind_ok in H as (r & _ & H). apply bind_ok in H as (c & _ & H). destruct (get_posid k table (slice cs 5 11)) as [pos tb].
    destruct (pos <? 0); [discriminate|]. apply bind_ok in H as (? & _ & H). apply bind_ok in H as (? & _ & H). apply bind_ok in H as (? & _ & H).
    destruct (_ && _); [discriminate|]. apply bind_ok in H as (syn & Hs & _). replace (18 <? length cs)%nat with true in Hs by (symmetry; apply Nat.ltb_lt; lia).
    unfold parse_synonym_group_ids in Hs. change (nth 18 cs []) with (column cs 18) in Hs. destruct (teqb (column cs 18) star) eqn:T; [apply teqb_eq in T; contradiction|].
    destruct (ARRAY_MAX_LENGTH <? length (split_on slash (column cs 18)))%nat eqn:Z; [discriminate|]. apply Nat.ltb_ge in Z. exact Z.
Qed.

(** What every source that is built has fulfilled. *)
Theorem C82_needs now description rows ms d :
  build_command k py_int is_digit trie_array now description rows ms = Ok d ->
  (exists b, encode description = Ok b /\ (length b <= 256)%nat) /\
  exists css, Forall2 (Forall2 (fun c c' => unescape c = Ok c')) rows css /\
    (forall h, (length (filter (same_headword h) css) <= 255)%nat) /\
    Forall (fun cs =>
      (18 <= length cs)%nat /\
      column cs 0 <> [] /\ (exists b, encode (column cs 0) = Ok b /\ Z.of_nat (length b) <= 32767) /\
      Forall (fun i => exists z, py_int (column cs i) = Ok z /\ in_short z) [1; 2; 3]%nat /\
      Forall (fun i => scalar_text (column cs i) /\ Z.of_nat (length (column cs i)) <= 32767) [4; 11; 12]%nat /\
      (column cs 13 = none \/ exists z, py_int (column cs 13) = Ok z /\ in_int z) /\
      (column cs 14 = [65] -> column cs 15 = none /\ column cs 16 = none) /\
      Forall (fun i => exists ws, pieces 47 (column cs i) ws /\ (length ws <= 127)%nat) [15; 16; 17]%nat /\
      (length cs = 18%nat \/ column cs 18 = none \/
        exists ws, pieces 47 (column cs 18) ws /\ (length ws <= 127)%nat /\ Forall (fun w => exists z, py_int w = Ok z /\ in_int z) ws)) css.
Proof.
  unfold build_command, build_dictionary. intros E. apply bind_ok in E as (h & Eh & E). apply bind_ok in E as (f & E & _). apply bind_ok in E as (s & Es & E).
  apply bind_ok in E as (o & _ & E). split.
  { unfold header_to_bytes in Eh. apply bind_ok in Eh as (v & _ & Eh). apply bind_ok in Eh as (t & _ & Eh). apply bind_ok in Eh as (b & Eb & Eh).
    destruct (DESCRIPTION_SIZE <? length b)%nat eqn:L; [discriminate|]. apply Nat.ltb_ge in L. exists b. split; [exact Eb|exact L]. }
  pose proof (build_rows k py_int rows _ _ Es) as (_ & L & _ & R). cbn [new_source s_entries length Nat.add] in L, R.
  pose proof (build_lexicon_ok _ _ _ _ _ new_source_ok Es) as SO.
  unfold write_lexicon in E. apply bind_ok in E as ((kvs & t) & Ew & E). apply bind_ok in E as (a & _ & E). apply bind_ok in E as (b1 & _ & E).
  apply bind_ok in E as (b2 & _ & E). apply bind_ok in E as (b3 & _ & E). apply bind_ok in E as (ps & Ep & E). unfold write_wordinfo in E.
  apply bind_ok in E as ((o' & os) & E & _).
  assert (W : forall e, In e (s_entries s) -> exists b tb tb', put_word_info k py_int is_digit (s_entries s) tb e = Ok (b, tb')).
  { revert E. generalize (s_table s). generalize (f_seek (f_write (f_write (f_write (f_write (f_write o b1) a) b2) t) (match s_entries s with [] => [] | _ :: _ => b3 ++ ps end))
       (f_tell (f_write (f_write (f_write (f_write (f_write o b1) a) b2) t) (match s_entries s with [] => [] | _ :: _ => b3 ++ ps end)) * 4 + length (s_entries s))).
    generalize (s_entries s) at 2 3. intros l. clear. revert o' os. induction l as [|x l IH]; intros o' os f tb E e I; [destruct I|]. cbn [write_infos] in E.
    apply bind_ok in E as (c & _ & E). apply bind_ok in E as ((b & tb') & Eb & E). apply bind_ok in E as ((o2 & os2) & E & _). destruct I as [->|I]; [eauto|].
    eapply IH; [exact E|exact I]. }
  clear E.
  destruct (entries_rows _ _ _ Es) as (es & Ee & Fe). cbn [new_source s_entries app] in Ee. rewrite <- Ee in Fe. clear es Ee.
  assert (Q : exists css, Forall2 (Forall2 (fun c c' => unescape c = Ok c')) rows css /\ Forall2 accepted css (s_entries s)).
  { clear - Fe. induction Fe as [|row e rows es (tb & tb' & P) F (css & Q1 & Q2)]; [exists []; split; constructor|]. destruct (accepted_row _ _ _ _ P) as (cs & A & B).
    exists (cs :: css). split; constructor; assumption. }
  destruct Q as (css & Q1 & Q2). exists css. split; [exact Q1|]. split.
  - clear Eh h. intros h. destruct (filter (same_headword h) css) as [|c0 r0] eqn:E0; [cbn; lia|]. rewrite <- E0.
    assert (I0 : In c0 (filter (same_headword h) css)) by (rewrite E0; now left). clear E0 r0.
    assert (SH : forall cs, same_headword h cs = true -> column cs 0 = h /\ column cs 1 <> [45; 49]).
    { clear. intros cs. unfold same_headword. destruct (list_eq_dec Z.eq_dec (column cs 0) h); [|discriminate]. destruct (list_eq_dec Z.eq_dec (column cs 1) [45; 49]); [discriminate|auto]. }
    assert (NTH : forall i cs, nth_error css i = Some cs -> exists e, nth_error (s_entries s) i = Some e /\ accepted cs e).
    { clear - Q2. induction Q2 as [|x y l1 l2 A Q IH]; intros i cs E; [destruct i; discriminate|]. destruct i as [|i]; cbn [nth_error] in *; [assert (x = cs) by congruence; subst; eauto|auto]. }
    apply filter_In in I0 as [I0 S0]. destruct (SH _ S0) as [H0 _]. destruct (In_nth_error _ _ I0) as (i0 & N0).
    destruct (NTH i0 c0 N0) as (e0 & _ & A0). destruct (ac_head _ _ A0) as (_ & b & Eb & _). rewrite H0 in Eb.
    assert (K : forall i cs, nth_error css i = Some cs -> same_headword h cs = true -> listed (s_keys s) b i).
    { intros i cs N S. apply (so_listed _ SO). destruct (NTH i cs N) as (e & Ne & A). destruct (SH _ S) as [Hc Hh]. exists e, h. split; [exact Ne|]. split; [|exact Eb].
      rewrite (ac_headword _ _ A). destruct (teqb (column cs 1) [45; 49]) eqn:T; [apply teqb_eq in T; contradiction|congruence]. }
    destruct (K i0 c0 N0 S0) as (ws & Iw & _). pose proof (wid_table_each _ _ _ Ew b ws Iw) as Lw. etransitivity; [|exact Lw].
    rewrite (filter_seq (same_headword h) css O). apply NoDup_incl_length; [apply NoDup_filter, seq_NoDup|].
    intros i Ii. apply filter_In in Ii as [_ Ii]. rewrite Nat.sub_0_r in Ii. destruct (nth_error css i) as [cs|] eqn:N; [|discriminate].
    destruct (K i cs N Ii) as (ws' & Iw' & Ix). assert (ws' = ws); [|congruence].
    clear - Iw Iw' SO. pose proof (so_sorted _ SO) as SS. induction SS as [|x l S IH F]; [destruct Iw|]. rewrite Forall_forall in F. destruct Iw as [->|Iw], Iw' as [X|Iw'].
    + congruence.
    + specialize (F _ Iw'). unfold key_lt in F. cbn [fst] in F. rewrite bytes_lt_irrefl in F. discriminate.
    + subst x. specialize (F _ Iw). unfold key_lt in F. cbn [fst] in F. rewrite bytes_lt_irrefl in F. discriminate.
    + auto.
  - assert (P : forall e, In e (s_entries s) -> exists b, put_params e = Ok b) by exact (put_all_each _ _ _ Ep).
    revert Q2 W P. generalize (s_entries s) at 3. intros entries. generalize (s_entries s). clear. intros l Q2.
    induction Q2 as [|cs e css l A Q IH]; intros W P; constructor; [|apply IH; intros e' I; [apply W|apply P]; now right].
    destruct A as [AC AD _ AE AF AG AH AI AJ AK AL AM AN]. destruct (P e (or_introl eq_refl)) as (pb & Ep). destruct (W e (or_introl eq_refl)) as (wb & tb & tb' & Ew). clear W P IH.
    unfold put_params in Ep. apply bind_ok in Ep as (x & Ex & Ep). apply bind_ok in Ep as (y & Ey & Ep). apply bind_ok in Ep as (z & Ez & _).
    apply (proj1 (put_range _)) in Ex, Ey, Ez.
    unfold put_word_info in Ew. apply bind_ok in Ew as (b1 & E1 & Ew). apply bind_ok in Ew as (b2 & _ & Ew). apply bind_ok in Ew as (b3 & _ & Ew).
    apply bind_ok in Ew as (b4 & E4 & Ew). apply bind_ok in Ew as (b5 & E5 & Ew). apply bind_ok in Ew as (b6 & E6 & Ew).
    apply bind_ok in Ew as ((u1 & v1) & _ & Ew). apply bind_ok in Ew as (b7 & _ & Ew). apply bind_ok in Ew as ((u2 & v2) & _ & Ew). apply bind_ok in Ew as (b8 & _ & Ew).
    apply bind_ok in Ew as ((u3 & v3) & _ & Ew). apply bind_ok in Ew as (b9 & _ & Ew). apply bind_ok in Ew as (b10 & E10 & _).
    apply put_string_scalar in E1, E4, E6. apply (proj2 (put_range _)) in E5. apply put_array_each in E10. rewrite AH in *. rewrite AI in *. rewrite AJ in *.
    assert (S12 : scalar_text (column cs 12)). { destruct (teqb (column cs 12) (column cs 4)) eqn:T; [apply teqb_eq in T; congruence|exact E4]. }
    assert (S11 : scalar_text (column cs 11)). { destruct (teqb (column cs 11) (column cs 4)) eqn:T; [apply teqb_eq in T; congruence|exact E6]. }
    unfold bad_columns in AD. cbv zeta in AD. change (nth ?i cs []) with (column cs i) in AD.
    assert (BL : forall i, In i [4; 11; 12]%nat -> Z.of_nat (length (column cs i)) <= 32767).
    { intros i I. destruct (Z_le_gt_dec (Z.of_nat (length (column cs i))) 32767) as [X|X]; [exact X|]. exfalso. apply AD. right. right. left. exists i. split; [exact I|lia]. }
    assert (BS : forall i, In i [15; 16; 17]%nat -> exists ws, pieces 47 (column cs i) ws /\ (length ws <= 127)%nat).
    { intros i I. exists (split_on 47 (column cs i)). split; [apply split_pieces|]. rewrite (pieces_count _ _ _ (split_pieces 47 (column cs i))).
      destruct (Nat.le_gt_cases (slashes (column cs i) + 1) 127) as [X|X]; [unfold slashes in X; lia|]. exfalso. apply AD. do 3 right. left. exists i. auto. }
    split; [exact AC|]. destruct AN as (AN & b & Eb & Lb). split; [exact AN|]. split; [exists b; split; [exact Eb|]|].
    { destruct (Z_le_gt_dec (Z.of_nat (length b)) 32767) as [X|X]; [exact X|]. exfalso. apply AD. right. left. exists b. split; [exact Eb|lia]. }
    split; [repeat constructor; eauto|]. split; [repeat constructor; auto; apply BL; cbn; auto|]. split.
    { destruct (list_eq_dec Z.eq_dec (column cs 13) none) as [X|X]; [auto|]. right. exists (e_dic_id e). split; [now apply AK|exact E5]. }
    split. { intros X. destruct (list_eq_dec Z.eq_dec (column cs 15) none) as [Y|Y], (list_eq_dec Z.eq_dec (column cs 16) none) as [U|U]; auto;
      exfalso; apply AD; do 4 right; split; auto. }
    split; [repeat constructor; apply BS; cbn; auto|].
    destruct (Nat.eq_dec (length cs) 18) as [X|X]; [auto|]. destruct (list_eq_dec Z.eq_dec (column cs 18) none) as [Y|Y]; [auto|]. right. right.
    specialize (AL ltac:(lia) Y). specialize (AM ltac:(lia) Y). exists (split_on 47 (column cs 18)). split; [apply split_pieces|]. split; [exact AM|].
    revert AL E10. generalize (e_syn e). clear. intros zs F G. change slash with 47 in F. induction F as [|t z l1 l2 A F IH]; constructor; inversion G; subst; eauto.
Qed.
End accept.
Print Assumptions C82_accepts.
Print Assumptions C82_needs.

(** The toy index accepts keys below 255 bytes with values below 256. *)
Lemma toy_items_size kvs : length (toy_items kvs) = sum (map (fun b => 2 + length b)%nat (map fst kvs)).
Proof. induction kvs as [|(b, v) kvs IH]; [reflexivity|]. cbn [toy_items map fst sum fold_right length]. rewrite app_length, IH. unfold sum. lia. Qed.
Lemma toy_total keys n : Forall (fun b : bytes => (length b < 255)%nat) keys -> n <= 256 ->
  forall kvs, NoDup (map fst kvs) -> Forall (fun kv => In (fst kv) keys /\ 0 <= snd kv < n) kvs ->
  exists a, toy_array kvs = Ok a /\ (length a <= sum (map (fun b => 2 + length b)%nat keys) + 4)%nat.
Proof.
  intros K N kvs D F. unfold toy_array. replace (forallb _ kvs) with true.
  - eexists. split; [reflexivity|]. rewrite app_length, repeat_length, toy_items_size.
    assert (I : incl (map fst kvs) keys). { intros b Hb. apply in_map_iff in Hb as (kv & <- & H). rewrite Forall_forall in F. apply (F kv H). }
    pose proof (sum_incl (fun b => 2 + length b)%nat _ _ D I). lia.
  - symmetry. apply forallb_forall. intros kv H. rewrite Forall_forall in F, K. destruct (F kv H) as (A & B). specialize (K _ A).
    rewrite !andb_true_iff. rewrite Z.leb_le, !Z.ltb_lt. destruct kv as (b, v). cbn [fst snd] in *. repeat split; lia.
Qed.

Lemma plain_rows ll : forallb (forallb (fun c => match unescape c with Ok c' => teqb c' c | _ => false end)) ll = true -> Forall2 (Forall2 (fun c c' => unescape c = Ok c')) ll ll.
Proof.
  induction ll as [|l ll IH]; intros H; [constructor|]. cbn [forallb] in H. apply andb_true_iff in H as [H1 H2]. constructor; [|auto]. clear H2 IH.
  induction l as [|c l IH]; [constructor|]. cbn [forallb] in H1. apply andb_true_iff in H1 as [H1 H2]. constructor; [|auto].
  destruct (unescape c) as [c'|]; [|discriminate]. apply teqb_eq in H1. now subst.
Qed.

(** 東, 京 and 東京 as in [toy_rows], where 東京 is split into the word 0 and the word
    "京,動,b,*,*,*,*,京", and a hidden word. *)
Definition accept_rows : list (list text) :=
  [ toy_row [26481] [49; 48; 48] P1 [1] [26481] star star star;
    toy_row [20140] [45; 53] P2 [20140] [2; 3] [48] star star;
    toy_row [26481; 20140] [55] P1 [4] [5] star [48; 47; 85; 49] ([48; 47] ++ [20140; 44; 21205; 44; 98; 44; 42; 44; 42; 44; 42; 44; 42; 44; 20140]);
    [[20140]; [45; 49]; [45; 49]; [48]; [20140]] ++ P2 ++ [[9]; [9]; star; [65]; star; star; star; [49; 47; 50]] ].
Example C82_nonvacuous :
  Forall2 (Forall2 (fun c c' => unescape c = Ok c')) accept_rows accept_rows /\
  good_source SystemDic toy_int toy_digit accept_rows [P1; P2] /\ good_matrix 2 2 toy_matrix /\
  total_size accept_rows [P1; P2] 100 4 < 2 ^ 31 /\
  exists d, build_command SystemDic toy_int toy_digit toy_array 1600000000 [116; 111; 121] accept_rows (Some toy_matrix) = Ok d.
Proof.
  assert (U : Forall2 (Forall2 (fun c c' => unescape c = Ok c')) accept_rows accept_rows).
  { apply plain_rows. vm_compute. reflexivity. }
  assert (S : forall t, forallb is_scalar t = true -> scalar_text t). { intros t H. unfold scalar_text. apply Forall_forall. apply forallb_forall. exact H. }
  assert (G : good_source SystemDic toy_int toy_digit accept_rows [P1; P2]).
  { constructor.
    - assert (SP : forall cs, In cs accept_rows -> Forall (fun t => scalar_text t /\ Z.of_nat (length t) <= 32767 /\ ~ In 44 t) (speech cs)).
      { intros cs H. destruct H as [<-|[<-|[<-|[<-|[]]]]]; (repeat (constructor; try (split; [apply S; vm_compute; reflexivity|split; [vm_compute; discriminate|]]; vm_compute; intuition discriminate))). }
      assert (TX : forall cs, In cs accept_rows -> Forall (fun i => scalar_text (column cs i) /\ Z.of_nat (length (column cs i)) <= 32767) [4; 11; 12]%nat).
      { intros cs H. destruct H as [<-|[<-|[<-|[<-|[]]]]]; (repeat (constructor; try (split; [apply S; vm_compute; reflexivity|vm_compute; discriminate]))). }
      assert (NU : forall cs, In cs accept_rows -> Forall (fun i => exists z, toy_int (column cs i) = Ok z /\ in_short z) [1; 2; 3]%nat).
      { intros cs H. destruct H as [<-|[<-|[<-|[<-|[]]]]]; (repeat (constructor; try (eexists; split; [vm_compute; reflexivity|vm_compute; split; congruence]))). }
      assert (HW : forall cs, In cs accept_rows -> column cs 0 <> [] /\ exists b, encode (column cs 0) = Ok b /\ Z.of_nat (length b) <= 32767).
      { intros cs H. destruct H as [<-|[<-|[<-|[<-|[]]]]]; (split; [discriminate|eexists; split; [vm_compute; reflexivity|vm_compute; discriminate]]). }
      assert (SC : forall cs, In cs accept_rows -> Forall (fun i => split_column SystemDic toy_int toy_digit accept_rows (column cs i)) [15; 16; 17]%nat).
      { assert (R0 : reference SystemDic toy_int toy_digit accept_rows [48]).
        { apply (R_number _ _ _ _ _ 0); [discriminate|repeat constructor|discriminate|reflexivity|vm_compute; split; congruence]. }
        intros cs H. destruct H as [<-|[<-|[<-|[<-|[]]]]]; (constructor; [|constructor; [|constructor; [|constructor]]]); try (left; reflexivity); right.
        - exists [[48]; [85; 49]]. split; [apply (P_more 47 [48]); [cbn; intuition discriminate|apply P_last; cbn; intuition discriminate]|]. split; [cbn; lia|].
          constructor; [exact R0|]. constructor; [|constructor]. apply (R_row _ _ _ _ _ 1); [discriminate|repeat constructor|reflexivity|vm_compute; split; congruence].
        - eexists [[48]; _]. split; [apply (P_more 47 [48]); [cbn; intuition discriminate|apply P_last; cbn; intuition discriminate]|]. split; [cbn; lia|].
          constructor; [exact R0|]. constructor; [|constructor]. apply (R_word _ _ _ _ _ [[20140]; [21205]; [98]; [42]; [42]; [42]; [42]; [20140]] [20140] [20140] (nth 1 accept_rows [])).
          + exact (split_pieces 44 [20140; 44; 21205; 44; 98; 44; 42; 44; 42; 44; 42; 44; 42; 44; 20140]).
          + cbn; lia. + reflexivity. + reflexivity. + right; left; reflexivity. + reflexivity. + reflexivity. + reflexivity. }
      apply Forall_forall. intros cs H. constructor; auto.
      + destruct H as [<-|[<-|[<-|[<-|[]]]]]; cbn; lia.
      + destruct H as [<-|[<-|[<-|[<-|[]]]]]; (left; reflexivity) || (right; eexists; split; [vm_compute; reflexivity|vm_compute; split; congruence]).
      + destruct H as [<-|[<-|[<-|[<-|[]]]]]; intros X; try discriminate X. split; reflexivity.
      + destruct H as [<-|[<-|[<-|[<-|[]]]]]; try (left; reflexivity). right. right. exists [[49]; [50]]. split; [apply (P_more 47 [49]); [cbn; intuition discriminate|apply P_last; cbn; intuition discriminate]|].
        split; [cbn; lia|]. repeat (constructor; try (eexists; split; [vm_compute; reflexivity|vm_compute; split; congruence])).
    - repeat (constructor; try (vm_compute; auto; fail)).
    - vm_compute. discriminate.
    - intros h. assert (X : forall l, (length (filter (same_headword h) l) <= length l)%nat).
      { induction l as [|x l IH]; cbn [filter length]; [lia|]. destruct (same_headword h x); cbn [length]; lia. }
      specialize (X accept_rows). change (length accept_rows) with 4%nat in X. lia. }
  assert (M : good_matrix 2 2 toy_matrix).
  { split; [reflexivity|]. split; [lia|]. split; [lia|]. repeat (constructor; try (eexists _, _, _; split; [reflexivity|]; unfold in_short; lia)). }
  assert (T : total_size accept_rows [P1; P2] 100 4 < 2 ^ 31) by (vm_compute; reflexivity).
  split; [exact U|]. split; [exact G|]. split; [exact M|]. split; [exact T|].
  apply (C82_accepts SystemDic toy_int toy_digit toy_array 1600000000 [116; 111; 121] accept_rows (Some toy_matrix) accept_rows [P1; P2] 100 4 [116; 111; 121]); try assumption; try reflexivity.
  - lia.
  - cbn; lia.
  - exists 2, 2. split; [exact M|reflexivity].
  - intros kvs N _ F.
    destruct (toy_total [[230; 157; 177]; [228; 186; 172]; [230; 157; 177; 228; 186; 172]] 20 ltac:(repeat constructor; cbn; lia) ltac:(lia) kvs N) as (a & Ea & La).
    + eapply Forall_impl; [|exact F]. intros kv ((cs & H & NH & E) & V). split; [|change (length accept_rows) with 4%nat in V; lia].
      destruct H as [<-|[<-|[<-|[<-|[]]]]]; (match type of E with ?l = Ok _ => let v := eval vm_compute in l in assert (X : v = Ok (fst kv)) by exact E end; apply (f_equal (fun r => match r with Ok b => b | Err _ => [] end)) in X; cbn in X; rewrite <- X; cbn; auto).
    + exists a. split; [exact Ea|]. cbn in La. lia.
Qed.
