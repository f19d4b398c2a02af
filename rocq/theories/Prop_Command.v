(** C76, C77: the build commands and the files. *)
From Coq Require Import String Ascii List ZArith Lia Bool Arith.
From Verif Require Import Base Utf8 M_Builder M_Lattice M_Tokenizer M_Bytes P_Bytes M_DicReader M_DicBuilder P_DicFormat P_DicWrite P_DicOpen P_DicGrammar
  P_DicSource P_DicLexicon P_DicFile P_DicToy M_Front M_Resource S_Resource M_Command S_Command P_LexiconSet Prop_Format S_Source Prop_Source Prop_Cut P_Command Prop_Csv.
Import M_Bytes.
Import ListNotations.
Open Scope Z_scope.

(** ** C76 *)
(** What an incomplete dictionary has of its source: the part-of-speech table, the matrix and
    the index of its words.  [h] is the headword of entry [i], and so on. *)
Definition has_words (search : bytes -> bytes -> list (Z * nat)) (s : source) (y : dictionary) : Prop :=
  forall t o w e, (o <= length t)%nat ->
    In (w, e) (fst (lx_lookup search (d_lexicon y) t o)) <->
    exists i en h, w = Z.of_nat i /\ (o <= e <= length t)%nat /\
      nth_error (s_entries s) i = Some en /\ e_headword en = Some h /\ encode h = Ok (slice t o e).
Definition has_grammar_of (s : source) (ms : option matrix_source) (y : dictionary) : Prop :=
  exists g, d_grammar y = Some g /\ g_pos g = map (split_on comma) (s_table s) /\
    forall m n, ms = Some m -> has_matrix n m -> matrix_of g n m.

Section incomplete.
Variable k : kind.
Variable py_int : text -> res Z.
Variable is_digit : Z -> bool.
Variable search : bytes -> bytes -> list (Z * nat).
Variable trie_array : list (bytes * Z) -> res bytes.
Hypothesis contract : trie_contract search trie_array.

Lemma core_keys s kvs wids array b1 x : source_ok s -> wid_table 0 (s_keys s) = Ok (kvs, wids) -> trie_array kvs = Ok array ->
  put_int (Z.of_nat (length array / 4)) = Ok b1 -> lx_trie (d_lexicon x) = array -> lx_wids (d_lexicon x) = wids ->
  (length array mod 4 = 0)%nat /\ keys_of search s (d_lexicon x).
Proof.
  intros SO Hw Ht _ Et Ew. pose proof (wid_table_ok _ _ _ _ Hw [] eq_refl) as W. cbn [app] in W.
  assert (Sk : Sorted.StronglySorted (fun a b => bytes_lt (fst a) (fst b) = true) kvs) by (eapply Forall2_sorted; [|exact W|exact (so_sorted _ SO)]; intros a b (E & _); exact E).
  destruct (contract _ _ Sk Ht) as (A4 & Hs). split; [exact A4|]. exists kvs. rewrite Et, Ew. auto.
Qed.

Lemma incomplete now description rows ms ops q r ops' y :
  0 <= now -> ~ In 0 description ->
  (forall rs s, rows = Ok rs -> build_lexicon k py_int new_source rs = Ok s -> Forall readable_pos (s_table s)) ->
  (forall rs s m, rows = Ok rs -> build_lexicon k py_int new_source rs = Ok s -> k = SystemDic -> ms = Ok m -> exists n, has_matrix n m) ->
  emit_command k py_int is_digit trie_array now description rows ms O = (ops, q, r) -> cut ops ops' ->
  read_dictionary (f_data (replay ops')) = Ok y ->
  exists rs s, rows = Ok rs /\ build_lexicon k py_int new_source rs = Ok s /\
    (k = SystemDic -> exists m, ms = Ok m) /\
    has_grammar_of s (match k with SystemDic => match ms with Ok m => Some m | Err _ => None end | UserDic _ _ _ => None end) y /\ has_words search s y.
Proof.
  intros T N R M H C Y.
  assert (Short : forall Z z d, read_dictionary Z = Ok z -> params_at z = length Z -> (exists c, c <> [] /\ Z = d ++ c) -> read_dictionary d = Ok y -> False).
  { intros Z z d OZ P (c & Nc & E) Yd. destruct (short_fails _ _ _ _ OZ P E Nc) as (e & F). congruence. }
  unfold emit_command in H. fold (version_of k) in H. rewrite w_bind_lift in H.
  destruct (header_to_bytes (Header (version_of k) now description)) as [h|x] eqn:Hh.
  2:{ injection H as <- _ _. inversion C; subst. cbn in Y. discriminate. }
  rewrite w_bind_put in H. cbn [Nat.add] in H. rewrite w_bind_lift in H.
  assert (Pre : forall Z z puts, read_dictionary Z = Ok z -> params_at z = length Z -> Forall is_put puts -> ops = puts ->
                (exists c, c <> [] /\ Z = payload puts ++ c) -> False).
  { intros Z z puts OZ P F -> (c & Nc & E). destruct (cut_puts_file _ _ F C) as (c' & E').
    apply (Short Z z (f_data (replay ops')) OZ P); [|exact Y]. exists (c' ++ c). rewrite E, E', <- app_assoc. split; [|reflexivity]. destruct c'; [exact Nc|discriminate]. }
  (* nothing but the header *)
  assert (HeaderOnly : ops = [Put h] -> False).
  { intros E. destruct (core_opens k now description h [] None ([0; 0] ++ [0; 0; 0; 0]) [] [] [0; 0; 0; 0] [0; 0; 0; 0] Hh T N) as (z & g & OZ & _ & P & _);
      [apply grammar_none; reflexivity|constructor|discriminate|reflexivity|reflexivity|reflexivity|].
    apply (Pre _ _ [Put h] OZ P ltac:(repeat constructor) E). unfold payload. cbn [map concat]. rewrite !app_nil_r. eexists. split; [|reflexivity]. discriminate. }
  destruct (rs <- rows ;; build_lexicon k py_int new_source rs) as [s|x] eqn:Hs; [|injection H as <- _ _; exfalso; now apply HeaderOnly].
  apply bind_ok in Hs as (rs & Hrs & Hs). specialize (R _ _ Hrs Hs).
  pose proof (build_lexicon_ok _ _ _ _ _ (new_source_ok) Hs) as SO.
  unfold w_bind in H. set (ms0 := match k with SystemDic => Some ms | UserDic _ _ _ => None end) in H.
  destruct (emit_grammar (s_table s) ms0 (length h)) as [[og qg] rg] eqn:EG.
  destruct (grammar_shape _ _ _ _ _ _ EG) as [(-> & e & ->)|(pt & Hpt & [(-> & e & ->)|(gb & ms' & -> & Fg & Pg & Qg & Hms & Wg)])].
  { injection H as <- _ _. exfalso. now apply HeaderOnly. }
  { injection H as <- _ _. exfalso.
    destruct (core_opens k now description h (s_table s) None (pt ++ [0; 0; 0; 0]) [] [] [0; 0; 0; 0] [0; 0; 0; 0] Hh T N) as (z & g & OZ & _ & P & _);
      [now apply grammar_none|exact R|discriminate|reflexivity|reflexivity|reflexivity|].
    apply (Pre _ _ [Put h; Put pt] OZ P ltac:(repeat constructor) eq_refl). unfold payload. cbn [map concat]. rewrite !app_nil_r, <- ?app_assoc. eexists. split; cycle 1; [rewrite <- ?app_assoc; reflexivity|discriminate]. }
  assert (Mok : (k = SystemDic -> exists m, ms = Ok m) /\ ms' = match k with SystemDic => match ms with Ok m => Some m | Err _ => None end | UserDic _ _ _ => None end).
  { unfold ms0 in Hms. destruct k; [|split; [discriminate|exact Hms]]. destruct Hms as (m & -> & ->). eauto. }
  destruct Mok as (Mok & Ems).
  assert (Mm : forall m, ms' = Some m -> exists n, has_matrix n m).
  { intros m E. apply (M rs s); auto; destruct k; try congruence; destruct ms; congruence. }
  specialize (Wg h). subst qg.
  destruct (emit_lexicon k py_int is_digit trie_array s (length h + length gb)%nat) as [[ol ql] rl] eqn:EL. injection H as E _ _.
  destruct (lexicon_shape _ _ _ _ _ _ _ _ _ EL) as [(-> & _)|(kvs & wids & array & b1 & Hw & Ht & Hb1 & HL)].
  { exfalso. rewrite app_nil_r in E.
    destruct (core_opens k now description h (s_table s) ms' gb [] [] [0; 0; 0; 0] [0; 0; 0; 0] Hh T N Wg R Mm) as (z & g & OZ & _ & P & _); try reflexivity.
    apply (Pre _ _ (Put h :: og) OZ P); [constructor; [exact I|exact Fg]|congruence|]. unfold payload. cbn [map concat]. fold (payload og). rewrite Pg, <- ?app_assoc. eexists. split; cycle 1; [rewrite <- ?app_assoc; reflexivity|discriminate]. }
  destruct (core_keys s kvs wids array b1 (Dictionary None (Header 0 0 []) (Lexicon [] array wids [] 0 0 true)) SO Hw Ht Hb1 eq_refl eq_refl) as (A4 & _).
  destruct HL as [(-> & _)|(b2 & ps & tail & Hb2 & -> & Fp & Ft)].
  { exfalso.
    destruct (core_opens k now description h (s_table s) ms' gb array [] b1 [0; 0; 0; 0] Hh T N Wg R Mm A4 Hb1 eq_refl) as (z & g & OZ & _ & P & _).
    apply (Pre _ _ (Put h :: og ++ [Put b1; Put array]) OZ P); [constructor; [exact I|apply Forall_app; split; [exact Fg|repeat constructor]]|congruence|].
    unfold payload. cbn [map concat]. fold (payload (og ++ [Put b1; Put array])). rewrite payload_app, Pg. unfold payload. cbn [map concat]. rewrite !app_nil_r, <- ?app_assoc. eexists. split; cycle 1; [rewrite <- ?app_assoc; reflexivity|discriminate]. }
  destruct (core_opens k now description h (s_table s) ms' gb array wids b1 b2 Hh T N Wg R Mm A4 Hb1 Hb2) as (z & g & OZ & G & P & Et & Ew & Gp & Gm).
  set (X := h ++ gb ++ b1 ++ array ++ b2 ++ wids) in *.
  set (puts := Put h :: og ++ [Put b1; Put array; Put b2; Put wids] ++ ps).
  assert (Epay : payload puts = X ++ payload ps).
  { unfold puts, X. change (payload (Put h :: og ++ [Put b1; Put array; Put b2; Put wids] ++ ps)) with (h ++ payload (og ++ [Put b1; Put array; Put b2; Put wids] ++ ps)).
    rewrite !payload_app, Pg. unfold payload at 1. cbn [map concat]. rewrite app_nil_r. now rewrite <- !app_assoc. }
  assert (Eops : ops = puts ++ tail) by (rewrite <- E; unfold puts; cbn [app]; rewrite <- ?app_assoc; reflexivity).
  rewrite Eops in C.
  assert (Fq : Forall is_put puts).
  { unfold puts. constructor; [exact I|]. apply Forall_app. split; [exact Fg|]. apply Forall_app. split; [repeat constructor|exact Fp]. }
  assert (Fk : Forall (keeps (length (payload puts))) tail).
  { eapply Forall_impl; [|exact Ft]. intros o Ko. destruct o as [b|i]; cbn [keeps] in *; [exact I|]. rewrite Epay. unfold X. rewrite payload_app in Ko.
    unfold payload at 1 in Ko. cbn [map concat] in Ko. rewrite !app_length in *. cbn [length] in Ko. lia. }
  assert (XP : exists c, f_data (replay ops') = X ++ c).
  { destruct (cut_file puts tail ops' Fq Fk C) as [(c & Ec)|(c & Ec)].
    - rewrite Epay in Ec. symmetry in Ec. destruct (beginnings _ _ _ _ Ec) as [Ex|Ex]; [exact Ex|]. exfalso. exact (Short _ _ _ OZ P Ex Y).
    - rewrite Epay, <- app_assoc in Ec. eauto. }
  destruct XP as (c' & Ed); rewrite Ed in Y.
  assert (O2 : read_dictionary (firstn (length X) (X ++ c')) = Ok z) by (rewrite firstn_app, firstn_all, Nat.sub_diag, firstn_O, app_nil_r; exact OZ).
  assert (LX : (length X <= length (X ++ c'))%nat) by (rewrite app_length; lia).
  destruct (cut_opens _ _ _ _ Y LX O2) as (_ & Gy & Ty & Wy).
  exists rs, s; split; [exact Hrs|]; split; [exact Hs|]; split; [exact Mok|]; split;
    [exists g; rewrite <- Gy; split; [exact G|]; split; [exact Gp|]; rewrite <- Ems; exact Gm|].
  destruct (core_keys s kvs wids array b1 y SO Hw Ht Hb1) as (_ & KY); [congruence|congruence|].
  intros t o w e Ho; rewrite (keys_lookup_iff _ _ _ _ _ _ _ KY SO Ho); split.
  - intros (i & -> & B & en & hw & H1 & H2 & H3). exists i, en, hw. auto.
  - intros (i & en & hw & -> & B & H1 & H2 & H3). exists i. split; [reflexivity|]. split; [exact B|]. exists en, hw. auto.
Qed.
End incomplete.

(** ** What the files say *)
(** The rows of the source files, one file after the other *)
Definition rows_of (d : disk) (ins : list text) (rs : list (list text)) : Prop :=
  exists rss, Forall2 (fun path rows => exists b t, d path = Some b /\ decode b = Ok t /\ csv_rows t = Ok rows) ins rss /\ rs = concat rss.
Definition matrix_file_of (locale : bytes -> res text) (py_int : text -> res Z) (d : disk) (path : text) (m : matrix_source) : Prop :=
  exists b t, d path = Some b /\ locale b = Ok t /\ read_matrix py_int t = Ok m.
(** The words that the dictionary finds are the rows that have an index word (column 0, when
    column 1 is not -1), and their word ids are the numbers of the rows. *)
Definition finds_rows (search : bytes -> bytes -> list (Z * nat)) (rs : list (list text)) (y : dictionary) : Prop :=
  forall t o w e, (o <= length t)%nat ->
    In (w, e) (fst (lx_lookup search (d_lexicon y) t o)) <->
    exists i row cs, w = Z.of_nat i /\ (o <= e <= length t)%nat /\ nth_error rs i = Some row /\
      Forall2 (fun c c' => unescape c = Ok c') row cs /\ nth 1 cs [] <> [45; 49] /\ encode (nth 0 cs []) = Ok (slice t o e).

Lemma source_rows_of d ins rs : source_rows d ins = Ok rs <-> rows_of d ins rs.
Proof.
  revert rs. induction ins as [|path ins IH]; intros rs; cbn [source_rows]; split.
  - intros [= <-]. exists []. split; [constructor|reflexivity].
  - intros (rss & F & ->). inversion F; subst. reflexivity.
  - destruct (d path) as [b|] eqn:D; [|discriminate]. intros H. apply bind_ok in H as (t & Ht & H). apply bind_ok in H as (rows & Hr & H). apply bind_ok in H as (rest & Hx & [= <-]).
    apply IH in Hx as (rss & F & ->). exists (rows :: rss). split; [constructor; [eauto|exact F]|reflexivity].
  - intros (rss & F & ->). inversion F as [|? rows ? rss' (b & t & D & Ht & Hr) F']; subst. rewrite D, Ht. cbn [bind]. rewrite Hr. cbn [bind].
    assert (X : rows_of d ins (concat rss')) by (exists rss'; auto). apply IH in X. rewrite X. reflexivity.
Qed.
Lemma matrix_rows_of locale py_int d path m : matrix_rows py_int locale d path = Ok m <-> matrix_file_of locale py_int d path m.
Proof.
  unfold matrix_rows, matrix_file_of. destruct (d path) as [b|]; split.
  - intros H. apply bind_ok in H as (t & Ht & H). eauto.
  - intros (b' & t & [= <-] & Ht & H). rewrite Ht. exact H.
  - discriminate.
  - intros (b & t & [=] & _).
Qed.
Lemma put_other d out b p : p <> out -> put_file d out b p = d p.
Proof. intros N. unfold put_file. destruct (teqb p out) eqn:E; [apply teqb_eq in E; contradiction|reflexivity]. Qed.
Lemma put_same d out b : put_file d out b out = Some b.
Proof. unfold put_file. destruct (teqb out out) eqn:E; [reflexivity|]. assert (teqb out out = true) by now apply teqb_eq. congruence. Qed.
Lemma rows_put d out ins rs : ~ In out ins -> rows_of (put_file d out []) ins rs <-> rows_of d ins rs.
Proof.
  intros N. unfold rows_of. split; intros (rss & F & E); exists rss; (split; [|exact E]); clear E; induction F as [|p rows ps rss (b & t & D & H) F IH]; constructor;
    try (apply IH; intros X; apply N; now right); exists b, t; rewrite put_other in * by (intros X; apply N; now left); auto.
Qed.
Lemma matrix_put locale py_int d out path m : out <> path -> matrix_file_of locale py_int (put_file d out []) path m <-> matrix_file_of locale py_int d path m.
Proof. intros N. unfold matrix_file_of. rewrite put_other by congruence. tauto. Qed.
Lemma rows_read d out ins rs : ~ In out ins -> source_rows (put_file d out []) ins = Ok rs <-> rows_of d ins rs.
Proof. intros N. rewrite source_rows_of. now apply rows_put. Qed.
Lemma matrix_read locale py_int d out path m : out <> path -> matrix_rows py_int locale (put_file d out []) path = Ok m <-> matrix_file_of locale py_int d path m.
Proof. intros N. rewrite matrix_rows_of. now apply matrix_put. Qed.

Lemma words_are_rows k py_int search rs s y : build_lexicon k py_int new_source rs = Ok s -> has_words search s y -> finds_rows search rs y.
Proof.
  intros Hs HW t o w e Ho. rewrite (HW t o w e Ho). destruct (build_rows _ _ _ _ _ Hs) as (_ & LN & _ & R). cbn [new_source s_entries length Nat.add] in LN, R. split.
  - intros (i & en & h & -> & B & Hi & Hh & He).
    destruct (nth_error rs i) as [row|] eqn:Er; [|apply nth_error_None in Er; assert (i < length (s_entries s))%nat by (apply nth_error_Some; congruence); lia].
    destruct (R i row Er) as (e' & tb & tb' & He' & Hp & _). assert (e' = en) by congruence. subst e'.
    destruct (C58_accepted _ _ _ _ _ _ Hp) as (_ & cs & Fc & _ & A0 & _). exists i, row, cs. split; [reflexivity|]. split; [exact B|]. split; [exact Er|]. split; [exact Fc|].
    rewrite A0 in Hh. destruct (teqb (nth 1 cs []) [45; 49]) eqn:T; [discriminate|]. injection Hh as <-. split; [intros X; rewrite X in T; discriminate T|exact He].
  - intros (i & row & cs & -> & B & Er & Fc & N1 & He). destruct (R i row Er) as (en & tb & tb' & Hi & Hp & _).
    destruct (C58_accepted _ _ _ _ _ _ Hp) as (_ & cs' & Fc' & _ & A0 & _).
    assert (cs' = cs). { clear - Fc Fc'. revert cs' Fc'. induction Fc as [|a b la lb H F IH]; intros cs' G; inversion G; subst; [reflexivity|]. f_equal; [congruence|now apply IH]. } subst cs'.
    destruct (teqb (nth 1 cs []) [45; 49]) eqn:T; [apply teqb_eq in T; contradiction|]. exists i, en, (nth 0 cs []). auto 6.
Qed.

Section commands.
Variable py_int : text -> res Z.
Variable is_digit : Z -> bool.
Variable search : bytes -> bytes -> list (Z * nat).
Variable trie_array : list (bytes * Z) -> res bytes.
Variable limit : nat.
Variable locale : bytes -> res text.
Notation build_program := (build_program py_int is_digit trie_array locale).
Notation command_build := (command_build py_int is_digit trie_array locale).
Notation user_build_program := (user_build_program py_int is_digit trie_array search limit).
Notation command_user_build := (command_user_build py_int is_digit trie_array search limit).

(** A command leaves what it leaves when it is killed at its end. *)
Lemma output_killed d out w d' o : with_output d out w = (d', o) -> killed d out w d'.
Proof.
  unfold with_output. destruct (w (put_file d out []) O) as [[ops q] r] eqn:E. intros [= <- _]. eapply Killed_inside; [exact E|apply cut_all].
Qed.
Lemma build_killed d out matrix ins now description d' o : command_build d out matrix ins now description = (d', o) -> killed d out (build_program matrix ins now description) d'.
Proof.
  unfold M_Command.command_build. destruct (negb _); [intros [= <- _]; constructor|]. destruct (negb _); [intros [= <- _]; constructor|]. apply output_killed.
Qed.
Lemma system_file_path default given path : system_file default given path <-> system_path default given = Ok path.
Proof.
  unfold system_file, system_path. destruct given as [[|x t]|]; split.
  - intros [([= <-] & N)|(_ & H)]; [congruence|exact H].
  - auto.
  - intros [([= <-] & _)|([H|H] & _)]; [reflexivity|discriminate|discriminate].
  - intros [= <-]. left. split; [reflexivity|discriminate].
  - intros [(H & _)|(_ & H)]; [discriminate|exact H].
  - auto.
Qed.
Lemma user_build_killed d default given out ins now description d' o : command_user_build d default given out ins now description = (d', o) ->
  d' = d \/ exists path b x, system_path default given = Ok path /\ d path = Some b /\ from_system_dictionary b = Ok x /\ killed d out (user_build_program x ins now description) d'.
Proof.
  unfold M_Command.command_user_build. destruct (system_path default given) as [path|]; [|intros [= <- _]; now left]. destruct (d path) as [b|] eqn:D; [|intros [= <- _]; now left].
  destruct (negb _); [intros [= <- _]; now left|]. destruct (from_system_dictionary b) as [x|] eqn:X; [|intros [= <- _]; now left]. intros H. right. exists path, b, x. eauto using output_killed.
Qed.

(** ** C76: a dictionary that is not complete *)
(** A build that fails or is killed at any moment leaves the old file, or one that cannot be
    opened, or one in which the connection costs, the parts of speech and the index of the
    words are complete.  (Parameters and infos of the words may be missing: see C76_refuted.) *)
Theorem C76_incomplete_partial d out matrix ins now description d' b y :
  trie_contract search trie_array -> 0 <= now -> ~ In 0 description -> ~ In out (matrix :: ins) ->
  (forall rs s, rows_of d ins rs -> build_lexicon SystemDic py_int new_source rs = Ok s -> Forall readable_pos (s_table s)) ->
  (forall m, matrix_file_of locale py_int d matrix m -> exists n, has_matrix n m) ->
  killed d out (build_program matrix ins now description) d' -> d' out = Some b -> read_dictionary b = Ok y ->
  d' = d \/
  exists rs s m n g, rows_of d ins rs /\ build_lexicon SystemDic py_int new_source rs = Ok s /\ matrix_file_of locale py_int d matrix m /\
    has_matrix n m /\ d_grammar y = Some g /\ g_pos g = map (split_on comma) (s_table s) /\ matrix_of g n m /\ finds_rows search rs y.
Proof.
  intros CT T N NO R M K B Y. destruct K as [|ops q r ops' E C]; [now left|]. right. rewrite put_same in B. injection B as <-.
  assert (No1 : ~ In out ins) by (intros X; apply NO; now right). assert (No2 : out <> matrix) by (intros ->; apply NO; now left).
  unfold M_Command.build_program in E.
  destruct (incomplete _ _ _ _ _ CT _ _ _ _ _ _ _ _ y T N (fun rs s A => R rs s (proj1 (rows_read _ _ _ _ No1) A))
             (fun rs s m _ _ _ A => M m (proj1 (matrix_read _ _ _ _ _ _ No2) A)) E C Y) as (rs & s & Hrs & Hs & HM & (g & G & Gp & Gm) & HW).
  destruct (HM eq_refl) as (m & Hm). apply (proj1 (rows_read _ _ _ _ No1)) in Hrs. rewrite Hm in Gm. apply (proj1 (matrix_read _ _ _ _ _ _ No2)) in Hm.
  destruct (M _ Hm) as (n & Hn). exists rs, s, m, n, g. eauto 10 using words_are_rows.
Qed.

(** The same for a user dictionary, which has no matrix *)
Theorem C76_incomplete_user_partial d x out ins now description d' b y :
  trie_contract search trie_array -> 0 <= now -> ~ In 0 description -> ~ In out ins ->
  (forall rs s, rows_of d ins rs -> build_lexicon (user_kind search limit x) py_int new_source rs = Ok s -> Forall readable_pos (s_table s)) ->
  killed d out (user_build_program x ins now description) d' -> d' out = Some b -> read_dictionary b = Ok y ->
  d' = d \/
  exists rs s g, rows_of d ins rs /\ build_lexicon (user_kind search limit x) py_int new_source rs = Ok s /\
    d_grammar y = Some g /\ g_pos g = map (split_on comma) (s_table s) /\ finds_rows search rs y.
Proof.
  intros CT T N NO R K B Y. destruct K as [|ops q r ops' E C]; [now left|]. right. rewrite put_same in B. injection B as <-.
  unfold M_Command.user_build_program in E.
  destruct (incomplete _ _ _ _ _ CT _ _ _ _ _ _ _ _ y T N (fun rs s A => R rs s (proj1 (rows_read _ _ _ _ NO) A))
             ltac:(intros rs s m _ _ [=]) E C Y) as (rs & s & Hrs & Hs & _ & (g & G & Gp & _) & HW).
  apply (proj1 (rows_read _ _ _ _ NO)) in Hrs. exists rs, s, g. eauto 10 using words_are_rows.
Qed.

(** When a row of the source files is rejected, or one of the files cannot be read, what is
    left cannot be opened, at whatever moment the command ends. *)
Theorem C76_bad_source d out matrix ins now description d' :
  trie_contract search trie_array -> 0 <= now -> ~ In 0 description -> ~ In out (matrix :: ins) ->
  (forall rs s, rows_of d ins rs -> build_lexicon SystemDic py_int new_source rs <> Ok s) ->
  killed d out (build_program matrix ins now description) d' -> d' = d \/ exists b e, d' out = Some b /\ read_dictionary b = Err e.
Proof.
  intros CT T N NO BAD K. destruct K as [|ops q r ops' E C]; [now left|]. right. exists (f_data (replay ops')).
  destruct (read_dictionary (f_data (replay ops'))) as [y|e] eqn:Y; [exfalso|exists e; split; [apply put_same|reflexivity]].
  assert (No1 : ~ In out ins) by (intros X; apply NO; now right). unfold M_Command.build_program in E.
  assert (BAD' : forall rs s, source_rows (put_file d out []) ins = Ok rs -> build_lexicon SystemDic py_int new_source rs = Ok s -> False).
  { intros rs s A. apply (proj1 (rows_read _ _ _ _ No1)) in A. exact (BAD rs s A). }
  destruct (incomplete _ _ _ _ _ CT _ _ _ _ _ _ _ _ y T N ltac:(intros; exfalso; eauto) ltac:(intros; exfalso; eauto) E C Y) as (rs & s & Hrs & Hs & _). eauto.
Qed.
(** The same when the matrix cannot be read *)
Theorem C76_bad_matrix d out matrix ins now description d' :
  trie_contract search trie_array -> 0 <= now -> ~ In 0 description -> ~ In out (matrix :: ins) ->
  (forall rs s, rows_of d ins rs -> build_lexicon SystemDic py_int new_source rs = Ok s -> Forall readable_pos (s_table s)) ->
  (forall m, ~ matrix_file_of locale py_int d matrix m) ->
  killed d out (build_program matrix ins now description) d' -> d' = d \/ exists b e, d' out = Some b /\ read_dictionary b = Err e.
Proof.
  intros CT T N NO R BAD K. inversion K as [|ops q r ops' E C]; [now left|]. right. subst d'. exists (f_data (replay ops')).
  destruct (read_dictionary (f_data (replay ops'))) as [y|e] eqn:Y; [exfalso|exists e; split; [apply put_same|reflexivity]].
  destruct (C76_incomplete_partial _ _ _ _ _ _ _ _ _ CT T N NO R ltac:(intros m Hm; destruct (BAD m Hm)) K (put_same _ _ _) Y) as [X|(_ & _ & m & _ & _ & _ & _ & Hm & _)]; [|exact (BAD m Hm)].
  (* the file was the same before: it is still what the operations made *)
  assert (No1 : ~ In out ins) by (intros Z; apply NO; now right). assert (No2 : out <> matrix) by (intros ->; apply NO; now left). unfold M_Command.build_program in E.
  destruct (incomplete _ _ _ _ _ CT _ _ _ _ _ _ _ _ y T N (fun rs s A => R rs s (proj1 (rows_read _ _ _ _ No1) A))
             (fun rs s m _ _ _ A => False_ind _ (BAD m (proj1 (matrix_read _ _ _ _ _ _ No2) A))) E C Y) as (rs & s & _ & _ & HM & _).
  destruct (HM eq_refl) as (m & Hm). apply (proj1 (matrix_read _ _ _ _ _ _ No2)) in Hm. exact (BAD m Hm).
Qed.
Theorem C76_bad_source_user d x out ins now description d' :
  trie_contract search trie_array -> 0 <= now -> ~ In 0 description -> ~ In out ins ->
  (forall rs s, rows_of d ins rs -> build_lexicon (user_kind search limit x) py_int new_source rs <> Ok s) ->
  killed d out (user_build_program x ins now description) d' -> d' = d \/ exists b e, d' out = Some b /\ read_dictionary b = Err e.
Proof.
  intros CT T N NO BAD K. destruct K as [|ops q r ops' E C]; [now left|]. right. exists (f_data (replay ops')).
  destruct (read_dictionary (f_data (replay ops'))) as [y|e] eqn:Y; [exfalso|exists e; split; [apply put_same|reflexivity]].
  unfold M_Command.user_build_program in E.
  assert (BAD' : forall rs s, source_rows (put_file d out []) ins = Ok rs -> build_lexicon (user_kind search limit x) py_int new_source rs = Ok s -> False).
  { intros rs s A. apply (proj1 (rows_read _ _ _ _ NO)) in A. exact (BAD rs s A). }
  destruct (incomplete _ _ _ _ _ CT _ _ _ _ _ _ _ _ y T N ltac:(intros; exfalso; eauto) ltac:(intros; exfalso; eauto) E C Y) as (rs & s & Hrs & Hs & _). eauto.
Qed.

(** ** C77: the files that the commands touch *)
(** Nothing but the output file changes, at whatever moment the command ends. *)
Theorem C77_only_output d out matrix ins now description d' p :
  killed d out (build_program matrix ins now description) d' -> p <> out -> d' p = d p.
Proof. intros [|ops q r ops' E C] N; [reflexivity|]. now rewrite !put_other. Qed.
Theorem C77_only_output_user d x out ins now description d' p :
  killed d out (user_build_program x ins now description) d' -> p <> out -> d' p = d p.
Proof. intros [|ops q r ops' E C] N; [reflexivity|]. now rewrite !put_other. Qed.

(** A file that is missing is noticed before anything is written. *)
Theorem C77_missing d out matrix ins now description p :
  In p (matrix :: ins) -> d p = None -> command_build d out matrix ins now description = (d, Exit 1).
Proof.
  intros Hp D. unfold M_Command.command_build. destruct Hp as [->|Hp]; [unfold exists_file; rewrite D; reflexivity|].
  destruct (negb _); [reflexivity|]. assert (X : forallb (exists_file d) ins = false); [|now rewrite X].
  destruct (forallb (exists_file d) ins) eqn:F; [|reflexivity]. rewrite forallb_forall in F. specialize (F p Hp). unfold exists_file in F. rewrite D in F. discriminate F.
Qed.
(** So are, by ubuild, a system dictionary that is missing and one that cannot be used. *)
Theorem C77_missing_user d default given out ins now description :
  (forall path b x, system_file default given path -> d path = Some b -> from_system_dictionary b <> Ok x) \/ (exists p, In p ins /\ d p = None) ->
  exists o, command_user_build d default given out ins now description = (d, o) /\ o <> Done.
Proof.
  intros H. unfold M_Command.command_user_build. destruct (system_path default given) as [path|e] eqn:P; [|eexists; split; [reflexivity|discriminate]].
  destruct (d path) as [b|] eqn:D; [|eexists; split; [reflexivity|discriminate]]. destruct (forallb (exists_file d) ins) eqn:F; cbn [negb]; [|eexists; split; [reflexivity|discriminate]].
  destruct H as [H|(p & Hp & Dp)].
  - destruct (from_system_dictionary b) as [x|e] eqn:X; [destruct (H path b x (proj2 (system_file_path _ _ _) P) D X)|]. eexists. split; [reflexivity|discriminate].
  - rewrite forallb_forall in F. specialize (F p Hp). unfold exists_file in F. rewrite Dp in F. discriminate F.
Qed.

(** A command that ends well has written the dictionary of its source files, whatever was in
    the output file; and it ends well when the builder accepts them. *)
Theorem C77_done d out matrix ins now description b :
  ~ In out (matrix :: ins) -> d matrix <> None ->
  (exists d', command_build d out matrix ins now description = (d', Done) /\ d' out = Some b) <->
  exists rs m, rows_of d ins rs /\ matrix_file_of locale py_int d matrix m /\
    build_command SystemDic py_int is_digit trie_array now description rs (Some m) = Ok b.
Proof.
  intros NO DM. assert (No1 : ~ In out ins) by (intros X; apply NO; now right). assert (No2 : out <> matrix) by (intros ->; apply NO; now left).
  unfold M_Command.command_build, with_output, M_Command.build_program.
  assert (EM : exists_file d matrix = true) by (unfold exists_file; destruct (d matrix); congruence). rewrite EM. cbn [negb].
  destruct (emit_command _ _ _ _ _ _ _ _ _) as [[ops q] r] eqn:E. split.
  - intros (d' & H & B). destruct (forallb (exists_file d) ins) eqn:F; cbn [negb] in H; [|discriminate H]. destruct r as [[]|e]; [|discriminate H]. injection H as <-. rewrite put_same in B. injection B as <-.
    destruct (source_rows (put_file d out []) ins) as [rs|e] eqn:Hr.
    2:{ exfalso. unfold emit_command in E. rewrite w_bind_lift in E. destruct (header_to_bytes _); [|discriminate E]. rewrite w_bind_put, w_bind_lift in E. discriminate E. }
    destruct (matrix_rows py_int locale (put_file d out []) matrix) as [m|e] eqn:Hm.
    2:{ exfalso. unfold emit_command in E. rewrite w_bind_lift in E. destruct (header_to_bytes _); [|discriminate E]. rewrite w_bind_put, w_bind_lift in E. cbn [bind] in E.
        destruct (build_lexicon _ _ _ _) as [s|]; [|discriminate E]. unfold w_bind at 1 in E. destruct (emit_grammar _ _ _) as [[og qg] rg] eqn:EG.
        destruct (grammar_shape _ _ _ _ _ _ EG) as [(_ & x & ->)|(pt & _ & [(_ & x & ->)|(gb & ms' & _ & _ & _ & _ & (m & [=] & _) & _)])]; discriminate E. }
    exists rs, m. split; [apply (rows_read d out); [exact No1|exact Hr]|]. split; [apply (matrix_read _ _ d out); [exact No2|exact Hm]|].
    rewrite (emit_builds _ _ _ _ _ _ _ _ _ _ _ E). reflexivity.
  - intros (rs & m & Hr & Hm & HB). assert (F : forallb (exists_file d) ins = true).
    { clear - Hr. destruct Hr as (rss & F & _). induction F as [|p rows ps rss (b & t & D & _) F IH]; [reflexivity|]. cbn [forallb]. unfold exists_file at 1. rewrite D. exact IH. }
    rewrite F. cbn [negb]. apply (proj2 (rows_read d out ins rs No1)) in Hr. apply (proj2 (matrix_read _ _ d out _ _ No2)) in Hm. rewrite Hr, Hm in E.
    rewrite (emit_builds _ _ _ _ _ _ _ _ _ _ _ E) in HB. destruct r as [[]|e]; [|discriminate HB]. injection HB as <-. eexists. split; [reflexivity|apply put_same].
Qed.
Theorem C77_done_user d default given out ins now description path bs x b :
  ~ In out ins -> system_file default given path -> d path = Some bs -> from_system_dictionary bs = Ok x ->
  (exists d', command_user_build d default given out ins now description = (d', Done) /\ d' out = Some b) <->
  exists rs, rows_of d ins rs /\ build_command (user_kind search limit x) py_int is_digit trie_array now description rs None = Ok b.
Proof.
  intros No1 P D X. apply system_file_path in P. unfold M_Command.command_user_build, with_output, M_Command.user_build_program. rewrite P, D, X.
  set (k := user_kind search limit x). destruct (emit_command k _ _ _ _ _ _ _ _) as [[ops q] r] eqn:E. split.
  - intros (d' & H & B). destruct (forallb (exists_file d) ins) eqn:F; cbn [negb] in H; [|discriminate H]. destruct r as [[]|e]; [|discriminate H]. injection H as <-. rewrite put_same in B. injection B as <-.
    destruct (source_rows (put_file d out []) ins) as [rs|e] eqn:Hr.
    2:{ exfalso. unfold emit_command in E. rewrite w_bind_lift in E. destruct (header_to_bytes _); [|discriminate E]. rewrite w_bind_put, w_bind_lift in E. discriminate E. }
    exists rs. split; [apply (rows_read d out); [exact No1|exact Hr]|].
    change (emit_command k py_int is_digit trie_array now description (Ok rs) (Ok toy_matrix) O = (ops, q, Ok tt)) in E.
    pose proof (emit_builds _ _ _ _ _ _ _ _ _ _ _ E) as HB. exact HB.
  - intros (rs & Hr & HB). assert (F : forallb (exists_file d) ins = true).
    { clear - Hr. destruct Hr as (rss & F & _). induction F as [|p rows ps rss (b & t & D & _) F IH]; [reflexivity|]. cbn [forallb]. unfold exists_file at 1. rewrite D. exact IH. }
    rewrite F. cbn [negb]. apply (proj2 (rows_read d out ins rs No1)) in Hr. rewrite Hr in E.
    change (emit_command k py_int is_digit trie_array now description (Ok rs) (Ok toy_matrix) O = (ops, q, r)) in E.
    change (build_command k py_int is_digit trie_array now description rs (Some toy_matrix) = Ok b) in HB.
    rewrite (emit_builds _ _ _ _ _ _ _ _ _ _ _ E) in HB. destruct r as [[]|e]; [|discriminate HB]. injection HB as <-. eexists. split; [reflexivity|apply put_same].
Qed.
End commands.
Print Assumptions C76_incomplete_partial.
Print Assumptions C76_incomplete_user_partial.
Print Assumptions C76_bad_source.
Print Assumptions C76_bad_matrix.
Print Assumptions C76_bad_source_user.
Print Assumptions C77_only_output.
Print Assumptions C77_only_output_user.
Print Assumptions C77_missing.
Print Assumptions C77_missing_user.
Print Assumptions C77_done.
Print Assumptions C77_done_user.

(** ** Examples *)
Definition join_row (row : list text) : text := match row with [] => [] | c :: r => c ++ flat_map (fun c => 44 :: c) r end.
Definition csv_text (rows : list (list text)) : text := flat_map (fun r => join_row r ++ [10]) rows.
Definition bytes_of (t : text) : bytes := match encode t with Ok b => b | Err _ => [] end.
Definition toy_matrix_text : text := txt "2 2" ++ [10] ++ txt "0 0 5" ++ [10] ++ txt "0 1 -3" ++ [10] ++ txt "1 1 7" ++ [10] ++ txt "0 1 -4" ++ [10].
(** The files m (the matrix) and s (the rows), and the output file o *)
Definition toy_disk (rows : list (list text)) (old : option bytes) : disk := fun p =>
  if teqb p (txt "m") then Some (bytes_of toy_matrix_text) else if teqb p (txt "s") then Some (bytes_of (csv_text rows)) else if teqb p (txt "o") then old else None.
Definition toy_old : bytes := match toy_file with Ok b => b | Err _ => [] end.
Definition toy_build d := command_build toy_int toy_digit toy_array decode d (txt "o") (txt "m") [txt "s"] 1600000000 (txt "toy").
(** The third row refers to a word 9, which there is not. *)
Definition dangling_rows : list (list text) := firstn 2 toy_rows ++ [toy_row [26481; 20140] [55] P1 [4] [5] star [48; 47; 57] [48; 47; 49]].


Lemma rows_same d ins a b : rows_of d ins a -> rows_of d ins b -> a = b.
Proof. intros A B. apply source_rows_of in A. apply source_rows_of in B. rewrite A in B. now injection B. Qed.
Lemma toy_disk_rows old : rows_of (toy_disk toy_rows old) [txt "s"] toy_rows.
Proof. apply source_rows_of. vm_compute. reflexivity. Qed.
Lemma toy_disk_matrix rows old m : matrix_file_of decode toy_int (toy_disk rows old) (txt "m") m -> m = toy_matrix.
Proof. intros (b & t & D & L & R). cbv in D. injection D as <-. cbv in L. injection L as <-. vm_compute in R. injection R as <-. reflexivity. Qed.

(** A reference to a word that there is not: the command fails, but what it leaves is a
    dictionary that opens and finds 東; the surface of that word is the description of the
    dictionary and other bytes of the header. *)
Theorem C76_refuted : exists d' b y wi,
  toy_build (toy_disk dangling_rows None) = (d', Raised EValue) /\ d' (txt "o") = Some b /\ read_dictionary b = Ok y /\
  In (0, 3%nat) (fst (lx_lookup toy_search (d_lexicon y) [230; 157; 177] 0)) /\
  lx_word_info 10 (d_lexicon y) 0 = Ok wi /\ nth 4 (nth 0 dangling_rows []) [] = [26481] /\ wi_surface wi <> [26481].
Proof.
  destruct (toy_build (toy_disk dangling_rows None)) as [d' o] eqn:E.
  assert (O : o = Raised EValue) by (change o with (snd (d', o)); rewrite <- E; vm_compute; reflexivity).
  assert (X : d' = fst (toy_build (toy_disk dangling_rows None))) by (rewrite E; reflexivity).
  destruct (d' (txt "o")) as [b|] eqn:B; [|rewrite X in B; vm_compute in B; discriminate B].
  assert (B' : fst (toy_build (toy_disk dangling_rows None)) (txt "o") = Some b) by (rewrite <- X; exact B).
  destruct (read_dictionary b) as [y|e] eqn:Y.
  2:{ exfalso. assert (Z : (match fst (toy_build (toy_disk dangling_rows None)) (txt "o") with Some b => match read_dictionary b with Ok _ => true | Err _ => false end | None => true end) = true) by (vm_compute; reflexivity).
      rewrite B', Y in Z. discriminate Z. }
  assert (Z : (match fst (toy_build (toy_disk dangling_rows None)) (txt "o") with
               | Some b => match read_dictionary b with
                           | Ok y => Some (fst (lx_lookup toy_search (d_lexicon y) [230; 157; 177] 0), match lx_word_info 10 (d_lexicon y) 0 with Ok wi => hd 0 (wi_surface wi) | Err _ => 26481 end)
                           | Err _ => None end
               | None => None end) = Some ([(0, 3%nat)], 14660)) by (vm_compute; reflexivity).
  rewrite B', Y in Z. injection Z as Z1 Z2. destruct (lx_word_info 10 (d_lexicon y) 0) as [wi|] eqn:W; [|discriminate Z2].
  exists d', b, y, wi. rewrite O. split; [reflexivity|]. split; [exact B|]. split; [exact Y|]. split; [rewrite Z1; now left|]. split; [exact W|]. split; [reflexivity|].
  intros Q. rewrite Q in Z2. discriminate Z2.
Qed.
Print Assumptions C76_refuted.

Lemma toy_now : 0 <= 1600000000.
Proof. discriminate. Qed.
Lemma toy_description : ~ In 0 (txt "toy").
Proof. intros X. vm_compute in X. repeat (destruct X as [X|X]; [discriminate X|]). exact X. Qed.
(** The hypotheses of C76_incomplete_partial are met by a build that is killed in the middle
    of the parameters of the words, and what it leaves does open. *)
Example C76_nonvacuous : exists d' b y,
  killed (toy_disk toy_rows None) (txt "o") (build_program toy_int toy_digit toy_array decode (txt "m") [txt "s"] 1600000000 (txt "toy")) d' /\
  d' (txt "o") = Some b /\ read_dictionary b = Ok y /\ (length b < length toy_old)%nat /\ d' <> toy_disk toy_rows None /\ ~ In (txt "o") [txt "m"; txt "s"] /\
  (forall rs s, rows_of (toy_disk toy_rows None) [txt "s"] rs -> build_lexicon SystemDic toy_int new_source rs = Ok s -> Forall readable_pos (s_table s)) /\
  (forall m, matrix_file_of decode toy_int (toy_disk toy_rows None) (txt "m") m -> exists n, has_matrix n m) /\
  finds_rows toy_search toy_rows y.
Proof.
  assert (R : forall rs s, rows_of (toy_disk toy_rows None) [txt "s"] rs -> build_lexicon SystemDic toy_int new_source rs = Ok s -> Forall readable_pos (s_table s)).
  { intros rs s H1 H2. assert (rs = toy_rows). { apply (rows_same _ _ _ _ H1 (toy_disk_rows None)). } subst rs.
    destruct C55_nonvacuous as (_ & A & _ & _ & B & _). rewrite A in H2. injection H2 as <-. exact B. }
  assert (M : forall m, matrix_file_of decode toy_int (toy_disk toy_rows None) (txt "m") m -> exists n, has_matrix n m).
  { intros m H. apply toy_disk_matrix in H. subst m. destruct C55_nonvacuous as (_ & _ & _ & _ & _ & B & _). eauto. }
  destruct (build_program toy_int toy_digit toy_array decode (txt "m") [txt "s"] 1600000000 (txt "toy") (put_file (toy_disk toy_rows None) (txt "o") []) O) as [[ops q] r] eqn:E.
  assert (NO : ~ In (txt "o") [txt "m"; txt "s"]) by (intros [X|[X|[]]]; discriminate X).
  set (w := build_program toy_int toy_digit toy_array decode (txt "m") [txt "s"] 1600000000 (txt "toy")) in *.
  set (ops0 := fst (fst (w (put_file (toy_disk toy_rows None) (txt "o") []) O))).
  assert (E0 : ops = ops0) by (unfold ops0; rewrite E; reflexivity).
  assert (C : cut ops (firstn 9 ops)).
  { rewrite <- (firstn_skipn 9 ops) at 1. generalize (firstn 9 ops) (skipn 9 ops). induction l; intros l'; cbn [app]; constructor; auto. }
  pose proof (Killed_inside _ _ w _ _ _ _ E C) as K.
  destruct (read_dictionary (f_data (replay (firstn 9 ops)))) as [y|e] eqn:Y.
  2:{ exfalso. assert (Z : (match read_dictionary (f_data (replay (firstn 9 ops0))) with Ok _ => true | Err _ => false end) = true) by (vm_compute; reflexivity). rewrite <- E0, Y in Z. discriminate Z. }
  destruct (C76_incomplete_partial toy_int toy_digit toy_search toy_array decode _ _ (txt "m") [txt "s"] 1600000000 (txt "toy") _ _ y toy_contract toy_now toy_description NO R M K (put_same _ _ _) Y)
    as [X|(rs & s & m & n & g & Hrs & _ & _ & _ & _ & _ & _ & F)].
  { exfalso. assert (Z : put_file (put_file (toy_disk toy_rows None) (txt "o") []) (txt "o") (f_data (replay (firstn 9 ops))) (txt "o") = toy_disk toy_rows None (txt "o")) by (rewrite X; reflexivity).
    rewrite put_same in Z. discriminate Z. }
  assert (rs = toy_rows). { apply (rows_same _ _ _ _ Hrs (toy_disk_rows None)). } subst rs.
  eexists _, _, y. split; [exact K|]. split; [apply put_same|]. split; [exact Y|]. split.
  { assert (Z : (length (f_data (replay (firstn 9 ops0))) <? length toy_old)%nat = true) by (vm_compute; reflexivity). rewrite E0. apply Nat.ltb_lt. exact Z. }
  split.
  { intros X. assert (Z : put_file (put_file (toy_disk toy_rows None) (txt "o") []) (txt "o") (f_data (replay (firstn 9 ops))) (txt "o") = toy_disk toy_rows None (txt "o")) by (rewrite X; reflexivity).
    rewrite put_same in Z. discriminate Z. }
  auto.
Qed.

(** The old dictionary is lost when the build fails. *)
Theorem C77_lost_refuted : exists x d' b e,
  read_dictionary toy_old = Ok x /\ toy_build (toy_disk [[txt "x"]] (Some toy_old)) = (d', Raised EValue) /\ d' (txt "o") = Some b /\ read_dictionary b = Err e.
Proof.
  destruct (read_dictionary toy_old) as [x|] eqn:X; [|vm_compute in X; discriminate X].
  destruct (toy_build (toy_disk [[txt "x"]] (Some toy_old))) as [d' o] eqn:E.
  assert (O : o = Raised EValue) by (change o with (snd (d', o)); rewrite <- E; vm_compute; reflexivity).
  assert (Z : (match fst (toy_build (toy_disk [[txt "x"]] (Some toy_old))) (txt "o") with Some b => match read_dictionary b with Ok _ => false | Err _ => true end | None => false end) = true) by (vm_compute; reflexivity).
  rewrite E in Z. cbn [fst] in Z. destruct (d' (txt "o")) as [b|] eqn:B; [|discriminate Z]. destruct (read_dictionary b) as [|e] eqn:Y; [discriminate Z|].
  exists x, d', b, e. rewrite O. auto.
Qed.
(** An output file that is also a source file: the command ends well, without a word, and the
    source is lost. *)
Theorem C77_alias_refuted : exists d' b x,
  command_build toy_int toy_digit toy_array decode (toy_disk toy_rows None) (txt "s") (txt "m") [txt "s"] 1600000000 (txt "toy") = (d', Done) /\
  d' (txt "s") = Some b /\ read_dictionary b = Ok x /\ lx_size (d_lexicon x) = 0%nat /\ rows_of (toy_disk toy_rows None) [txt "s"] toy_rows.
Proof.
  set (w := command_build toy_int toy_digit toy_array decode (toy_disk toy_rows None) (txt "s") (txt "m") [txt "s"] 1600000000 (txt "toy")).
  destruct w as [d' o] eqn:E.
  assert (O : o = Done) by (change o with (snd (d', o)); rewrite <- E; vm_compute; reflexivity).
  assert (Z : (match fst w (txt "s") with Some b => match read_dictionary b with Ok x => lx_size (d_lexicon x) | Err _ => 1%nat end | None => 1%nat end) = 0%nat) by (vm_compute; reflexivity).
  rewrite E in Z. cbn [fst] in Z. destruct (d' (txt "s")) as [b|] eqn:B; [|discriminate Z]. destruct (read_dictionary b) as [x|e] eqn:Y; [|discriminate Z].
  exists d', b, x. rewrite O. repeat (split; [first [reflexivity|assumption]|]). apply toy_disk_rows.
Qed.
Print Assumptions C77_lost_refuted.
Print Assumptions C77_alias_refuted.

(** A build that ends well, over an old file *)
Example C77_nonvacuous : exists d', toy_build (toy_disk toy_rows (Some [1; 2; 3])) = (d', Done) /\ d' (txt "o") = Some toy_old.
Proof.
  apply (C77_done toy_int toy_digit toy_array decode (toy_disk toy_rows (Some [1; 2; 3])) (txt "o") (txt "m") [txt "s"] 1600000000 (txt "toy") toy_old).
  - intros [X|[X|[]]]; discriminate X.
  - discriminate.
  - exists toy_rows, toy_matrix. split; [apply toy_disk_rows|]. split; [apply matrix_rows_of; vm_compute; reflexivity|]. vm_compute. reflexivity.
Qed.
