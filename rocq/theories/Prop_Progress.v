(** C87: what the build commands report. *)
From Coq Require Import String Ascii List ZArith Lia Bool Arith.
From Verif Require Import Base Utf8 M_Builder M_Lattice M_Tokenizer M_Bytes P_Bytes M_DicReader M_DicBuilder P_DicFormat P_DicWrite P_DicOpen P_DicGrammar
  P_DicSource P_DicLexicon P_DicFile P_DicToy M_Front M_Resource S_Resource M_Command S_Command S_Accept P_Accept Prop_Source Prop_Command P_Command M_Progress S_Progress P_Progress.
Import M_Bytes.
Import M_Progress.
Import ListNotations.
Open Scope list_scope.
Open Scope Z_scope.

(** ** The reports change nothing *)
(** which of several exceptions it is may depend on the order of reading *)
Definition same_outcome (a b : outcome) : Prop := match a, b with Raised _, Raised _ => True | _, _ => a = b end.

Section commands.
Variable py_int : text -> res Z.
Variable is_digit : Z -> bool.
Variable search : bytes -> bytes -> list (Z * nat).
Variable trie_array : list (bytes * Z) -> res bytes.
Variable limit : nat.
Variable locale : bytes -> res text.
Notation build_reports := (build_reports py_int is_digit trie_array locale).
Notation user_build_reports := (user_build_reports py_int is_digit trie_array search limit).
Notation command_build := (command_build py_int is_digit trie_array locale).
Notation command_user_build := (command_user_build py_int is_digit trie_array search limit).

Lemma output_same d out m w : (forall d, erases (m d) (w d)) ->
  fst (fst (with_reports d out m)) = fst (with_output d out w) /\ same_outcome (snd (with_reports d out m)) (snd (with_output d out w)).
Proof.
  intros E. unfold with_reports, with_output. specialize (E (put_file d out []) O). destruct (m _ O) as [[ss q] r], (w _ O) as [[ops q'] r']. destruct E as (<- & _ & S).
  cbn [fst snd]. split; [reflexivity|]. destruct r as [[]|], r' as [[]|]; cbn [same same_outcome] in *; try contradiction; auto.
Qed.
Lemma matrix_text_rows d path : (t <- matrix_text locale d path ;; read_matrix py_int t) = matrix_rows py_int locale d path.
Proof. unfold matrix_text, matrix_rows. destruct (d path); reflexivity. Qed.
Theorem C87_silent d out matrix ins now description :
  fst (fst (build_reports d out matrix ins now description)) = fst (command_build d out matrix ins now description) /\
  same_outcome (snd (build_reports d out matrix ins now description)) (snd (command_build d out matrix ins now description)).
Proof.
  unfold M_Progress.build_reports, M_Command.command_build. destruct (negb _); [split; reflexivity|]. destruct (negb _); [split; reflexivity|].
  apply output_same. intros d0. unfold build_program. rewrite <- matrix_text_rows. apply erases_command.
Qed.
Theorem C87_silent_user d default given out ins now description :
  fst (fst (user_build_reports d default given out ins now description)) = fst (command_user_build d default given out ins now description) /\
  same_outcome (snd (user_build_reports d default given out ins now description)) (snd (command_user_build d default given out ins now description)).
Proof.
  unfold M_Progress.user_build_reports, M_Command.command_user_build. destruct (system_path default given) as [path|e]; [|split; reflexivity]. destruct (d path) as [b|]; [|split; reflexivity].
  destruct (negb _); [split; reflexivity|]. destruct (from_system_dictionary b) as [x|e]; [|split; reflexivity].
  apply output_same. intros d0. unfold user_build_program. apply (erases_command (user_kind search limit x) py_int is_digit trie_array now description d0 ins (Err EFuel)).
Qed.

(** ** Rows that cannot be read *)
Lemma records_same d path a b : records d path a -> records d path b -> a = b.
Proof. intros (x & t & X & T & A) (y & u & Y & U & B). congruence. Qed.
Lemma split_first {A} (P : A -> Prop) a x l b y m : Forall P a -> ~ P x -> Forall P b -> ~ P y -> a ++ x :: l = b ++ y :: m -> a = b /\ x = y /\ l = m.
Proof.
  intros Fa. revert b. induction Fa as [|z a Pz Fa IH]; intros [|z' b] Nx Fb Ny E; cbn [app] in E; injection E as E1 E2; subst.
  - auto.
  - inversion Fb; subst. contradiction.
  - contradiction.
  - inversion Fb; subst. destruct (IH b Nx H2 Ny E2) as (-> & -> & ->). auto.
Qed.
Lemma bad_not_fine d path good row rest : records d path (good ++ row :: rest) -> ~ readable_row py_int row -> ~ fine py_int d path.
Proof. intros R N (rows & R' & F). rewrite <- (records_same _ _ _ _ R R') in F. apply Forall_app in F as (_ & F). inversion F; subst. contradiction. Qed.
Lemma first_bad_unique d ins path i path' i' : first_bad py_int d ins path i -> first_bad py_int d ins path' i' -> path = path' /\ i = i'.
Proof.
  intros (bf & af & good & row & rest & -> & Fb & R & <- & Fg & N) (bf' & af' & good' & row' & rest' & E & Fb' & R' & <- & Fg' & N').
  destruct (split_first _ _ _ _ _ _ _ Fb (bad_not_fine _ _ _ _ _ R N) Fb' (bad_not_fine _ _ _ _ _ R' N') E) as (_ & -> & _).
  pose proof (records_same _ _ _ _ R R') as X. destruct (split_first _ _ _ _ _ _ _ Fg N Fg' N' X) as (-> & _). auto.
Qed.
Lemma bad_has_text d ins path i : first_bad py_int d ins path i -> ~ no_text py_int d ins.
Proof.
  intros (bf & af & good & row & rest & -> & Fb & R & _ & _ & N) (bf' & path' & af' & E & Fb' & D).
  assert (N' : ~ fine py_int d path'). { intros (rows & (b & t & X & Y & _) & _). destruct (D b X) as (e & Z). congruence. }
  destruct (split_first _ _ _ _ _ _ _ Fb (bad_not_fine _ _ _ _ _ R N) Fb' N' E) as (_ & <- & _). destruct R as (b & t & X & Y & _). destruct (D b X) as (e & Z). congruence.
Qed.
Lemma first_bad_put d out ins path i : ~ In out ins -> first_bad py_int (put_file d out []) ins path i <-> first_bad py_int d ins path i.
Proof.
  intros NO. assert (R : forall p rows, In p ins -> records (put_file d out []) p rows <-> records d p rows).
  { intros p rows Hp. unfold records. rewrite put_other by (intros ->; contradiction). reflexivity. }
  split; intros (bf & af & good & row & rest & E & Fb & Rc & L & Fg & N); exists bf, af, good, row, rest; (split; [exact E|]); (split; [|split; [apply R; [rewrite E; apply in_or_app; right; now left|exact Rc]|auto]]);
    apply Forall_forall; intros p Hp; rewrite Forall_forall in Fb; destruct (Fb p Hp) as (rows & Rr & F); exists rows; (split; [|exact F]); apply R; auto; rewrite E; apply in_or_app; now left.
Qed.

(** The reports of a program that goes on after the files were read have no BadRow. *)
Definition not_row (r : report) : Prop := match r with BadRow _ _ _ => False | _ => True end.
Definition quiet {A} (m : reporter A) : Prop := forall p, let '(ss, _, _) := m p in Forall not_row (reports ss).
Lemma quiet_bind {A B} (m : reporter A) (f : A -> reporter B) : quiet m -> (forall a, quiet (f a)) -> quiet (r_bind m f).
Proof.
  intros M F p. unfold r_bind. specialize (M p). destruct (m p) as [[ss q] r]. destruct r as [a|e]; [|exact M]. specialize (F a q). destruct (f a q) as [[s2 q2] r2].
  rewrite reports_app. apply Forall_app. auto.
Qed.
Lemma quiet_of {A} (w : writer A) : quiet (r_of w).
Proof. intros p. unfold r_of. destruct (w p) as [[ops q] r]. rewrite reports_do. constructor. Qed.
Lemma quiet_say r : not_row r -> quiet (r_say r).
Proof. intros N p. unfold r_say. cbn. auto. Qed.
Lemma quiet_lift {A} (x : list report * res A) : Forall not_row (fst x) -> quiet (r_lift x).
Proof. intros N p. unfold r_lift. rewrite reports_say. exact N. Qed.
Lemma cells_quiet l : Forall not_row (map BadCell l).
Proof. induction l; constructor; [exact I|assumption]. Qed.
Ltac qt := repeat first [apply quiet_of|apply quiet_say; exact I|apply quiet_bind|lazymatch goal with |- forall _ : _ * _, _ => intros [? ?] | |- forall _, _ => intros ? end].
Lemma quiet_grammar table rt : quiet (report_grammar py_int table rt).
Proof.
  unfold report_grammar. do 5 (apply quiet_bind; [first [apply quiet_of|apply quiet_say; exact I]|intros ?]). destruct rt as [rt|].
  - apply quiet_bind; [|intros [h m]; repeat (apply quiet_bind; [apply quiet_of|intros ?]); apply quiet_say; exact I]. apply quiet_lift. destruct rt as [t|e]; [|constructor].
    pose proof (read_matrix_spec py_int t) as R. destruct (read_matrix_file py_int t) as [rs [hm|e]]; cbn [fst]; [destruct R as (-> & _)|destruct R as ((n & ->) & _)]; apply cells_quiet.
  - repeat (apply quiet_bind; [apply quiet_of|intros ?]). apply quiet_say. exact I.
Qed.
Lemma quiet_lexicon k s : quiet (report_lexicon k py_int is_digit trie_array s).
Proof.
  unfold report_lexicon, report_wordinfo. apply quiet_bind; [apply quiet_of|]. intros [? ?].
  repeat first [apply quiet_say; exact I|apply quiet_bind; [first [apply quiet_of|apply quiet_say; exact I]|intros ?]].
Qed.

(** The reports of the rows *)
Lemma command_rows k now description d ins mt ss q r : report_command k py_int is_digit trie_array now description d ins mt O = (ss, q, r) ->
  (forall e path i, In (BadRow e i path) (reports ss) -> reports ss = [Reading; BadRow e i path] /\ r = Err e /\ first_bad py_int d ins path i) /\
  (forall path i h, first_bad py_int d ins path i -> header_to_bytes (Header (version_of k) now description) = Ok h ->
     exists e, reports ss = [Reading; BadRow e i path] /\ r = Err e).
Proof.
  intros E. unfold report_command in E. fold (version_of k) in E. unfold r_bind, r_of, w_lift, w_put, r_say, r_lift in E.
  destruct (header_to_bytes (Header (version_of k) now description)) as [h|e] eqn:Hh.
  2:{ cbn in E. injection E as <- <- <-. split; [intros ? ? ? []|discriminate]. }
  pose proof (read_files_spec k py_int d ins new_source) as R. destruct (read_files k py_int d ins new_source) as [rs x] eqn:RF. cbn [fst snd map app] in E. destruct x as [s|e].
  - destruct R as (-> & _ & F). cbn [map app] in E.
    assert (Q : Forall not_row (reports ss)).
    { pose proof (quiet_grammar (s_table s) (match k with SystemDic => Some mt | UserDic _ _ _ => None end) (0 + length h)%nat) as QG.
      cbn [Nat.add] in QG. destruct (report_grammar py_int (s_table s) _ (length h)) as [[sg qg] rg] eqn:G. cbn [Nat.add] in E. rewrite G in E. destruct rg as [[]|e].
      - pose proof (quiet_lexicon k s qg) as QL. destruct (report_lexicon k py_int is_digit trie_array s qg) as [[sl ql] rl]. injection E as <- _ _.
        change (reports (Do (Put h) :: Say Reading :: Say (Words (length (s_entries s))) :: sg ++ sl)) with ([Reading; Words (length (s_entries s))] ++ reports (sg ++ sl)).
        rewrite reports_app. repeat (constructor; [exact I|]). apply Forall_app. auto.
      - injection E as <- _ _. change (reports _) with ([Reading; Words (length (s_entries s))] ++ reports sg). repeat (constructor; [exact I|]). exact QG. }
    split.
    + intros e path i Hin. rewrite Forall_forall in Q. destruct (Q _ Hin).
    + intros path i h' (bf & af & good & row & rest & -> & _ & Rc & _ & _ & N). exfalso. apply Forall_app in F as (_ & F). inversion F; subst. eapply bad_not_fine; eauto.
  - destruct R as (C & _). injection E as <- _ <-. 
    assert (X : reports (Do (Put h) :: Say Reading :: map Say rs) = Reading :: rs) by (change (Reading :: reports (map Say rs) = Reading :: rs); now rewrite reports_say).
    rewrite X. clear X. split.
    + intros e' path i [Hin|Hin]; [discriminate|]. destruct C as [(p & j & -> & B)|(-> & _)]; [|destruct Hin]. destruct Hin as [[= -> -> ->]|[]]. auto.
    + intros path i h' B _. exists e. destruct C as [(p & j & -> & B')|(_ & T)]; [|exfalso; eapply bad_has_text; eauto].
      destruct (first_bad_unique _ _ _ _ _ _ B B') as (-> & ->). auto.
Qed.

(** When a row is reported, it is the first of the rows of the files that cannot be read, and
    the command ends there. *)
Theorem C87_row d out matrix ins now description d' rs o e path i :
  build_reports d out matrix ins now description = (d', rs, o) -> ~ In out ins ->
  In (BadRow e i path) rs -> rs = [Reading; BadRow e i path] /\ o = Raised e /\ first_bad py_int d ins path i.
Proof.
  intros B NO H. unfold M_Progress.build_reports in B. destruct (negb _); [injection B as <- <- <-; destruct H|]. destruct (negb _); [injection B as <- <- <-; destruct H|].
  unfold with_reports in B. destruct (report_command _ _ _ _ _ _ _ _ _ O) as [[ss q] r] eqn:E. injection B as <- <- <-. destruct (command_rows _ _ _ _ _ _ _ _ _ E) as (X & _).
  destruct (X _ _ _ H) as (-> & -> & F). split; [reflexivity|]. split; [reflexivity|]. now apply first_bad_put in F.
Qed.
Theorem C87_row_user d default given out ins now description d' rs o e path i :
  user_build_reports d default given out ins now description = (d', rs, o) -> ~ In out ins ->
  In (BadRow e i path) rs -> rs = [Reading; BadRow e i path] /\ o = Raised e /\ first_bad py_int d ins path i.
Proof.
  intros B NO H. unfold M_Progress.user_build_reports in B. destruct (system_path default given) as [p|?]; [|injection B as <- <- <-; destruct H]. destruct (d p) as [b|]; [|injection B as <- <- <-; destruct H].
  destruct (negb _); [injection B as <- <- <-; destruct H|]. destruct (from_system_dictionary b) as [x|?]; [|injection B as <- <- <-; destruct H].
  unfold with_reports in B. destruct (report_command _ _ _ _ _ _ _ _ _ O) as [[ss q] r] eqn:E. injection B as <- <- <-. destruct (command_rows _ _ _ _ _ _ _ _ _ E) as (X & _).
  destruct (X _ _ _ H) as (-> & -> & F). split; [reflexivity|]. split; [reflexivity|]. now apply first_bad_put in F.
Qed.
(** And when there is such a row it is reported. *)
Theorem C87_reported d out matrix ins now description path i h :
  first_bad py_int d ins path i -> ~ In out ins -> exists_file d matrix = true -> forallb (exists_file d) ins = true ->
  header_to_bytes (Header SYSTEM_DICT_VERSION_2 now description) = Ok h ->
  exists d' e, build_reports d out matrix ins now description = (d', [Reading; BadRow e i path], Raised e).
Proof.
  intros F NO M Is Hh. unfold M_Progress.build_reports. rewrite M, Is. cbn [negb]. unfold with_reports. destruct (report_command _ _ _ _ _ _ _ _ _ O) as [[ss q] r] eqn:E.
  destruct (command_rows _ _ _ _ _ _ _ _ _ E) as (_ & X). destruct (X path i h) as (e & -> & ->); [now apply first_bad_put|exact Hh|]. eauto.
Qed.
Theorem C87_reported_user d default given out ins now description system b x path i h :
  system_file default given system -> d system = Some b -> from_system_dictionary b = Ok x ->
  first_bad py_int d ins path i -> ~ In out ins -> forallb (exists_file d) ins = true ->
  header_to_bytes (Header USER_DICT_VERSION_3 now description) = Ok h ->
  exists d' e, user_build_reports d default given out ins now description = (d', [Reading; BadRow e i path], Raised e).
Proof.
  intros S B X0 F NO Is Hh. apply system_file_path in S. unfold M_Progress.user_build_reports. rewrite S, B, X0, Is. cbn [negb]. unfold with_reports. destruct (report_command _ _ _ _ _ _ _ _ _ O) as [[ss q] r] eqn:E.
  destruct (command_rows _ _ _ _ _ _ _ _ _ E) as (_ & X). destruct (X path i h) as (e & -> & ->); [now apply first_bad_put|exact Hh|]. eauto.
Qed.

(** What is then on the screen: the reason, the number of the line as [str] shows it and the file. *)
Corollary C87_text d out matrix ins now description path i h (str : Z -> text) (reason : exn -> text) :
  first_bad py_int d ins path i -> ~ In out ins -> exists_file d matrix = true -> forallb (exists_file d) ins = true ->
  header_to_bytes (Header SYSTEM_DICT_VERSION_2 now description) = Ok h ->
  exists d' rs e, build_reports d out matrix ins now description = (d', rs, Raised e) /\
    concat (map (shown str reason) rs) = txt "reading the source file..." ++ reason e ++ txt " at line " ++ str (Z.of_nat i) ++ txt " in " ++ path ++ [10].
Proof.
  intros F NO M Is Hh. destruct (C87_reported d out matrix ins now description path i h F NO M Is Hh) as (d' & e & E). exists d', [Reading; BadRow e i path], e. split; [exact E|].
  cbn [map concat shown]. rewrite app_nil_r. reflexivity.
Qed.
(** ** Sizes: at any time, also when the command fails later *)
Theorem C87_sizes k d out ins mt now description ss q r :
  trie_contract search trie_array -> ~ In out ins -> ~ rows_of d ins [] ->
  report_command k py_int is_digit trie_array now description (put_file d out []) ins mt O = (ss, q, r) -> sizes_right ss.
Proof.
  intros C NO NE E. eapply sizes_command; [exact C|exact E|]. intros rows Hr ->. apply NE. now apply rows_read in Hr.
Qed.

(** ** A build that was done *)
Lemma header_length h b : header_to_bytes h = Ok b -> length b = 272%nat.
Proof.
  unfold header_to_bytes. intros Eh. apply bind_ok in Eh as (v & Ev & Eh). apply bind_ok in Eh as (t & Et & Eh). apply bind_ok in Eh as (c & Eb & Eh).
  destruct (DESCRIPTION_SIZE <? length c)%nat eqn:L; [discriminate|]. apply Nat.ltb_ge in L. unfold DESCRIPTION_SIZE in L.
  apply (to_bytes_length 8 false) in Ev. apply (to_bytes_length 8 true) in Et. cbv zeta in Eh. match type of Eh with Ok ?x = Ok _ => assert (b = x) as -> by congruence end.
  rewrite !app_length, skipn_length, repeat_length. unfold HEADER_SIZE. lia.
Qed.
Theorem C87_done d out matrix ins now description d' rs :
  trie_contract search trie_array -> ~ In out (matrix :: ins) ->
  build_reports d out matrix ins now description = (d', rs, Done) ->
  exists rows b t p, rows_of d ins rows /\ d matrix = Some b /\ locale b = Ok t /\ d' out = Some (whole p) /\ length (p_header p) = 272%nat /\
    rs = all_reports (length rows) (short_lines 0 (tl (file_lines t)))
      (Z.of_nat (length (p_pos p))) (Z.of_nat (length (p_matrix p))) (Z.of_nat (length (p_trie p))) (Z.of_nat (length (p_ids p)))
      (6 * Z.of_nat (length rows) + 4) (Z.of_nat (length (p_infos p))) (Z.of_nat (length (p_offsets p))) /\
    (rows <> [] -> length (p_params p) = (6 * length rows + 4)%nat /\ starts_with (Z.of_nat (length rows)) (p_params p)) /\
    (exists m, length (p_trie p) = (4 * m + 4)%nat /\ starts_with (Z.of_nat m) (p_trie p)) /\
    (exists m, length (p_ids p) = (m + 4)%nat /\ starts_with (Z.of_nat m) (p_ids p)) /\
    length (p_offsets p) = (4 * length rows)%nat /\ Forall (eq 0) (p_gap p) /\
    exists s, build_lexicon SystemDic py_int new_source rows = Ok s /\ convert_postable (s_table s) = Ok (p_pos p).
Proof.
  intros C NO B. unfold M_Progress.build_reports in B. destruct (negb _); [discriminate|]. destruct (negb _); [discriminate|].
  unfold with_reports in B. destruct (report_command _ _ _ _ _ _ _ _ _ O) as [[ss q] r] eqn:E. destruct r as [[]|]; [|discriminate]. injection B as <- <-.
  destruct (done_command _ _ _ search _ C _ _ _ _ _ _ _ E) as (MT & rows & s & p & Hr & Bs & _ & W & Hh & Pt & HT & HW & HP & LO & G & Rp).
  destruct (MT eq_refl) as (t & Mt). rewrite Mt in Rp. unfold matrix_text in Mt. rewrite put_other in Mt by (intros ->; apply NO; now left).
  destruct (d matrix) as [b|] eqn:D; [|discriminate]. rename Mt into L.
  exists rows, b, t, p. split; [apply (rows_read d out); [intros H; apply NO; now right|exact Hr]|]. split; [reflexivity|]. split; [exact L|]. split; [rewrite put_same; now rewrite W|].
  split; [eapply header_length; exact Hh|]. split; [exact Rp|]. split; [intros NE; destruct HP as [(X & _)|HP]; [contradiction|exact HP]|].
  split; [exact HT|]. split; [exact HW|]. split; [exact LO|]. split; [exact G|]. exists s. auto.
Qed.
(** What is then on the screen *)
Definition counted (what : text) (str : Z -> text) (n : Z) (unit : string) : text := what ++ str n ++ txt " " ++ txt unit ++ [10].
Corollary C87_screen d out matrix ins now description d' rs (str : Z -> text) (reason : exn -> text) :
  trie_contract search trie_array -> ~ In out (matrix :: ins) ->
  build_reports d out matrix ins now description = (d', rs, Done) ->
  exists rows b t p, rows_of d ins rows /\ d matrix = Some b /\ locale b = Ok t /\ d' out = Some (whole p) /\
    concat (map (shown str reason) rs) =
      counted (txt "reading the source file...") str (Z.of_nat (length rows)) "words" ++
      counted (txt "writing the POS table...") str (Z.of_nat (length (p_pos p))) "bytes" ++
      counted (txt "writing the connection matrix..." ++ concat (map (fun i => txt "invalid format at line " ++ str (Z.of_nat i)) (short_lines 0 (tl (file_lines t))))) str (Z.of_nat (length (p_matrix p))) "bytes" ++
      txt "building the trie...done" ++ [10] ++
      counted (txt "writing the trie...") str (Z.of_nat (length (p_trie p))) "bytes" ++
      counted (txt "writing the word-ID table...") str (Z.of_nat (length (p_ids p))) "bytes" ++
      counted (txt "writing the word parameters...") str (6 * Z.of_nat (length rows) + 4) "bytes" ++
      counted (txt "writing the word_infos...") str (Z.of_nat (length (p_infos p))) "bytes" ++
      counted (txt "writing word_info offsets...") str (Z.of_nat (length (p_offsets p))) "bytes".
Proof.
  intros C NO B. destruct (C87_done d out matrix ins now description d' rs C NO B) as (rows & b & t & p & H1 & H2 & H3 & H4 & _ & -> & _).
  exists rows, b, t, p. split; [exact H1|]. split; [exact H2|]. split; [exact H3|]. split; [exact H4|].
  unfold all_reports, counted. rewrite !map_app, !concat_app, map_map. cbn [map concat shown]. rewrite !app_nil_r. repeat rewrite <- app_assoc. reflexivity.
Qed.
Theorem C87_done_user d default given out ins now description d' rs system b x :
  trie_contract search trie_array -> ~ In out ins ->
  system_file default given system -> d system = Some b -> from_system_dictionary b = Ok x ->
  user_build_reports d default given out ins now description = (d', rs, Done) ->
  exists rows p, rows_of d ins rows /\ d' out = Some (whole p) /\ length (p_header p) = 272%nat /\
    rs = all_reports (length rows) []
      (Z.of_nat (length (p_pos p))) (Z.of_nat (length (p_matrix p))) (Z.of_nat (length (p_trie p))) (Z.of_nat (length (p_ids p)))
      (6 * Z.of_nat (length rows) + 4) (Z.of_nat (length (p_infos p))) (Z.of_nat (length (p_offsets p))) /\
    (rows <> [] -> length (p_params p) = (6 * length rows + 4)%nat /\ starts_with (Z.of_nat (length rows)) (p_params p)) /\
    (exists m, length (p_trie p) = (4 * m + 4)%nat /\ starts_with (Z.of_nat m) (p_trie p)) /\
    (exists m, length (p_ids p) = (m + 4)%nat /\ starts_with (Z.of_nat m) (p_ids p)) /\
    length (p_offsets p) = (4 * length rows)%nat /\ Forall (eq 0) (p_gap p) /\
    exists s, build_lexicon (user_kind search limit x) py_int new_source rows = Ok s /\ convert_postable (s_table s) = Ok (p_pos p).
Proof.
  intros C NO S D X B. apply system_file_path in S. unfold M_Progress.user_build_reports in B. rewrite S, D in B. destruct (negb _); [discriminate|]. rewrite X in B.
  unfold with_reports in B. destruct (report_command _ _ _ _ _ _ _ _ _ O) as [[ss q] r] eqn:E. destruct r as [[]|]; [|discriminate]. injection B as <- <-.
  destruct (done_command _ _ _ search _ C _ _ _ _ _ _ _ E) as (_ & rows & s & p & Hr & Bs & _ & W & Hh & Pt & HT & HW & HP & LO & G & Rp).
  exists rows, p. split; [now apply (rows_read d out)|]. split; [rewrite put_same; now rewrite W|].
  split; [eapply header_length; exact Hh|]. split; [exact Rp|]. split; [intros NE; destruct HP as [(Y & _)|HP]; [contradiction|exact HP]|].
  split; [exact HT|]. split; [exact HW|]. split; [exact LO|]. split; [exact G|]. exists s. auto.
Qed.

(** ** The lines of the matrix that are passed over: also when the command fails *)
Definition not_cell (P : nat -> Prop) (r : report) : Prop := match r with BadCell i => P i | _ => True end.
Lemma short_lines_spec lines : forall i j, In j (short_lines i lines) <-> exists l, (i <= j)%nat /\ nth_error lines (j - i) = Some l /\ is_short l = true.
Proof.
  induction lines as [|l lines IH]; intros i j; cbn [short_lines].
  - split; [intros []|]. intros (l & _ & E & _). destruct (j - i)%nat; discriminate.
  - assert (X : In j (short_lines (S i) lines) <-> exists x, (S i <= j)%nat /\ nth_error (l :: lines) (j - i) = Some x /\ is_short x = true).
    { rewrite IH. split; intros (x & L & E & Sx); exists x; (split; [exact L|]); (split; [|exact Sx]); [replace (j - i)%nat with (S (j - S i)) by lia; exact E|replace (j - i)%nat with (S (j - S i)) in E by lia; exact E]. }
    destruct (is_short l) eqn:Sl; cbn [In]; rewrite X.
    + split; [intros [<-|(x & L & E)]; [exists l; rewrite Nat.sub_diag; auto|exists x; split; [lia|exact E]]|].
      intros (x & L & E & Sx). destruct (Nat.eq_dec i j) as [->|N]; [now left|]. right. exists x. split; [lia|auto].
    + split; [intros (x & L & E); exists x; split; [lia|exact E]|]. intros (x & L & E & Sx). destruct (Nat.eq_dec i j) as [->|N]; [|exists x; split; [lia|auto]].
      rewrite Nat.sub_diag in E. cbn in E. congruence.
Qed.
Lemma nth_firstn {A} (l : list A) n i x : nth_error (firstn n l) i = Some x -> nth_error l i = Some x.
Proof. revert l i. induction n as [|n IH]; intros [|y l] [|i]; cbn; intros H; try discriminate; auto. Qed.
Lemma matrix_cells rt i : In (BadCell i) (fst (match rt with Err e => ([], Err e) | Ok t => read_matrix_file py_int t end)) ->
  exists t line, rt = Ok t /\ nth_error (file_lines t) (S i) = Some line /\ is_short line = true.
Proof.
  destruct rt as [t|e]; [|intros []]. intros H. pose proof (read_matrix_spec py_int t) as R.
  assert (G : exists n, In i (short_lines 0 (firstn n (tl (file_lines t))))).
  { destruct (read_matrix_file py_int t) as [rs [hm|e]]; cbn [fst] in H.
    - destruct R as (-> & _). apply in_map_iff in H as (j & [= ->] & H). exists (length (tl (file_lines t))). now rewrite firstn_all.
    - destruct R as ((n & ->) & _). apply in_map_iff in H as (j & [= ->] & H). eauto. }
  destruct G as (n & G). apply short_lines_spec in G as (line & _ & E & Sl). rewrite Nat.sub_0_r in E. apply nth_firstn in E. exists t, line. split; [reflexivity|]. split; [|exact Sl].
  destruct (file_lines t); [destruct i; discriminate|exact E].
Qed.
Lemma command_cells k now description d ins mt ss q r : report_command k py_int is_digit trie_array now description d ins mt O = (ss, q, r) ->
  forall i, In (BadCell i) (reports ss) -> exists t line, mt = Ok t /\ nth_error (file_lines t) (S i) = Some line /\ is_short line = true.
Proof.
  intros E.
  set (P := fun i => exists t line, mt = Ok t /\ nth_error (file_lines t) (S i) = Some line /\ is_short line = true).
  set (qc := fun (A : Type) (m : reporter A) => forall p, let '(ss, _, _) := m p in Forall (not_cell P) (reports ss)).
  assert (Qb : forall A B (m : reporter A) (f : A -> reporter B), qc A m -> (forall a, qc B (f a)) -> qc B (r_bind m f)).
  { intros A B m f M F p. unfold r_bind. specialize (M p). destruct (m p) as [[s1 q1] r1]. destruct r1 as [a|e]; [|exact M]. specialize (F a q1). destruct (f a q1) as [[s2 q2] r2].
    rewrite reports_app. apply Forall_app. auto. }
  assert (Qo : forall A (w : writer A), qc A (r_of w)) by (intros A w p; unfold r_of; destruct (w p) as [[o1 q1] r1]; rewrite reports_do; constructor).
  assert (Qs : forall r, not_cell P r -> qc unit (r_say r)) by (intros r0 N p; unfold r_say; cbn; auto).
  assert (Ql : forall A (x : list report * res A), Forall (not_cell P) (fst x) -> qc A (r_lift x)) by (intros A x N p; unfold r_lift; rewrite reports_say; exact N).
  assert (H : qc unit (report_command k py_int is_digit trie_array now description d ins mt)).
  { unfold report_command. apply Qb; [apply Qo|]. intros h. apply Qb; [apply Qo|]. intros _. apply Qb; [apply Qs; exact I|]. intros _. apply Qb.
    { apply Ql. pose proof (read_files_spec k py_int d ins new_source) as R. destruct (read_files k py_int d ins new_source) as [rs [s|e]]; cbn [fst]; [destruct R as (-> & _); constructor|].
      destruct R as ([(path & i & -> & _)|(-> & _)] & _); repeat constructor. }
    intros s. apply Qb; [apply Qs; exact I|]. intros _. apply Qb.
    - unfold report_grammar. apply Qb; [apply Qs; exact I|]. intros _. apply Qb; [apply Qo|]. intros pt. apply Qb; [apply Qo|]. intros _. apply Qb; [apply Qs; exact I|]. intros _. apply Qb; [apply Qs; exact I|]. intros _.
      destruct k; [|apply Qb; [apply Qo|]; intros b; apply Qb; [apply Qo|]; intros _; apply Qs; exact I].
      apply Qb; [|intros [h' m]; apply Qb; [apply Qo|]; intros _; apply Qb; [apply Qo|]; intros _; apply Qs; exact I].
      apply Ql. apply Forall_forall. intros x Hx. destruct x; try exact I. exact (matrix_cells _ _ Hx).
    - intros _. unfold report_lexicon, report_wordinfo. apply Qb; [apply Qo|]. intros [? ?].
      repeat first [apply Qs; exact I|apply Qb; [first [apply Qo|apply Qs; exact I]|intros ?]]. }
  specialize (H O). rewrite E in H. intros i Hi. rewrite Forall_forall in H. exact (H _ Hi).
Qed.
(** "invalid format at line [i]" is said of a line with one or two columns; the first line of
    the file is not counted. *)
Theorem C87_cells d out matrix ins now description d' rs o i :
  build_reports d out matrix ins now description = (d', rs, o) -> out <> matrix -> In (BadCell i) rs ->
  exists b t line, d matrix = Some b /\ locale b = Ok t /\ nth_error (file_lines t) (S i) = Some line /\ is_short line = true.
Proof.
  intros B NO H. unfold M_Progress.build_reports in B. destruct (negb _); [injection B as <- <- <-; destruct H|]. destruct (negb _); [injection B as <- <- <-; destruct H|].
  unfold with_reports in B. destruct (report_command _ _ _ _ _ _ _ _ _ O) as [[ss q] r] eqn:E. injection B as <- <- <-.
  destruct (command_cells _ _ _ _ _ _ _ _ _ E _ H) as (t & line & M & X). unfold matrix_text in M. rewrite put_other in M by congruence. destruct (d matrix) as [b|]; [|discriminate]. eauto 8.
Qed.
End commands.
Print Assumptions C87_silent.
Print Assumptions C87_silent_user.
Print Assumptions C87_row.
Print Assumptions C87_row_user.
Print Assumptions C87_reported.
Print Assumptions C87_reported_user.
Print Assumptions C87_text.
Print Assumptions C87_screen.
Print Assumptions C87_sizes.
Print Assumptions C87_done.
Print Assumptions C87_done_user.
Print Assumptions C87_cells.

(** ** Examples *)
Definition toy_reports d := build_reports toy_int toy_digit toy_array decode d (txt "o") (txt "m") [txt "s"] 1600000000 (txt "toy").
(** The three words, and a matrix with a line of two columns *)
Definition short_disk : disk := fun p =>
  if teqb p (txt "m") then Some (bytes_of (toy_matrix_text ++ txt "# end" ++ [10] ++ txt "1 0" ++ [10])) else toy_disk toy_rows None p.
Lemma toy_out : ~ In (txt "o") [txt "m"; txt "s"].
Proof. intros [X|[X|[]]]; discriminate X. Qed.
Example C87_done_nonvacuous : exists d' p,
  toy_reports short_disk = (d', all_reports 3 [5%nat] 38 12 24 19 22 76 12, Done) /\ d' (txt "o") = Some (whole p) /\ length (whole p) = 1627%nat /\
  map (@length Z) [p_header p; p_pos p; p_matrix p; p_trie p; p_ids p; p_params p; p_offsets p; p_gap p; p_infos p] = [272; 38; 12; 24; 19; 22; 12; 1152; 76]%nat.
Proof.
  destruct (toy_reports short_disk) as [[d' rs] o] eqn:E.
  assert (X : snd (toy_reports short_disk) = Done) by (vm_compute; reflexivity). rewrite E in X. cbn [snd] in X. subst o.
  assert (R : snd (fst (toy_reports short_disk)) = all_reports 3 [5%nat] 38 12 24 19 22 76 12) by (vm_compute; reflexivity). rewrite E in R. cbn [fst snd] in R.
  assert (L : option_map (@length Z) (fst (fst (toy_reports short_disk)) (txt "o")) = Some 1627%nat) by (vm_compute; reflexivity). rewrite E in L. cbn [fst] in L.
  destruct (C87_done toy_int toy_digit toy_search toy_array decode _ _ _ _ _ _ _ _ toy_contract toy_out E) as (rows & b & t & p & Hr & _ & _ & D & Lh & Rs & Pp & _ & _ & Lo & _).
  assert (Er : rows = toy_rows). { apply (rows_same _ _ _ _ Hr). apply source_rows_of. vm_compute. reflexivity. }
  assert (Ln : length rows = 3%nat) by (rewrite Er; reflexivity). rewrite Ln in *.
  destruct Pp as (Lp & _); [intros Z; rewrite Z in Ln; discriminate Ln|].
  rewrite D in L. cbn [option_map] in L. assert (Lw : length (whole p) = 1627%nat) by congruence. clear L Er Hr E.
  exists d', p. rewrite R. split; [reflexivity|]. split; [exact D|]. split; [exact Lw|].
  rewrite R in Rs. unfold all_reports in Rs.
  assert (S : Z.of_nat (length (p_pos p)) = 38 /\ Z.of_nat (length (p_matrix p)) = 12 /\ Z.of_nat (length (p_trie p)) = 24 /\ Z.of_nat (length (p_ids p)) = 19 /\ Z.of_nat (length (p_infos p)) = 76).
  { generalize dependent (short_lines 0 (tl (file_lines t))). intros cells Rs. destruct cells as [|c0 [|c1 cells]]; cbn [map app] in Rs; [discriminate|injection Rs as H1 H2 H3 H4 H5 H6; repeat split; congruence|discriminate]. }
  destruct S as (S1 & S2 & S3 & S4 & S5). unfold whole in Lw. rewrite !app_length in Lw. cbn [map]. repeat (f_equal; [lia|]). f_equal; lia.
Qed.

(** Without words the parameters are said to have four bytes, but nothing is written. *)
Theorem C87_no_words_refuted : exists d' b,
  toy_reports (toy_disk [] None) = (d', all_reports 0 [] 2 12 8 4 4 0 0, Done) /\ d' (txt "o") = Some b /\
  length b = (272 + 2 + 12 + 8 + 4)%nat.
Proof.
  destruct (toy_reports (toy_disk [] None)) as [[d' rs] o] eqn:E.
  assert (X : snd (toy_reports (toy_disk [] None)) = Done) by (vm_compute; reflexivity). rewrite E in X. cbn [snd] in X. subst o.
  assert (R : snd (fst (toy_reports (toy_disk [] None))) = all_reports 0 [] 2 12 8 4 4 0 0) by (vm_compute; reflexivity). rewrite E in R. cbn [fst snd] in R. subst rs.
  assert (L : option_map (@length Z) (fst (fst (toy_reports (toy_disk [] None))) (txt "o")) = Some 298%nat) by (vm_compute; reflexivity). rewrite E in L. cbn [fst] in L.
  destruct (d' (txt "o")) as [b|] eqn:D; [|discriminate L]. exists d', b. split; [reflexivity|]. split; [exact D|]. cbn [option_map] in L. injection L as L. exact L.
Qed.
Print Assumptions C87_no_words_refuted.

(** The sizes are right also when the command fails later: a reference to a word that there
    is not *)
Definition dangling_steps := fst (fst (report_command SystemDic toy_int toy_digit toy_array 1600000000 (txt "toy") (put_file (toy_disk dangling_rows None) (txt "o") []) [txt "s"]
  (matrix_text decode (put_file (toy_disk dangling_rows None) (txt "o") []) (txt "m")) O)).
Example C87_sizes_nonvacuous : sizes_right dangling_steps /\ snd (toy_reports (toy_disk dangling_rows None)) = Raised EValue /\
  reports dangling_steps = [Reading; Words 3; PosTable; Size 38; Matrix; Size 12; BuildingTrie; TrieDone; WritingTrie; Size 24; WordIds; Size 19; Parameters; Size 22; WordInfos].
Proof.
  split; [|split; vm_compute; reflexivity]. unfold dangling_steps. destruct (report_command _ _ _ _ _ _ _ _ _ O) as [[ss q] r] eqn:E. cbn [fst].
  eapply (C87_sizes toy_int toy_digit toy_search toy_array SystemDic); [apply toy_contract| | |exact E].
  - intros [X|[]]. discriminate X.
  - intros H. apply source_rows_of in H. vm_compute in H. discriminate H.
Qed.

(** The number of a row is not the number of a line: it is counted from 0, and a row that has
    a line break in quotes is one row.  The first row of the file is good and has two lines;
    the second is bad.  The report says line 1, but the bad row is the third line. *)
Definition broken_text : text :=
  txt """a" ++ [10] ++ txt "b"",1,1,5,a,n,*,*,*,*,*,a,a,*,C,*,*,*" ++ [10] ++ txt "bad" ++ [10].
Definition broken_disk : disk := fun p => if teqb p (txt "s") then Some (bytes_of broken_text) else toy_disk [] None p.
Theorem C87_line_refuted : exists d' e,
  toy_reports broken_disk = (d', [Reading; BadRow e 1 (txt "s")], Raised e) /\
  first_bad toy_int broken_disk [txt "s"] (txt "s") 1 /\
  decode (bytes_of broken_text) = Ok broken_text /\
  nth_error (file_lines broken_text) 1 = Some (txt "b"",1,1,5,a,n,*,*,*,*,*,a,a,*,C,*,*,*" ++ [10]) /\
  nth_error (file_lines broken_text) 2 = Some (txt "bad" ++ [10]).
Proof.
  destruct (toy_reports broken_disk) as [[d' rs] o] eqn:E.
  assert (X : snd (toy_reports broken_disk) = Raised EValue) by (vm_compute; reflexivity). rewrite E in X. cbn [snd] in X. subst o.
  assert (R : snd (fst (toy_reports broken_disk)) = [Reading; BadRow EValue 1 (txt "s")]) by (vm_compute; reflexivity). rewrite E in R. cbn [fst snd] in R. subst rs.
  exists d', EValue. split; [reflexivity|]. split.
  - destruct (C87_row toy_int toy_digit toy_array decode _ _ _ _ _ _ _ _ _ EValue (txt "s") 1%nat E) as (_ & _ & F); [intros [X|[]]; discriminate X|right; now left|exact F].
  - split; [vm_compute; reflexivity|]. split; vm_compute; reflexivity.
Qed.
Print Assumptions C87_line_refuted.

(** A user dictionary: d is the system dictionary, u has a row that refers to the words 0 and 1
    of it, and v has that row and one without columns. *)
Definition user_row : list text := toy_row [26481; 20140; 26481] [49] P2 [20140] [2; 3] star [48; 47; 49] star.
Definition user_disk : disk := fun p =>
  if teqb p (txt "d") then Some toy_old else if teqb p (txt "u") then Some (bytes_of (csv_text [user_row])) else
  if teqb p (txt "v") then Some (bytes_of (csv_text [user_row; [txt "bad"]])) else None.
Definition toy_user_reports ins := user_build_reports toy_int toy_digit toy_array toy_search 10 user_disk (Err EIO) (Some (txt "d")) (txt "o") ins 1600000000 (txt "toy").
Example C87_user_nonvacuous : exists x,
  system_file (Err EIO) (Some (txt "d")) (txt "d") /\ user_disk (txt "d") = Some toy_old /\ from_system_dictionary toy_old = Ok x /\
  ~ In (txt "o") [txt "u"; txt "v"] /\
  (exists d', toy_user_reports [txt "u"] = (d', all_reports 1 [] 2 4 16 9 10 34 4, Done)) /\
  (exists d' e, toy_user_reports [txt "u"; txt "v"] = (d', [Reading; BadRow e 1 (txt "v")], Raised e) /\ first_bad toy_int user_disk [txt "u"; txt "v"] (txt "v") 1).
Proof.
  destruct (from_system_dictionary toy_old) as [x|e] eqn:X; [|vm_compute in X; discriminate X]. exists x. split; [left; split; [reflexivity|discriminate]|]. split; [reflexivity|]. split; [reflexivity|].
  assert (NO : ~ In (txt "o") [txt "u"; txt "v"]) by (intros [Y|[Y|[]]]; discriminate Y). split; [exact NO|]. split.
  - destruct (toy_user_reports [txt "u"]) as [[d' rs] o] eqn:E. exists d'.
    assert (R : snd (fst (toy_user_reports [txt "u"])) = all_reports 1 [] 2 4 16 9 10 34 4) by (vm_compute; reflexivity).
    assert (D : snd (toy_user_reports [txt "u"]) = Done) by (vm_compute; reflexivity). rewrite E in R, D. cbn [fst snd] in R, D. now rewrite R, D.
  - destruct (toy_user_reports [txt "u"; txt "v"]) as [[d' rs] o] eqn:E. exists d', EValue.
    assert (R : snd (fst (toy_user_reports [txt "u"; txt "v"])) = [Reading; BadRow EValue 1 (txt "v")]) by (vm_compute; reflexivity).
    assert (D : snd (toy_user_reports [txt "u"; txt "v"]) = Raised EValue) by (vm_compute; reflexivity). rewrite E in R, D. cbn [fst snd] in R, D. split; [now rewrite R, D|].
    rewrite R in E. destruct (C87_row_user toy_int toy_digit toy_search toy_array 10 _ _ _ _ _ _ _ _ _ _ EValue (txt "v") 1%nat E NO) as (_ & _ & F); [right; now left|exact F].
Qed.
