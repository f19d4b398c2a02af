(** The messages of the build commands: proofs. *)
From Coq Require Import List ZArith Lia Bool Arith.
From Verif Require Import Base Utf8 M_Builder M_Lattice M_Tokenizer M_Bytes P_Bytes M_DicReader M_DicBuilder P_DicFormat P_DicWrite P_DicOpen P_DicGrammar
  P_DicSource P_DicLexicon P_DicFile M_Front M_Resource M_Command Prop_Source Prop_Cut P_Command Prop_Command Prop_Front S_Accept P_Accept Prop_Accept M_Progress S_Progress.
Import M_Bytes.
Import M_Progress.
Import ListNotations.
Open Scope Z_scope.

(** ** Every text has rows *)
Definition calm (s : csv) : Prop := cv_state s <> EatNewline.
Lemma csv_calm s c : calm s -> c <> 10 -> c <> 13 -> exists s', csv_char s c = Ok s' /\ calm s'.
Proof.
  intros C N R. unfold csv_char, is_newline. replace (c =? 10) with false by (symmetry; now apply Z.eqb_neq). replace (c =? 13) with false by (symmetry; now apply Z.eqb_neq). cbn [orb].
  destruct s as [st f fs]. unfold calm in *. cbn [cv_state cv_field cv_fields] in *.
  destruct st; try contradiction; cbn; destruct (c =? quote), (c =? comma); eexists; (split; [reflexivity|discriminate]).
Qed.
Lemma csv_calm_fold b : ~ In 10 b -> ~ In 13 b -> forall s, calm s -> exists s', foldM csv_char s b = Ok s' /\ calm s'.
Proof.
  induction b as [|c b IH]; intros N R s C; [exists s; auto|]. cbn [foldM]. cbn [In] in *.
  destruct (csv_calm s c C) as (s1 & E & C1); [intuition|intuition|]. rewrite E. cbn [bind]. apply IH; intuition.
Qed.
Lemma csv_nl s : calm s -> exists s', csv_char s 10 = Ok s'.
Proof. intros C. destruct s as [st f fs]. unfold calm in C. cbn [cv_state] in C. destruct st; try contradiction; cbn; eauto. Qed.
Lemma eol_calm s : calm (csv_eol s).
Proof. destruct s as [st f fs]. unfold calm, csv_eol, save_field. cbn. destruct st; discriminate. Qed.
Lemma csv_lines_total ls : Forall (fun l => ~ In 13 l /\ exists b, ~ In 10 b /\ (l = b \/ l = b ++ [10])) ls -> forall s, calm s -> exists rows, csv_rows_from s ls = Ok rows.
Proof.
  induction 1 as [|l ls (R & b & N & L) F IH]; intros s C; cbn [csv_rows_from]; [destruct (cv_state s); eauto|].
  assert (X : exists s', foldM csv_char s l = Ok s').
  { destruct L as [->| ->]; [destruct (csv_calm_fold b N R s C) as (s' & E & _); eauto|].
    destruct (csv_calm_fold b N) with (s := s) as (s' & E & C'); [intros H; apply R; apply in_or_app; auto|exact C|].
    rewrite foldM_app, E. cbn [bind foldM]. destruct (csv_nl s' C') as (s2 & ->). cbn [bind]. eauto. }
  destruct X as (s' & ->). cbn [bind]. pose proof (eol_calm s') as C'.
  destruct (IH (csv_eol s') C') as (r1 & E1). destruct (IH (Csv StartRecord [] [])) as (r2 & E2); [discriminate|].
  destruct (cv_state (csv_eol s')); rewrite ?E2; cbn [bind]; eauto.
Qed.
Lemma csv_total t : exists rows, csv_rows t = Ok rows.
Proof.
  unfold csv_rows, file_lines. apply csv_lines_total; [|discriminate]. pose proof (universal_no_cr t) as R. pose proof (lines_from_shape (universal t) [] (fun x => x)) as S.
  change NL with 10 in *. change CR with 13 in *.
  assert (I : forall u acc l c, In l (lines_from acc u) -> In c l -> In c acc \/ In c u).
  { induction u as [|x u IH]; intros acc l c; cbn [lines_from].
    - destruct acc; [intros []|]. intros [<-|[]] Hc. left. now apply in_rev.
    - destruct (x =? NL).
      + intros [<-|H] Hc; [apply in_rev in Hc; destruct Hc as [->|Hc]; [right; now left|left; exact Hc]|]. destruct (IH _ _ _ H Hc) as [[]|H']. right. now right.
      + intros H Hc. destruct (IH _ _ _ H Hc) as [[->|H']|H']; [right; now left|now left|right; now right]. }
  rewrite Forall_forall in *. intros l Hl. split; [|apply S; exact Hl]. intros H. destruct (I _ _ _ _ Hl H) as [[]|H']. contradiction.
Qed.

(** ** Rows *)
Section rows.
Variable k : kind.
Variable py_int : text -> res Z.
Notation readable := (readable_row py_int).

Lemma mapM_unescape row cs : Forall2 (fun c c' => unescape c = Ok c') row cs -> mapM unescape row = Ok cs.
Proof. induction 1 as [|c c' row cs H F IH]; [reflexivity|]. cbn [mapM]. rewrite H. cbn [bind]. now rewrite IH. Qed.
Lemma format_count t : check_splitinfo_format t = Ok tt <-> (count_occ Z.eq_dec t 47%Z <= 126)%nat.
Proof.
  unfold check_splitinfo_format, ARRAY_MAX_LENGTH, slash. rewrite count_filter. destruct (127 <? _)%nat eqn:E; [apply Nat.ltb_lt in E|apply Nat.ltb_ge in E]; split; intros H; try discriminate; try reflexivity; lia.
Qed.
Lemma posid_nonneg table strs : 0 <= fst (get_posid k table strs).
Proof. destruct (get_posid k table strs) as [p tb] eqn:E. destruct (get_posid_spec _ _ _ _ _ E) as (H & _). cbn [fst]. lia. Qed.
Lemma synonyms_total cs :
  (exists syn, (if (18 <? length cs)%nat then parse_synonym_group_ids py_int (column cs 18) else Ok []) = Ok syn) <->
  ((length cs <= 18)%nat \/ column cs 18 = none \/ exists ws, pieces 47 (column cs 18) ws /\ (length ws <= 127)%nat /\ Forall (fun w => exists z, py_int w = Ok z) ws).
Proof.
  destruct (18 <? length cs)%nat eqn:E; [apply Nat.ltb_lt in E|apply Nat.ltb_ge in E; split; eauto].
  unfold parse_synonym_group_ids. destruct (teqb (column cs 18) star) eqn:T; [apply teqb_eq in T; split; eauto|].
  unfold ARRAY_MAX_LENGTH. split.
  - intros (syn & H). destruct (127 <? _)%nat eqn:Z; [discriminate|]. apply Nat.ltb_ge in Z. right. right. exists (split_on slash (column cs 18)). split; [apply split_pieces|]. split; [exact Z|].
    apply mapM_Forall2 in H. clear - H. induction H; constructor; eauto.
  - intros [H|[H|(ws & P & L & F)]]; [lia|rewrite H in T; discriminate|]. pose proof (pieces_split _ _ _ P) as Ps. unfold slash. rewrite Ps.
    replace (127 <? length ws)%nat with false by (symmetry; apply Nat.ltb_ge; lia). clear - F. induction F as [|w ws (z & E) F (zs & IH)]; [exists []; reflexivity|]. exists (z :: zs). cbn [mapM]. rewrite E. cbn [bind]. now rewrite IH.
Qed.

Lemma parse_readable table row : (exists x, parse_line k py_int table row = Ok x) <-> readable row.
Proof.
  split.
  - intros (x & H). unfold parse_line in H. destruct (length row <? 18)%nat eqn:L; [discriminate|]. apply Nat.ltb_ge in L.
    apply bind_ok in H as (cs & Hc & H). cbv zeta in H. apply bind_ok in H as (head & Hh & H).
    destruct (is_length_valid head (nth 4 cs []) (nth 11 cs []) (nth 12 cs [])) eqn:V; [|discriminate]. cbn [negb] in H.
    destruct (nth 0 cs []) as [|h0 hs] eqn:E0; [discriminate|].
    apply bind_ok in H as (l & Hl & H). apply bind_ok in H as (r & Hr & H). apply bind_ok in H as (c & Hco & H).
    destruct (get_posid k table (slice cs 5 11)) as [pos tb]. destruct (pos <? 0); [discriminate|].
    apply bind_ok in H as ([] & S1 & H). apply bind_ok in H as ([] & S2 & H). apply bind_ok in H as ([] & S3 & H).
    destruct (_ && _) eqn:A; [discriminate|]. apply bind_ok in H as (syn & Hs & H). apply bind_ok in H as (did & Hd & _).
    exists cs. split; [now apply mapM_Forall2|]. assert (Lc : length cs = length row) by (apply mapM_ok_length in Hc; exact Hc).
    unfold is_length_valid, STRING_MAX_LENGTH in V. rewrite !andb_true_iff, !Z.leb_le in V. destruct V as (((V0 & V4) & V11) & V12).
    split; [lia|]. split; [unfold column; rewrite E0; split; [discriminate|exists head; split; [exact Hh|lia]]|].
    split; [repeat constructor; assumption|]. split; [repeat constructor; unfold column; eauto|].
    split; [unfold column; destruct (teqb (nth 13 cs []) star) eqn:T; [apply teqb_eq in T; left; exact T|right; eauto]|].
    split.
    { unfold column. intros E14. rewrite E14 in A. cbn in A. destruct (teqb (nth 15 cs []) star) eqn:T1; [|discriminate]. destruct (teqb (nth 16 cs []) star) eqn:T2; [|discriminate].
      apply teqb_eq in T1. apply teqb_eq in T2. auto. }
    split; [do 3 (apply Forall_cons; [now apply format_count|]); constructor|].
    destruct (proj1 (synonyms_total cs) (ex_intro _ syn Hs)) as [X|X]; [left; lia|right; exact X].
  - intros (cs & F & L & (N0 & b & Eb & Lb) & T & I & D & U & C & Y).
    assert (Lr : length row = length cs) by (clear - F; induction F; cbn [length]; congruence).
    inversion T as [|? ? T4 T']; subst. inversion T' as [|? ? T11 T'']; subst. inversion T'' as [|? ? T12 _]; subst.
    inversion I as [|? ? (l & El) I']; subst. inversion I' as [|? ? (r & Er) I'']; subst. inversion I'' as [|? ? (c & Ec) _]; subst.
    inversion C as [|? ? C1 C']; subst. inversion C' as [|? ? C2 C'']; subst. inversion C'' as [|? ? C3 _]; subst.
    apply format_count in C1, C2, C3.
    assert (Ys : exists syn, (if (18 <? length cs)%nat then parse_synonym_group_ids py_int (column cs 18) else Ok []) = Ok syn).
    { apply synonyms_total. destruct Y as [Y|Y]; [left; lia|right; exact Y]. }
    destruct Ys as (syn & Hs).
    assert (Dd : exists did, (if teqb (column cs 13) star then Ok (-1) else py_int (column cs 13)) = Ok did).
    { destruct (teqb (column cs 13) star) eqn:E; [eauto|]. destruct D as [D|D]; [rewrite D in E; discriminate|exact D]. }
    destruct Dd as (did & Hd). unfold column in *.
    unfold parse_line. replace (length row <? 18)%nat with false by (symmetry; apply Nat.ltb_ge; lia).
    rewrite (mapM_unescape _ _ F). cbn [bind]. cbv zeta. rewrite Eb. cbn [bind].
    assert (V : is_length_valid b (nth 4 cs []) (nth 11 cs []) (nth 12 cs []) = true).
    { unfold is_length_valid, STRING_MAX_LENGTH. rewrite !andb_true_iff, !Z.leb_le. auto. }
    rewrite V. cbn [negb]. destruct (nth 0 cs []) as [|h0 hs]; [congruence|]. rewrite El, Er, Ec. cbn [bind].
    pose proof (posid_nonneg table (slice cs 5 11)) as P. destruct (get_posid k table (slice cs 5 11)) as [pos tb]. cbn [fst] in P.
    replace (pos <? 0) with false by (symmetry; apply Z.ltb_ge; lia). rewrite C1, C2, C3. cbn [bind].
    replace (teqb (nth 14 cs []) [65] && negb (teqb (nth 15 cs []) star && teqb (nth 16 cs []) star)) with false.
    2:{ destruct (teqb (nth 14 cs []) [65]) eqn:E14; [|reflexivity]. apply teqb_eq in E14. destruct (U E14) as [-> ->]. reflexivity. }
    rewrite Hs. cbn [bind]. rewrite Hd. cbn [bind]. eauto.
Qed.
Lemma row_readable s row : (exists s', build_row k py_int s row = Ok s') <-> readable row.
Proof.
  rewrite <- (parse_readable (s_table s) row). split.
  - intros (s' & H). unfold build_row in H. apply bind_ok in H as (x & H & _). eauto.
  - intros ((e & tb) & H). unfold build_row. rewrite H. cbn [bind].
    destruct (accepted_row k py_int _ _ _ _ H) as (cs & _ & A). rewrite (ac_headword _ _ _ A).
    destruct (ac_head _ _ _ A) as (_ & b & Eb & _). destruct (teqb _ _); cbn [bind]; [eauto|]. destruct (column cs 0); [cbn [bind]; eauto|].
    unfold add_to_trie. rewrite Eb. cbn [bind]. eauto.
Qed.

(** ** Reading the files *)
Lemma read_rows_spec path rows : forall i s,
  match read_rows k py_int path i s rows with
  | (rs, Ok s') => rs = [] /\ build_lexicon k py_int s rows = Ok s' /\ Forall readable rows
  | (rs, Err e) => exists good row rest, rows = good ++ row :: rest /\ rs = [BadRow e (i + length good) path] /\ Forall readable good /\ ~ readable row /\
      build_lexicon k py_int s rows = Err e
  end.
Proof.
  induction rows as [|row rows IH]; intros i s; cbn [read_rows]; [repeat constructor|]. destruct (build_row k py_int s row) as [s1|e] eqn:B.
  - specialize (IH (S i) s1). assert (R : readable row) by (apply (row_readable s); eauto). unfold build_lexicon in *. cbn [foldM]. rewrite B. cbn [bind].
    destruct (read_rows k py_int path (S i) s1 rows) as [rs [s'|e]].
    + destruct IH as (-> & E & F). repeat split; auto.
    + destruct IH as (good & r & rest & -> & -> & F & N & E). exists (row :: good), r, rest. cbn [app length]. repeat split; auto. f_equal. f_equal. lia.
  - exists [], row, rows. cbn [app length]. repeat split; auto; [f_equal; f_equal; lia|intros R; apply (row_readable s) in R as (s' & R); congruence|].
    unfold build_lexicon. cbn [foldM]. now rewrite B.
Qed.

Lemma read_files_spec d ins : forall s,
  match read_files k py_int d ins s with
  | (rs, Ok s') => rs = [] /\ (exists rows, source_rows d ins = Ok rows /\ build_lexicon k py_int s rows = Ok s') /\ Forall (fine py_int d) ins
  | (rs, Err e) =>
      ((exists path i, rs = [BadRow e i path] /\ first_bad py_int d ins path i) \/ (rs = [] /\ no_text py_int d ins)) /\
      exists e', (rows <- source_rows d ins ;; build_lexicon k py_int s rows) = Err e'
  end.
Proof.
  induction ins as [|path ins IH]; intros s; cbn [read_files source_rows].
  { split; [reflexivity|]. split; [exists []; split; reflexivity|constructor]. }
  destruct (d path) as [b|] eqn:D; cbn [bind].
  2:{ split; [|cbn [bind]; eauto]. right. split; [reflexivity|]. exists [], path, ins. split; [reflexivity|]. split; [constructor|]. intros b X. congruence. }
  destruct (decode b) as [t|e] eqn:T; cbn [bind].
  2:{ split; [|cbn [bind]; eauto]. right. split; [reflexivity|]. exists [], path, ins. split; [reflexivity|]. split; [constructor|]. intros b' X. exists e. congruence. }
  destruct (csv_total t) as (rows & R). rewrite R. cbn [bind]. pose proof (read_rows_spec path rows 0 s) as SR.
  assert (REC : records d path rows) by (exists b, t; auto).
  destruct (read_rows k py_int path 0 s rows) as [rs [s1|e]].
  - destruct SR as (-> & B & F). specialize (IH s1). assert (FN : fine py_int d path) by (exists rows; auto).
    destruct (read_files k py_int d ins s1) as [rs' [s'|e]]; cbn [app].
    + destruct IH as (-> & (rest & -> & B') & Fi). split; [reflexivity|]. split; [|constructor; auto]. exists (rows ++ rest). cbn [bind]. split; [reflexivity|].
      unfold build_lexicon in *. rewrite foldM_app, B. cbn [bind]. exact B'.
    + destruct IH as (C & e' & E'). split.
      * destruct C as [(p & i & -> & bf & af & good & row & rest & -> & Fb & X)|(-> & bf & p & af & -> & Fb & X)].
        -- left. exists p, i. split; [reflexivity|]. exists (path :: bf), af, good, row, rest. split; [reflexivity|]. split; [constructor; auto|exact X].
        -- right. split; [reflexivity|]. exists (path :: bf), p, af. split; [reflexivity|]. split; [constructor; auto|exact X].
      * destruct (source_rows d ins) as [rest|x]; cbn [bind] in *; [|eauto]. exists e'. unfold build_lexicon in *. rewrite foldM_app, B. cbn [bind]. exact E'.
  - destruct SR as (good & row & rest & -> & -> & F & N & B). split.
    + left. exists path, (0 + length good)%nat. split; [reflexivity|]. exists [], ins, good, row, rest. repeat split; auto.
    + destruct (source_rows d ins) as [more|x]; cbn [bind]; [|eauto]. exists e. unfold build_lexicon in *. now rewrite foldM_app, B.
Qed.
End rows.

(** ** The matrix *)
Section matrix.
Variable py_int : text -> res Z.
Lemma short_line lsize m cols : (length cols <? 3)%nat = true -> matrix_line lsize m (map (fun _ : text => 0) cols) = Ok m.
Proof. destruct cols as [|a [|b [|c [|e cols]]]]; cbn; intros H; try reflexivity; discriminate. Qed.
Lemma is_short_columns line : is_short line = match matrix_columns line with [] => false | cols :: _ => (length cols <? 3)%nat end.
Proof.
  unfold is_short, matrix_columns. destruct (strip line) as [|c r]; [reflexivity|]. unfold starts, hash. change (firstn (length [35]) (c :: r)) with [c].
  destruct (Z.eqb_spec c 35) as [->|N]; [reflexivity|]. destruct (teqb [c] [35]) eqn:T; [apply teqb_eq in T; congruence|reflexivity].
Qed.
Lemma columns_one line : matrix_columns line = [] \/ exists cols, matrix_columns line = [cols].
Proof. unfold matrix_columns. destruct (strip line); [auto|]. destruct (starts _ _); eauto. Qed.
Lemma read_cells_spec lsize lines : forall i m,
  match read_cells py_int lsize i m lines with
  | (rs, Ok m') => rs = map BadCell (short_lines i lines) /\
      exists rows, mapM (matrix_numbers py_int) (concat (map matrix_columns lines)) = Ok rows /\ foldM (matrix_line lsize) m rows = Ok m'
  | (rs, Err e) => (exists n, rs = map BadCell (short_lines i (firstn n lines))) /\
      exists e', (rows <- mapM (matrix_numbers py_int) (concat (map matrix_columns lines)) ;; foldM (matrix_line lsize) m rows) = Err e'
  end.
Proof.
  induction lines as [|line lines IH]; intros i m; cbn [read_cells map concat short_lines].
  { split; [reflexivity|]. exists []. split; reflexivity. }
  rewrite is_short_columns. destruct (columns_one line) as [C|(cols & C)]; rewrite C; cbn [app].
  - specialize (IH (S i) m). destruct (read_cells py_int lsize (S i) m lines) as [rs [m'|e]]; [exact IH|].
    destruct IH as ((n & ->) & E). split; [|exact E]. exists (S n). cbn [firstn short_lines]. rewrite is_short_columns. now rewrite C.
  - cbn [mapM]. unfold matrix_numbers at 1 3. destruct (length cols <? 3)%nat eqn:L.
    + specialize (IH (S i) m). destruct (read_cells py_int lsize (S i) m lines) as [rs [m'|e]]; cbn [bind].
      * destruct IH as (-> & rows & E & F). split; [reflexivity|]. rewrite E. cbn [bind]. eexists. split; [reflexivity|]. cbn [foldM]. rewrite short_line by exact L. exact F.
      * destruct IH as ((n & ->) & e' & E). split; [exists (S n); cbn [firstn short_lines]; rewrite is_short_columns, C, L; reflexivity|].
        destruct (mapM (matrix_numbers py_int) _) as [rows|x]; cbn [bind] in *; [|eauto]. exists e'. cbn [foldM]. rewrite short_line by exact L. exact E.
    + destruct (mapM py_int cols) as [zs|e] eqn:E; cbn [bind]; [|split; [exists O; reflexivity|eauto]].
      destruct (matrix_line lsize m zs) as [m1|e] eqn:E1.
      * specialize (IH (S i) m1). destruct (read_cells py_int lsize (S i) m1 lines) as [rs [m'|e]].
        -- destruct IH as (-> & rows & E2 & F). split; [reflexivity|]. rewrite E2. cbn [bind]. eexists. split; [reflexivity|]. cbn [foldM]. rewrite E1. exact F.
        -- destruct IH as ((n & ->) & e' & E2). split; [exists (S n); cbn [firstn short_lines]; rewrite is_short_columns, C, L; reflexivity|].
           destruct (mapM (matrix_numbers py_int) _) as [rows|x]; cbn [bind] in *; [|eauto]. exists e'. cbn [foldM]. rewrite E1. exact E2.
      * split; [exists O; reflexivity|]. destruct (mapM (matrix_numbers py_int) _) as [rows|x]; cbn [bind]; [|eauto]. cbn [foldM]. rewrite E1. cbn [bind]. eauto.
Qed.
Lemma read_matrix_spec t :
  match read_matrix_file py_int t with
  | (rs, Ok hm) => rs = map BadCell (short_lines 0 (tl (file_lines t))) /\ (ms <- read_matrix py_int t ;; convert_matrix ms) = Ok hm
  | (rs, Err e) => (exists n, rs = map BadCell (short_lines 0 (firstn n (tl (file_lines t))))) /\ exists e', (ms <- read_matrix py_int t ;; convert_matrix ms) = Err e'
  end.
Proof.
  assert (N0 : forall ls, exists n, @nil report = map BadCell (short_lines 0 (firstn n ls))) by (intros ls; exists O; reflexivity).
  unfold read_matrix_file, read_matrix. destruct (file_lines t) as [|h r]; cbn [tl]; [split; [apply (N0 [])|cbn [bind]; eauto]|].
  destruct (strip h) as [|c0 s0] eqn:S; [split; [apply N0|cbn [bind]; eauto]|].
  destruct (mapM py_int (words (c0 :: s0))) as [lr|e]; cbn [bind]; [|split; [apply N0|eauto]].
  unfold convert_matrix.
  assert (Bad : (forall rows, exists e, (match ms_header (MatrixSource lr rows) with [lsize; rsize] => a <- put_short lsize ;; b <- put_short rsize ;; m <- foldM (matrix_line lsize) (File [] 0) (ms_lines (MatrixSource lr rows)) ;; Ok (a ++ b, f_data m) | _ => Err EValue end) = Err e) ->
    exists e', (ms <- (rows <- mapM (matrix_numbers py_int) (concat (map matrix_columns r)) ;; Ok (MatrixSource lr rows)) ;;
      match ms_header ms with [lsize; rsize] => a <- put_short lsize ;; b <- put_short rsize ;; m <- foldM (matrix_line lsize) (File [] 0) (ms_lines ms) ;; Ok (a ++ b, f_data m) | _ => Err EValue end) = Err e').
  { intros B. destruct (mapM _ _) as [rows|e]; cbn [bind]; [apply B|eauto]. }
  destruct lr as [|l [|rr [|]]]; try (split; [apply N0|apply Bad; cbn [ms_header]; eauto]; fail).
  destruct (put_short l) as [a|e] eqn:El; cbn [bind]; [|split; [apply N0|apply Bad; cbn [ms_header]; rewrite El; cbn [bind]; eauto]].
  destruct (put_short rr) as [b|e] eqn:Er; cbn [bind]; [|split; [apply N0|apply Bad; cbn [ms_header]; rewrite El, Er; cbn [bind]; eauto]].
  pose proof (read_cells_spec l r 0 (File [] 0)) as RC. destruct (read_cells py_int l 0 (File [] 0) r) as [rs [m|e]].
  - destruct RC as (-> & rows & E & F). split; [reflexivity|]. rewrite E. cbn [bind ms_header ms_lines]. rewrite El, Er. cbn [bind]. rewrite F. reflexivity.
  - destruct RC as (P & e' & E). split; [exact P|]. destruct (mapM _ _) as [rows|x]; cbn [bind ms_header ms_lines] in *; [|eauto]. rewrite El, Er. cbn [bind]. rewrite E. cbn [bind]. eauto.
Qed.
End matrix.

(** ** Without the reports the programs are those of M_Command. *)
Definition same {A} (a b : res A) : Prop := match a, b with Ok x, Ok y => x = y | Err _, Err _ => True | _, _ => False end.
Definition erases {A} (m : reporter A) (w : writer A) : Prop := forall p,
  let '(ss, q, r) := m p in let '(ops, q', r') := w p in operations ss = ops /\ q = q' /\ same r r'.
Lemma operations_app a b : operations (a ++ b) = operations a ++ operations b.
Proof. unfold operations. now rewrite map_app, concat_app. Qed.
Lemma reports_app a b : reports (a ++ b) = reports a ++ reports b.
Proof. unfold reports. now rewrite map_app, concat_app. Qed.
Lemma operations_do ops : operations (map Do ops) = ops.
Proof. unfold operations. induction ops; cbn in *; congruence. Qed.
Lemma operations_say rs : operations (map Say rs) = [].
Proof. unfold operations. induction rs; cbn in *; congruence. Qed.
Lemma reports_do ops : reports (map Do ops) = [].
Proof. unfold reports. induction ops; cbn in *; congruence. Qed.
Lemma reports_say rs : reports (map Say rs) = rs.
Proof. unfold reports. induction rs; cbn in *; congruence. Qed.
Lemma same_refl {A} (r : res A) : same r r.
Proof. destruct r; cbn; auto. Qed.
Lemma erases_of {A} (w : writer A) : erases (r_of w) w.
Proof. intros p. unfold r_of. destruct (w p) as [[ops q] r]. rewrite operations_do. auto using same_refl. Qed.
Lemma erases_lift {A} (x : list report * res A) y : same (snd x) y -> erases (r_lift x) (w_lift y).
Proof. intros S p. unfold r_lift, w_lift. rewrite operations_say. auto. Qed.
Lemma erases_bind {A B} (m : reporter A) w (f : A -> reporter B) g : erases m w -> (forall a, erases (f a) (g a)) -> erases (r_bind m f) (w_bind w g).
Proof.
  intros M F p. unfold r_bind, w_bind. specialize (M p). destruct (m p) as [[ss q] r], (w p) as [[ops q'] r']. destruct M as (<- & <- & S).
  destruct r as [a|e], r' as [a'|e']; cbn [same] in S; try contradiction; [subst a'|auto].
  specialize (F a q). destruct (f a q) as [[s2 q2] r2], (g a q) as [[o2 q2'] r2']. destruct F as (<- & <- & S2). rewrite operations_app. auto.
Qed.
Lemma erases_say {A} r (m : reporter A) w : erases m w -> erases (r_bind (r_say r) (fun _ => m)) w.
Proof. intros M p. unfold r_bind, r_say. specialize (M p). destruct (m p) as [[ss q] x], (w p) as [[ops q'] x']. cbn [app]. exact M. Qed.
Lemma erases_end (m : reporter unit) w r : erases m w -> erases (r_bind m (fun _ => r_say r)) w.
Proof.
  intros M p. unfold r_bind, r_say. specialize (M p). destruct (m p) as [[ss q] x], (w p) as [[ops q'] x']. destruct M as (<- & <- & S).
  destruct x as [[]|e], x' as [[]|e']; cbn [same] in S; try contradiction; [|auto]. rewrite operations_app. cbn [operations map concat]. rewrite app_nil_r. cbn. auto.
Qed.
Lemma erases_tell {A} (f : nat -> reporter A) w : (forall n, erases (f n) w) -> erases (r_bind (r_of w_tell) f) w.
Proof. intros M p. unfold r_bind, r_of, w_tell. cbn [map app]. specialize (M p p). destruct (f p p) as [[ss q] x], (w p) as [[ops q'] x']. exact M. Qed.

Section erase.
Variable k : kind.
Variable py_int : text -> res Z.
Variable is_digit : Z -> bool.
Variable trie_array : list (bytes * Z) -> res bytes.

Ltac er := repeat first [apply erases_say|apply erases_end; apply erases_of|apply erases_bind; [apply erases_of|]
  |lazymatch goal with |- forall _ : _ * _, _ => intros [? ?] | |- forall _, _ => intros ? end].
Lemma erases_grammar table rt :
  erases (report_grammar py_int table rt) (emit_grammar table (option_map (fun x => t <- x ;; read_matrix py_int t) rt)).
Proof.
  unfold report_grammar, emit_grammar. er. destruct rt as [rt|]; cbn [option_map]; [|er].
  apply erases_bind; [|er]. apply erases_lift. destruct rt as [t|e]; cbn [bind]; [|exact I].
  pose proof (read_matrix_spec py_int t) as R. destruct (read_matrix_file py_int t) as [rs [hm|e]]; cbn [snd].
  - destruct R as (_ & ->). reflexivity.
  - destruct R as (_ & e' & ->). exact I.
Qed.
Lemma erases_wordinfo entries table : erases (report_wordinfo k py_int is_digit entries table) (emit_wordinfo k py_int is_digit entries table).
Proof.
  unfold report_wordinfo, emit_wordinfo. apply erases_bind; [apply erases_of|]. intros mark. apply erases_bind; [apply erases_of|]. intros _. apply erases_say.
  apply erases_tell. intros base. apply erases_bind; [apply erases_of|]. intros os. apply erases_tell. intros i. er.
Qed.
Lemma erases_lexicon s : erases (report_lexicon k py_int is_digit trie_array s) (emit_lexicon k py_int is_digit trie_array s).
Proof. unfold report_lexicon, emit_lexicon. pose proof (erases_wordinfo (s_entries s) (s_table s)) as W. revert W. generalize (report_wordinfo k py_int is_digit (s_entries s) (s_table s)). intros m. generalize (emit_wordinfo k py_int is_digit (s_entries s) (s_table s)). intros w W. er. now apply W. Qed.
Lemma erases_command now description d ins mt :
  erases (report_command k py_int is_digit trie_array now description d ins mt)
    (emit_command k py_int is_digit trie_array now description (source_rows d ins) (t <- mt ;; read_matrix py_int t)).
Proof.
  unfold report_command, emit_command. apply erases_bind; [apply erases_of|]. intros h. apply erases_bind; [apply erases_of|]. intros _. apply erases_say.
  apply erases_bind.
  - apply erases_lift. pose proof (read_files_spec k py_int d ins new_source) as R. destruct (read_files k py_int d ins new_source) as [rs [s|e]]; cbn [snd].
    + destruct R as (_ & (rows & -> & B) & _). cbn [bind]. now rewrite B.
    + destruct R as (_ & e' & ->). exact I.
  - intros s. apply erases_say. apply erases_bind; [|intros _; apply erases_lexicon].
    destruct k; [apply (erases_grammar (s_table s) (Some mt))|apply (erases_grammar (s_table s) None)].
Qed.
End erase.

(** ** Sizes *)
Lemma short_len z b : put_short z = Ok b -> length b = 2%nat.
Proof. exact (to_bytes_length 2 true z b). Qed.
Lemma int_len z b : put_int z = Ok b -> length b = 4%nat.
Proof. exact (to_bytes_length 4 true z b). Qed.
Definition honest (acc : Z) (ss : list step) : Prop :=
  forall before n after, ss = before ++ Say (Size n) :: after -> n = fold_left since_step before acc.
Lemma honest_nil acc : honest acc [].
Proof. intros [|s b] n a E; discriminate. Qed.
Lemma honest_app acc a b : honest acc a -> honest (fold_left since_step a acc) b -> honest acc (a ++ b).
Proof.
  revert acc. induction a as [|s a IH]; intros acc A B; [exact B|]. intros [|x before] n after E; cbn [app] in E.
  - injection E as -> _. apply (A [] n a eq_refl).
  - injection E as -> E. cbn [fold_left]. eapply IH; [|exact B|exact E]. intros b' n' a' ->. apply (A (x :: b') n' a' eq_refl).
Qed.
Lemma honest_one acc s : (forall n, s = Say (Size n) -> n = acc) -> honest acc [s].
Proof. intros H [|x before] n after E; injection E as -> E; [now apply H|]. destruct before; discriminate. Qed.
Lemma honest_do acc ops : honest acc (map Do ops).
Proof.
  revert acc. induction ops as [|o ops IH]; intros acc; [apply honest_nil|]. change (map Do (o :: ops)) with ([Do o] ++ map Do ops).
  apply honest_app; [apply honest_one; discriminate|apply IH].
Qed.
Lemma since_do ops : forall acc, fold_left since_step (map Do ops) acc = acc + Z.of_nat (length (payload ops)).
Proof.
  induction ops as [|o ops IH]; intros acc; [cbn; lia|]. cbn [map fold_left since_step]. rewrite IH. unfold payload. cbn [map concat]. rewrite app_length. destruct o; cbn [length]; lia.
Qed.

(** What a program does when it begins at position [p] and [acc] bytes have been written
    since the last report: the sizes it reports are right, and [Q] in the end *)
Definition hp {A} (acc : Z) (p : nat) (m : reporter A) (Q : A -> Z -> nat -> Prop) : Prop :=
  let '(ss, q, r) := m p in honest acc ss /\ forall a, r = Ok a -> Q a (fold_left since_step ss acc) q.
Lemma hp_bind {A B} acc p (m : reporter A) (f : A -> reporter B) Q R :
  hp acc p m Q -> (forall a acc' q, Q a acc' q -> hp acc' q (f a) R) -> hp acc p (r_bind m f) R.
Proof.
  unfold hp, r_bind. destruct (m p) as [[ss q] r]. intros (H & HQ) F. destruct r as [a|e].
  - specialize (F a _ q (HQ a eq_refl)). destruct (f a q) as [[s2 q2] r2]. destruct F as (H2 & HR). split; [now apply honest_app|]. intros b E. rewrite fold_left_app. auto.
  - split; [exact H|discriminate].
Qed.
Lemma hp_of {A} acc p (w : writer A) (Q : A -> Z -> nat -> Prop) :
  (forall ops q a, w p = (ops, q, Ok a) -> Q a (acc + Z.of_nat (length (payload ops))) q) -> hp acc p (r_of w) Q.
Proof. intros H. unfold hp, r_of. destruct (w p) as [[ops q] r]. split; [apply honest_do|]. intros a ->. rewrite since_do. now apply H. Qed.
Lemma hp_size acc p n : n = acc -> hp acc p (r_say (Size n)) (fun _ x _ => x = 0).
Proof. intros ->. unfold hp, r_say. split; [apply honest_one; intros m [= <-]; reflexivity|reflexivity]. Qed.
Definition plain (r : report) : Prop := match r with Size _ | Reading => False | _ => True end.
Lemma hp_say acc p r : plain r -> hp acc p (r_say r) (fun _ x q => x = acc /\ q = p).
Proof. intros P. unfold hp, r_say. split; [apply honest_one; intros m [= ->]; destruct P|]. intros _ _. destruct r; try destruct P; cbn; auto. Qed.
Lemma hp_says {A} acc p (x : list report * res A) : Forall plain (fst x) -> hp acc p (r_lift x) (fun a y q => y = acc /\ q = p /\ snd x = Ok a).
Proof.
  intros P. unfold hp, r_lift. assert (G : honest acc (map Say (fst x)) /\ fold_left since_step (map Say (fst x)) acc = acc).
  { induction P as [|r rs Pr P IH]; [split; [apply honest_nil|reflexivity]|]. cbn [map fold_left]. replace (since_step acc (Say r)) with acc by (destruct r; try destruct Pr; reflexivity).
    split; [|apply IH]. apply (honest_app acc [Say r]); [apply honest_one; intros m [= ->]; destruct Pr|]. cbn [fold_left]. replace (since_step acc (Say r)) with acc by (destruct r; try destruct Pr; reflexivity). apply IH. }
  split; [apply G|]. intros a E. split; [apply G|auto].
Qed.
Lemma hp_lift {A} acc p (x : res A) : hp acc p (r_of (w_lift x)) (fun a y q => y = acc /\ q = p /\ x = Ok a).
Proof. apply hp_of. intros ops q a E. unfold w_lift in E. injection E as <- <- ->. cbn. repeat split; lia. Qed.
Lemma hp_put acc p b : hp acc p (r_of (w_put b)) (fun _ y q => y = acc + Z.of_nat (length b)).
Proof. apply hp_of. intros ops q a E. unfold w_put in E. injection E as <- <-. unfold payload. cbn [map concat]. now rewrite app_nil_r. Qed.
Lemma hp_seek acc p i : hp acc p (r_of (w_seek i)) (fun _ y q => y = acc).
Proof. apply hp_of. intros ops q a E. unfold w_seek in E. injection E as <- <-. cbn. lia. Qed.
Lemma hp_tell acc p : hp acc p (r_of w_tell) (fun n y q => y = acc /\ n = p /\ q = p).
Proof. apply hp_of. intros ops q a E. unfold w_tell in E. injection E as <- <- <-. cbn. repeat split; lia. Qed.

Section sizes.
Variable k : kind.
Variable py_int : text -> res Z.
Variable is_digit : Z -> bool.
Variable search : bytes -> bytes -> list (Z * nat).
Variable trie_array : list (bytes * Z) -> res bytes.
Hypothesis contract : trie_contract search trie_array.

Lemma params_bytes l : forall buffer p ops q, emit_params buffer l p = (ops, q, Ok tt) ->
  length (payload ops) = match l with [] => 0%nat | _ => (length buffer + 6 * length l)%nat end.
Proof.
  induction l as [|e l IH]; intros buffer p ops q H; cbn [emit_params] in H; [injection H as <- <-; reflexivity|].
  rewrite w_bind_lift in H. destruct (put_params e) as [b|x] eqn:Eb; [|discriminate]. rewrite w_bind_put in H.
  destruct (emit_params [] l _) as [[o q'] r'] eqn:E. assert (Eo : ops = Put (buffer ++ b) :: o /\ r' = Ok tt) by (split; congruence). destruct Eo as (-> & ->).
  specialize (IH _ _ _ _ E). unfold payload in *. cbn [map concat]. rewrite !app_length, IH.
  assert (L : length b = 6%nat). { unfold put_params in Eb. apply bind_ok in Eb as (x & X & Eb). apply bind_ok in Eb as (y & Y & Eb). apply bind_ok in Eb as (z & Z' & Eb).
    apply short_len in X, Y, Z'. assert (b = x ++ y ++ z) as -> by congruence. rewrite !app_length. lia. }
  destruct l; cbn [length]; lia.
Qed.
Lemma infos_bytes entries l : forall table p ops q os, emit_infos k py_int is_digit entries table l p = (ops, q, Ok os) ->
  q = (p + length (payload ops))%nat /\ length os = (4 * length l)%nat.
Proof.
  induction l as [|e l IH]; intros table p ops q os H; cbn [emit_infos] in H; [injection H as <- <- <-; cbn; lia|].
  unfold w_bind at 1, w_tell in H. rewrite w_bind_lift in H. destruct (put_int (Z.of_nat p)) as [o|x] eqn:Eo; [|discriminate].
  rewrite w_bind_lift in H. destruct (put_word_info _ _ _ _ _ _) as [[b tb]|x]; [|discriminate]. rewrite w_bind_put in H. unfold w_bind in H.
  destruct (emit_infos k py_int is_digit entries tb l (p + length b)%nat) as [[o2 q2] r2] eqn:E. destruct r2 as [os2|x]; [|discriminate].
  cbn in H. apply int_len in Eo. assert (X : ops = Put b :: o2 /\ q = q2 /\ os = o ++ os2) by (rewrite app_nil_r in H; repeat split; congruence). destruct X as (-> & -> & ->).
  destruct (IH _ _ _ _ _ E) as (-> & L). unfold payload. cbn [map concat]. fold (payload o2). rewrite !app_length. cbn [length]. unfold payload. lia.
Qed.

Ltac hb X := eapply (hp_bind _ _ _ _ X).
Lemma sizes_grammar table rt p : hp 0 p (report_grammar py_int table rt) (fun _ x _ => x = 0).
Proof.
  unfold report_grammar. eapply hp_bind; [apply hp_say; exact I|]. intros [] acc q (-> & ->). eapply hp_bind; [apply hp_lift|]. intros pt acc q (-> & -> & _).
  eapply hp_bind; [apply hp_put|]. intros [] acc q ->. eapply hp_bind; [apply hp_size; lia|]. intros [] acc q' ->. eapply hp_bind; [apply hp_say; exact I|]. intros [] acc q'' (-> & ->).
  destruct rt as [rt|].
  - eapply hp_bind; [apply hp_says|].
    { destruct rt as [t|e]; [|constructor]. pose proof (read_matrix_spec py_int t) as R. assert (G : exists l, fst (read_matrix_file py_int t) = map BadCell l).
      { destruct (read_matrix_file py_int t) as [rs [hm|e]]; [destruct R as (-> & _)|destruct R as ((n & ->) & _)]; eexists; reflexivity. }
      destruct G as (l & ->). induction l; constructor; auto. exact I. }
    intros (h & m) acc q3 (-> & -> & E). eapply hp_bind; [apply hp_put|]. intros [] acc q4 ->. eapply hp_bind; [apply hp_put|]. intros [] acc q5 ->. apply hp_size.
    assert (L : length h = 4%nat).
    { destruct rt as [t|e]; [|discriminate]. pose proof (read_matrix_spec py_int t) as R. destruct (read_matrix_file py_int t) as [rs x]; cbn [snd] in E; subst x. destruct R as (_ & R).
      apply bind_ok in R as (ms & _ & R). unfold convert_matrix in R. destruct (ms_header ms) as [|l [|r [|]]]; try discriminate. apply bind_ok in R as (a & A & R). apply bind_ok in R as (b & B & R). apply bind_ok in R as (f & _ & R).
      apply short_len in A, B. assert (h = a ++ b) as -> by congruence. rewrite app_length. lia. }
    lia.
  - eapply hp_bind; [apply hp_lift|]. intros b acc q3 (-> & -> & _). eapply hp_bind; [apply hp_put|]. intros [] acc q4 ->. apply hp_size. lia.
Qed.
Lemma sizes_wordinfo entries table p : hp 0 p (report_wordinfo k py_int is_digit entries table) (fun _ x _ => x = 0).
Proof.
  unfold report_wordinfo. eapply hp_bind; [apply hp_tell|]. intros mark acc q (-> & -> & ->). eapply hp_bind; [apply hp_seek|]. intros [] acc q ->.
  eapply hp_bind; [apply hp_say; exact I|]. intros [] acc q' (-> & ->). eapply hp_bind; [apply hp_tell|]. intros base acc q'' (-> & -> & ->).
  hb (fun (os : bytes) x q' => x = Z.of_nat q' - Z.of_nat q).
  - apply hp_of. intros ops q' os E. apply infos_bytes in E as (-> & _). lia.
  - intros os acc q' ->. eapply hp_bind; [apply hp_tell|]. intros i acc q'' (-> & -> & ->). eapply hp_bind; [apply hp_size; reflexivity|]. intros [] acc q'' ->.
    eapply hp_bind; [apply hp_say; exact I|]. intros [] acc q3 (-> & ->). eapply hp_bind; [apply hp_seek|]. intros [] acc q4 ->. eapply hp_bind; [apply hp_put|]. intros [] acc q5 ->. apply hp_size. lia.
Qed.
Lemma trie_units s kvs wids array : source_ok s -> wid_table 0 (s_keys s) = Ok (kvs, wids) -> trie_array kvs = Ok array -> (length array / 4 * 4 = length array)%nat.
Proof.
  intros SO Hw Ht. assert (B : exists b1, b1 = @nil Z) by eauto. destruct B as (b1 & _).
  pose proof (wid_table_ok _ _ _ _ Hw [] eq_refl) as W. cbn [app] in W.
  assert (Sk : Sorted.StronglySorted (fun a b => bytes_lt (fst a) (fst b) = true) kvs) by (eapply Forall2_sorted; [|exact W|exact (so_sorted _ SO)]; intros a b (E & _); exact E).
  destruct (contract _ _ Sk Ht) as (A4 & _). pose proof (Nat.div_mod (length array) 4 ltac:(lia)). lia.
Qed.
Lemma sizes_lexicon s p : source_ok s -> s_entries s <> [] -> hp 0 p (report_lexicon k py_int is_digit trie_array s) (fun _ x _ => x = 0).
Proof.
  intros SO NE. unfold report_lexicon. eapply hp_bind; [apply hp_lift|]. intros (kvs & wids) acc q (-> & -> & Hw). eapply hp_bind; [apply hp_say; exact I|]. intros [] acc q (-> & ->).
  eapply hp_bind; [apply hp_lift|]. intros array acc q (-> & -> & Ht). do 2 (eapply hp_bind; [apply hp_say; exact I|]; intros [] acc q (-> & ->)).
  eapply hp_bind; [apply hp_lift|]. intros b1 acc q (-> & -> & B1). eapply hp_bind; [apply hp_put|]. intros [] acc q ->. eapply hp_bind; [apply hp_put|]. intros [] acc q' ->.
  pose proof (trie_units _ _ _ _ SO Hw Ht) as U. apply int_len in B1.
  eapply hp_bind; [apply hp_size; lia|]. intros [] acc q'' ->. eapply hp_bind; [apply hp_say; exact I|]. intros [] acc q3 (-> & ->).
  eapply hp_bind; [apply hp_lift|]. intros b2 acc q4 (-> & -> & B2). eapply hp_bind; [apply hp_put|]. intros [] acc q5 ->. eapply hp_bind; [apply hp_put|]. intros [] acc q6 ->. apply int_len in B2.
  eapply hp_bind; [apply hp_size; lia|]. intros [] acc q7 ->. eapply hp_bind; [apply hp_say; exact I|]. intros [] acc q8 (-> & ->).
  eapply hp_bind; [apply hp_lift|]. intros b3 acc q9 (-> & -> & B3). apply int_len in B3.
  hb (fun (_ : unit) x (_ : nat) => x = Z.of_nat (length (s_entries s)) * 6 + 4).
  - apply hp_of. intros ops qq [] E. apply params_bytes in E. rewrite E. destruct (s_entries s); [congruence|]. lia.
  - intros [] acc q10 ->. eapply hp_bind; [apply hp_size; reflexivity|]. intros [] acc q11 ->. apply sizes_wordinfo.
Qed.
Lemma sizes_command now description d ins mt ss q r :
  report_command k py_int is_digit trie_array now description d ins mt O = (ss, q, r) ->
  (forall rows, source_rows d ins = Ok rows -> rows <> []) -> sizes_right ss.
Proof.
  intros E NE. assert (H : hp 0 O (report_command k py_int is_digit trie_array now description d ins mt) (fun _ x _ => x = 0)).
  { unfold report_command. eapply hp_bind; [apply hp_lift|]. intros h acc q0 (-> & -> & _). eapply hp_bind; [apply hp_put|]. intros [] acc q1 ->.
    hb (fun (_ : unit) x (_ : nat) => x = 0). { unfold hp, r_say. split; [apply honest_one; discriminate|reflexivity]. }
    intros [] acc q2 ->. pose proof (read_files_spec k py_int d ins new_source) as R. eapply hp_bind; [apply hp_says|].
    { destruct (read_files k py_int d ins new_source) as [rs [s|e]]; cbn [fst]; [destruct R as (-> & _); constructor|]. destruct R as ([(path & i & -> & _)|(-> & _)] & _); repeat constructor. }
    intros s acc q3 (-> & -> & Es). destruct (read_files k py_int d ins new_source) as [rs x]; cbn [snd] in Es; subst x. destruct R as (_ & (rows & Hr & B) & _).
    eapply hp_bind; [apply hp_say; exact I|]. intros [] acc q4 (-> & ->). eapply hp_bind; [apply sizes_grammar|]. intros [] acc q5 ->.
    pose proof (build_lexicon_ok _ _ _ _ _ new_source_ok B) as SO.
    destruct (entries_rows k py_int _ _ _ B) as (es & Ees & F). cbn [new_source s_entries app] in Ees. apply sizes_lexicon; [exact SO|]. rewrite Ees. intros ->. inversion F; subst. now apply (NE [] Hr). }
  unfold hp in H. rewrite E in H. exact (proj1 H).
Qed.
End sizes.

(** ** A run without exceptions *)
Lemma done_bind {A B} (m : reporter A) (f : A -> reporter B) p ss q b : r_bind m f p = (ss, q, Ok b) ->
  exists a s1 q1 s2, m p = (s1, q1, Ok a) /\ f a q1 = (s2, q, Ok b) /\ ss = s1 ++ s2.
Proof.
  unfold r_bind. destruct (m p) as [[s1 q1] r1]. destruct r1 as [a|e]; [|discriminate]. destruct (f a q1) as [[s2 q2] r2] eqn:E. intros [= <- <- ->]. exists a, s1, q1, s2. auto.
Qed.
Lemma done_lift {A} (x : res A) p ss q a : r_of (w_lift x) p = (ss, q, Ok a) -> x = Ok a /\ ss = [] /\ q = p.
Proof. unfold r_of, w_lift. intros [= <- <- ->]. auto. Qed.
Lemma done_put b p ss q a : r_of (w_put b) p = (ss, q, Ok a) -> ss = [Do (Put b)] /\ q = (p + length b)%nat.
Proof. unfold r_of, w_put. intros [= <- <- _]. auto. Qed.
Lemma done_seek i p ss q a : r_of (w_seek i) p = (ss, q, Ok a) -> ss = [Do (SeekTo i)] /\ q = i.
Proof. unfold r_of, w_seek. intros [= <- <- _]. auto. Qed.
Lemma done_tell p ss q a : r_of w_tell p = (ss, q, Ok a) -> a = p /\ ss = [] /\ q = p.
Proof. unfold r_of, w_tell. intros [= <- <- <-]. auto. Qed.
Lemma done_say r p ss q a : r_say r p = (ss, q, Ok a) -> ss = [Say r] /\ q = p.
Proof. unfold r_say. intros [= <- <- _]. auto. Qed.
Lemma done_of {A} (w : writer A) p ss q a : r_of w p = (ss, q, Ok a) -> exists ops, w p = (ops, q, Ok a) /\ ss = map Do ops.
Proof. unfold r_of. destruct (w p) as [[ops q'] r]. intros [= <- <- ->]. eauto. Qed.
Lemma done_says {A} (x : list report * res A) p ss q a : r_lift x p = (ss, q, Ok a) -> snd x = Ok a /\ ss = map Say (fst x) /\ q = p.
Proof. unfold r_lift. intros [= <- <- ->]. auto. Qed.

Lemma puts_past ops : Forall is_put ops -> forall f, (length (f_data f) <= f_pos f)%nat ->
  f_data (replay_from f ops) = match payload ops with [] => f_data f | _ => f_data f ++ repeat 0 (f_pos f - length (f_data f)) ++ payload ops end.
Proof.
  induction 1 as [|o ops Ho F IH]; intros f L; [reflexivity|]. destruct o as [[|c b]|]; [| |destruct Ho]; cbn [replay_from fold_left apply_op].
  - cbn [f_write]. fold (replay_from f ops). rewrite IH by exact L. reflexivity.
  - fold (replay_from (f_write f (c :: b)) ops). unfold payload. cbn [map concat app]. fold (payload ops).
    assert (E : f_write f (c :: b) = File (f_data f ++ repeat 0 (f_pos f - length (f_data f)) ++ c :: b) (f_pos f + length (c :: b))).
    { unfold f_write. f_equal. rewrite firstn_all2 by exact L. rewrite skipn_all2 by (cbn [length]; lia). now rewrite app_nil_r. }
    rewrite E. rewrite replay_puts; [|exact F|cbn [f_pos f_data]; rewrite !app_length, repeat_length; cbn [length]; lia]. cbn [f_data]. now rewrite <- !app_assoc.
Qed.
Lemma file_whole puts infos n O : Forall is_put puts -> Forall is_put infos ->
  (length O = 4 * n)%nat -> (n <= length (payload puts))%nat ->
  exists gap, Forall (eq 0) gap /\
    f_data (replay (puts ++ [SeekTo (length (payload puts) * 4 + n)] ++ infos ++ [SeekTo (length (payload puts)); Put O])) = payload puts ++ O ++ gap ++ payload infos.
Proof.
  intros P I LO LP. unfold replay. rewrite !replay_app, (replay_puts puts) by auto. cbn [f_data app]. set (W := payload puts) in *. set (X := (length W * 4 + n)%nat).
  cbn [replay_from fold_left apply_op]. fold (replay_from (f_seek (File W (length W)) X) infos).
  assert (D : f_data (replay_from (f_seek (File W (length W)) X) infos) = match payload infos with [] => W | _ => W ++ repeat 0 (X - length W) ++ payload infos end).
  { rewrite puts_past; [reflexivity|exact I|]. cbn [f_seek f_data f_pos]. unfold X. lia. }
  set (f := replay_from (f_seek (File W (length W)) X) infos) in *. clearbody f. destruct O as [|o0 O'].
  - cbn [f_write]. cbn [f_seek f_data]. rewrite D. destruct (payload infos) as [|c i] eqn:Ei; [exists []; split; [constructor|now rewrite app_nil_r]|].
    exists (repeat 0 (X - length W)). split; [|reflexivity]. apply Forall_forall. intros x Hx. symmetry. now apply repeat_spec in Hx.
  - set (O := o0 :: O') in *. unfold f_write. change (match O with [] => f_seek f (length W) | _ :: _ => _ end) with
      (File (firstn (length W) (f_data f) ++ repeat 0 (length W - length (f_data f)) ++ O ++ skipn (length W + length O) (f_data f)) (length W + length O)). cbn [f_data].
    rewrite D. destruct (payload infos) as [|c i] eqn:Ei.
    + exists []. split; [constructor|]. rewrite firstn_all, Nat.sub_diag, skipn_all2 by lia. reflexivity.
    + exists (skipn (length O) (repeat 0 (X - length W))). split.
      { apply Forall_forall. intros x Hx. symmetry. apply (repeat_spec (X - length W)). rewrite <- (firstn_skipn (length O)). apply in_or_app. now right. }
      rewrite firstn_app, firstn_all, Nat.sub_diag, firstn_O, app_nil_r. rewrite (proj2 (Nat.sub_0_le _ _)) by (rewrite app_length; lia). cbn [repeat app].
      rewrite skipn_app, skipn_all2 by lia. replace (length W + length O - length W)%nat with (length O) by lia. cbn [app].
      rewrite skipn_app. rewrite repeat_length. replace (length O - (X - length W))%nat with 0%nat by (unfold X; lia). reflexivity.
Qed.

Section done.
Variable k : kind.
Variable py_int : text -> res Z.
Variable is_digit : Z -> bool.
Variable search : bytes -> bytes -> list (Z * nat).
Variable trie_array : list (bytes * Z) -> res bytes.
Hypothesis contract : trie_contract search trie_array.

(** The warnings about the matrix *)
Definition cells_of (mt : res text) : list nat :=
  match k, mt with SystemDic, Ok t => short_lines 0 (tl (file_lines t)) | _, _ => [] end.

(** take the first step off; [a] names its value, [E] what is known of it *)
Tactic Notation "inv" hyp(H) ident(a) ident(E) :=
  let R := fresh "R" in let s1 := fresh "s1" in let q1 := fresh "q1" in let s2 := fresh "s2" in
  apply done_bind in H as (a & s1 & q1 & s2 & E & R & ->);
  first [apply done_tell in E as (-> & -> & ->)|apply done_lift in E as (E & -> & ->)|apply done_put in E as (-> & ->)|apply done_seek in E as (-> & ->)|apply done_say in E as (-> & ->)|idtac];
  rename R into H.

Lemma done_grammar table mt p ss q : report_grammar py_int table (match k with SystemDic => Some mt | UserDic _ _ _ => None end) p = (ss, q, Ok tt) ->
  (k = SystemDic -> exists t, mt = Ok t) /\ exists pt mb ops, convert_postable table = Ok pt /\ Forall is_put ops /\ payload ops = mb /\ q = (p + length pt + length mb)%nat /\
    operations ss = Put pt :: ops /\ reports ss = [PosTable; Size (Z.of_nat (length pt)); Matrix] ++ map BadCell (cells_of mt) ++ [Size (Z.of_nat (length mb))].
Proof.
  intros H. unfold report_grammar in H. inv H u0 E0. inv H pt Ep. inv H u1 E1. inv H u2 E2. inv H u3 E3. unfold cells_of. destruct k as [|g si n].
  - inv H hm Em. apply done_says in Em as (Em & -> & ->). destruct hm as [h m]. inv H u4 E4. inv H u5 E5. apply done_say in H as (-> & ->).
    destruct mt as [t|e]; [|discriminate]. pose proof (read_matrix_spec py_int t) as R. destruct (read_matrix_file py_int t) as [rs y]. cbn [snd fst] in *. subst y. destruct R as (-> & R).
    assert (L : length h = 4%nat).
    { apply bind_ok in R as (ms & _ & R). unfold convert_matrix in R. destruct (ms_header ms) as [|l [|r [|]]]; try discriminate. apply bind_ok in R as (a & A & R). apply bind_ok in R as (b & B & R). apply bind_ok in R as (f & _ & R).
      apply short_len in A, B. assert (h = a ++ b) as -> by congruence. rewrite app_length. lia. }
    split; [eauto|]. exists pt, (h ++ m), [Put h; Put m]. split; [exact Ep|]. split; [repeat constructor|]. split; [unfold payload; cbn [map concat]; now rewrite app_nil_r|]. split; [rewrite app_length; lia|].
    split; [rewrite !operations_app, operations_say; reflexivity|]. rewrite !reports_app, reports_say. cbn. rewrite <- ?app_assoc. do 3 f_equal. cbn. do 2 f_equal. f_equal. rewrite app_length. lia.
  - inv H z Ez. inv H u4 E4. apply done_say in H as (-> & ->). split; [discriminate|]. exists pt, z, [Put z]. split; [exact Ep|]. split; [repeat constructor|]. split; [unfold payload; cbn [map concat]; now rewrite app_nil_r|]. split; [lia|].
    split; reflexivity.
Qed.

Lemma starts_front n b c : put_int n = Ok b -> starts_with n (b ++ c).
Proof. intros H. pose proof (int_len _ _ H) as L. unfold starts_with. rewrite firstn_app, firstn_all2, L by lia. cbn [Nat.sub firstn]. now rewrite app_nil_r. Qed.
Lemma params_front l buffer p ops q : emit_params buffer l p = (ops, q, Ok tt) -> l <> [] -> exists c, payload ops = buffer ++ c.
Proof.
  destruct l as [|e l]; [congruence|]. cbn [emit_params]. intros H _. rewrite w_bind_lift in H. destruct (put_params e) as [b|x]; [|discriminate]. rewrite w_bind_put in H.
  destruct (emit_params [] l _) as [[o q'] r']. assert (ops = Put (buffer ++ b) :: o) as -> by congruence. unfold payload. cbn [map concat]. rewrite <- app_assoc. eauto.
Qed.
Lemma done_lexicon s p ss q : source_ok s -> report_lexicon k py_int is_digit trie_array s p = (ss, q, Ok tt) ->
  exists T W P O I front back n mark,
    n = length (s_entries s) /\ mark = (p + length T + length W + length P)%nat /\
    operations ss = front ++ [SeekTo (mark * 4 + n)] ++ back ++ [SeekTo mark; Put O] /\
    Forall is_put front /\ payload front = T ++ W ++ P /\ Forall is_put back /\ payload back = I /\ length O = (4 * n)%nat /\
    (exists m, length T = (4 * m + 4)%nat /\ starts_with (Z.of_nat m) T) /\
    (exists m, length W = (m + 4)%nat /\ starts_with (Z.of_nat m) W) /\
    (n = 0%nat /\ P = [] \/ length P = (6 * n + 4)%nat /\ starts_with (Z.of_nat n) P) /\
    reports ss = [BuildingTrie; TrieDone; WritingTrie; Size (Z.of_nat (length T)); WordIds; Size (Z.of_nat (length W)); Parameters; Size (6 * Z.of_nat n + 4);
      WordInfos; Size (Z.of_nat (length I)); Offsets; Size (Z.of_nat (length O))].
Proof.
  intros SO H. unfold report_lexicon in H. inv H kw Hw. destruct kw as [kvs wids]. inv H u0 E0. inv H array Ht. inv H u1 E1. inv H u2 E2. inv H b1 B1. inv H u3 E3. inv H u4 E4. inv H u5 E5. inv H u6 E6.
  inv H b2 B2. inv H u7 E7. inv H u8 E8. inv H u9 E9. inv H u10 E10. inv H b3 B3. inv H u11 Ep. destruct u11. apply done_of in Ep as (ps & Ep & ->). inv H u12 E12.
  unfold report_wordinfo in H. inv H mark Em. inv H u13 E13. inv H u14 E14. inv H base E15. inv H os Ei. apply done_of in Ei as (is & Ei & ->). inv H i E16. inv H u15 E17. inv H u16 E18. inv H u17 E19. inv H u18 E20.
  apply done_say in H as (-> & ->).
  pose proof (trie_units search trie_array contract _ _ _ _ SO Hw Ht) as U. pose proof (int_len _ _ B1) as L1. pose proof (int_len _ _ B2) as L2. pose proof (int_len _ _ B3) as L3.
  destruct (params_shape _ _ _ _ _ _ Ep) as (Fp & Lq). pose proof (params_bytes _ _ _ _ _ Ep) as Lp. pose proof (infos_shape _ _ _ _ _ _ _ _ _ _ Ei) as Fi. destruct (infos_bytes _ _ _ _ _ _ _ _ _ _ Ei) as (Li & Lo).
  exists (b1 ++ array), (b2 ++ wids), (payload ps), os, (payload is), ([Put b1; Put array; Put b2; Put wids] ++ ps), is, (length (s_entries s)), q1.
  split; [reflexivity|]. split; [rewrite !app_length; lia|]. split.
  { rewrite !operations_app, !operations_do. cbn. rewrite <- ?app_assoc. reflexivity. }
  split; [apply Forall_app; split; [repeat constructor|exact Fp]|]. split; [rewrite payload_app; unfold payload at 1; cbn [map concat]; rewrite app_nil_r, <- !app_assoc; reflexivity|].
  split; [exact Fi|]. split; [reflexivity|]. split; [exact Lo|].
  split; [exists (length array / 4)%nat; split; [rewrite app_length; lia|now apply starts_front]|].
  split; [exists (length wids); split; [rewrite app_length; lia|now apply starts_front]|].
  split.
  { destruct (s_entries s) as [|e es] eqn:Es; [left; split; [reflexivity|]; apply length_zero_iff_nil; exact Lp|]. right. split; [rewrite Lp; lia|].
    destruct (params_front _ _ _ _ _ Ep) as (c & ->); [discriminate|]. now apply starts_front. }
  rewrite !reports_app, !reports_do. cbn [reports map concat app]. rewrite !app_length. rewrite (Z.mul_comm 6). repeat f_equal; lia.
Qed.

(** The whole command *)
Lemma done_command now description d ins mt ss q :
  report_command k py_int is_digit trie_array now description d ins mt O = (ss, q, Ok tt) ->
  (k = SystemDic -> exists t, mt = Ok t) /\ exists rows s p, source_rows d ins = Ok rows /\ build_lexicon k py_int new_source rows = Ok s /\ length (s_entries s) = length rows /\
    f_data (replay (operations ss)) = whole p /\
    header_to_bytes (Header (version_of k) now description) = Ok (p_header p) /\
    convert_postable (s_table s) = Ok (p_pos p) /\
    (exists m, length (p_trie p) = (4 * m + 4)%nat /\ starts_with (Z.of_nat m) (p_trie p)) /\
    (exists m, length (p_ids p) = (m + 4)%nat /\ starts_with (Z.of_nat m) (p_ids p)) /\
    (rows = [] /\ p_params p = [] \/ length (p_params p) = (6 * length rows + 4)%nat /\ starts_with (Z.of_nat (length rows)) (p_params p)) /\
    length (p_offsets p) = (4 * length rows)%nat /\ Forall (eq 0) (p_gap p) /\
    reports ss = all_reports (length rows) (cells_of mt) (Z.of_nat (length (p_pos p))) (Z.of_nat (length (p_matrix p))) (Z.of_nat (length (p_trie p))) (Z.of_nat (length (p_ids p)))
      (6 * Z.of_nat (length rows) + 4) (Z.of_nat (length (p_infos p))) (Z.of_nat (length (p_offsets p))).
Proof.
  intros H. unfold report_command in H. inv H h Hh. inv H u0 E0. inv H u1 E1. inv H s Es. apply done_says in Es as (Es & -> & ->). inv H u2 E2.
  inv H u3 Eg. destruct u3. pose proof (read_files_spec k py_int d ins new_source) as R. destruct (read_files k py_int d ins new_source) as [rs y]. cbn [snd fst] in *. subst y. destruct R as (-> & (rows & Hr & B) & _).
  pose proof (build_lexicon_ok _ _ _ _ _ new_source_ok B) as SO.
  destruct (entries_rows k py_int _ _ _ B) as (es & Ees & F). cbn [new_source s_entries app] in Ees.
  assert (Ln : length (s_entries s) = length rows) by (rewrite Ees; clear - F; induction F; cbn [length]; congruence).
  apply done_grammar in Eg as (MT & pt & mb & ops & Hpt & Fo & Po & Q & Og & Rg).
  destruct (done_lexicon _ _ _ _ SO H) as (T & W & P & Of & I & front & back & n & mark & En & Emk & Ol & Ff & Pf & Fb & Pb & LO & HT & HW & HP & Rl).
  rewrite Ln in En.
  set (puts := Put h :: Put pt :: ops ++ front).
  assert (Fputs : Forall is_put puts) by (unfold puts; repeat constructor; apply Forall_app; auto).
  assert (Pputs : payload puts = h ++ pt ++ mb ++ T ++ W ++ P).
  { unfold puts. change (payload (Put h :: Put pt :: ops ++ front)) with (h ++ pt ++ payload (ops ++ front)). now rewrite payload_app, Po, Pf. }
  assert (Lputs : length (payload puts) = mark) by (rewrite Pputs, !app_length; rewrite Emk, Q; cbn [Nat.add]; lia).
  destruct (file_whole puts back n Of Fputs Fb LO) as (gap & Fg & D).
  { rewrite Pputs, !app_length. destruct HP as [(-> & _)|(HP & _)]; lia. }
  split; [exact MT|]. exists rows, s, (Parts h pt mb T W P Of gap I). cbn [p_header p_pos p_matrix p_trie p_ids p_params p_offsets p_gap p_infos whole].
  split; [exact Hr|]. split; [exact B|]. split; [exact Ln|]. split.
  { rewrite Lputs, Pputs, Pb in D. rewrite <- !app_assoc in D. unfold whole. cbn [p_header p_pos p_matrix p_trie p_ids p_params p_offsets p_gap p_infos]. rewrite <- D. f_equal. f_equal.
    rewrite !operations_app, Og, Ol. cbn [map operations concat app]. unfold puts. cbn [app]. rewrite <- ?app_assoc. reflexivity. }
  split; [exact Hh|]. split; [exact Hpt|]. split; [exact HT|]. split; [exact HW|]. rewrite En in *. split.
  { destruct HP as [(N & ->)|HP]; [left; split; [now apply length_zero_iff_nil|reflexivity]|right; exact HP]. }
  split; [exact LO|]. split; [exact Fg|]. rewrite !reports_app, Rg, Rl. unfold all_reports. cbn [map reports concat app]. rewrite Ln. cbn [app]. rewrite <- ?app_assoc. cbn [app]. reflexivity.
Qed.
End done.
