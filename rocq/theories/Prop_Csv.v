(** C67, C68: what the source files of a dictionary say. *)
From Coq Require Import List ZArith Lia Bool Arith.
From Verif Require Import Base Utf8 M_Builder M_Bytes P_Bytes M_DicReader M_DicBuilder P_DicOpen P_DicGrammar P_DicWrite M_Front M_Resource S_Resource P_Resource
  Prop_Format Prop_Resource.
Import ListNotations.
Open Scope Z_scope.

(** ** C67 *)
Definition fresh : csv := Csv StartRecord [] [].
(** The reader as one pass over the text; [mid]: in the middle of a line *)
Fixpoint csv_go (mid : bool) (s : csv) (x : text) : res (list (list text)) :=
  match x with
  | [] =>
    if mid then
      let s' := csv_eol s in
      match cv_state s' with
      | StartRecord => Ok [rev (cv_fields s')]
      | InQuoted => Ok [rev (rev (cv_field s') :: cv_fields s')]
      | _ => Ok []
      end
    else match cv_state s with InQuoted => Ok [rev (rev (cv_field s) :: cv_fields s)] | _ => Ok [] end
  | c :: r =>
    s' <- csv_char s c ;;
    if c =? 10 then
      let s'' := csv_eol s' in
      match cv_state s'' with
      | StartRecord => rows <- csv_go false fresh r ;; Ok (rev (cv_fields s'') :: rows)
      | _ => csv_go false s'' r
      end
    else csv_go true s' r
  end.
Lemma csv_go_lines x : forall acc s0 s rows, foldM csv_char s0 (rev acc) = Ok s ->
  csv_go (match acc with [] => false | _ => true end) s x = Ok rows -> csv_rows_from s0 (lines_from acc x) = Ok rows.
Proof.
  induction x as [|c x IH]; intros acc s0 s rows F H.
  - cbn [lines_from csv_go] in *. destruct acc as [|a acc].
    + cbn in F. injection F as ->. exact H.
    + cbn [csv_rows_from]. rewrite F. cbn [bind]. destruct (csv_eol s) as [st fd fs]; destruct st; exact H.
  - cbn [lines_from csv_go] in *. change NL with 10. apply bind_ok in H as (s' & C & H).
    destruct (Z.eqb_spec c 10) as [->|N].
    + cbn [csv_rows_from]. cbn [rev]. rewrite foldM_app, F. cbn [bind foldM]. rewrite C. cbn [bind].
      destruct (csv_eol s') as [st fd fs] eqn:EE; destruct st; cbn [cv_state cv_fields] in *; try (eapply (IH []); [reflexivity|exact H]).
      apply bind_ok in H as (rows' & H & E). fold fresh. rewrite (IH [] fresh fresh _ eq_refl H). exact E.
    + apply (IH (c :: acc) s0 s'); [|exact H]. cbn [rev]. rewrite foldM_app, F. cbn [bind foldM]. rewrite C. reflexivity.
Qed.

Lemma go_plain v : ~ In 44 v -> ~ In 10 v -> ~ In 13 v -> forall mid fd fs rest,
  csv_go mid (Csv InField fd fs) (v ++ rest) = csv_go (match v with [] => mid | _ => true end) (Csv InField (rev v ++ fd) fs) rest.
Proof.
  induction v as [|c v IH]; intros N1 N2 N3 mid fd fs rest; [reflexivity|]. cbn [app csv_go]. unfold csv_char. cbn [cv_state cv_field cv_fields]. unfold is_newline.
  destruct (Z.eqb_spec c 10) as [->|_]; [exfalso; apply N2; now left|]. destruct (Z.eqb_spec c 13) as [->|_]; [exfalso; apply N3; now left|]. cbn [orb].
  unfold comma. destruct (Z.eqb_spec c 44) as [->|_]; [exfalso; apply N1; now left|]. cbn [bind].
  rewrite IH by (intros X; first [apply N1; right; exact X|apply N2; right; exact X|apply N3; right; exact X]). cbn [rev]. rewrite <- app_assoc. now destruct v.
Qed.
Lemma go_quoted v : forall mid fd fs rest,
  csv_go mid (Csv InQuoted fd fs) (doubled v ++ 34 :: rest) = csv_go true (Csv QuoteInQuoted (rev v ++ fd) fs) rest.
Proof.
  induction v as [|c v IH]; intros mid fd fs rest; [reflexivity|]. unfold doubled in *. cbn [flat_map]. destruct (Z.eqb_spec c 34) as [->|N].
  - change (([34; 34] ++ flat_map (fun c => if c =? 34 then [34; 34] else [c]) v) ++ 34 :: rest) with
      (34 :: 34 :: flat_map (fun c => if c =? 34 then [34; 34] else [c]) v ++ 34 :: rest).
    cbn [csv_go csv_char cv_state cv_field cv_fields bind quote Z.eqb Pos.eqb]. rewrite IH. cbn [rev]. now rewrite <- app_assoc.
  - rewrite <- app_assoc. cbn [app csv_go]. unfold csv_char. cbn [cv_state cv_field cv_fields]. unfold quote. destruct (Z.eqb_spec c 34) as [E|_]; [contradiction|]. cbn [bind].
    destruct (Z.eqb_spec c 10) as [->|_]; cbn [csv_eol cv_state]; rewrite IH; cbn [rev]; now rewrite <- app_assoc.
Qed.

(** After a cell *)
Definition after (v : text) (fs : list text) (s : csv) : Prop :=
  cv_fields s = fs /\ rev (cv_field s) = v /\ (cv_state s = InField \/ cv_state s = QuoteInQuoted).
Lemma go_cell v w : cell v w -> forall mid st fs rest, st = StartRecord \/ st = StartField ->
  (w = [] /\ v = []) \/ exists s, after v fs s /\ w <> [] /\ csv_go mid (Csv st [] fs) (w ++ rest) = csv_go true s rest.
Proof.
  intros H mid st fs rest Hst. destruct H as [v N1 N2 N3 N4|v N].
  - destruct v as [|c v]; [now left|]. right. exists (Csv InField (rev (c :: v)) fs). split; [|split; [discriminate|]].
    { split; [reflexivity|]. split; [cbn [cv_field]; now rewrite rev_involutive|]. now left. }
    cbn [hd] in N4. cbn [app csv_go]. unfold csv_char. unfold is_newline, quote, comma. cbn [cv_state cv_field cv_fields].
    destruct (Z.eqb_spec c 10) as [->|_]; [exfalso; apply N2; now left|]. destruct (Z.eqb_spec c 13) as [->|_]; [exfalso; apply N3; now left|]. cbn [orb].
    destruct (Z.eqb_spec c 34) as [->|_]; [congruence|]. destruct (Z.eqb_spec c 44) as [->|_]; [exfalso; apply N1; now left|].
    destruct Hst as [-> | ->]; cbn [bind]; rewrite go_plain by (intros X; first [apply N1; right; exact X|apply N2; right; exact X|apply N3; right; exact X]); cbn [rev]; now destruct v.
  - right. exists (Csv QuoteInQuoted (rev v) fs). split; [|split; [discriminate|]].
    { split; [reflexivity|]. split; [cbn [cv_field]; now rewrite rev_involutive|]. now right. }
    rewrite <- !app_assoc. cbn [app csv_go csv_char cv_state cv_field cv_fields]. unfold is_newline, quote. 
    destruct Hst as [-> | ->]; (transitivity (csv_go true (Csv InQuoted [] fs) (doubled v ++ 34 :: rest)); [reflexivity|]); rewrite go_quoted, app_nil_r; reflexivity.
Qed.
Lemma after_comma v fs s rest : after v fs s -> csv_go true s (44 :: rest) = csv_go true (Csv StartField [] (v :: fs)) rest.
Proof.
  intros (<- & <- & H). destruct s as [st fd fs']. cbn [cv_state cv_field cv_fields] in *. cbn [csv_go]. unfold csv_char. cbn [cv_state cv_field cv_fields].
  unfold is_newline, quote, comma. cbn [Z.eqb Pos.eqb orb]. destruct H as [-> | ->]; reflexivity.
Qed.
Lemma after_newline v fs s rest : after v fs s -> csv_go true s (10 :: rest) = (rows <- csv_go false fresh rest ;; Ok ((rev fs ++ [v]) :: rows)).
Proof.
  intros (<- & <- & H). destruct s as [st fd fs']. cbn [cv_state cv_field cv_fields] in *. cbn [csv_go]. unfold csv_char. cbn [cv_state cv_field cv_fields].
  unfold is_newline, quote, comma. cbn [Z.eqb Pos.eqb orb]. destruct H as [-> | ->]; reflexivity.
Qed.
Lemma after_end v fs s : after v fs s -> csv_go true s [] = Ok [rev fs ++ [v]].
Proof. intros (<- & <- & H). destruct s as [st fd fs']. cbn [cv_state cv_field cv_fields] in *. destruct H as [-> | ->]; reflexivity. Qed.

Lemma go_row row t : csv_line row t -> forall mid st fs, st = StartRecord /\ t <> [] \/ st = StartField ->
  (forall rest, csv_go mid (Csv st [] fs) (t ++ 10 :: rest) = (rows <- csv_go false fresh rest ;; Ok ((rev fs ++ row) :: rows))) /\
  (t <> [] \/ mid = true -> csv_go mid (Csv st [] fs) t = Ok [rev fs ++ row]).
Proof.
  induction 1 as [v w C|v w vs t C L IH]; intros mid st fs Hst.
  - assert (Hst' : st = StartRecord \/ st = StartField) by tauto. split.
    + intros rest. destruct (go_cell _ _ C mid st fs (10 :: rest) Hst') as [(-> & ->)|(s & A & N & ->)]; [|now apply after_newline].
      destruct Hst as [(_ & X)| ->]; [congruence|]. reflexivity.
    + intros M. destruct (go_cell _ _ C mid st fs [] Hst') as [(-> & ->)|(s & A & N & E)].
      * destruct Hst as [(_ & X)| ->]; [congruence|]. destruct M as [M| ->]; [congruence|]. reflexivity.
      * rewrite app_nil_r in E. rewrite E. now apply after_end.
  - assert (Hst' : st = StartRecord \/ st = StartField) by tauto. destruct (IH true StartField (v :: fs) (or_intror eq_refl)) as (I1 & I2).
    assert (Step : forall rest, csv_go mid (Csv st [] fs) ((w ++ [44] ++ t) ++ rest) = csv_go true (Csv StartField [] (v :: fs)) (t ++ rest)).
    { intros rest. rewrite <- !app_assoc. destruct (go_cell _ _ C mid st fs ([44] ++ t ++ rest) Hst') as [(-> & ->)|(s & A & N & ->)].
      - destruct Hst' as [-> | ->]; reflexivity.
      - now apply after_comma. }
    split.
    + intros rest. rewrite Step, I1. cbn [rev]. now rewrite <- app_assoc.
    + intros _. rewrite <- (app_nil_r (w ++ [44] ++ t)), Step, app_nil_r, (I2 (or_intror eq_refl)). cbn [rev]. now rewrite <- app_assoc.
Qed.

Lemma cell_no_cr v w : cell v w -> ~ In 13 w.
Proof.
  destruct 1 as [v N1 N2 N3 N4|v N]; [exact N3|]. intros H. apply in_app_or in H as [[H|[]]|H]; [discriminate|]. apply in_app_or in H as [H|[H|[]]]; [|discriminate].
  unfold doubled in H. apply in_flat_map in H as (c & Hc & H). destruct (Z.eqb_spec c 34) as [->|_]; cbn in H; destruct H as [H|H]; try discriminate; [destruct H as [H|[]]; discriminate| |contradiction].
  subst c. contradiction.
Qed.
Lemma line_no_cr row t : csv_line row t -> ~ In 13 t.
Proof.
  induction 1 as [v w C|v w vs t C L IH]; [eapply cell_no_cr; eauto|]. intros H. apply in_app_or in H as [H|H]; [eapply cell_no_cr; eauto|].
  destruct H as [H|H]; [discriminate|contradiction].
Qed.
Lemma universal_end e r : line_end e r -> universal (e ++ r) = 10 :: universal r.
Proof.
  intros E. destruct E as [-> |[-> |(-> & E)]]; cbn [app universal]; try reflexivity. change CR with 13. rewrite Z.eqb_refl. change NL with 10.
  destruct r as [|c r]; [reflexivity|]. cbn [hd] in E. destruct (Z.eqb_spec c 10); [congruence|reflexivity].
Qed.

(** Every table that is written in the usual way - with or without quotes, with any line
    ends, with or without a line end after the last line - is read as it was written.
    Texts in quotes may contain commas, quotes and line feeds. *)
Theorem C67_rows rows file : csv_file rows file -> csv_rows file = Ok rows.
Proof.
  intros H. unfold csv_rows, file_lines. apply (csv_go_lines _ [] _ fresh); [reflexivity|].
  induction H as [|row t L N|row t e r rows L N E F IH|e r rows E F IH].
  - reflexivity.
  - rewrite <- (app_nil_r t) at 1. rewrite universal_plain by (eapply line_no_cr; eauto). cbn [universal]. rewrite app_nil_r.
    apply (go_row _ _ L false StartRecord []); auto.
  - rewrite universal_plain by (eapply line_no_cr; eauto). rewrite universal_end by exact E.
    destruct (go_row _ _ L false StartRecord []) as (G & _); [auto|]. unfold fresh. rewrite G, IH. reflexivity.
  - rewrite universal_end by exact E. cbn [csv_go]. unfold csv_char. cbn. fold fresh. rewrite IH. reflexivity.
Qed.
Print Assumptions C67_rows.

(** Two ways of writing the same rows: quotes around a comma, a quote and a line feed *)
Example C67_nonvacuous :
  let rows := [[[97; 44; 98]; []; [34; 10; 99]]; []; [[100]; []]] in
  let file := [34; 97; 44; 98; 34; 44; 44; 34; 34; 34; 10; 99; 34; 13; 10] ++ [10] ++ [100; 44] in
  csv_file rows file /\ csv_rows file = Ok rows.
Proof.
  cbv zeta. assert (F : csv_file [[[97; 44; 98]; []; [34; 10; 99]]; []; [[100]; []]]
     ([34; 97; 44; 98; 34; 44; 44; 34; 34; 34; 10; 99; 34; 13; 10] ++ [10] ++ [100; 44])); [|split; [exact F|now apply C67_rows]].
  apply (X_row _ [34; 97; 44; 98; 34; 44; 44; 34; 34; 34; 10; 99; 34] [13; 10] ([10] ++ [100; 44])); [|discriminate|right; now left|].
  - apply (L_more [97; 44; 98] [34; 97; 44; 98; 34] [[]; [34; 10; 99]] [44; 34; 34; 34; 10; 99; 34]).
    + apply (V_quoted [97; 44; 98]). cbn. intuition discriminate.
    + apply (L_more [] [] [[34; 10; 99]] [34; 34; 34; 10; 99; 34]).
      * apply V_plain; cbn; try tauto. discriminate.
      * apply L_one. apply (V_quoted [34; 10; 99]). cbn. intuition discriminate.
  - apply X_blank; [now left|]. apply X_last; [|discriminate]. apply (L_more [100] [100] [[]] []).
    + apply V_plain; cbn; intuition discriminate.
    + apply L_one, V_plain; cbn; try tauto. discriminate.
Qed.

(** ** C68 *)
Section matrix.
Variable int10 : text -> res Z.
Let decimal t n := int10 t = Ok n.

Definition numbers (c : Z * Z * Z) : list Z := [fst (fst c); snd (fst c); snd c].
Lemma matrix_columns_eq raw l : raw = l ++ [10] \/ raw = l ->
  matrix_columns raw = match words l with [] => [] | w :: ws => if starts hash w then [] else [w :: ws] end.
Proof. exact (rewrite_columns_eq raw l). Qed.
Lemma matrix_lines raws ls : Forall2 (fun raw l => raw = l ++ [10] \/ raw = l) raws ls -> forall os,
  Forall2 (fun l o => match o with Some c => cost_line decimal l c | None => no_cost_line l end) ls os ->
  mapM (matrix_numbers int10) (concat (map matrix_columns raws)) = Ok (map numbers (concat (map (fun o => match o with Some c => [c] | None => [] end) os))).
Proof.
  induction 1 as [|raw l raws ls E F IH]; intros os H; inversion H as [|? o ? os' Ho Hos]; subst; [reflexivity|].
  cbn [map concat]. rewrite (matrix_columns_eq _ _ E). destruct o as [c|].
  - destruct Ho as (a & b & k & L & N & Ha & Hb & Hk). rewrite comment_words in N. rewrite (line_words_words _ _ L) in *.
    destruct (starts hash a); [congruence|]. cbn [app mapM]. unfold matrix_numbers at 1. cbn [length Nat.ltb Nat.leb mapM]. rewrite Ha, Hb, Hk. cbn [bind].
    rewrite (IH _ Hos). reflexivity.
  - cbn [app]. destruct Ho as [B|B].
    + apply words_nil in B. rewrite B. cbn [app]. now apply IH.
    + apply comment_words in B. destruct (words l) as [|w ws]; [discriminate|]. rewrite B. cbn [app]. now apply IH.
Qed.
Lemma matrix_source_of file ls n m cells : file_of ls file -> matrix_file decimal ls n m cells ->
  read_matrix int10 file = Ok (MatrixSource [n; m] (map numbers cells)).
Proof.
  intros F (h & r & os & a & b & -> & L & Ha & Hb & Hr & ->). unfold read_matrix. pose proof (file_lines_spec _ _ F) as FL.
  inversion FL as [|raw ? raws ? E FL' E1]; subst. rewrite words_strip, (words_eol _ _ E), (line_words_words _ _ L).
  destruct (strip raw) as [|c0 r0] eqn:S.
  { exfalso. apply strip_nil, words_nil in S. rewrite (words_eol _ _ E), (line_words_words _ _ L) in S. discriminate. }
  cbn [mapM]. rewrite Ha, Hb. cbn [bind]. rewrite (matrix_lines _ _ FL' _ Hr). reflexivity.
Qed.

Lemma in_numbers l r c cells : In [l; r; c] (map numbers cells) <-> In (l, r, c) cells.
Proof.
  rewrite in_map_iff. split.
  - intros (((l', r'), c') & E & H). injection E as <- <- <-. exact H.
  - intros H. exists (l, r, c). split; [reflexivity|exact H].
Qed.
(** What a matrix file says is what the dictionary has: the costs of the file, the last one
    when a pair has several, 0 for the others. *)
Theorem C68_matrix_partial file ls n cells table d :
  file_of ls file -> matrix_file decimal ls n n cells -> 0 < n ->
  Forall (fun c => 0 <= fst (fst c) < n /\ 0 <= snd (fst c) < n) cells -> (exists c, In (n - 1, n - 1, c) cells) ->
  Forall readable_pos table ->
  exists ms, read_matrix int10 file = Ok ms /\
  forall f rest p, write_grammar table (Some ms) (File d (length d)) = Ok f -> (p <= length (f_data f ++ rest))%nat ->
  exists g, prun (f_data f ++ rest) p (read_grammar (f_data f ++ rest) (length d)) = (p, Ok g) /\
    forall l r, 0 <= l < n -> 0 <= r < n ->
      (forall c, last_given cells l r c -> get_connect_cost g l r = Ok c) /\
      ((forall c, ~ In (l, r, c) cells) -> get_connect_cost g l r = Ok 0).
Proof.
  intros F M Hn R (c0 & H0) T. eexists. split; [exact (matrix_source_of _ _ _ _ _ F M)|]. intros f rest p W Hp.
  assert (HM : has_matrix n (MatrixSource [n; n] (map numbers cells))).
  { split; [reflexivity|]. split; [exact Hn|]. split.
    - apply Forall_map. eapply Forall_impl; [|exact R]. intros ((l & r) & c) (A & B). exists l, r, c. auto.
    - exists c0. cbn. now apply in_numbers. }
  destruct (C54_matrix_partial _ _ _ _ _ rest p T HM W Hp) as (g & Eg & _ & _ & G). exists g. split; [exact Eg|].
  intros l r Hl Hr. destruct (G l r Hl Hr) as (G1 & G2). split.
  - intros c (pre & post & E & N). apply G1. exists (map numbers pre), (map numbers post). split; [cbn; rewrite E, map_app; reflexivity|].
    intros c' H. apply in_numbers in H. exact (N c' H).
  - intros N. apply G2. intros c H. cbn in H. apply in_numbers in H. exact (N c H).
Qed.
(** Any matrix file that is read: the first line has numbers; the others are costs, comments,
    blank, or have one or two words (these are passed over with a warning) or more than three
    numbers (the build fails). *)
Theorem C68_nothing_else file ls ms :
  file_of ls file -> read_matrix int10 file = Ok ms ->
  exists h r, ls = h :: r /\ ~ blank h /\ (exists ws, line_words h ws /\ Forall2 decimal ws (ms_header ms)) /\
  forall l, In l r -> no_cost_line l \/ (exists c, cost_line decimal l c) \/ (exists ws, line_words l ws /\ (length ws < 3)%nat) \/
    (exists ws ns, line_words l ws /\ (3 < length ws)%nat /\ Forall2 decimal ws ns /\ In ns (ms_lines ms)).
Proof.
  intros F H. unfold read_matrix in H. pose proof (file_lines_spec _ _ F) as FL. inversion FL as [E0 E1|raw h raws r E FL' E0 E1]; [rewrite <- E0 in H; discriminate H|].
  rewrite <- E0 in H. clear FL E0 E1. exists h, r. split; [reflexivity|]. rewrite words_strip, (words_eol _ _ E) in H.
  assert (M2 : forall ws ns, mapM int10 ws = Ok ns -> Forall2 decimal ws ns).
  { clear. induction ws as [|w ws IH]; intros ns H; cbn [mapM] in H; [injection H as <-; constructor|].
    apply bind_ok in H as (x & Hx & H). apply bind_ok in H as (xs & Hxs & H). injection H as <-. constructor; auto. }
  destruct (strip raw) as [|c0 r0] eqn:S; [discriminate H|].
  assert (NB : ~ blank h). { intros B. apply (blank_eol _ _ E) in B. apply strip_nil in B. congruence. }
  split; [exact NB|].
  apply bind_ok in H as (header & Hh & H). apply bind_ok in H as (rows & Hr & H). injection H as <-. cbn [ms_header ms_lines].
  split; [exists (words h); split; [apply words_line_words|auto]|].
  clear - FL' Hr M2. revert rows Hr. induction FL' as [|raw l raws ls E FL IH]; intros rows Hr l' Hl; [destruct Hl|].
  cbn [map concat] in Hr. rewrite (matrix_columns_eq _ _ E) in Hr. destruct Hl as [<-|Hl].
  - pose proof (words_line_words l) as L. destruct (words l) as [|w ws] eqn:W; [left; left; now apply words_nil|].
    destruct (starts hash w) eqn:SH; [left; right; apply comment_words; now rewrite W|].
    cbn [app mapM] in Hr. apply bind_ok in Hr as (ns & Hns & Hr). apply bind_ok in Hr as (rows' & Hr & E'). injection E' as <-.
    unfold matrix_numbers in Hns. destruct (length (w :: ws) <? 3)%nat eqn:L3; [right; right; left; exists (w :: ws); split; [exact L|now apply Nat.ltb_lt]|].
    apply Nat.ltb_ge in L3. apply M2 in Hns. destruct (Nat.eq_dec (length (w :: ws)) 3) as [E3|N3].
    + right; left. destruct ws as [|b [|k [|]]]; try discriminate E3. inversion Hns as [|? na ? ns1 Ha Hns1]; subst.
      inversion Hns1 as [|? nb ? ns2 Hb Hns2]; subst. inversion Hns2 as [|? nk ? ns3 Hk Hns3]; subst. inversion Hns3; subst.
      exists (na, nb, nk), w, b, k. split; [exact L|]. split; [|auto]. rewrite comment_words, W, SH. discriminate.
    + right; right; right. exists (w :: ws), ns. split; [exact L|]. split; [lia|]. split; [exact Hns|now left].
  - assert (X : exists rows', mapM (matrix_numbers int10) (concat (map matrix_columns raws)) = Ok rows' /\ incl rows' rows).
    { destruct (words l) as [|w ws]; [exists rows; split; [exact Hr|apply incl_refl]|]. destruct (starts hash w); [exists rows; split; [exact Hr|apply incl_refl]|].
      cbn [app mapM] in Hr. apply bind_ok in Hr as (ns & Hns & Hr). apply bind_ok in Hr as (rows' & Hr & E'). injection E' as <-. exists rows'. split; [exact Hr|]. intros x Hx. now right. }
    destruct X as (rows' & Hr' & I). destruct (IH _ Hr' _ Hl) as [A|[A|[A|(ws & ns & A & B & C & D)]]]; auto.
    right; right; right. exists ws, ns. repeat split; auto.
Qed.
End matrix.
Print Assumptions C68_matrix_partial.
Print Assumptions C68_nothing_else.
Import Coq.Strings.String.
Definition sample_matrix : text := txt "2 2" ++ lf ++ txt "# costs" ++ lf ++ txt "0 1 -30" ++ lf ++ txt " 1	1 5 " ++ lf ++ lf ++ txt "0 1 7".
Example C68_nonvacuous :
  exists ls, file_of ls sample_matrix /\ matrix_file (fun t n => sample_int10 t = Ok n) ls 2 2 [(0, 1, -30); (1, 1, 5); (0, 1, 7)] /\
    read_matrix sample_int10 sample_matrix = Ok (MatrixSource [2; 2] [[0; 1; -30]; [1; 1; 5]; [0; 1; 7]]).
Proof.
  exists [txt "2 2"; txt "# costs"; txt "0 1 -30"; txt " 1	1 5 "; []; txt "0 1 7"]. split.
  - unfold sample_matrix.
    do 4 (apply F_line; [cbn; intuition discriminate|cbn; intuition discriminate|now left|]).
    apply (F_line [] [10]); [cbn; tauto|cbn; tauto|now left|]. apply F_last; [discriminate|cbn; intuition discriminate|cbn; intuition discriminate].
  - assert (W : forall t, line_words t (words t)) by apply words_line_words.
    split; [|vm_compute; reflexivity].
    exists (txt "2 2"), [txt "# costs"; txt "0 1 -30"; txt " 1	1 5 "; []; txt "0 1 7"], [None; Some (0, 1, -30); Some (1, 1, 5); None; Some (0, 1, 7)], (txt "2"), (txt "2").
    split; [reflexivity|]. split; [exact (W (txt "2 2"))|]. split; [reflexivity|]. split; [reflexivity|]. split; [|reflexivity].
    constructor; [right; apply comment_words; reflexivity|].
    constructor; [exists (txt "0"), (txt "1"), (txt "-30"); split; [exact (W (txt "0 1 -30"))|]; split; [rewrite comment_words; discriminate|auto]|].
    constructor; [exists (txt "1"), (txt "1"), (txt "5"); split; [exact (W (txt " 1	1 5 "))|]; split; [rewrite comment_words; discriminate|auto]|].
    constructor; [left; constructor|].
    constructor; [exists (txt "0"), (txt "1"), (txt "7"); split; [exact (W (txt "0 1 7"))|]; split; [rewrite comment_words; discriminate|auto]|].
    constructor.
Qed.
