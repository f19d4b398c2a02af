(** C86: from word lists to analyses with nothing but the tool *)
From Coq Require Import String Ascii List ZArith Lia Bool Arith Sorting.Sorted Sorting.Permutation.
From Verif Require Import Base Utf8 M_Builder M_CharCategory M_InputText M_InputPlugins M_Lattice M_Oov M_Tokenizer M_NumericParser M_PathRewrite M_Morphemes
  M_Shipped M_Bytes M_DicReader M_DicBuilder M_LexiconSet M_Front M_Resource M_Setup M_Resources M_Command M_Tokenize M_Main S_Text S_Plugins S_Lattice S_Resource S_Accept S_Tool S_Command S_Main
  P_Config P_Bytes P_DicFormat P_DicWrite P_DicOpen P_DicGrammar P_DicSource P_DicLexicon P_DicFile P_DicToy Prop_Format P_LexiconSet P_Resource
  Prop_CharCategory Prop_Source Prop_Lexicon Prop_Resource Prop_Shipped P_Words P_Setup P_System Prop_System P_Live Prop_Live P_Made Prop_Made P_AsShipped Prop_Accept Prop_AsShipped Prop_Where Prop_Command Prop_Tokenize Prop_Main P_Tool P_FileBytes.
Import ListNotations.
Open Scope list_scope.
Open Scope Z_scope.

Section tool.
Variable join : text -> text -> text.
Variable is_absolute : text -> bool.
Variable DEFAULT_RESOURCEDIR : text.
Variable int16 int10 : text -> res Z.
Variable pop : list range -> option (range * list range).
Variable order : list cat -> list cat.
Variable lower : Z -> text.
Variable nfkc : text -> text.
Variable search : bytes -> bytes -> list (Z * nat).
Variable limit : nat.
Variable parse : text -> res conf.
Variable installed : text -> option text.
Variable dirname : text -> text.
Variable DEFAULT_SETTINGFILE : text.
Variable mentions : text -> json -> res bool.
Variable str : Z -> text.
Variable version : text.
Variable py_int : text -> res Z.
Variable is_digit : Z -> bool.
Variable trie_array : list (bytes * Z) -> res bytes.
Variable locale_decode : bytes -> res text.
Local Notation sudachipy := (main join is_absolute DEFAULT_RESOURCEDIR int16 int10 pop order lower nfkc search limit parse installed dirname DEFAULT_SETTINGFILE mentions str version
  py_int is_digit trie_array locale_decode).
Local Notation decoded := (Forall2 (Forall2 (fun c c' => unescape c = Ok c'))).
Local Notation make_dictionary d := (make_dictionary (text_on d) (binary_on d) join is_absolute DEFAULT_RESOURCEDIR int16 int10 pop order lower nfkc search limit).
Local Notation created := (created order lower nfkc search limit).

(** ** Specification: dictionaries that runs of the tool have made *)
(** [b] is what a run of `sudachipy build` that ended well left in its output file; the word
    lists of the run had the rows [rows] and the matrix file was [m]. *)
Definition built_by_tool (rows : list (list text)) (m : matrix_source) (b : bytes) : Prop :=
  exists st stdin now default d args os ins matrix d',
    let out := or_else (last_of to_of os) (txt "system.dic") in
    build_args args os ins /\ last_of S_Main.matrix_of os = Some matrix /\
    ~ In out (matrix :: ins) /\ 0 <= now /\ ~ In 0 (or_else (last_of about_of os) []) /\
    rows_of d ins rows /\ matrix_file_of locale_decode py_int d matrix m /\
    sudachipy st stdin now default d args = Some (d', [], Done) /\ d' out = Some b.
(** The same of `sudachipy ubuild`, for the system dictionary [sys] that was found at the path
    given with -s, or at the path of the settings *)
Definition user_built_by_tool (sys : bytes) (rows : list (list text)) (b : bytes) : Prop :=
  exists st stdin now default d args os ins path d',
    let out := or_else (last_of uto_of os) (txt "user.dic") in
    ubuild_args args os ins /\ (last_of system_of os = Some path /\ path <> [] \/ last_of system_of os = None /\ default = Ok path) /\ d path = Some sys /\
    ~ In out ins /\ 0 <= now /\ ~ In 0 (or_else (last_of uabout_of os) []) /\
    rows_of d ins rows /\
    sudachipy st stdin now default d args = Some (d', [], Done) /\ d' out = Some b.

(** ** Lemmas *)
Lemma only_output d out w d' x p : with_output d out w = (d', x) -> p <> out -> d' p = d p.
Proof.
  unfold with_output. destruct (w (put_file d out []) O) as [[ops q] r]. intros H N. assert (d' = put_file (put_file d out []) out (f_data (replay ops))) as -> by congruence. now rewrite !put_other.
Qed.
Lemma tool_command rows m b : built_by_tool rows m b ->
  exists now description, build_command SystemDic py_int is_digit trie_array now description rows (Some m) = Ok b /\ 0 <= now /\ ~ In 0 description.
Proof.
  intros (st & stdin & now & default & d & args & os & ins & matrix & d' & W & M & NO & T & A & R & MF & E & O).
  destruct (C85_runs join is_absolute DEFAULT_RESOURCEDIR int16 int10 pop order lower nfkc search limit parse installed dirname DEFAULT_SETTINGFILE mentions str version py_int is_digit trie_array locale_decode st stdin now default d args) as (_ & RB & _).
  destruct (RB os ins matrix W M) as (d2 & x & E2 & C). rewrite E in E2. assert (d2 = d') as -> by congruence. assert (x = Done) as -> by congruence.
  assert (DM : d matrix <> None) by (destruct MF as (bm & tm & DM & _); congruence).
  destruct (proj1 (C77_done py_int is_digit trie_array locale_decode d _ matrix ins now _ b NO DM) (ex_intro _ d' (conj C O))) as (rs & m' & R' & MF' & B).
  rewrite (rows_same _ _ _ _ R' R) in B. assert (m' = m) as -> by (apply matrix_rows_of in MF; apply matrix_rows_of in MF'; congruence). eauto.
Qed.
Lemma tool_user_command sys x rows b : from_system_dictionary sys = Ok x -> user_built_by_tool sys rows b ->
  exists now description, build_command (user_kind search limit x) py_int is_digit trie_array now description rows None = Ok b /\ 0 <= now /\ ~ In 0 description.
Proof.
  intros X (st & stdin & now & default & d & args & os & ins & path & d' & W & P & D & NO & T & A & R & E & O).
  destruct (C85_runs join is_absolute DEFAULT_RESOURCEDIR int16 int10 pop order lower nfkc search limit parse installed dirname DEFAULT_SETTINGFILE mentions str version py_int is_digit trie_array locale_decode st stdin now default d args) as (_ & _ & RU).
  destruct (RU os ins W) as (d2 & y & E2 & C). rewrite E in E2. assert (d2 = d') as -> by congruence. assert (y = Done) as -> by congruence.
  assert (SP : system_path default (last_of system_of os) = Ok path) by (destruct P as [(-> & N)|(-> & ->)]; [destruct path; [congruence|reflexivity]|reflexivity]).
  destruct (proj1 (C77_done_user py_int is_digit search trie_array limit d default _ _ ins now _ path sys x b NO (proj2 (system_file_path _ _ _) SP) D X) (ex_intro _ d' (conj C O))) as (rs & R' & B).
  rewrite (rows_same _ _ _ _ R' R) in B. eauto.
Qed.

Hypothesis CT : trie_contract search trie_array.

(** A system dictionary that the tool has made, opened *)
Lemma system_made rows css m n b : built_by_tool rows m b -> decoded rows css -> readable_list py_int limit css -> fitting_matrix n m ->
  exists s x g, built py_int is_digit trie_array SystemDic (Dic rows b s) /\ build_lexicon SystemDic py_int new_source rows = Ok s /\
    from_system_dictionary b = Ok x /\ d_grammar x = Some g /\ P_DicGrammar.matrix_of g n m /\ lexicon_of SystemDic py_int is_digit search s (d_lexicon x) /\ source_ok s /\ lx_syn (d_lexicon x) = true.
Proof.
  intros BT D R M. destruct (tool_command _ _ _ BT) as (now & de & B & T & A).
  destruct (build_command_ok SystemDic py_int is_digit search trie_array CT now de rows (Some m) b B T A) as (s & Es & G).
  pose proof (table_readable _ _ _ _ _ _ D Es R) as RP. pose proof (fitting_has _ _ M) as HM.
  destruct (G RP) as (x & g & Er & Eh & Eg & _ & _ & MX & LO & LS); [intros m' [= <-]; eauto|].
  exists s, x, g. split.
  { exists now, de, (Some m). cbn [dc_rows dc_file dc_source]. split; [exact B|]. split; [exact T|]. split; [exact A|]. split; [exact Es|]. split; [exact RP|].
    split; [intros m' [= <-]; eauto|]. split; [exact (entries_fit _ _ _ _ _ _ D Es R)|exact (few_entries _ _ _ _ _ _ D Es R)]. }
  split; [exact Es|]. split; [unfold from_system_dictionary; rewrite Er; cbn [bind]; rewrite Eh; reflexivity|]. split; [exact Eg|]. split; [exact (MX m n eq_refl HM)|].
  split; [exact LO|]. split; [exact (build_lexicon_ok _ _ _ _ _ new_source_ok Es)|exact LS].
Qed.
Lemma user_made sys x rows css b : from_system_dictionary sys = Ok x -> user_built_by_tool sys rows b -> decoded rows css -> readable_list py_int limit css ->
  exists s, built py_int is_digit trie_array (user_kind search limit x) (Dic rows b s) /\ build_lexicon (user_kind search limit x) py_int new_source rows = Ok s.
Proof.
  intros X BT D R. destruct (tool_user_command _ _ _ _ X BT) as (now & de & B & T & A).
  destruct (build_command_ok (user_kind search limit x) py_int is_digit search trie_array CT now de rows None b B T A) as (s & Es & G).
  exists s. split; [|exact Es]. exists now, de, None. cbn [dc_rows dc_file dc_source]. split; [exact B|]. split; [exact T|]. split; [exact A|]. split; [exact Es|].
  split; [exact (table_readable _ _ _ _ _ _ D Es R)|]. split; [intros m [=]|]. split; [exact (entries_fit _ _ _ _ _ _ D Es R)|exact (few_entries _ _ _ _ _ _ D Es R)].
Qed.

(** ** The runs that make dictionaries *)
(** A run of `sudachipy build` with word lists and a matrix within the limits of the format
    ends well, leaves the dictionary in the output file and changes no other file. *)
Theorem C86_builds st stdin now default d args os ins matrix rows css mx l r speeches trie db :
  let out := or_else (last_of to_of os) (txt "system.dic") in
  build_args args os ins -> last_of S_Main.matrix_of os = Some matrix -> ~ In out (matrix :: ins) ->
  rows_of d ins rows -> matrix_file_of locale_decode py_int d matrix mx -> decoded rows css ->
  is_digit 44 = false -> 0 <= now < 2 ^ 63 ->
  encode (or_else (last_of about_of os) []) = Ok db -> (length db <= 256)%nat -> ~ In 0 (or_else (last_of about_of os) []) ->
  good_source SystemDic py_int is_digit css speeches -> good_matrix l r mx ->
  (forall kvs,
    NoDup (map fst kvs) -> StronglySorted (fun a b => bytes_lt a b = true) (map fst kvs) ->
    Forall (fun kv => (exists cs, In cs css /\ ~ hidden cs /\ encode (column cs 0) = Ok (fst kv)) /\ 0 <= snd kv < 5 * Z.of_nat (length css)) kvs ->
    exists a, trie_array kvs = Ok a /\ (length a <= trie)%nat) ->
  total_size css speeches trie (l * r) < 2 ^ 31 ->
  exists d' b, sudachipy st stdin now default d args = Some (d', [], Done) /\ d' out = Some b /\ (forall p, p <> out -> d' p = d p) /\ built_by_tool rows mx b.
Proof.
  intros out BA LM NO RO MF D CD T ED LD ND GS GM TA B.
  destruct (C82_accepts SystemDic py_int is_digit trie_array now (or_else (last_of about_of os) []) rows (Some mx) css speeches trie (l * r) db) as (f & Ef); try assumption; [lia|exists l, r; auto|].
  destruct (proj2 (C77_done py_int is_digit trie_array locale_decode d out matrix ins now (or_else (last_of about_of os) []) f NO
    ltac:(destruct MF as (b & t & X & _); congruence)) (ex_intro _ rows (ex_intro _ mx (conj RO (conj MF Ef))))) as (d' & E & Eb).
  destruct (C85_runs join is_absolute DEFAULT_RESOURCEDIR int16 int10 pop order lower nfkc search limit parse installed dirname DEFAULT_SETTINGFILE mentions str version py_int is_digit trie_array locale_decode st stdin now default d args) as (_ & RT & _).
  destruct (RT os ins matrix BA LM) as (d2 & x & Em & Ec). fold out in Ec. assert (d2 = d' /\ x = Done) as (-> & ->) by (rewrite E in Ec; split; congruence).
  exists d', f. split; [exact Em|]. split; [exact Eb|]. split.
  - intros p N. unfold command_build in E. destruct (negb (exists_file d matrix)); [discriminate E|]. destruct (negb (forallb (exists_file d) ins)); [discriminate E|]. exact (only_output _ _ _ _ _ _ E N).
  - exists st, stdin, now, default, d, args, os, ins, matrix, d'. cbn zeta. fold out. repeat (split; [assumption || lia|]). exact Eb.
Qed.
(** The same of `sudachipy ubuild`: the system dictionary [x] is the one that is given *)
Theorem C86_ubuilds st stdin now default d args os ins path sys x rows css speeches trie db :
  let out := or_else (last_of uto_of os) (txt "user.dic") in
  ubuild_args args os ins -> (last_of system_of os = Some path /\ path <> [] \/ last_of system_of os = None /\ default = Ok path) -> d path = Some sys ->
  from_system_dictionary sys = Ok x -> ~ In out ins ->
  rows_of d ins rows -> decoded rows css ->
  is_digit 44 = false -> 0 <= now < 2 ^ 63 ->
  encode (or_else (last_of uabout_of os) []) = Ok db -> (length db <= 256)%nat -> ~ In 0 (or_else (last_of uabout_of os) []) ->
  good_source (user_kind search limit x) py_int is_digit css speeches ->
  (forall kvs,
    NoDup (map fst kvs) -> StronglySorted (fun a b => bytes_lt a b = true) (map fst kvs) ->
    Forall (fun kv => (exists cs, In cs css /\ ~ hidden cs /\ encode (column cs 0) = Ok (fst kv)) /\ 0 <= snd kv < 5 * Z.of_nat (length css)) kvs ->
    exists a, trie_array kvs = Ok a /\ (length a <= trie)%nat) ->
  total_size css speeches trie 0 < 2 ^ 31 ->
  exists d' b, sudachipy st stdin now default d args = Some (d', [], Done) /\ d' out = Some b /\ (forall p, p <> out -> d' p = d p) /\ user_built_by_tool sys rows b.
Proof.
  intros out BA LM DP X NO RO D CD T ED LD ND GS TA B.
  destruct (C82_accepts (user_kind search limit x) py_int is_digit trie_array now (or_else (last_of uabout_of os) []) rows None css speeches trie 0 db) as (f & Ef); try assumption; [lia|unfold user_kind; reflexivity|].
  assert (SY : system_path default (last_of system_of os) = Ok path).
  { unfold system_path. destruct LM as [(-> & N)|(-> & ->)]; [destruct path; [congruence|reflexivity]|reflexivity]. }
  destruct (proj2 (C77_done_user py_int is_digit search trie_array limit d default (last_of system_of os) out ins now (or_else (last_of uabout_of os) []) path sys x f NO (proj2 (system_file_path _ _ _) SY) DP X) (ex_intro _ rows (conj RO Ef))) as (d' & E & Eb).
  destruct (C85_runs join is_absolute DEFAULT_RESOURCEDIR int16 int10 pop order lower nfkc search limit parse installed dirname DEFAULT_SETTINGFILE mentions str version py_int is_digit trie_array locale_decode st stdin now default d args) as (_ & _ & RT).
  destruct (RT os ins BA) as (d2 & y & Em & Ec). fold out in Ec. assert (d2 = d' /\ y = Done) as (-> & ->) by (rewrite E in Ec; split; congruence).
  exists d', f. split; [exact Em|]. split; [exact Eb|]. split.
  - intros p N. unfold command_user_build in E. rewrite SY, DP in E. destruct (negb (forallb (exists_file d) ins)); [discriminate E|]. rewrite X in E. exact (only_output _ _ _ _ _ _ E N).
  - exists st, stdin, now, default, d, args, os, ins, path, d'. cbn zeta. fold out. repeat (split; [assumption || lia|]). exact Eb.
Qed.

(** ** The analysis *)
Section analysis.
(** the word lists, before and after the escapes are decoded; the matrix; the files *)
Variables (sys_rows : list (list text)) (sys_css : list (list text)) (mx : matrix_source) (n : Z) (sys : bytes).
Variables (user_rows : list (list (list text))) (user_css : list (list (list text))) (user_files : list bytes).
Hypothesis SYS : built_by_tool sys_rows mx sys.
Hypothesis USR : Forall2 (user_built_by_tool sys) user_rows user_files.
Hypothesis DEC : Forall2 (fun rows css => decoded rows css) (sys_rows :: user_rows) (sys_css :: user_css).
Hypothesis RD : Forall (readable_list py_int limit) (sys_css :: user_css).
Hypothesis FIT : Forall (fitting_list py_int n) (sys_css :: user_css).
Hypothesis MX : fitting_matrix n mx.
Hypothesis SP : forall p, In p unknown_speeches -> exists cs, In cs sys_css /\ speech cs = p.
Hypothesis FEW : (length user_css <= 7)%nat.

(** the settings [c] with the resource directory [rd], on the disk [d] *)
Variables (d : disk) (c : conf) (rd : text).
Hypothesis SH : as_shipped (text_on d) join is_absolute DEFAULT_RESOURCEDIR int16 int10 c rd.
Hypothesis SYSFILE : exists sp, conf_get c (txt "systemDict") = Some (JStr sp) /\ d (place join is_absolute rd sp) = Some sys.
Hypothesis USRFILES : exists us, (conf_get c (txt "userDict") = None /\ us = [] \/ conf_get c (txt "userDict") = Some (JList (map JStr us))) /\ Forall2 (fun p b => d (place join is_absolute rd p) = Some b) us user_files.
(** user words whose cost is to be calculated can be analysed *)
Hypothesis COSTS : forall css cs, In css user_css -> In cs css -> py_int (column cs 3) = Ok (-32768) ->
  column cs 4 <> [] /\ scalar_text (column cs 4) /\
  forall m it, make_dictionary d (without_users c) rd = Ok m -> run_prepare (created m) (column cs 4) = Ok it -> Z.of_nat (length (it_bytes it)) <= 32766.

Lemma all_made : exists g0 sys_id system users, built_from (binary_on d) join is_absolute search limit py_int is_digit trie_array c rd g0 sys_id system users /\
  fits_shipped (text_on d) (binary_on d) join is_absolute DEFAULT_RESOURCEDIR int16 int10 pop order lower nfkc search limit py_int c rd g0 system users /\
  dc_rows system = sys_rows /\ map dc_rows users = user_rows /\
  forall h p r id, sys_id h p r = Ok id -> 0 <= id ->
    exists e, nth_error (s_entries (dc_source system)) (Z.to_nat id) = Some e /\ e_surface e = h /\ (match e_reading e with [] => e_surface e | _ => e_reading e end) = r.
Proof.
  inversion DEC as [|? ? ? ? D0 DU]; subst. inversion RD as [|? ? R0 RU]; subst. inversion FIT as [|? ? F0 FU]; subst.
  destruct (system_made _ _ _ _ _ SYS D0 R0 MX) as (s & x & g & B0 & Es & Ex & Eg & GM & LO & SO & LS).
  set (system := Dic sys_rows sys s). set (k := user_kind search limit x).
  assert (Ek : k = UserDic g (lx_get_word_id search limit (d_lexicon x)) (length (s_entries s))).
  { unfold k, user_kind. rewrite Eg, (lo_size _ _ _ _ _ _ LO). reflexivity. }
  assert (US : exists users, Forall (built py_int is_digit trie_array k) users /\ map dc_rows users = user_rows /\ map dc_file users = user_files /\
     forall u, In u users -> exists css, In css user_css /\ decoded (dc_rows u) css /\ readable_list py_int limit css /\ fitting_list py_int n css /\ build_lexicon k py_int new_source (dc_rows u) = Ok (dc_source u)).
  { clear - USR DU RU FU Ex CT. revert user_files USR. induction DU as [|r css rows csss Dr DU IH]; intros files USR; inversion USR as [|? b ? files' Hb USR']; subst.
    - exists []. split; [constructor|]. split; [reflexivity|]. split; [reflexivity|]. intros u [].
    - inversion RU as [|? ? R1 RU']; subst. inversion FU as [|? ? F1 FU']; subst. destruct (IH RU' FU' _ USR') as (users & A1 & A2 & A3 & A4).
      destruct (user_made _ _ _ _ _ Ex Hb Dr R1) as (s & Bs & Es). exists (Dic r b s :: users). split; [constructor; assumption|]. split; [cbn [map dc_rows]; congruence|]. split; [cbn [map dc_file]; congruence|].
      intros u [<-|I]; [exists css; cbn [dc_rows dc_source]; split; [now left|auto]|]. destruct (A4 u I) as (css' & I' & R'). exists css'. split; [now right|exact R']. }
  destruct US as (users & BU & UR & UF & UA).
  exists g, (lx_get_word_id search limit (d_lexicon x)), system, users. split; [|split; [|split; [reflexivity|split; [exact UR|]]]].
  3: { intros h p r id E NN. destruct (encode h) as [key|] eqn:EK; [|unfold lx_get_word_id in E; rewrite EK in E; discriminate E].
    destruct (C42_built search limit py_int is_digit trie_array SystemDic system (d_lexicon x) h p r CT B0) as (w & Ew & W);
      [exists (d_lexicon x); split; [exact LO|]; split; [exact LS|apply same_refl]|intros i L; exact (chains_end _ _ _ _ _ _ D0 Es R0 i L)|eauto|].
    rewrite E in Ew. apply ok_inj in Ew. subst w. destruct W as [(i & e & -> & Hi & M1 & _ & M3)|(-> & _)]; [|lia]. rewrite Nat2Z.id. eauto. }
  - constructor.
    + exact CT.
    + destruct SYSFILE as (sp & E & F). exists sp. split; [exact E|]. unfold binary_on. change (P_Setup.located join is_absolute rd sp) with (place join is_absolute rd sp). now rewrite F.
    + exact B0.
    + exists x. auto.
    + destruct USRFILES as (us & E & F). exists us. split; [exact E|]. rewrite <- UF in F. clear - F. revert us F. induction users as [|u users IH]; intros us F; inversion F; subst; constructor; auto.
      unfold binary_on. change (P_Setup.located join is_absolute rd x) with (place join is_absolute rd x). now rewrite H2.
    + rewrite Ek in BU. exact BU.
    + intros h p r id E. exact (system_word_id _ _ _ _ _ _ _ _ _ _ _ LO SO E).
    + intros u i [<-|I] L; [exact (chains_end _ _ _ _ _ _ D0 Es R0 i L)|]. destruct (UA u I) as (css & _ & Du & Ru & _ & Eu). exact (chains_end _ _ _ _ _ _ Du Eu Ru i L).
  - assert (OF : forall u row cs, In u (system :: users) -> In row (dc_rows u) -> Forall2 (fun c c' => unescape c = Ok c') row cs -> exists css, In cs css /\ fitting_list py_int n css).
    { intros u row cs [<-|I] Ir Dr; [exists sys_css; split; [exact (decoded_in D0 Ir Dr)|exact F0]|]. destruct (UA u I) as (css & _ & Du & _ & Fu & _). exists css. split; [exact (decoded_in Du Ir Dr)|exact Fu]. }
    destruct GM as (GL & GR & GC). destruct MX as (_ & N & _ & _). constructor.
    + destruct (SP [[0x540d; 0x8a5e]; [0x666e; 0x901a; 0x540d; 0x8a5e]; [0x4e00; 0x822c]; txt "*"; txt "*"; txt "*"]) as (cs & Ic & E); [right; right; now left|].
      destruct (decoded_back D0 Ic) as (row & Ir & Dr). exists row. split; [exact Ir|]. exists cs. split; [exact Dr|]. rewrite speech_of; [now rewrite E|].
      destruct (In_nth_error _ _ Ic) as (i & Ei). destruct (entry_for _ _ _ _ _ D0 Es _ _ Ei) as (e & _ & (AC & _)). exact (ac_columns _ _ _ AC).
    + rewrite GL, GR. lia.
    + intros u row cs l r Iu Ir Dr N1 El Er. destruct (OF u row cs Iu Ir Dr) as (css & Ic & Fc). rewrite GL, GR. exact (fl_ids _ _ _ Fc cs l r Ic N1 El Er).
    + apply (fitting_cells _ _ _ MX). split; [exact GL|]. split; [exact GR|exact GC].
    + intros u row cs Iu Ir Dr Dg. destruct (OF u row cs Iu Ir Dr) as (css & Ic & Fc). apply (fl_numbers _ _ _ Fc cs Ic). destruct Dg as [Dg|Dg]; [left|right; exact Dg].
      eapply Forall_impl; [|exact Dg]. intros ch (lo & hi & I & H). destruct I as [[= <- <-]|[[= <- <-]|[[= <- <-]|[[= <- <-]|[]]]]]; lia.
    + assert (L : forall (A B : list (list (list text))), Forall2 (fun rows css => decoded rows css) A B -> length A = length B) by (induction 1; cbn [length]; congruence).
      apply L in DU. rewrite <- UR, map_length in DU. lia.
    + intros u row cs Iu Ir Dr Ec. destruct (UA u Iu) as (css & Icss & Du & _). exact (COSTS css cs Icss (decoded_in Du Ir Dr) Ec).
Qed.

(** What the analysis may say of a word *)
Definition from_list (f : fields) : Prop :=
  exists css cs, 0 <= f_dictionary f /\ nth_error (sys_css :: user_css) (Z.to_nat (f_dictionary f)) = Some css /\ In cs css /\
    f_oov f = false /\ f_pos f = speech cs /\
    f_reading f = (match column cs 11 with [] => column cs 4 | t => t end) /\
    f_norm f = (match column cs 12 with [] => column cs 4 | t => t end) /\
    (column cs 13 = none -> f_dic f = column cs 4) /\
    (forall i cs', column cs 13 <> none -> py_int (column cs 13) = Ok (Z.of_nat i) -> nth_error css i = Some cs' -> f_dic f = column cs' 4).
(** a word of no dictionary has a part of speech that the settings or unk.def name; one that is
    not out of vocabulary is a number *)
Definition from_none (f : fields) : Prop := f_dictionary f = -1 /\ In (f_pos f) unknown_speeches /\
  (f_oov f = false -> f_pos f = [[0x540d; 0x8a5e]; [0x6570; 0x8a5e]; txt "*"; txt "*"; txt "*"; txt "*"]).

Lemma wide css cs : In css (sys_css :: user_css) -> In cs css -> (18 <= length cs)%nat.
Proof.
  inversion DEC as [|? ? ? ? D0 DU]; subst. inversion RD as [|? ? R0 RU]; subst.
  destruct (system_made _ _ _ _ _ SYS D0 R0 MX) as (s & x & g & _ & Es & Ex & _).
  intros [<-|I] Ic.
  - destruct (In_nth_error _ _ Ic) as (i & Ei). destruct (entry_for _ _ _ _ _ D0 Es _ _ Ei) as (e & _ & (AC & _)). exact (ac_columns _ _ _ AC).
  - clear - USR DU RU Ex CT I Ic. revert user_files USR. induction DU as [|r css' rows csss Dr DU' IH]; intros files USR'; [destruct I|]. inversion USR' as [|? b ? files' Hb USR'']; subst.
    inversion RU as [|? ? R1 RU']; subst. destruct I as [->|I]; [|exact (IH RU' I _ USR'')].
    destruct (user_made _ _ _ _ _ Ex Hb Dr R1) as (s & _ & Es). destruct (In_nth_error _ _ Ic) as (i & Ei). destruct (entry_for _ _ _ _ _ Dr Es _ _ Ei) as (e & _ & (AC & _)). exact (ac_columns _ _ _ AC).
Qed.
Lemma given_known b v : given_pos (text_on d) join int10 c rd b v ->
  exists p, v = strings p /\ In p unknown_speeches /\ (b = false -> p = [[0x540d; 0x8a5e]; [0x6570; 0x8a5e]; txt "*"; txt "*"; txt "*"; txt "*"]).
Proof.
  intros H. destruct H as [o v (objs & E & I & C) V|o p f ls us u P E1 E2 F U I|o v (objs & E & I & C) V|o (objs & E & I & C)].
  - rewrite (sh_oov _ _ _ _ _ _ _ _ SH) in E. vm_compute in E. injection E as <-. destruct I as [[= <-]|[[= <-]|[]]]; vm_compute in C; [discriminate C|]. vm_compute in V. injection V as <-.
    exists (nth 0 unknown_speeches []). split; [reflexivity|]. split; [now left|discriminate].
  - destruct (provider_mecab _ _ _ _ _ _ _ _ SH _ P) as (_ & X). rewrite X in E1. injection E1 as <-. rewrite (sh_unk_def _ _ _ _ _ _ _ _ SH) in E2. apply ok_inj in E2. subst f.
    exists (u_pos u). split; [reflexivity|]. split; [|discriminate]. exact (unknowns_have _ _ F int10 (sh_decimal _ _ _ _ _ _ _ _ SH) U u I).
  - rewrite (sh_path _ _ _ _ _ _ _ _ SH) in E. vm_compute in E. injection E as <-. destruct I as [[= <-]|[[= <-]|[]]]; vm_compute in C; [discriminate C|]. vm_compute in V. injection V as <-.
    exists (nth 2 unknown_speeches []). split; [reflexivity|]. split; [right; right; now left|discriminate].
  - eexists. split; [reflexivity|]. split; [do 7 right; now left|reflexivity].
Qed.

Lemma analyses_in md st st' stdin now default d0 args os files o lines :
  interpreter pop order lower nfkc -> scalar_interpreter lower nfkc ->
  (forall p b, d0 p = Some b -> Forall (fun x => 0 <= x < 256) b) -> d = put_file d0 o [] ->
  tokenize_args args os files -> S_Main.given is_version os = false -> S_Main.given is_debug os = false ->
  last_of S_Main.output_of os = Some o -> o <> [] -> mode_named (or_else (last_of S_Main.mode_of os) (txt "C")) md ->
  files <> [] -> ~ In o files -> ~ In (txt "-") files ->
  set_up (fun path => t <- text_on d path ;; parse t) installed dirname DEFAULT_SETTINGFILE mentions st (last_of setting_of os) None (last_of type_of os) = (st', Ok tt) ->
  st_dict st' = Some c -> st_resource_dir st' = Some rd ->
  lines_of_files d0 files lines ->
  (forall m line it, make_dictionary d c rd = Ok m -> In line lines -> run_prepare (created m) line = Ok it -> Z.of_nat (length (it_bytes it)) <= 32766) ->
  (* the surfaces make up the text *)
  (forall m g0 sys_id system users line lat r, built_from (binary_on d) join is_absolute search limit py_int is_digit trie_array c rd g0 sys_id system users -> make_dictionary d c rd = Ok m ->
     plain_resources (text_on d) join is_absolute int16 c rd -> dc_rows system = sys_rows -> map dc_rows users = user_rows ->
     (forall h p r id, sys_id h p r = Ok id -> 0 <= id ->
       exists e, nth_error (s_entries (dc_source system)) (Z.to_nat id) = Some e /\ e_surface e = h /\ (match e_reading e with [] => e_surface e | _ => e_reading e end) = r) ->
     M_Tokenizer.run (created m) new_lattice line md = (lat, Ok r) ->
     ml_str (morphemes_of r) = Ok line /\ forall i, (i < ml_len (morphemes_of r))%nat -> exists s, ml_surface (morphemes_of r) i = Ok s) ->
  exists d' analyses, sudachipy st stdin now default d0 args = Some (d', [], Done) /\
    d' o = Some (logged (report str (S_Main.given is_all os) analyses)) /\ (forall p, p <> o -> d' p = d0 p) /\
    Forall2 (fun line fs => concat (map f_surface fs) = line /\ Forall (fun f => from_list f \/ from_none f) fs) lines analyses.
Proof.
  intros IN SI BY Ed TA NV NG OUT NE MO NF AP ND SU SC SR LF LEN STR.
  destruct all_made as (g0 & sys_id & system & users & BF & FI & ER & EU & SID).
  assert (FS : file_system (text_on d) (binary_on d)).
  { constructor.
    - intros p t H. unfold text_on in H. destruct (d p) as [b|]; [|discriminate]. exact (decode_scalar _ _ H).
    - intros p b H. unfold binary_on in H. destruct (d p) as [b'|] eqn:E; [|discriminate]. apply ok_inj in H. subst b'. rewrite Ed in E. unfold put_file in E. destruct (teqb p o); [|exact (BY _ _ E)]. assert (b = []) by congruence. subst. constructor. }
  destruct (C81_as_shipped_partial _ _ _ _ _ _ _ _ _ _ _ _ _ _ _ _ _ _ _ _ _ _ BF SH FI IN FS SI) as (m & MK & _).
  pose proof (shipped_plain _ _ _ _ _ _ _ _ SH) as PR. pose proof (shipped_complete _ _ _ _ _ _ _ _ _ _ _ _ _ _ _ _ _ _ _ SH FI) as CP.
  inversion DEC as [|? ? ? ? D0 DU]; subst x l l' y.
  assert (KN : forall b v, given_pos (text_on d) join int10 c rd b v -> known system v).
  { intros b v G. destruct (given_known _ _ G) as (p & -> & I & _). destruct (SP p I) as (cs & Ic & Es). destruct (decoded_back D0 Ic) as (row & Ir & Dr).
    exists p, row. split; [reflexivity|]. split; [rewrite ER; exact Ir|]. exists cs. split; [exact Dr|]. rewrite speech_of; [congruence|exact (wide sys_css cs (or_introl eq_refl) Ic)]. }
  set (a := TokArgs (S_Main.given is_version os) files (last_of S_Main.output_of os) (or_else (last_of S_Main.mode_of os) (txt "C")) (S_Main.given is_all os) (last_of setting_of os) (last_of type_of os)).
  destruct (C85_runs join is_absolute DEFAULT_RESOURCEDIR int16 int10 pop order lower nfkc search limit parse installed dirname DEFAULT_SETTINGFILE mentions str version py_int is_digit trie_array locale_decode st stdin now default d0 args) as (RT & _ & _).
  specialize (RT os files TA NG). fold a in RT.
  destruct (command_total (text_on d) (binary_on d) join is_absolute DEFAULT_RESOURCEDIR int16 int10 pop order lower nfkc search limit py_int is_digit trie_array
    parse installed dirname DEFAULT_SETTINGFILE mentions str version c rd m g0 sys_id system users BF MK IN PR FS SI CP KN md (fun line lat r i E => proj2 (STR m g0 sys_id system users line lat r BF MK PR ER EU SID E) i) st st' stdin d0 a o lines) as (d' & fss & E & AL & DO & OT).
  - exact NV.
  - unfold M_Tokenize.output_of, a. cbn [ta_out]. rewrite OUT. destruct o; [congruence|reflexivity].
  - exact NF.
  - exact AP.
  - exact ND.
  - exact MO.
  - rewrite <- Ed. exact SU.
  - exact SC.
  - exact SR.
  - intros p _. rewrite Ed. reflexivity.
  - intros p _. rewrite Ed. reflexivity.
  - exact LF.
  - intros line it I. exact (LEN m line it MK I).
  - exists d', fss. split; [rewrite RT, E; reflexivity|]. split; [exact DO|]. split; [exact OT|].
    pose proof (settings_good _ _ _ _ _ _ _ _ _ _ _ _ _ _ _ _ _ _ _ _ _ _ _ BF MK IN PR) as G.
    assert (WD := wide). clear - STR SID AL G BF MK IN PR KN DEC ER EU SH D0 DU WD. induction AL as [|line fs lines fss A AL IH]; constructor; [|exact IH]. split; [destruct A as (lat & r & RN & FD); exact (fields_str _ _ _ _ _ _ _ _ _ _ _ RN FD (proj1 (STR m g0 sys_id system users line lat r BF MK PR ER EU SID RN)))|].
    apply Forall_forall. intros f I. destruct (Z.eq_dec (f_dictionary f) (-1)) as [X|X].
    + right. split; [exact X|]. pose proof (C78_made_up_partial _ _ _ _ _ _ _ _ _ _ _ _ _ _ _ _ _ _ _ _ _ _ _ BF MK IN PR md line fs f KN A I X) as GP. destruct (given_known _ _ GP) as (p & Ep & Ip & Np).
      assert (f_pos f = p) as ->. { unfold strings in Ep. injection Ep as Ep. apply (map_inj JStr) in Ep; [exact Ep|intros x y [= ->]; reflexivity]. } auto.
    + left. destruct (C78_columns _ _ _ _ _ _ _ _ _ _ _ _ _ _ _ _ _ _ _ _ _ _ _ BF MK IN PR md line fs f A I X) as (u & j & row & cs & H1 & H2 & H3 & H4 & H5 & H6 & H7 & H8 & H9 & H10).
      assert (Q : exists css, nth_error (sys_css :: user_css) (Z.to_nat (f_dictionary f)) = Some css /\ decoded (dc_rows u) css).
      { assert (Y : nth_error (sys_rows :: user_rows) (Z.to_nat (f_dictionary f)) = Some (dc_rows u)) by (rewrite <- ER, <- EU; change (dc_rows system :: map dc_rows users) with (map dc_rows (system :: users)); now rewrite nth_error_map, H2).
        clear - DEC Y. revert Y. generalize (Z.to_nat (f_dictionary f)). induction DEC as [|r css rs csss Dr F IH]; intros k Y; [destruct k; discriminate|]. destruct k as [|k]; cbn [nth_error] in *; [assert (r = dc_rows u) by congruence; subst; eauto|eauto]. }
      destruct Q as (css & Q1 & Q2). pose proof (decoded_in Q2 (nth_error_In _ _ H3) H4) as Ic. exists css, cs. split; [exact H1|]. split; [exact Q1|]. split; [exact Ic|]. split; [exact H5|].
      split; [rewrite <- (speech_of cs (WD css cs (nth_error_In _ _ Q1) Ic)); exact H6|]. split; [rewrite H7; unfold column; destruct (nth 11 cs []); reflexivity|]. split; [rewrite H8; unfold column; destruct (nth 12 cs []); reflexivity|]. split; [exact H9|].
      intros i cs' N1 N2 N3. destruct (decoded_at Q2 _ _ N3) as (row' & R1 & R2). exact (H10 i row' cs' N1 N2 R1 R2).
Qed.

(** C86.  The dictionaries were made by runs of the tool from word lists that can be read back
    and fit the matrix and the package's settings.  Then a run of `sudachipy tokenize` with
    those settings, in mode C, analyses every input: it ends well, changes nothing but the
    output file, and the output file says for every line words that make up the line, each
    with the columns of a row of the word list of the dictionary it comes from, or with a part
    of speech for words of no dictionary. *)
Theorem C86_analyses_partial st st' stdin now default d0 args os files o lines :
  interpreter pop order lower nfkc -> scalar_interpreter lower nfkc ->
  (forall p b, d0 p = Some b -> Forall (fun x => 0 <= x < 256) b) -> d = put_file d0 o [] ->
  tokenize_args args os files -> S_Main.given is_version os = false -> S_Main.given is_debug os = false ->
  last_of S_Main.output_of os = Some o -> o <> [] -> or_else (last_of S_Main.mode_of os) (txt "C") = txt "C" ->
  files <> [] -> ~ In o files -> ~ In (txt "-") files ->
  set_up (fun path => t <- text_on d path ;; parse t) installed dirname DEFAULT_SETTINGFILE mentions st (last_of setting_of os) None (last_of type_of os) = (st', Ok tt) ->
  st_dict st' = Some c -> st_resource_dir st' = Some rd ->
  lines_of_files d0 files lines ->
  (forall m line it, make_dictionary d c rd = Ok m -> In line lines -> run_prepare (created m) line = Ok it -> Z.of_nat (length (it_bytes it)) <= 32766) ->
  exists d' analyses, sudachipy st stdin now default d0 args = Some (d', [], Done) /\
    d' o = Some (logged (report str (S_Main.given is_all os) analyses)) /\ (forall p, p <> o -> d' p = d0 p) /\
    Forall2 (fun line fs => concat (map f_surface fs) = line /\ Forall (fun f => from_list f \/ from_none f) fs) lines analyses.
Proof.
  intros IN SI BY Ed TA NV NG OUT NE MO NF AP ND SU SC SR LF LEN. apply (analyses_in ModeC st st' stdin now default d0 args os files o lines); auto.
  - rewrite MO. split; discriminate.
  - intros m g0 sys_id system users line lat r BF MK PR _ _ _ E. pose proof (settings_good _ _ _ _ _ _ _ _ _ _ _ _ _ _ _ _ _ _ _ _ _ _ _ BF MK IN PR) as G.
    destruct (C23_shipped _ new_lattice line lat r G (us_new _) E) as (X & Y). split; [exact X|]. intros i Hi. destruct (Y i Hi) as (b & e & _ & _ & _ & Q & _). eauto.
Qed.
End analysis.
End tool.
Print Assumptions C86_builds.
Print Assumptions C86_ubuilds.
Print Assumptions C86_analyses_partial.

(** ** The hypotheses are met: words with the parts of speech that the package names, one with
    two units, a matrix for its ids, two runs of the tool *)
Definition tool_words : list (list text) :=
  map (fun '(h, p) => toy_row [h] [55] p [h; h] [h] star star star)
    (combine [26481; 20140; 37117; 20154; 23665; 24029; 12395; 20116; 12354] unknown_speeches).
Definition tool_place : list text := toy_row [26481; 20140] [55] (nth 4 unknown_speeches []) [4] [5] star [48; 47; 49] [48; 47; 49].
Definition tool_rows : list (list text) := tool_words ++ [tool_place].
Definition tool_csv : text := flat_map (fun row => join_with 44 row ++ lf) tool_rows.
Definition tool_input : text := [26481; 20140; 65; 10] ++ txt "1,234" ++ [20116; 10; 0x30A2; 0x30A2; 0x30A2; 10].
Definition tool_lines : list text := [[26481; 20140; 65]; txt "1,234" ++ [20116]; [0x30A2; 0x30A2; 0x30A2]].
Definition tool_disk : disk := fun p =>
  if teqb p (txt "w") then Some (bytes_of tool_csv)
  else if teqb p (txt "m") then Some (bytes_of (txt "5969 5969" ++ lf ++ txt "5968 5968 7" ++ lf))
  else if teqb p (txt "i") then Some (bytes_of tool_input)
  else if teqb p (txt "/res/conf.json") then Some []
  else if teqb p (txt "/res/char.def") then Some (bytes_of shipped_char_def)
  else if teqb p (txt "/res/unk.def") then Some (bytes_of shipped_unk_def)
  else if teqb p (txt "/default/rewrite.def") then Some (bytes_of shipped_rewrite_def)
  else None.
Definition toy_sudachipy d args :=
  main toy_join toy_absolute (txt "/default") plain_hex plain_decimal pop_first (fun l => l) (fun x => [x]) (fun t => t) toy_search 10 (fun _ => Ok one_conf) (fun _ => None) (fun _ => toy_dir)
    (txt "/default/conf.json") (fun _ _ => Ok false) toy_str (txt "1") toy_int toy_digit toy_array decode fresh [] 1600000000 (Err EKey) d args.
Definition tool_build : list text := [txt "build"; txt "-m"; txt "m"; txt "-o"; txt "/res/system.dic"; txt "w"].
Definition tool_tokenize : list text := [txt "-r"; txt "/res/conf.json"; txt "-o"; txt "o"; txt "i"].

Lemma plain_word a b : a <> 45 -> no_option (a :: b).
Proof. intros N (x & r & E). congruence. Qed.
Lemma tool_units : exists ws, pieces 47 [48; 47; 49] ws /\ (length ws <= 127)%nat /\ Forall (reference SystemDic toy_int toy_digit tool_rows) ws.
Proof.
  exists [[48]; [49]]. split; [apply (split_pieces 47 [48; 47; 49])|]. split; [cbn; lia|].
  repeat constructor; (eapply R_number; [discriminate|repeat constructor|discriminate|reflexivity|cbn; lia]).
Qed.
Lemma tool_builds : exists d b, toy_sudachipy tool_disk tool_build = Some (d, [], Done) /\ d (txt "/res/system.dic") = Some b /\ (forall p, p <> txt "/res/system.dic" -> d p = tool_disk p) /\
  built_by_tool toy_join toy_absolute (txt "/default") plain_hex plain_decimal pop_first (fun l => l) (fun x => [x]) (fun t => t) toy_search 10 (fun _ => Ok one_conf) (fun _ => None) (fun _ => toy_dir)
    (txt "/default/conf.json") (fun _ _ => Ok false) toy_str (txt "1") toy_int toy_digit toy_array decode tool_rows one_matrix b.
Proof.
  assert (S : forall t, forallb is_scalar t = true -> scalar_text t). { intros t H. unfold scalar_text. apply Forall_forall. apply forallb_forall. exact H. }
  refine (C86_builds toy_join toy_absolute (txt "/default") plain_hex plain_decimal pop_first (fun l => l) (fun x => [x]) (fun t => t) toy_search 10 (fun _ => Ok one_conf) (fun _ => None) (fun _ => toy_dir)
    (txt "/default/conf.json") (fun _ _ => Ok false) toy_str (txt "1") toy_int toy_digit toy_array decode fresh [] 1600000000 (Err EKey) tool_disk tool_build
    [Matrix (txt "m"); To (txt "/res/system.dic")] [txt "w"] (txt "m") tool_rows tool_rows one_matrix 5969 5969 unknown_speeches 80 [] _ _ _ _ _ _ _ _ _ _ _ _ _ _ _).
  - exists [Matrix (txt "m"); To (txt "/res/system.dic")], []. split; [reflexivity|]. split; [reflexivity|]. split; [repeat constructor; apply plain_word; discriminate|].
    split; [repeat constructor; apply plain_word; discriminate|]. split; [discriminate|]. exists (txt "m"). now left.
  - reflexivity.
  - intros [X|[X|[]]]; discriminate X.
  - apply source_rows_of. vm_compute. reflexivity.
  - apply matrix_rows_of. vm_compute. reflexivity.
  - apply plain_rows. vm_compute. reflexivity.
  - reflexivity.
  - lia.
  - reflexivity.
  - cbn; lia.
  - intros [].
  - constructor.
    + repeat (constructor; [constructor;
       [ cbn; lia
       | split; [discriminate|]; eexists; split; [vm_compute; reflexivity|vm_compute; discriminate]
       | repeat (constructor; try (eexists; split; [vm_compute; reflexivity|vm_compute; split; congruence]))
       | repeat (constructor; try (split; [apply S; vm_compute; reflexivity|vm_compute; discriminate]))
       | repeat (constructor; try (split; [apply S; vm_compute; reflexivity|split; [vm_compute; discriminate|]]; vm_compute; intuition discriminate))
       | left; reflexivity
       | discriminate
       | repeat (constructor; try (first [left; reflexivity|right; apply tool_units]))
       | left; reflexivity ]|]). constructor.
    + repeat (constructor; [repeat (first [left; reflexivity|right])|]). constructor.
    + vm_compute. discriminate.
    + intros h. assert (L : forall (f : list text -> bool) l, (length (filter f l) <= length l)%nat) by (intros f l; induction l as [|x l IH]; cbn; [lia|destruct (f x); cbn; lia]).
      specialize (L (same_headword h) tool_rows). change (length tool_rows) with 10%nat in L. lia.
  - split; [reflexivity|]. split; [lia|]. split; [lia|]. constructor; [|constructor]. eexists _, _, _. split; [reflexivity|]. unfold in_short. lia.
  - intros kvs N _ F. destruct (toy_total (map (fun cs => bytes_of (column cs 0)) tool_rows) 50 ltac:(apply Forall_forall; intros x I; apply Nat.ltb_lt; revert x I; apply forallb_forall; vm_compute; reflexivity) ltac:(lia) kvs N) as (a & Ea & La).
    + eapply Forall_impl; [|exact F]. intros kv ((cs & H & NH & E) & V). split; [|change (length tool_rows) with 10%nat in V; lia].
      apply in_map_iff. exists cs. split; [unfold bytes_of; rewrite E; reflexivity|exact H].
    + exists a. split; [exact Ea|]. cbn in La. lia.
  - vm_compute. reflexivity.
Qed.

Lemma scalar_file t : forallb is_scalar t = true -> decode (bytes_of t) = Ok t.
Proof.
  intros H. assert (S : scalar_text t) by (apply Forall_forall; apply forallb_forall; exact H). unfold bytes_of. destruct (encode_total t S) as (b & E). rewrite E. exact (decode_encode _ _ E).
Qed.
Lemma tool_same (b : bytes) o p : p <> txt "/res/system.dic" -> p <> txt "o" -> forall d, (forall p, p <> txt "/res/system.dic" -> d p = tool_disk p) -> put_file d (txt "o") o p = tool_disk p.
Proof. intros N1 N2 d D. rewrite put_other by exact N2. exact (D p N1). Qed.

(** the lines are short after normalisation *)
Definition tool_length (ins : list input_spec) (rw line : text) : Z :=
  match ins, read_rewrite_def rw with
  | [WantDefault; WantSoundMarks p], Ok c =>
    match (bd <- default_rewrite (fun x => [x]) (fun t => t) c (builder_init line) ;; psm_rewrite p bd) with Ok bd => Z.of_nat (length (bytes_of (b_mod bd))) | Err _ => 0 end
  | _, _ => 40000
  end.
Lemma build_length category bd it : build category bd = Ok it -> it_bytes it = bytes_of (b_mod bd).
Proof.
  unfold build. cbv zeta. intros H. apply bind_ok in H as (bs & Eb & H). apply bind_ok in H as ((bi, off) & _ & H). apply bind_ok in H as (bi' & _ & H). apply bind_ok in H as (x & _ & H). apply bind_ok in H as (off' & _ & H).
  apply bind_ok in H as (conts & _ & H). apply bind_ok in H as (bow & _ & H). assert (it_bytes it = bs) as -> by (apply ok_inj in H; subst it; reflexivity). unfold bytes_of. now rewrite Eb.
Qed.
Lemma tool_short tf m ins rw line it :
  Forall2 (fun s p => set_up_input tf toy_join (txt "/default") s = Ok p) ins (md_inputs m) ->
  tf (toy_join (txt "/default") (txt "rewrite.def")) = Ok rw -> tool_length ins rw line <= 32766 ->
  run_prepare (created (fun l => l) (fun x => [x]) (fun t => t) toy_search 10 m) line = Ok it -> Z.of_nat (length (it_bytes it)) <= 32766.
Proof.
  intros F T X E. unfold tool_length in X. destruct ins as [|[|] [|[|p] [|]]]; try lia.
  inversion F as [|? p1 ? ps1 F1 F']; subst. inversion F' as [|? p2 ? ps2 F2 F'']; subst. inversion F''; subst. clear F F' F''.
  unfold set_up_input in F1, F2. apply ok_inj in F2. subst p2. assert (F1' : (f <- Ok rw ;; c <- read_rewrite_def f ;; Ok (DefaultInput c)) = Ok p1) by (rewrite <- T; exact F1). clear F1.
  apply bind_ok in F1' as (f & Ef & F1). apply ok_inj in Ef. subst f. apply bind_ok in F1 as (c & Ec & F1). apply ok_inj in F1. subst p1. rewrite Ec in X.
  unfold run_prepare, prepare in E. apply bind_ok in E as (bd & Eb & E). assert (L : cf_inputs (created (fun l => l) (fun x => [x]) (fun t => t) toy_search 10 m) = [default_rewrite (fun x => [x]) (fun t => t) c; psm_rewrite p]).
  { unfold M_Setup.created, shipped, M_Setup.md_settings, tokenizer_settings. cbn [cf_inputs s_inputs]. match goal with H : [DefaultInput c; _] = md_inputs m |- _ => rewrite <- H end. reflexivity. }
  rewrite L in Eb. cbn [foldM] in Eb. apply bind_ok in Eb as (b1 & E1 & Eb). apply bind_ok in Eb as (b2 & E2 & Eb). apply ok_inj in Eb. subst b2.
  rewrite E1 in X. cbn [bind] in X. rewrite E2 in X. rewrite (build_length _ _ _ E). exact X.
Qed.
Lemma tool_lengths ins line : get_plugins get_input_text_plugin one_conf "inputTextPlugin" = Ok ins -> In line tool_lines -> tool_length ins shipped_rewrite_def line <= 32766.
Proof.
  intros G I. apply Z.leb_le.
  assert (X : match get_plugins get_input_text_plugin one_conf "inputTextPlugin" with Ok ins => forallb (fun line => tool_length ins shipped_rewrite_def line <=? 32766) tool_lines | Err _ => false end = true) by (vm_compute; reflexivity).
  rewrite G in X. apply (proj1 (forallb_forall _ _) X line I).
Qed.
Lemma ex_proj (S1 S2 : Prop) (P : disk -> list (list fields) -> Prop) (Q : disk -> list (list fields) -> Prop) (R : list (list fields) -> Prop) (X : disk -> list (list fields) -> Prop) :
  S1 -> S2 -> (exists d a, P d a /\ Q d a /\ X d a /\ R a) -> exists d a, S1 /\ S2 /\ P d a /\ Q d a /\ R a.
Proof. intros A B (d & a & C1 & C2 & _ & C3). eauto 10. Qed.
Example C86_nonvacuous : exists d b d' analyses,
  toy_sudachipy tool_disk tool_build = Some (d, [], Done) /\ d (txt "/res/system.dic") = Some b /\
  toy_sudachipy d tool_tokenize = Some (d', [], Done) /\ d' (txt "o") = Some (logged (report toy_str false analyses)) /\
  Forall2 (fun line fs => concat (map f_surface fs) = line /\ Forall (fun f => from_list toy_int tool_rows [] f \/ from_none f) fs) tool_lines analyses.
Proof.
  destruct tool_builds as (d & b & E & B & D & T). exists d, b.
  assert (SC : forall t, In t [shipped_char_def; shipped_unk_def; shipped_rewrite_def] -> decode (bytes_of t) = Ok t).
  { assert (SC : forallb (forallb is_scalar) [shipped_char_def; shipped_unk_def; shipped_rewrite_def] = true) by (vm_compute; reflexivity). rewrite forallb_forall in SC. intros t I. exact (scalar_file t (SC t I)). }
  assert (UN : Forall2 (Forall2 (fun c c' => unescape c = Ok c')) tool_rows tool_rows) by (apply plain_rows; vm_compute; reflexivity).
  set (d1 := put_file d (txt "o") []).
  assert (DS : forall p, p <> txt "/res/system.dic" -> p <> txt "o" -> d1 p = tool_disk p) by (intros p N1 N2; exact (tool_same b [] p N1 N2 d D)).
  assert (SY : d1 (txt "/res/system.dic") = Some b) by (unfold d1; rewrite put_other by discriminate; exact B).
  refine (ex_proj _ _ _ _ _ _ E B (C86_analyses_partial toy_join toy_absolute (txt "/default") plain_hex plain_decimal pop_first (fun l => l) (fun x => [x]) (fun t => t) toy_search 10 (fun _ => Ok one_conf) (fun _ => None) (fun _ => toy_dir)
    (txt "/default/conf.json") (fun _ _ => Ok false) toy_str (txt "1") toy_int toy_digit toy_array decode toy_contract tool_rows tool_rows one_matrix 5969 b [] [] [] T (Forall2_nil _) _ _ _ _ _ _ d1 one_conf toy_dir _ _ _ _
    fresh (State true (Some one_conf) (Some (txt "/res/conf.json")) (Some toy_dir)) [] 1600000000 (Err EKey) d tool_tokenize [Setting (txt "/res/conf.json"); Output (txt "o")] [txt "i"] (txt "o") tool_lines
    toy_interpreter toy_scalar _ eq_refl _ eq_refl eq_refl eq_refl _ eq_refl _ _ _ _ eq_refl eq_refl _ _)).
  - constructor; [exact UN|constructor].
  - constructor; [|constructor]. constructor.
    + repeat (constructor; [constructor; [repeat (constructor; [split; [vm_compute; lia|split; [vm_compute; discriminate|split; [vm_compute; discriminate|vm_compute; intuition discriminate]]]|]); constructor|repeat (constructor; [vm_compute; reflexivity|]); constructor]|]). constructor.
    + intros i Hi. exists 1%nat. split; [lia|]. destruct (nth_error tool_rows i) as [cs|] eqn:En; [|apply nth_error_None in En; lia].
      apply (FE_end _ _ _ cs En). left. apply nth_error_In in En. apply in_app_or in En as [En|[<-|[]]]; [|reflexivity]. apply in_map_iff in En as ((h, q) & <- & I). apply in_combine_r in I. cbn [unknown_speeches In] in I. repeat (destruct I as [<-|I]; [reflexivity|]). destruct I.
    + vm_compute. discriminate.
  - constructor; [|constructor]. constructor.
    + intros cs l r I _ H1 H2. assert (XY : toy_int [49] = Ok l /\ toy_int [49] = Ok r) by (apply in_app_or in I as [I|[<-|[]]]; [apply in_map_iff in I as ((h, q) & <- & _)|]; split; assumption). destruct XY as (H3 & H4). assert (X : Ok 1 = Ok l) by exact H3. assert (Y : Ok 1 = Ok r) by exact H4. apply ok_inj in X, Y. lia.
    + intros cs I _. apply in_app_or in I as [I|[<-|[]]]; [|intros ch [<-|[]]; lia]. apply in_map_iff in I as ((h, q) & <- & I). assert (Eh : forall ch, In ch (match column (toy_row [h] [55] q [h; h] [h] star star star) 12 with [] => column (toy_row [h] [55] q [h; h] [h] star star star) 4 | t => t end) -> ch = h).
      { apply in_combine_r in I. cbn [unknown_speeches In] in I. intros ch. repeat (destruct I as [<-|I]; [intros [<-|[]]; reflexivity|]). destruct I. }
      intros ch Hc. rewrite (Eh ch Hc). apply in_combine_l in I. cbn [In] in I. lia.
  - split; [reflexivity|]. split; [lia|]. split; [constructor; [|constructor]; eexists _, _, _; split; [reflexivity|]; lia|]. exists 7. now left.
  - intros p I. assert (M : map speech tool_words = unknown_speeches) by (vm_compute; reflexivity). rewrite <- M in I. apply in_map_iff in I as (cs & E1 & E2). exists cs. split; [apply in_or_app; now left|exact E1].
  - cbn. lia.
  - assert (TO : forall p t, p <> txt "/res/system.dic" -> p <> txt "o" -> tool_disk p = Some (bytes_of t) -> In t [shipped_char_def; shipped_unk_def; shipped_rewrite_def] -> text_on d1 p = Ok t).
    { intros p t N1 N2 E1 I. unfold text_on. rewrite (DS p N1 N2), E1. exact (SC t I). }
    constructor.
    + intros key H. destruct H as [<-|[<-|[<-|[<-|[]]]]]; reflexivity.
    + reflexivity.
    + apply TO; [discriminate|discriminate|reflexivity|now left].
    + apply TO; [discriminate|discriminate|reflexivity|right; now left].
    + apply TO; [discriminate|discriminate|reflexivity|right; right; now left].
    + auto.
    + auto.
  - exists (txt "system.dic"). split; [reflexivity|exact SY].
  - exists []. split; [left; split; reflexivity|constructor].
  - intros css cs [].
  - intros p f H. destruct (list_eq_dec Z.eq_dec p (txt "/res/system.dic")) as [->|N].
    + assert (f = b) by congruence. subst f. destruct (tool_command _ _ _ _ _ _ _ _ _ _ _ _ _ _ _ _ _ _ _ _ _ _ _ _ _ T) as (nw & de & Ef & _). exact (built_bytes _ _ _ _ _ _ _ _ _ toy_bytes Ef).
    + rewrite (D p N) in H. assert (AB : forall t, Forall (fun x => 0 <= x < 256) (bytes_of t)) by (intros t; unfold bytes_of; destruct (encode t) as [e|] eqn:Ee; [exact (ab_encode t e Ee)|constructor]).
      unfold tool_disk in H. repeat match type of H with (if ?c then Some ?t else _) = _ => destruct c; [assert (f = t) as -> by (apply (f_equal (fun o => match o with Some x => x | None => [] end)) in H; exact (eq_sym H)); first [apply AB|constructor]|] end. discriminate H.
  - exists false, [Setting (txt "/res/conf.json"); Output (txt "o")], []. split; [reflexivity|]. split; [reflexivity|]. split.
    + intros _ n [<-|[<-|[<-|[]]]] H; cbn in H; repeat (destruct H as [H|H]; [discriminate H|]); exact H.
    + split; repeat constructor; apply plain_word; discriminate.
  - discriminate.
  - discriminate.
  - intros [X|[]]; discriminate X.
  - intros [X|[]]; discriminate X.
  - unfold set_up, or_else. cbn [last_of setting_of]. unfold text_on. rewrite DS by discriminate. reflexivity.
  - assert (L : lines_of_files tool_disk [txt "i"] tool_lines).
    { assert (E0 : file_input tool_disk [] [txt "i"] = ([[26481; 20140; 65; 10]; txt "1,234" ++ [20116; 10]; [0x30A2; 0x30A2; 0x30A2; 10]], None)) by (vm_compute; reflexivity). refine (lines_of_input _ _ _ _ _ E0). intros [X|[]]; discriminate X. }
    destruct L as (lss & F & L). exists lss. split; [|exact L]. inversion F as [|p ls ps lss' (x & t & X1 & X2) F']; subst. constructor; [exists x, t; rewrite D by discriminate; auto|]. inversion F'. constructor.
  - intros m line it MK I E1. destruct (make_inv _ _ _ _ _ _ _ _ _ _ _ _ _ _ _ _ MK) as (sf & ufs & g & ins & oovs & paths & CO).
    assert (TR : text_on d1 (toy_join (txt "/default") (txt "rewrite.def")) = Ok shipped_rewrite_def).
    { unfold text_on. rewrite DS by discriminate. change (tool_disk (toy_join (txt "/default") (txt "rewrite.def"))) with (Some (bytes_of shipped_rewrite_def)). cbv iota. apply SC. right; right; now left. }
    destruct (co_inputs _ _ _ _ _ _ _ _ _ _ _ _ _ _ _ _ _ _ _ _ _ _ CO) as (G & F).
    refine (tool_short _ _ _ _ _ _ F TR _ E1). exact (tool_lengths _ _ G I).
Qed.
