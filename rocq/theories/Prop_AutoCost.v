(** Property C92: the cost of a user word whose row leaves it open. *)
From Coq Require Import String Ascii List ZArith Lia Bool Arith Sorting.Sorted Sorting.Permutation.
From Verif Require Import Base Utf8 M_Builder M_CharCategory M_InputText M_InputPlugins M_Lattice M_Oov M_Tokenizer M_NumericParser M_PathRewrite M_Morphemes
  M_Shipped M_Bytes M_DicReader M_DicBuilder M_LexiconSet M_Front M_Resource M_Setup S_Text S_Plugins S_Lattice S_Resource
  P_Builder P_InputText P_Accessors P_Lattice P_Tokenizer P_Path P_Config P_Total P_CharCategory P_Bytes P_DicFormat P_DicWrite P_DicOpen P_DicGrammar P_DicSource P_DicLexicon P_DicFile P_DicToy Prop_Format P_LexiconSet P_Resource
  Prop_Text Prop_Tokenizer Prop_Total Prop_CharCategory Prop_Source Prop_Lexicon Prop_Resource Prop_Shipped P_Words P_Setup P_System Prop_System P_Live Prop_Live P_Made Prop_Lattice Prop_Best.
Import ListNotations.
Open Scope list_scope.
Open Scope Z_scope.

(** A number as a signed integer of 16 bits: the nearest. *)
Definition short_of (v : Z) : Z := if v <? -32768 then -32768 else if 32767 <? v then 32767 else v.

Lemma fold_prefix {A B} (f : A -> B -> res A) l1 l2 a r : foldM f a (l1 ++ l2) = Ok r -> exists b, foldM f a l1 = Ok b /\ foldM f b l2 = Ok r.
Proof.
  revert a. induction l1 as [|x l1 IH]; intros a H; cbn [app foldM] in *; [eauto|]. apply bind_ok in H as (b & E & H). destruct (IH _ H) as (b' & E1 & E2).
  exists b'. rewrite E. cbn [bind]. auto.
Qed.
(** Lexicons stay where they are. *)
Lemma users_extend limit analyse fs : forall ds ds', foldM (read_user_dictionary limit analyse) ds fs = Ok ds' ->
  forall k x, nth_error (ls_lexicons (ds_lexicon ds)) k = Some x -> nth_error (ls_lexicons (ds_lexicon ds')) k = Some x.
Proof.
  induction fs as [|f fs IH]; intros ds ds' H k x Hx; cbn [foldM] in H; [now injection H as <-|].
  apply bind_ok in H as (ds1 & H1 & H). eapply IH; [exact H|]. unfold read_user_dictionary in H1. destruct (ls_is_full _); [discriminate|].
  apply bind_ok in H1 as (dict & _ & H1). apply bind_ok in H1 as (lx & _ & H1). injection H1 as <-. cbn [ds_lexicon]. unfold ls_add.
  destruct (existsb _ _); [exact Hx|]. cbn [ls_lexicons]. rewrite nth_error_app1; [exact Hx|]. apply nth_error_Some. congruence.
Qed.

Section system.
Variable text_file : text -> res text.
Variable binary_file : text -> res bytes.
Variable join : text -> text -> text.
Variable is_absolute : text -> bool.
Variable DEFAULT_RESOURCEDIR : text.
Variable int16 int10 : text -> res Z.
Variable pop : list range -> option (range * list range).
Variable order : list cat -> list cat.
Variable lower : Z -> text.
Variable nfkc : text -> text.
Variable search : bytes -> bytes -> list (Z * nat).
Variable limit : nat.
Variable py_int : text -> res Z.
Variable is_digit : Z -> bool.
Variable trie_array : list (bytes * Z) -> res bytes.
Notation make_dictionary := (make_dictionary text_file binary_file join is_absolute DEFAULT_RESOURCEDIR int16 int10 pop order lower nfkc search limit).
Notation internal_cost := (internal_cost order lower nfkc search limit).
Notation located := (located join is_absolute).
Notation created := (created order lower nfkc search limit).
Notation built_from := (built_from binary_file join is_absolute search limit py_int is_digit trie_array).
Notation plain_resources := (plain_resources text_file join is_absolute int16).
Notation interpreter := (interpreter pop order lower nfkc).
Notation furnished := (furnished text_file join is_absolute int16 int10 py_int).

Section one.
Variables (c : conf) (d : text) (m : made) (g0 : grammar) (sys_id : text -> Z -> text -> res Z) (system : dic) (users : list dic).
Hypothesis BF : built_from c d g0 sys_id system users.
Hypothesis MK : make_dictionary c d = Ok m.
Notation user_kind := (UserDic g0 sys_id (length (s_entries (dc_source system)))).
Notation file_paths := (Forall2 (fun p u => binary_file (located d p) = Ok (dc_file u))).

(** The user dictionary [k] when it is loaded *)
Lemma user_loaded k u : nth_error users k = Some u ->
  exists ds dict lx, load_dictionaries limit (internal_cost (md_table m) (md_inputs m) (md_providers m)) (dc_file system) (map dc_file (firstn k users)) = Ok ds /\
    from_user_dictionary (dc_file u) = Ok dict /\
    calculate_cost limit (internal_cost (md_table m) (md_inputs m) (md_providers m) (ds_grammar ds) (ds_lexicon ds)) (d_lexicon dict) = Ok lx /\
    exists id, nth_error (ls_lexicons (ds_lexicon (md_set m))) (S k) = Some (id, lx).
Proof.
  intros Hk. pose proof (bf_contract _ _ _ _ _ _ _ _ _ _ _ _ _ _ BF) as CT. pose proof (bf_system _ _ _ _ _ _ _ _ _ _ _ _ _ _ BF) as SB. pose proof (bf_grammar _ _ _ _ _ _ _ _ _ _ _ _ _ _ BF) as GO. pose proof (bf_users _ _ _ _ _ _ _ _ _ _ _ _ _ _ BF) as UB.
  pose proof (files_loaded _ _ _ _ _ _ _ _ _ _ _ _ _ _ _ _ _ _ _ _ _ _ _ BF MK) as FL.
  destruct (nth_error_split _ _ Hk) as (l1 & l2 & E & Ek). assert (F1 : firstn k users = l1) by (rewrite E, <- Ek, firstn_app, Nat.sub_diag, firstn_all; cbn; apply app_nil_r). rewrite F1.
  rewrite E, map_app in FL. cbn [map] in FL. unfold load_dictionaries in FL. apply bind_ok in FL as (ds0 & H0 & FL). apply fold_prefix in FL as (ds & H1 & FL).
  cbn [foldM] in FL. apply bind_ok in FL as (ds2 & H2 & FL).
  assert (L : load_dictionaries limit (internal_cost (md_table m) (md_inputs m) (md_providers m)) (dc_file system) (map dc_file l1) = Ok ds) by (unfold load_dictionaries; rewrite H0; exact H1).
  assert (U1 : Forall (built py_int is_digit trie_array user_kind) l1) by (rewrite E in UB; apply Forall_app in UB as (X & _); exact X).
  pose proof (load_ok _ _ _ _ CT _ _ _ _ _ _ SB GO eq_refl _ _ U1 L) as LD.
  unfold read_user_dictionary in H2. destruct (ls_is_full _); [discriminate|]. apply bind_ok in H2 as (dict & Hd & H2). apply bind_ok in H2 as (lx & Hc & H2). injection H2 as <-.
  exists ds, dict, lx. split; [exact L|]. split; [exact Hd|]. split; [exact Hc|]. exists (length (ls_lexicons (ds_lexicon ds))).
  eapply users_extend; [exact FL|]. cbn [ds_lexicon]. unfold ls_add. rewrite (not_true_is_false (existsb _ _)).
  - cbn [ls_lexicons]. rewrite nth_error_app2; rewrite (ld_count _ _ _ _ _ _ _ _ _ LD); [|lia]. replace (S k - S (length l1))%nat with 0%nat by lia. reflexivity.
  - intros X. apply existsb_exists in X as (x & Hx & Ex). cbn [fst] in Ex. apply Nat.eqb_eq in Ex.
    apply (in_map fst) in Hx. rewrite (ld_ids _ _ _ _ _ _ _ _ _ LD) in Hx. apply in_seq in Hx. rewrite (ld_count _ _ _ _ _ _ _ _ _ LD) in Ex. lia.
Qed.

Lemma no_rewriters ps before : make_dictionary (with_users c ps) d = Ok before -> md_rewriters before = [].
Proof.
  intros H. destruct (make_inv _ _ _ _ _ _ _ _ _ _ _ _ _ _ _ _ H) as (sf & ufs & g' & ispecs & ospecs & pspecs & K). destruct (co_paths _ _ _ _ _ _ _ _ _ _ _ _ _ _ _ _ _ _ _ _ _ _ K) as (E & F).
  injection E as <-. now inversion F.
Qed.

(** ** C92 *)
(** The row [i] of the user dictionary [k] gives the cost -32768.  Its surface is analysed by a
    Dictionary with the same settings, but with the user dictionaries before [k] only and with
    no path rewriting.  The cost of the word becomes the cost of the last word of that
    analysis less the cost of the first, less 20 for each word. *)
Theorem C92_calculated k u i row cs :
  nth_error users k = Some u -> nth_error (dc_rows u) i = Some row -> Forall2 (fun c c' => unescape c = Ok c') row cs -> py_int (nth 3 cs []) = Ok (-32768) ->
  exists before lat' it first others,
    (exists ps, file_paths ps (firstn k users)) /\
    (forall ps, file_paths ps (firstn k users) -> make_dictionary (with_users c ps) d = Ok before) /\
    M_Tokenizer.run (created before) new_lattice (nth 4 cs []) ModeC = (lat', Ok (Some (it, first :: others))) /\
    ls_cost (ds_lexicon (md_set m)) (Z.of_nat (S k) * 2 ^ 28 + Z.of_nat i) =
      Ok (short_of (w_cost (last others first) - w_cost first - 20 * Z.of_nat (length (first :: others)))).
Proof.
  intros Hk Hr Hc Hx. destruct (user_loaded k u Hk) as (ds & dict & lx & L & Hd & C & id & Hl).
  pose proof (bf_contract _ _ _ _ _ _ _ _ _ _ _ _ _ _ BF) as CT. pose proof (bf_system _ _ _ _ _ _ _ _ _ _ _ _ _ _ BF) as SB. pose proof (bf_grammar _ _ _ _ _ _ _ _ _ _ _ _ _ _ BF) as GO. pose proof (bf_users _ _ _ _ _ _ _ _ _ _ _ _ _ _ BF) as UB.
  assert (B : built py_int is_digit trie_array user_kind u) by (rewrite Forall_forall in UB; apply UB; eapply nth_error_In; eauto).
  destruct (built_opens _ _ _ _ CT _ _ B) as (SO & dict' & g & _ & _ & E & _ & LO & LS). rewrite Hd in E. injection E as <-.
  pose proof B as B'. destruct B' as (_ & _ & _ & _ & _ & _ & HB & _ & _ & FI & SZ). destruct (build_rows _ _ _ _ _ HB) as (_ & LN & _ & R). cbn [new_source s_entries length Nat.add] in LN.
  destruct (R i row Hr) as (e & tb & tb' & He & HP & _). cbn [new_source s_entries length Nat.add] in He.
  destruct (C58_accepted _ _ _ _ _ _ HP) as (_ & cs' & Fc & _ & _ & _ & _ & A3 & A4 & _). pose proof (columns_eq _ _ _ Hc Fc) as EQ. subst cs'.
  assert (EC : e_cost e = -32768) by congruence.
  assert (Li : (i < length (s_entries (dc_source u)))%nat) by (apply nth_error_Some; congruence).
  destruct (lexicon_params _ _ _ _ _ _ _ _ LO He) as (_ & _ & PC). unfold lx_cost in PC. rewrite Nat2Z.id in PC.
  destruct (calculate_fold _ _ _ _ _ _ C) as (SW & _ & W). destruct (W i) as (x & X & _ & RC); [rewrite (lo_size _ _ _ _ _ _ LO); lia|].
  assert (x = -32768) by congruence. destruct (RC H) as (_ & info & ic & n & Hi & Ha & Hg). clear H RC.
  destruct (bf_forms _ _ _ _ _ _ _ _ _ _ _ _ _ _ BF u i) as (nn & Hn & CE); [right; eapply nth_error_In; eauto|exact Li|].
  destruct (lexicon_word_info _ _ _ _ _ _ limit nn i 0 LO LS FI CE Hn (Nat.le_0_l _)) as (e' & wi & He' & I & P). assert (e' = e) by congruence. subst e'.
  destruct I as (e1 & a & b & c' & t1 & t2 & t3 & t4 & He1 & _ & _ & _ & ->). assert (e1 = e) by congruence. subst e1.
  unfold lx_word_info in Hi. rewrite P in Hi. injection Hi as <-. cbn [set_dictionary_form wi_surface entry_info] in Ha. rewrite A4 in Ha.
  unfold M_Setup.internal_cost in Ha. apply bind_ok in Ha as (r & Er & Ha). cbv zeta in Ha. apply bind_ok in Ha as (v & Ev & Ha). injection Ha as <- <-.
  set (before := Made ds (md_table m) (md_inputs m) (md_providers m) []).
  change (shipped (tokenizer_settings order lower nfkc search limit (ds_grammar ds) (ds_lexicon ds) (md_table m) (md_inputs m) (md_providers m) [])) with (created before) in Er.
  destruct (M_Tokenizer.run (created before) new_lattice (nth 4 cs []) ModeC) as [lat' r'] eqn:Run. cbn [snd] in Er. subst r'.
  destruct r as [(it & p)|]; [|discriminate Ev]. cbn [morphemes_of] in *. unfold ml_internal_cost, ml_len in *. cbn [ml_path] in *. destruct p as [|w0 p]; [discriminate Ev|].
  exists before, lat', it, w0, p. split; [|split; [|split; [exact Run|]]].
  - destruct (bf_user_files _ _ _ _ _ _ _ _ _ _ _ _ _ _ BF) as (us & _ & FU). exists (firstn k us). clear - FU. revert k. induction FU; intros [|k]; cbn [firstn]; constructor; auto.
  - intros ps Fp. destruct (make_inv _ _ _ _ _ _ _ _ _ _ _ _ _ _ _ _ MK) as (sf & ufs & g' & ispecs & ospecs & pspecs & K).
    assert (sf = dc_file system).
    { destruct (co_system _ _ _ _ _ _ _ _ _ _ _ _ _ _ _ _ _ _ _ _ _ _ K) as (sp & E1 & E2). destruct (bf_system_file _ _ _ _ _ _ _ _ _ _ _ _ _ _ BF) as (sp' & E1' & E2'). congruence. }
    subst sf. assert (g' = g0).
    { destruct (co_grammar _ _ _ _ _ _ _ _ _ _ _ _ _ _ _ _ _ _ _ _ _ _ K) as (d1 & E1 & E2). destruct GO as (d2 & E1' & E2'). congruence. }
    subst g'. eapply make_some; [exact BF|exact (co_chars _ _ _ _ _ _ _ _ _ _ _ _ _ _ _ _ _ _ _ _ _ _ K)|exact (co_inputs _ _ _ _ _ _ _ _ _ _ _ _ _ _ _ _ _ _ _ _ _ _ K)|exact (co_oovs _ _ _ _ _ _ _ _ _ _ _ _ _ _ _ _ _ _ _ _ _ _ K)|exact Fp|exact L].
  - unfold ls_cost, ls_lexicon. rewrite dictionary_id_pack, word_id1_pack, Nat2Z.id by lia. rewrite (proj2 (get_ok _ _ _) Hl). cbn [bind snd].
    unfold lx_cost. rewrite Nat2Z.id, Hg. f_equal.
    assert (V : v = w_cost (last p w0) - w_cost w0).
    { destruct (rev (w0 :: p)) as [|z q] eqn:ER; [discriminate Ev|]. injection Ev as <-. f_equal. f_equal.
      assert (EP : w0 :: p = rev q ++ [z]) by (rewrite <- (rev_involutive (w0 :: p)), ER; reflexivity).
      change (last p w0) with (last p w0). assert (Q : last (w0 :: p) w0 = z) by (rewrite EP; apply last_last). destruct p; cbn [last] in *; congruence. }
    subst v. unfold auto_cost, short_of. cbn [length]. destruct (_ <? -32768) eqn:T1; [|destruct (32767 <? _) eqn:T2]; rewrite ?Z.ltb_lt, ?Z.ltb_ge in *; lia.
Qed.

(** All other rows keep their cost. *)
Theorem C92_others k u i row cs x :
  nth_error (system :: users) k = Some u -> nth_error (dc_rows u) i = Some row -> Forall2 (fun c c' => unescape c = Ok c') row cs -> py_int (nth 3 cs []) = Ok x ->
  x <> -32768 \/ k = 0%nat -> ls_cost (ds_lexicon (md_set m)) (Z.of_nat k * 2 ^ 28 + Z.of_nat i) = Ok x.
Proof.
  intros Hk Hr Hc Hx NE. pose proof (bf_contract _ _ _ _ _ _ _ _ _ _ _ _ _ _ BF) as CT. pose proof (bf_system _ _ _ _ _ _ _ _ _ _ _ _ _ _ BF) as SB. pose proof (bf_grammar _ _ _ _ _ _ _ _ _ _ _ _ _ _ BF) as GO. pose proof (bf_users _ _ _ _ _ _ _ _ _ _ _ _ _ _ BF) as UB.
  pose proof (files_loaded _ _ _ _ _ _ _ _ _ _ _ _ _ _ _ _ _ _ _ _ _ _ _ BF MK) as FL.
  pose proof (dic_built _ _ _ _ _ _ _ _ SB UB k u Hk) as BU. destruct BU as (_ & _ & _ & _ & _ & _ & HB & _). destruct (build_rows _ _ _ _ _ HB) as (_ & _ & _ & R).
  destruct (R i row Hr) as (e & tb & tb' & He & HP & _). cbn [new_source s_entries length Nat.add] in He.
  destruct (C58_accepted _ _ _ _ _ _ HP) as (_ & cs' & Fc & _ & _ & _ & _ & A3 & _). pose proof (columns_eq _ _ _ Hc Fc) as EQ. subst cs'. assert (x = e_cost e) by congruence. subst x.
  destruct (C43_loaded _ _ _ _ CT _ _ _ _ _ _ _ _ SB GO eq_refl UB FL k u i e Hk He) as (_ & _ & x & L3 & _ & L4). now rewrite <- (L4 NE).
Qed.

(** So a word whose surface is analysed as one word gets the cost -20, whatever that word costs. *)
Theorem C92_one_word k u i row cs ps before lat' it w :
  nth_error users k = Some u -> nth_error (dc_rows u) i = Some row -> Forall2 (fun c c' => unescape c = Ok c') row cs -> py_int (nth 3 cs []) = Ok (-32768) ->
  file_paths ps (firstn k users) -> make_dictionary (with_users c ps) d = Ok before ->
  M_Tokenizer.run (created before) new_lattice (nth 4 cs []) ModeC = (lat', Ok (Some (it, [w]))) ->
  ls_cost (ds_lexicon (md_set m)) (Z.of_nat (S k) * 2 ^ 28 + Z.of_nat i) = Ok (-20).
Proof.
  intros Hk Hr Hc Hx F MB Run. destruct (C92_calculated k u i row cs Hk Hr Hc Hx) as (before' & lat2 & it2 & w2 & p2 & _ & X & Run' & V).
  rewrite (X ps F) in MB. injection MB as ->. rewrite Run in Run'. injection Run' as _ _ <- <-. rewrite V. cbn [last length]. f_equal. rewrite Z.sub_diag. reflexivity.
Qed.

(** The analysis is a cheapest one, without inhibited connections, of words of the dictionaries
    so far and of unknown words. *)
Theorem C92_cheapest ms n cell k u i row cs :
  interpreter -> plain_resources c d -> file_system text_file binary_file -> scalar_interpreter lower nfkc -> furnished c d g0 system users ->
  system_matrix py_int is_digit trie_array system ms n -> (forall a b, 0 <= a < n -> 0 <= b < n -> matrix_cell (ms_lines ms) a b (cell a b)) ->
  nth_error users k = Some u -> nth_error (dc_rows u) i = Some row -> Forall2 (fun c c' => unescape c = Ok c') row cs -> py_int (nth 3 cs []) = Ok (-32768) ->
  scalar_text (nth 4 cs []) ->
  exists before it first others,
    run_prepare (created before) (nth 4 cs []) = Ok it /\
    ls_cost (ds_lexicon (md_set m)) (Z.of_nat (S k) * 2 ^ 28 + Z.of_nat i) =
      Ok (short_of (w_cost (last others first) - w_cost first - 20 * Z.of_nat (length (first :: others)))) /\
    (Z.of_nat (length (it_bytes it)) <= 32766 ->
     let found := map to_step (first :: others) in
     tiles 0 found (length (it_bytes it)) /\
     Forall (fun s => dictionary_word py_int system (firstn k users) (it_bytes it) s \/ unknown_word text_file join int10 c d s) found /\ connectable cell 0 found /\
     forall q, tiles 0 q (length (it_bytes it)) ->
       Forall (fun s => (plain_word py_int system (firstn k users) (it_bytes it) s /\ can_bow it (s_begin s) = Ok true) \/ exists w, considered (cfg := created before) (it := it) w /\ to_step w = s) q -> connectable cell 0 q ->
       source_cost cell 0 found <= source_cost cell 0 q).
Proof.
  intros IN PR FS SI CP SM CE Hk Hr Hc Hx Sc. destruct (C92_calculated k u i row cs Hk Hr Hc Hx) as (before & lat' & it & w & p & (ps & F) & X & Run & V).
  exists before, it, w, p. assert (P : run_prepare (created before) (nth 4 cs []) = Ok it).
  { destruct (run_inv _ _ _ _ _ _ Run) as [(_ & [=])|(it' & ? & ? & ? & ? & _ & Ep & _ & _ & _ & _ & [= <- _])]. exact Ep. }
  split; [exact P|]. split; [exact V|]. intros Hn.
  assert (I : incl (firstn k users) users) by (intros x Hin; rewrite <- (firstn_skipn k users); apply in_or_app; now left).
  pose proof (X ps F) as MB. assert (R0 : md_rewriters before = []) by exact (no_rewriters ps before MB).
  destruct (C75_inhibited_partial _ _ _ _ _ _ _ _ _ _ _ _ _ _ _ _ (with_users c ps) d before g0 sys_id system (firstn k users) (some_built _ _ _ _ _ _ _ _ _ _ _ _ _ _ BF ps _ F I) MB IN (some_plain _ _ _ _ _ _ PR ps) FS SI
    (some_furnished _ _ _ _ _ _ _ _ _ _ _ CP ps (firstn k users) I ltac:(rewrite firstn_length; lia)) ms n cell new_lattice (nth 4 cs []) lat' it (w :: p) SM CE ltac:(constructor) Sc Run Hn) as (p0 & E & _ & T & D & K & M).
  rewrite (E R0) in *. split; [exact T|]. split; [exact D|]. split; [exact K|exact M].
Qed.
End one.
End system.
Print Assumptions C92_calculated.
Print Assumptions C92_one_word.
Print Assumptions C92_others.
Print Assumptions C92_cheapest.

(** ** The hypotheses are met, and what is not so *)
(** 東京都, the row 1 of the first user dictionary of Prop_Lexicon, leaves its cost open.  Without
    that dictionary it is analysed as 東京 (cost 7) and the unknown word 都 (cost 6000). *)
Example C92_nonvacuous :
  exists u row, nth_error toy_users 0 = Some u /\ nth_error (dc_rows u) 1 = Some row /\ Forall2 (fun c c' => unescape c = Ok c') row row /\ toy_int (nth 3 row []) = Ok (-32768) /\
    nth 4 row [] = [26481; 20140; 37117] /\
    ls_cost (ds_lexicon (md_set toy_made)) (2 ^ 28 + 1) = Ok (6000 - 7 - 20 * 2).
Proof.
  exists (toy_dic toy_kind user_rows1 None), (nth 1 user_rows1 []). split; [reflexivity|]. split; [reflexivity|]. split; [repeat constructor|]. split; [reflexivity|]. split; [reflexivity|].
  vm_compute. reflexivity.
Qed.
(** One might think that the calculated cost is the cost of the analysis that the word is to
    replace, less 20 for each word.  It is not: the connections and the first word, whose cost
    is even subtracted, have no such part in it. *)
Example C92_not_cost_of_analysis :
  exists before it p, toy_make (with_users toy_conf []) toy_dir = Ok before /\
    snd (M_Tokenizer.run (created (fun l => l) (fun x => [x]) (fun t => t) toy_search 10 before) new_lattice [26481; 20140; 37117] ModeC) = Ok (Some (it, p)) /\
    source_cost toy_cell 0 (map to_step p) - 20 * Z.of_nat (length p) = 5963 /\
    ls_cost (ds_lexicon (md_set toy_made)) (2 ^ 28 + 1) = Ok 5953.
Proof.
  destruct (toy_make (with_users toy_conf []) toy_dir) as [before|e] eqn:E; [|vm_compute in E; discriminate E].
  destruct (snd (M_Tokenizer.run (created (fun l => l) (fun x => [x]) (fun t => t) toy_search 10 before) new_lattice [26481; 20140; 37117] ModeC)) as [[(it & p)|]|e] eqn:R.
  - exists before, it, p. split; [reflexivity|]. split; [exact R|].
    assert (X : (b <- toy_make (with_users toy_conf []) toy_dir ;; r <- snd (M_Tokenizer.run (created (fun l => l) (fun x => [x]) (fun t => t) toy_search 10 b) new_lattice [26481; 20140; 37117] ModeC) ;;
      match r with Some (_, p) => Ok (source_cost toy_cell 0 (map to_step p) - 20 * Z.of_nat (length p)) | None => Err EIndex end) = Ok 5963) by (vm_compute; reflexivity).
    rewrite E in X. cbn [bind] in X. rewrite R in X. cbn [bind] in X. injection X as X. split; [exact X|]. vm_compute. reflexivity.
  - exfalso. assert (X : (b <- toy_make (with_users toy_conf []) toy_dir ;; r <- snd (M_Tokenizer.run (created (fun l => l) (fun x => [x]) (fun t => t) toy_search 10 b) new_lattice [26481; 20140; 37117] ModeC) ;;
      Ok (match r with Some _ => true | None => false end)) = Ok true) by (vm_compute; reflexivity). rewrite E in X. cbn [bind] in X. rewrite R in X. discriminate X.
  - exfalso. assert (X : (b <- toy_make (with_users toy_conf []) toy_dir ;; r <- snd (M_Tokenizer.run (created (fun l => l) (fun x => [x]) (fun t => t) toy_search 10 b) new_lattice [26481; 20140; 37117] ModeC) ;;
      Ok (match r with Some _ => true | None => false end)) = Ok true) by (vm_compute; reflexivity). rewrite E in X. cbn [bind] in X. rewrite R in X. discriminate X.
Qed.
Print Assumptions C92_not_cost_of_analysis.
