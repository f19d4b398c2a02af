(** C71, C75: a Dictionary whose system dictionary has an inhibited connection meets the
    hypotheses of C71_inhibited_partial and C75_inhibited_partial. *)
From Coq Require Import String Ascii List ZArith Lia Bool Arith Sorting.Sorted Sorting.Permutation.
From Verif Require Import Base Utf8 M_Builder M_CharCategory M_InputText M_InputPlugins M_Lattice M_Oov M_Tokenizer M_NumericParser M_PathRewrite M_Morphemes
  M_Shipped M_Bytes M_DicReader M_DicBuilder M_LexiconSet M_Front M_Resource M_Setup S_Text S_Plugins S_Lattice S_Resource S_Rewrite
  P_Builder P_InputText P_Accessors P_Oov P_Lattice P_Tokenizer P_Path P_Config P_Total P_CharCategory P_Bytes P_DicFormat P_DicWrite P_DicOpen P_DicGrammar P_DicSource P_DicLexicon P_DicFile Prop_Format P_LexiconSet P_Resource
  P_Rewrite Prop_Lattice Prop_Rewrite Prop_Text Prop_Tokenizer Prop_Total Prop_CharCategory Prop_Source Prop_Lexicon Prop_Resource Prop_Shipped P_Words P_Setup P_System Prop_System P_DicToy P_Live Prop_Live Prop_Best.
Import ListNotations.
Open Scope list_scope.
Open Scope Z_scope.

(** The rows of the toy system dictionary with another matrix: the words, which have the ids
    1 1, may not follow each other. *)
Definition barred_matrix : matrix_source := MatrixSource [2; 2] [[0; 1; -4]; [1; 1; 32767]].
Definition barred_system : dic := toy_dic SystemDic toy_rows (Some barred_matrix).
Definition barred_conf : conf := (USER_DICT_PATH_KEY, JList []) :: toy_conf.
Definition barred_binary_file (p : text) : res bytes := if teqb p (txt "/res/system.dic") then Ok (dc_file barred_system) else Err EIO.
Definition barred_grammar : grammar := match from_system_dictionary (dc_file barred_system) with Ok d => match d_grammar d with Some g => g | None => Grammar [] 0 0 [] 0 end | Err _ => Grammar [] 0 0 [] 0 end.
Definition no_id (h : text) (p : Z) (r : text) : res Z := Err EIO.
Definition barred_make := make_dictionary toy_text_file barred_binary_file toy_join toy_absolute (txt "/default") sample_int16 sample_int10 pop_first (fun l => l) (fun x => [x]) (fun t => t) toy_search 10.
Definition barred_made : made := match barred_make barred_conf toy_dir with Ok m => m | Err _ => Made toy_set [] [] [] [] end.
Definition barred_created := created (fun l => l) (fun x => [x]) (fun t => t) toy_search 10 barred_made.

Lemma barred_has_matrix : has_matrix 2 barred_matrix.
Proof.
  split; [reflexivity|]. split; [lia|]. split; [|exists 32767; cbn; auto].
  repeat constructor; cbn [barred_matrix ms_lines]; do 3 eexists; (split; [reflexivity|lia]).
Qed.
Lemma barred_built : built toy_int toy_digit toy_array SystemDic barred_system.
Proof.
  apply toy_built_tac; [vm_compute; reflexivity|vm_compute; reflexivity| | | |vm_compute; discriminate].
  - vm_compute s_table. repeat constructor; vm_compute; (reflexivity || lia || discriminate).
  - intros m E. injection E as <-. exists 2. exact barred_has_matrix.
  - vm_compute s_entries. repeat constructor; vm_compute; (reflexivity || discriminate).
Qed.
Lemma barred_from : built_from barred_binary_file toy_join toy_absolute toy_search 10 toy_int toy_digit toy_array barred_conf toy_dir barred_grammar no_id barred_system [].
Proof.
  constructor.
  - exact toy_contract.
  - exists (txt "system.dic"). split; reflexivity.
  - exact barred_built.
  - unfold barred_grammar. destruct (from_system_dictionary (dc_file barred_system)) as [d|] eqn:E.
    + exists d. split; [reflexivity|]. assert (X : (d <- from_system_dictionary (dc_file barred_system) ;; Ok (match d_grammar d with Some _ => true | None => false end)) = Ok true) by (vm_compute; reflexivity).
      rewrite E in X. cbn [bind] in X. destruct (d_grammar d); [reflexivity|discriminate X].
    + assert (X : match from_system_dictionary (dc_file barred_system) with Ok _ => true | Err _ => false end = true) by (vm_compute; reflexivity). rewrite E in X. discriminate X.
  - exists []. split; [right; reflexivity|constructor].
  - constructor.
  - intros h p r id [=].
  - intros u i [<-|[]] Hi. assert (L : length (s_entries (dc_source barred_system)) = 3%nat) by (vm_compute; reflexivity). rewrite L in Hi.
    exists (match i with 1%nat => 2 | _ => 1 end)%nat. split; [destruct i as [|[|i]]; lia|]. destruct i as [|[|[|i]]]; [| | |lia].
    + eapply CE_end; [vm_compute; reflexivity|]. left. vm_compute. reflexivity.
    + eapply CE_step with (j := 0%nat); [vm_compute; reflexivity|vm_compute; reflexivity|lia|].
      eapply CE_end; [vm_compute; reflexivity|]. left. vm_compute. reflexivity.
    + eapply CE_end; [vm_compute; reflexivity|]. left. vm_compute. reflexivity.
Qed.
Lemma barred_is_made : barred_make barred_conf toy_dir = Ok barred_made.
Proof.
  unfold barred_made. destruct (barred_make barred_conf toy_dir) eqn:E; [reflexivity|].
  assert (X : match barred_make barred_conf toy_dir with Ok _ => true | Err _ => false end = true) by (vm_compute; reflexivity). rewrite E in X. discriminate X.
Qed.
Lemma barred_plain : plain_resources toy_text_file toy_join toy_absolute sample_int16 barred_conf toy_dir.
Proof. constructor; [exact (pr_chars _ _ _ _ _ _ toy_plain)|exact (pr_symbol _ _ _ _ _ _ toy_plain)]. Qed.
Lemma barred_files : file_system toy_text_file barred_binary_file.
Proof.
  assert (B : forallb (fun b => (0 <=? b) && (b <? 256)) (dc_file barred_system) = true) by (vm_compute; reflexivity).
  constructor; [exact (fs_text _ _ toy_files)|]. intros p f. unfold barred_binary_file. revert B. generalize (dc_file barred_system). intros f0 B H.
  destruct (teqb p _); [injection H as <-|discriminate].
  apply Forall_forall. intros b Hb. rewrite forallb_forall in B. specialize (B b Hb). apply andb_true_iff in B as (X & Y). apply Z.leb_le in X. apply Z.ltb_lt in Y. lia.
Qed.
Lemma barred_furnished : furnished toy_text_file toy_join toy_absolute sample_int16 sample_int10 toy_int barred_conf toy_dir barred_grammar barred_system [].
Proof.
  destruct toy_furnished as [P1 P2 P3 P4 P5 P6 P7 P8 P10 P11 P12 P13].
  assert (I : forall u, In u [barred_system] -> In toy_system (toy_system :: toy_users) /\ dc_rows u = dc_rows toy_system) by (intros u [<-|[]]; split; [now left|reflexivity]).
  constructor.
  - exact P1.
  - exact P2.
  - exact P3.
  - exact P4.
  - exact P5.
  - exact P6.
  - intros rs u row cs x CR Hx Hu Hr. destruct (I u Hu) as (I1 & I2). rewrite I2 in Hr. exact (P7 rs toy_system row cs x CR Hx I1 Hr).
  - exact P8.
  - assert (X : (0 <? g_lsize barred_grammar) && (0 <? g_rsize barred_grammar) = true) by (vm_compute; reflexivity). apply andb_true_iff in X as (X & Y). apply Z.ltb_lt in X, Y. auto.
  - assert (E1 : g_lsize barred_grammar = g_lsize toy_grammar) by (vm_compute; reflexivity). assert (E2 : g_rsize barred_grammar = g_rsize toy_grammar) by (vm_compute; reflexivity). rewrite E1, E2.
    destruct P11 as (I1 & I2). split; [|exact I2]. intros u row cs l r Hu Hr. destruct (I u Hu) as (U1 & U2). rewrite U2 in Hr. exact (I1 toy_system row cs l r U1 Hr).
  - cbn. lia.
  - exact P13.
Qed.

(** 東東 has no analysis, 東京 has one. *)
Example C71_inhibited_nonvacuous :
  get_connect_cost barred_grammar 1 1 = Ok 0x7fff /\
  (exists it, run_prepare barred_created [26481; 26481] = Ok it /\
    (forall q, tiles 0 (map to_step q) (length (it_bytes it)) -> Forall (considered (cfg := barred_created) (it := it)) q -> ~ allowed (cf_conn barred_created) 0x7fff 0 (map to_step q) 0) /\
    snd (M_Tokenizer.run barred_created new_lattice [26481; 26481] ModeC) = Err EAttribute) /\
  (exists it q r, run_prepare barred_created [26481; 20140] = Ok it /\
    tiles 0 (map to_step q) (length (it_bytes it)) /\ Forall (considered (cfg := barred_created) (it := it)) q /\ allowed (cf_conn barred_created) 0x7fff 0 (map to_step q) 0 /\
    snd (M_Tokenizer.run barred_created new_lattice [26481; 20140] ModeC) = Ok r).
Proof.
  split; [vm_compute; reflexivity|].
  pose proof barred_is_made as MK. unfold barred_make in MK.
  pose proof (C71_inhibited_partial toy_text_file barred_binary_file toy_join toy_absolute (txt "/default") sample_int16 sample_int10 pop_first (fun l => l) (fun x => [x]) (fun t => t) toy_search 10 toy_int toy_digit toy_array
    barred_conf toy_dir barred_made barred_grammar no_id barred_system [] barred_from MK toy_interpreter barred_plain barred_files toy_scalar barred_furnished new_lattice) as T.
  fold barred_created in T.
  assert (R1 : snd (M_Tokenizer.run barred_created new_lattice [26481; 26481] ModeC) = Err EAttribute) by (vm_compute; reflexivity).
  assert (R2 : exists r, snd (M_Tokenizer.run barred_created new_lattice [26481; 20140] ModeC) = Ok (Some r)).
  { destruct (snd (M_Tokenizer.run barred_created new_lattice [26481; 20140] ModeC)) as [[r|]|] eqn:E; [eauto| |]; vm_compute in E; discriminate E. }
  split.
  - destruct (T [26481; 26481] ModeC ltac:(constructor) ltac:(repeat constructor) ltac:(discriminate)) as (it & Ep & H). exists it. split; [exact Ep|]. split; [|exact R1].
    assert (L : (x <- run_prepare barred_created [26481; 26481] ;; Ok (length (it_bytes x))) = Ok 6%nat) by (vm_compute; reflexivity). rewrite Ep in L. cbn [bind] in L. injection L as L.
    destruct (H ltac:(rewrite L; cbn; lia)) as (H1 & _). intros q Q1 Q2 Q3. destruct H1 as (lat' & r & E & _); [exists q; auto|]. rewrite E in R1. discriminate R1.
  - destruct (T [26481; 20140] ModeC ltac:(constructor) ltac:(repeat constructor) ltac:(discriminate)) as (it & Ep & H). destruct R2 as (r & R2).
    assert (S : sane barred_created) by exact (shipped_sane _ (settings_good _ _ _ _ _ _ _ _ _ _ _ _ _ _ _ _ _ _ _ _ _ _ _ barred_from MK toy_interpreter barred_plain)).
    destruct (M_Tokenizer.run barred_created new_lattice [26481; 20140] ModeC) as (lat' & x) eqn:E. cbn [snd] in R2. subst x. destruct r as (it' & p).
    destruct (run_inv _ _ _ _ _ _ E) as [([=] & _)|(it2 & lat1 & p0 & p1 & p2 & Ht & Ep' & Ea & _ & _ & _ & [= <- <-])]. rewrite Ep in Ep'. injection Ep' as <-.
    destruct (run_prepare_built _ _ it S Ht Ep) as (bd & _ & _ & B). destruct (analyse_path S B new_lattice lat1 p0 (usable_clean _ _ S ltac:(constructor)) Ea) as (Q1 & Q2 & Q3).
    exists it, p0, (Some (it, p)). split; [exact Ep|]. split; [exact Q1|]. split; [exact Q2|]. split; [exact Q3|reflexivity].
Qed.

Definition barred_cell (a b : Z) : Z := if a =? 0 then (if b =? 0 then 0 else -4) else if b =? 0 then 0 else 32767.
Lemma barred_cells a b : 0 <= a < 2 -> 0 <= b < 2 -> matrix_cell (ms_lines barred_matrix) a b (barred_cell a b).
Proof.
  intros Ha Hb. assert (A : a = 0 \/ a = 1) by lia. assert (B : b = 0 \/ b = 1) by lia. destruct A as [-> | ->], B as [-> | ->]; cbn.
  - right. split; [|reflexivity]. intros y [H|[H|[]]]; discriminate H.
  - left. exists [], [[1; 1; 32767]]. split; [reflexivity|]. intros y [H|[]]; discriminate H.
  - right. split; [|reflexivity]. intros y [H|[H|[]]]; discriminate H.
  - left. exists [[0; 1; -4]], []. split; [reflexivity|]. intros y [].
Qed.
Lemma barred_system_matrix : system_matrix toy_int toy_digit toy_array barred_system barred_matrix 2.
Proof.
  split; [exact barred_has_matrix|]. exists 1600000000, [116; 111; 121]. split; [|split; [lia|intros [H|[H|[H|[]]]]; discriminate H]].
  unfold barred_system, toy_dic. cbn [dc_rows dc_file]. destruct (build_command SystemDic toy_int toy_digit toy_array 1600000000 [116; 111; 121] toy_rows (Some barred_matrix)) eqn:E; [reflexivity|].
  assert (X : match build_command SystemDic toy_int toy_digit toy_array 1600000000 [116; 111; 121] toy_rows (Some barred_matrix) with Ok _ => true | Err _ => false end = true) by (vm_compute; reflexivity). rewrite E in X. discriminate X.
Qed.
(** Whatever is found for 東京 costs at most 3, as the one word 東京 does: 東 and 京 are not
    connectable. *)
Example C75_inhibited_nonvacuous lat lat' it p :
  P_Config.usable barred_created lat -> M_Tokenizer.run barred_created lat [26481; 20140] ModeC = (lat', Ok (Some (it, p))) ->
  ~ connectable barred_cell 0 [Step 0 3 1 1 100; Step 3 6 1 1 (-5)] /\
  exists p0, tiles 0 (map to_step p0) 6 /\ connectable barred_cell 0 (map to_step p0) /\ source_cost barred_cell 0 (map to_step p0) <= 3.
Proof.
  intros U E. split; [intros (_ & X & _); apply X; reflexivity|].
  assert (P : run_prepare barred_created [26481; 20140] = Ok it).
  { destruct (run_inv _ _ _ _ _ _ E) as [([=] & _)|(it' & ? & ? & ? & ? & _ & Ep & _ & _ & _ & _ & [= <- _])]. exact Ep. }
  assert (PB : it_bytes it = [230; 157; 177; 228; 186; 172] /\ can_bow it 0 = Ok true).
  { assert (X : (x <- run_prepare barred_created [26481; 20140] ;; Ok (it_bytes x, can_bow x 0)) = Ok ([230; 157; 177; 228; 186; 172], Ok true)) by (vm_compute; reflexivity). rewrite P in X. cbn [bind] in X. injection X as X Y. auto. }
  destruct PB as (PB & P0). pose proof barred_is_made as MK. unfold barred_make in MK. unfold barred_created in *.
  destruct (C75_inhibited_partial toy_text_file barred_binary_file toy_join toy_absolute (txt "/default") sample_int16 sample_int10 pop_first (fun l => l) (fun x => [x]) (fun t => t) toy_search 10 toy_int toy_digit toy_array
    barred_conf toy_dir barred_made barred_grammar no_id barred_system [] barred_from MK toy_interpreter barred_plain barred_files toy_scalar barred_furnished barred_matrix 2 barred_cell lat [26481; 20140] lat' it p
    barred_system_matrix barred_cells U) as (p0 & _ & _ & T & _ & CN & MIN).
  - repeat constructor.
  - exact E.
  - rewrite PB. cbn. lia.
  - exists p0. rewrite PB in T. split; [exact T|]. split; [exact CN|]. change 3 with (source_cost barred_cell 0 [Step 0 6 1 1 7]). apply MIN.
    + rewrite PB. cbn. lia.
    + constructor; [|constructor]. left. split; [|exact P0]. rewrite PB. exists 0%nat, barred_system, (nth 2 toy_rows []). split; [reflexivity|]. split; [right; right; now left|]. split; [|now left].
      exists (nth 2 toy_rows []). split; [repeat constructor|]. split; [discriminate|]. split; [cbn; lia|]. repeat split; vm_compute; reflexivity.
    + cbn. lia.
Qed.
